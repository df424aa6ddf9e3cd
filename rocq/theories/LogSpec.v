(** What the log entries of a cluster look like when seen from one node.

    A history records, for every log id, the entry it stands for and the log id before it.
    A log is a path in a history; two logs of one history that share a log id share
    everything before it.  The properties of single nodes are stated for nodes whose
    peers' messages fit one history ("well-formed messages"); that the messages of a whole
    cluster do is the subject of the cluster properties. *)
From Verif Require Import Types LogIdList Membership RaftState ProgressEntry Engine Store RaftCore NodeSpec.
From stdpp Require Import base numbers option gmap list.

Definition Hist := LogId -> option (option LogId * Payload).
(** indexes are consecutive from 0 and leader ids do not decrease *)
Definition hist_ok (H : Hist) : Prop :=
  forall y p pl, H y = Some (p, pl) ->
    lid_index y = next_index p /\
    match p with
    | Some x => leader_leb (lid_leader x) (lid_leader y) = true /\ is_Some (H x)
    | None => True
    end.

(** [a] is [b] or comes before [b] in the history; [None] is the start *)
Inductive pfx (H : Hist) : option LogId -> option LogId -> Prop :=
| pfx_refl x : pfx H x x
| pfx_step a y p pl : H y = Some (p, pl) -> pfx H a p -> pfx H a (Some y).

(** [es] are the entries after [p] *)
Fixpoint chain (H : Hist) (p : option LogId) (es : list Entry) : Prop :=
  match es with
  | [] => True
  | e :: r => H (e_log_id e) = Some (p, e_payload e) /\ chain H (Some (e_log_id e)) r
  end.
(** the log id after which a log continues that has [es] after [p] *)
Definition es_last (p : option LogId) (es : list Entry) : option LogId :=
  match last es with Some e => Some (e_log_id e) | None => p end.

(** the log ids a log store knows: the purge position and its entries *)
Definition ls_ids (l : LogStore) : list LogId := option_list (ls_purged l) ++ map e_log_id (ls_entries l).
Definition log_ok (H : Hist) (l : LogStore) : Prop :=
  pfx H None (ls_purged l) /\ chain H (ls_purged l) (ls_entries l).

(** leader ids of positions *)
Definition oleader_le (a : option LogId) (l : LeaderId) : Prop :=
  match a with Some x => leader_leb (lid_leader x) l = true | None => True end.

(** the last membership in a list of entries *)
Definition mem_of (es : list Entry) : EffMem := default em_default (last (memberships_in es)).

(** a snapshot holds the entries up to its last log id *)
Definition snap_ok (H : Hist) (sn : Snapshot) : Prop :=
  chain H None (sn_data sn) /\ sm_last (sn_meta sn) = es_last None (sn_data sn) /\
  sm_mem (sn_meta sn) = mem_of (sn_data sn).

(** A history with the last position of the log of every leader. *)
Record Env := mkEnv { ev_hist : Hist; ev_tip : LeaderId -> option LogId }.
Definition env_ok (E : Env) : Prop :=
  hist_ok (ev_hist E) /\
  forall L, pfx (ev_hist E) None (ev_tip E L) /\ oleader_le (ev_tip E L) L.

(** ** Runs of a node whose messages fit a history *)

(** other nodes know a vote of this node only if it has reached that vote, and has
    stored that it stands for election with it *)
Definition vote_known (n : Node) (v : Vote) : Prop :=
  vote_le v (rs_v (nd_state n)) /\ vote_le (mkVote (v_leader v) false) (stored_vote n).
Definition own_vote_known (n : Node) (v : Vote) : Prop :=
  li_node (v_leader v) = nd_id n -> vote_known n v.
(** what a leader with vote [v] sends lies in its log, which holds what this node has
    committed unless this node has already seen a higher vote *)
Definition leader_fits (E : Env) (n : Node) (v : Vote) : Prop :=
  v_committed v = true /\ li_node (v_leader v) <> nd_id n /\
  (vote_le (rs_v (nd_state n)) v -> pfx (ev_hist E) (rs_committed (nd_state n)) (ev_tip E (v_leader v))).
Definition msg_fits (E : Env) (n : Node) (m : Msg) : Prop :=
  let H := ev_hist E in
  match m with
  | MAppend v prev es lc _ =>
      leader_fits E n v /\ chain H prev es /\ pfx H None prev /\
      pfx H (es_last prev es) (ev_tip E (v_leader v)) /\ pfx H lc (ev_tip E (v_leader v))
  | MSnapshot v sn _ =>
      leader_fits E n v /\ snap_ok H sn /\ pfx H (sm_last (sn_meta sn)) (ev_tip E (v_leader v))
  | MVote req _ => own_vote_known n (vq_vote req)
  | MTransfer req => li_node (v_leader (tq_from req)) <> nd_id n
  | MInitialize ms _ =>
      rs_is_initialized (nd_state n) = false ->
      H (mkLogId (mkLeaderId 0 0) 0) = Some (None, PMembership (mkMembership [dom ms] ms))
  | MElect => en_leader (nd_eng n) = None   (* see finding F2 *)
  | _ => True
  end.
Definition resp_votes (r : Resp) : list Vote :=
  match r with
  | RAppend (AHigherVote v) | RSnapshot v => [v]
  | RVote x => [vr_vote x]
  | _ => []
  end.
Definition event_fits (E : Env) (n : Node) (ev : Event) : Prop :=
  match ev with
  | EMsg m => msg_fits E n m
  | EReply _ r => Forall (own_vote_known n) (resp_votes r)
  | _ => True
  end.
(** the entries this node proposes itself are in the history, after its last one *)
Definition own_fits (E : Env) (id : nat) (lst : option LogId) (cs : list Command) : Prop :=
  forall v es, AppendInputEntries v es ∈ cs -> li_node (v_leader v) = id -> chain (ev_hist E) lst es.
(** last log id of the current snapshot *)
Definition snap_last (sm : StateMachine) : option LogId :=
  match sm_snapshot sm with Some sn => sm_last (sn_meta sn) | None => None end.
(** What a crash leaves: the state machine is not ahead of the log, except that its
    snapshot may be.  (Without this the code may restart with a damaged log, see findings
    F12, F14 and F15.) *)
Definition crash_fits (E : Env) (d : Disk) (sm : StateMachine) : Prop :=
  pfx (ev_hist E) (sm_applied sm) (ls_last (dk_log d)) \/
  ((sm_snapshot sm = None \/ snap_last sm = sm_applied sm) /\
   ologid_ltb (ls_last (dk_log d)) (sm_applied sm) = true /\
   next_index (ls_last (dk_log d)) <= next_index (sm_applied sm)).
Definition act_fits (E : Env) (a : Action) (n n' : Node) : Prop :=
  match a with
  | Act _ ev =>
      event_fits E n ev /\ own_fits E (nd_id n) (rs_last (nd_state n)) (step_produced ev n n')
  | Crash _ k j keep =>
      crash_fits E (crash_disk k j (nd_store n)) (sm_crash keep (nd_sm n)) /\
      own_fits E (nd_id n) (ls_last (dk_log (so_disk (nd_store n')))) (en_out (nd_eng n'))
  end.
Fixpoint run_fits (E : Env) (acts : list Action) (n : Node) : Prop :=
  match acts with
  | [] => True
  | a :: r => match node_act a n with
              | Ok x => act_fits E a n x.1 /\ run_fits E r x.1
              | Panic => True
              end
  end.

(** ** What a node is about to have *)

(** the write a command submits *)
Definition cmd_wop (c : Command) : option WOp :=
  match c with
  | SaveVote v => Some (WVote v)
  | SaveCommitted c => Some (WCommitted (Some c))
  | AppendInputEntries _ es => Some (WAppend es)
  | TruncateLog x => Some (WTruncate x)
  | PurgeLog x => Some (WPurge x)
  | _ => None
  end.
(** the disk as it will be once every write already submitted or queued is done; the
    engine answers from this log *)
Definition planned (n : Node) : Disk :=
  foldl wop_apply (so_view (nd_store n)) (omap cmd_wop (en_out (nd_eng n))).
Definition planned_log (n : Node) : LogStore := dk_log (planned n).

(** states of a node whose messages fit the history *)
Definition fits_reachable (E : Env) (cfg : EngineConfig) (n : Node) : Prop :=
  exists now n0 acts outs,
    node_fresh now cfg = Ok n0 /\ run_fits E acts n0 /\ node_run acts n0 = Ok (n, outs).
