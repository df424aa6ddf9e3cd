(** Vocabulary of the membership properties (C13, C14). *)
From Verif Require Import Types LogIdList Membership RaftState ProgressEntry Engine Store RaftCore NodeSpec LogSpec LogPropSpec.
From stdpp Require Import base numbers option gmap list.

(** [m] is the last membership in the history up to and including position [p]: that of
    all entries from the very first one, in the log or already in a snapshot *)
Definition path_mem (H : Hist) (p : option LogId) (m : EffMem) : Prop :=
  exists es, chain H None es /\ es_last None es = p /\ mem_of es = m.
(** the position directly before a membership's entry *)
Definition just_before (H : Hist) (m : EffMem) (p : option LogId) : Prop :=
  exists y, em_log_id m = Some y /\ H y = Some (p, PMembership (em_mem m)).

(** What membership tracking relies on, for the requests a node follows: the membership
    it holds as committed is on the log of the leader it follows; and a snapshot that
    reaches beyond the node's log does not leave behind a membership entry of the node's
    log that conflicts with it (without the second, see finding F10). *)
Definition mem_fits (E : Env) (n : Node) (ev : Event) : Prop :=
  let ms := rs_mem (nd_state n) in
  match ev with
  | EMsg (MAppend v _ _ _ _) =>
      vote_le (rs_v (nd_state n)) v -> pfx (ev_hist E) (em_log_id (ms_committed ms)) (ev_tip E (v_leader v))
  | EMsg (MSnapshot v sn _) =>
      vote_le (rs_v (nd_state n)) v ->
      pfx (ev_hist E) (em_log_id (ms_committed ms)) (ev_tip E (v_leader v)) /\
      (next_index (rs_last (nd_state n)) < next_index (sm_last (sn_meta sn)) ->
       pfx (ev_hist E) (em_log_id (ms_effective ms)) (sm_last (sn_meta sn)) \/
       next_index (em_log_id (ms_effective ms)) <= next_index (em_log_id (sm_mem (sn_meta sn))))
  | _ => True
  end.
Fixpoint run_mem_fits (E : Env) (acts : list Action) (n : Node) : Prop :=
  match acts with
  | [] => True
  | a :: r =>
      match a with Act _ ev => mem_fits E n ev | Crash _ _ _ _ => True end /\
      match node_act a n with Ok x => run_mem_fits E r x.1 | Panic => True end
  end.
Definition mem_reachable (E : Env) (cfg : EngineConfig) (n : Node) : Prop :=
  exists now n0 acts outs,
    node_fresh now cfg = Ok n0 /\ run_fits E acts n0 /\ run_mem_fits E acts n0 /\ node_run acts n0 = Ok (n, outs).

(** The node leads from [n] to [n'], both included, without a restart.  The requests it
    receives fit the history, so that it never follows one. *)
Inductive leads_on (E : Env) (cfg : EngineConfig) : Node -> Node -> Prop :=
| lo_here n : en_leader (nd_eng n) <> None -> leads_on E cfg n n
| lo_step n n1 n2 now ev outs :
    leads_on E cfg n n1 -> fits_step E cfg now ev n1 n2 outs -> en_leader (nd_eng n2) <> None -> leads_on E cfg n n2.
(** the log id of the node's latest membership *)
Definition mem_id (n : Node) : option LogId := em_log_id (ms_effective (rs_mem (nd_state n))).
