(** Executions of one node: any sequence of events with any arguments, and crashes. *)
From Verif Require Import Types Quorum QuorumSpec Membership RaftState Engine Store RaftCore.
From stdpp Require Import base option gmap list.

Inductive Action :=
| Act (now : nat) (ev : Event)
| Crash (now k j keep : nat).

Definition node_act (a : Action) (n : Node) : res (Node * list Out) :=
  match a with
  | Act now ev => node_step now ev n
  | Crash now k j keep => let! n' := node_restart now k j keep n in Ok (n', [])
  end.

Fixpoint node_run (acts : list Action) (n : Node) : res (Node * list Out) :=
  match acts with
  | [] => Ok (n, [])
  | a :: r =>
      let! x := node_act a n in
      let! y := node_run r x.1 in
      Ok (y.1, x.2 ++ y.2)
  end.

(** a node started on empty storage *)
Definition node_fresh (now : nat) (cfg : EngineConfig) : res Node := node_start now cfg disk_empty sm_empty.

Definition reachable (cfg : EngineConfig) (n : Node) : Prop :=
  exists now n0 acts outs, node_fresh now cfg = Ok n0 /\ node_run acts n0 = Ok (n, outs).

(** ** Vocabulary for the properties of votes *)

(** the votes a list of commands asks storage to save *)
Definition saved_votes (cs : list Command) : list Vote :=
  omap (fun c => match c with SaveVote v => Some v | _ => None end) cs.
(** [a] is strictly less than [b] *)
Definition vote_lt (a b : Vote) : Prop := vote_gtb b a = true.
Definition vote_le (a b : Vote) : Prop := vote_geb b a = true.
(** the vote found in storage *)
Definition stored_vote (n : Node) : Vote := default vote_default (dk_vote (so_disk (nd_store n))).
(** votes of the vote replies among some outputs; of those that grant *)
Definition replied_votes (outs : list Out) : list Vote :=
  omap (fun o => match o with OReply _ (RVote r) => Some (vr_vote r) | _ => None end) outs.
Definition granted_votes (outs : list Out) : list Vote :=
  omap (fun o => match o with OReply _ (RVote r) => if vr_granted r then Some (vr_vote r) else None | _ => None end) outs.

(** ** Vocabulary for elections *)

(** the note a step takes off the queue *)
Definition note_taken (ev : Event) (n : Node) : option Note :=
  match ev with
  | ENote => if runnable n then None else head (nd_notes n)
  | _ => None
  end.
(** the notes taken during a run, in order *)
Fixpoint run_notes (acts : list Action) (n : Node) : list Note :=
  match acts with
  | [] => []
  | a :: r =>
      let taken := match a with Act _ ev => option_list (note_taken ev n) | Crash _ _ _ _ => [] end in
      match node_act a n with
      | Ok x => taken ++ run_notes r x.1
      | Panic => taken
      end
  end.
(** [t] granted the vote [v], by one of the replies in [h] *)
Definition granted_by (h : list Note) (v : Vote) (t : nat) : Prop :=
  exists resp sv, NVoteResp t resp sv ∈ h /\ vr_granted resp = true /\ vr_vote resp = v.
(** the leader id under which a node leads *)
Definition leads (n : Node) (l : LeaderId) : Prop :=
  exists x, en_leader (nd_eng n) = Some x /\ v_leader (ld_vote x) = l.
(** the node is a candidate for [v] in a membership with voter groups [qs] *)
Definition campaigns (n : Node) (v : Vote) (qs : list (gset nat)) : Prop :=
  exists c, en_cand (nd_eng n) = Some c /\ cd_vote c = v /\ cd_qs c = qs.
(** the votes an event can make a node store: those carried by the message or reply,
    the node's own next vote where it may start an election, and its candidate's vote,
    committed, where a grant of it arrives *)
Definition own_next_vote (n : Node) : Vote :=
  vote_new (S (li_term (v_leader (rs_v (nd_state n))))) (en_id (nd_eng n)).
Definition msg_votes (m : Msg) (n : Node) : list Vote :=
  match m with
  | MAppend v _ _ _ _ => [v]
  | MVote req _ => [vq_vote req]
  | MSnapshot v _ _ => [v]
  | MTransfer _ | MInitialize _ _ | MElect => [own_next_vote n]
  | _ => []
  end.
Definition note_votes (x : Note) (n : Node) : list Vote :=
  match x with
  | NHigherVote v _ => [v]
  | NVoteResp _ resp _ =>
      match en_cand (nd_eng n) with
      | Some c => if vr_granted resp && vote_eqb (vr_vote resp) (cd_vote c)
                  then [into_committed (cd_vote c)] else [vr_vote resp]
      | None => []
      end
  | _ => []
  end.
Definition event_votes (ev : Event) (n : Node) : list Vote :=
  match ev with
  | EMsg m => msg_votes m n
  | ENote => match note_taken ev n with Some x => note_votes x n | None => [] end
  | ETick _ _ _ => [own_next_vote n]
  | _ => []
  end.
(** the votes carried by the message or reply an event hands to the node *)
Definition msg_carries (m : Msg) : list Vote :=
  match m with
  | MAppend v _ _ _ _ => [v]
  | MVote req _ => [vq_vote req]
  | MSnapshot v _ _ => [v]
  | _ => []
  end.
Definition note_carries (x : Note) : list Vote :=
  match x with
  | NHigherVote v _ => [v]
  | NVoteResp _ resp _ => [vr_vote resp]
  | _ => []
  end.
Definition carried_votes (ev : Event) (n : Node) : list Vote :=
  match ev with
  | EMsg m => msg_carries m
  | ENote => match note_taken ev n with Some x => note_carries x | None => [] end
  | _ => []
  end.

(** the votes carried by all messages and replies handed to the node during a run *)
Fixpoint run_carried (acts : list Action) (n : Node) : list Vote :=
  match acts with
  | [] => []
  | a :: r =>
      let c := match a with Act _ ev => carried_votes ev n | Crash _ _ _ _ => [] end in
      match node_act a n with
      | Ok x => c ++ run_carried r x.1
      | Panic => c
      end
  end.
(** at some point of the run the node was a candidate with leader id [L] in a membership
    with voter groups [qs], and by the reply it took next the voters that had replied with
    a grant of exactly its vote contain a majority of every group *)
Definition won_election (acts : list Action) (n0 : Node) (L : LeaderId) : Prop :=
  exists before now after n outs qs G,
    acts = before ++ Act now ENote :: after /\ node_run before n0 = Ok (n, outs) /\
    campaigns n (mkVote L false) qs /\ quorum qs G /\
    (forall x, x ∈ G -> (exists c, c ∈ qs /\ x ∈ c) /\
       granted_by (run_notes (before ++ [Act now ENote]) n0) (mkVote L false) x).

(** the election timer has fired and an election may start *)
Definition election_due (now : nat) (enabled : bool) (e : Engine) : Prop :=
  let s := en_state e in
  let timeout := ec_election_timeout (en_cfg e) +
                 (if en_seen_greater e then ec_smaller_log_timeout (en_cfg e) else 0) in
  enabled = true /\ rs_server s <> SLeader /\
  (exists c, c ∈ m_configs (em_mem (rs_eff s)) /\ en_id e ∈ c) /\
  (size (m_voter_ids (em_mem (rs_eff s))) = 1 \/
   match l_utime (rs_vote s) with
   | Some contact => contact + l_lease (rs_vote s) + timeout < now
   | None => True
   end).
(** log, membership, commit position, snapshot and purge positions *)
Definition same_log (s s' : RaftState) : Prop :=
  rs_log_ids s' = rs_log_ids s /\ rs_committed s' = rs_committed s /\ rs_mem s' = rs_mem s /\
  rs_snap s' = rs_snap s /\ rs_purged_next s' = rs_purged_next s /\ rs_purge_upto s' = rs_purge_upto s.
(** the lease of an established leader is still valid *)
Definition lease_live (now : nat) (s : RaftState) : Prop :=
  v_committed (rs_v s) = true /\
  exists contact, l_utime (rs_vote s) = Some contact /\ now <= contact + l_lease (rs_vote s).

(** ** Vocabulary for the command queue *)

(** the condition a command waits for, on the node's flush, apply and snapshot progress *)
Definition met (c : Command) (n : Node) : Prop := cond_ok (cmd_condition c) (rs_io (nd_state n)) = true.
(** the command a step takes off the queue and executes, the commands it adds *)
Definition step_executed (ev : Event) (n : Node) : list Command :=
  match ev, en_out (nd_eng n) with
  | ERun, c :: _ => if cond_ok (cmd_condition c) (rs_io (nd_state n)) then [c] else []
  | _, _ => []
  end.
Definition step_produced (ev : Event) (n n' : Node) : list Command :=
  match ev with ERun => [] | _ => drop (length (en_out (nd_eng n))) (en_out (nd_eng n')) end.
Fixpoint run_commands (evs : list (nat * Event)) (n : Node) : list Command * list Command :=
  match evs with
  | [] => ([], [])
  | (now, ev) :: r =>
      match node_step now ev n with
      | Ok x => let '(ex, pr) := run_commands r x.1 in
                (step_executed ev n ++ ex, step_produced ev n x.1 ++ pr)
      | Panic => ([], [])
      end
  end.
Definition acts_of (evs : list (nat * Event)) : list Action := map (fun p => Act p.1 p.2) evs.
