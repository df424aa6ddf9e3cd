(** What the other nodes of a cluster do not do. *)
From Verif Require Import Types LogIdList Membership Progress RaftState ProgressEntry Engine Store RaftCore NodeSpec LogSpec.
From stdpp Require Import base numbers option gmap list.

(** Vote requests ask with votes that are not committed, and a node that refuses an append
    answers with a vote greater than that of the request.  [HonestProofs] shows that the
    nodes of the model do both. *)
Definition honest_event (n : Node) (ev : Event) : Prop :=
  match ev with
  | EMsg (MVote req _) => v_committed (vq_vote req) = false
  | EReply (TagStream t rid) (RAppend (AHigherVote v)) =>
      forall s w, s ∈ nd_streams n -> st_target s = t -> st_wait s = Some w -> sw_rid w = rid ->
        vote_gtb v (ss_vote (st_session s)) = true
  | EReply (TagRead tx _) (RAppend (AHigherVote v)) =>
      forall rd, rd ∈ nd_reads n -> rd_tx rd = tx -> vote_gtb v (rd_vote rd) = true
  | _ => True
  end.
Fixpoint run_honest (acts : list Action) (n : Node) : Prop :=
  match acts with
  | [] => True
  | a :: r =>
      match a with Act _ ev => honest_event n ev | Crash _ _ _ _ => True end /\
      match node_act a n with Ok x => run_honest r x.1 | Panic => True end
  end.
Definition honest_reachable (E : Env) (cfg : EngineConfig) (n : Node) : Prop :=
  exists now n0 acts outs,
    node_fresh now cfg = Ok n0 /\ run_fits E acts n0 /\ run_honest acts n0 /\ node_run acts n0 = Ok (n, outs).
