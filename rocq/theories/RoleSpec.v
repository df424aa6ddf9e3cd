(** Vocabulary of the properties about a node's role, its start and its own proposals. *)
From Verif Require Import Types LogIdList Membership Progress RaftState ProgressEntry Engine Store RaftCore NodeSpec LogSpec LogPropSpec.
From stdpp Require Import base numbers option gmap list.

(** The role that a vote and a membership give to node [id]. *)
Definition role_of (id : nat) (v : Vote) (m : Membership) (r : ServerState) : Prop :=
  let leading := li_node (v_leader v) = id /\ m_contains m id = true in
  match r with
  | SLeader => leading /\ v_committed v = true
  | SCandidate => leading /\ v_committed v = false
  | SFollower => ~ leading /\ m_is_voter m id = true
  | SLearner => ~ leading /\ m_is_voter m id = false
  end.
(** the effective membership *)
Definition nd_mem (n : Node) : Membership := em_mem (rs_eff (nd_state n)).
(** the entries a node proposes itself in a step, with the vote it proposes them under:
    the appends it queues whose vote is its own *)
Definition proposals (id : nat) (cs : list Command) : list (Vote * list Entry) :=
  omap (fun c => match c with
                 | AppendInputEntries v es => if li_node (v_leader v) =? id then Some (v, es) else None
                 | _ => None
                 end) cs.
