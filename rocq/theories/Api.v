(** Calls of the public interface that send more than one request to the node. *)
From stdpp Require Import base numbers option gmap list.
From Verif Require Import Types LogIdList Membership.

(** What one request makes of the membership; a refused one leaves it.  A request is
    accepted only when the previous membership is committed (C13), so the accepted ones form
    a sequence.  [RaftCore::change_membership], [core/raft_core.rs:452-463]. *)
Definition after_request (m : Membership) (x : ChangeMembers * bool) : Membership :=
  match m_change m x.1 x.2 with inl m' => m' | inr _ => m end.

(** [Raft::change_membership], [raft/impl_raft_blocking_write.rs:52-106], called when the
    membership is [m]; [between] are the requests of other clients that the leader handles
    between the first and the second request of the call.  Simplified: answers other than
    acceptance and refusal (lost leadership, shutdown) are left out, they end the call with
    an error.  [inl] is the membership in the answer of the call. *)
Definition change_call (ch : ChangeMembers) (retain : bool) (m : Membership) (between : list (ChangeMembers * bool))
  : Membership + ChangeErr :=
  match m_change m ch retain with
  | inr e => inr e
  | inl m1 =>
      if length (m_configs m1) =? 1 then inl m1
      else m_change (foldl after_request m1 between) ch retain
  end.
