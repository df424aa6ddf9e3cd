(** Model of [membership/membership.rs] and [membership/effective_membership.rs]. *)
From Verif Require Import Types Quorum.
From stdpp Require Import base numbers gmap list.

(** [voter_ids], [membership.rs:141-143] *)
Definition m_voter_ids (m : Membership) : gset nat := joint_ids (m_configs m).
(** [is_voter], [membership.rs:160-167] *)
Definition m_is_voter (m : Membership) (id : nat) : bool :=
  existsb (fun c : gset nat => bool_decide (id ∈ c)) (m_configs m).
(** [contains], [membership.rs:155-157] *)
Definition m_contains (m : Membership) (id : nat) : bool :=
  bool_decide (is_Some (m_nodes m !! id)).
(** [learner_ids], [membership.rs:146-148] *)
Definition m_learner_ids (m : Membership) : gset nat :=
  filter (fun id => m_is_voter m id = false) (dom (m_nodes m)).

(** [extend_nodes], [membership.rs:181-195]: records present in [old] win.  The
    insertion loop over a map with distinct keys is the left-biased union. *)
Definition extend_nodes (old new : gmap nat nat) : gmap nat nat := old ∪ new.

(** [Membership::new], [membership.rs:111-117]; the default node record is 0. *)
Definition m_new (configs : list (gset nat)) (nodes : gmap nat nat) : Membership :=
  mkMembership configs (extend_nodes nodes (gset_to_gmap 0 (joint_ids configs))).

(** [ChangeMembershipError] variants that [ensure_valid] returns, [error.rs:201];
    [EInProgress] is produced by [ChangeHandler]. *)
Inductive ChangeErr :=
| EEmptyMembership
| ELearnerNotFound (id : nat)
| EInProgress (committed effective : option LogId).

(** [ensure_non_empty_config], [membership.rs:207-215] *)
Definition ensure_non_empty (m : Membership) : bool :=
  forallb (fun c : gset nat => negb (bool_decide (c = ∅))) (m_configs m).

(** [ensure_voter_nodes], [membership.rs:220-228]: the first voter (in ascending
    order) without a node record. *)
Definition missing_voters (m : Membership) : gset nat :=
  m_voter_ids m ∖ dom (m_nodes m).
Definition set_min (s : gset nat) : option nat :=
  foldr (fun x acc => match acc with None => Some x | Some y => Some (Nat.min x y) end)
        None (elements s).

(** [ensure_valid], [membership.rs:200-204] *)
Definition ensure_valid (m : Membership) : option ChangeErr :=
  if negb (ensure_non_empty m) then Some EEmptyMembership
  else match set_min (missing_voters m) with
       | Some id => Some (ELearnerNotFound id)
       | None => None
       end.

(** [next_coherent], [membership.rs:254-269]; the removal loop is a restriction. *)
Definition next_coherent (m : Membership) (goal : gset nat) (retain : bool) : Membership :=
  let config := find_coherent (m_configs m) goal in
  let nodes :=
    if retain then m_nodes m
    else filter (fun kv => kv.1 ∉ joint_ids (m_configs m) ∖ joint_ids config) (m_nodes m) in
  mkMembership config nodes.

(** [ChangeMembers], [change_members.rs:11-58] *)
Inductive ChangeMembers :=
| AddVoterIds (ids : gset nat)
| AddVoters (nodes : gmap nat nat)
| RemoveVoters (ids : gset nat)
| ReplaceAllVoters (ids : gset nat)
| AddNodes (nodes : gmap nat nat)
| SetNodes (nodes : gmap nat nat)
| RemoveNodes (ids : gset nat)
| ReplaceAllNodes (nodes : gmap nat nat).

(** the [match] of [Membership::change], [membership.rs:280-323] *)
Definition change_target (m : Membership) (ch : ChangeMembers) (retain : bool) : Membership :=
  let lst := default ∅ (last (m_configs m)) in
  match ch with
  | AddVoterIds ids => next_coherent m (lst ∪ ids) retain
  | AddVoters add =>
      let m1 := mkMembership (m_configs m) (extend_nodes (m_nodes m) add) in
      next_coherent m1 (lst ∪ dom add) retain
  | RemoveVoters ids => next_coherent m (lst ∖ ids) retain
  | ReplaceAllVoters ids => next_coherent m ids retain
  | AddNodes add => mkMembership (m_configs m) (m_nodes m ∪ add)
  | SetNodes set => mkMembership (m_configs m) (set ∪ m_nodes m)
  | RemoveNodes ids => mkMembership (m_configs m) (filter (fun kv => kv.1 ∉ ids) (m_nodes m))
  | ReplaceAllNodes all => mkMembership (m_configs m) all
  end.

(** [Membership::change], [membership.rs:277-330]: [inl] is [Ok], [inr] is [Err]. *)
Definition m_change (m : Membership) (ch : ChangeMembers) (retain : bool) : Membership + ChangeErr :=
  let m' := change_target m ch retain in
  match ensure_valid m' with
  | Some e => inr e
  | None => inl m'
  end.

(** [EffectiveMembership]/[StoredMembership], [membership/effective_membership.rs]:
    log id and membership; the cached quorum set and voter ids are functions of the
    membership. *)
Record EffMem := mkEM { em_log_id : option LogId; em_mem : Membership }.
Definition m_default : Membership := mkMembership [] ∅.
Definition em_default : EffMem := mkEM None m_default.
Global Instance effmem_eq_dec : EqDecision EffMem.
Proof. solve_decision. Defined.

(** [MembershipState], [raft_state/membership_state/mod.rs:44-51] *)
Record MemState := mkMS { ms_committed : EffMem; ms_effective : EffMem }.
Definition ms_default : MemState := mkMS em_default em_default.

(** [commit], [membership_state/mod.rs:83-88] *)
Definition ms_commit (s : MemState) (committed : option LogId) : MemState :=
  if ologid_leb (em_log_id (ms_effective s)) committed
  then mkMS (ms_effective s) (ms_effective s)
  else s.

(** [update_committed], [membership_state/mod.rs:95-129] (the returned "changed"
    flag is ignored by its only caller, [following_handler/mod.rs:255]). *)
Definition ms_update_committed (s : MemState) (c : EffMem) : MemState :=
  let eff := if onat_leb (olid_index (em_log_id (ms_effective s))) (olid_index (em_log_id c))
             then c else ms_effective s in
  let com := if ologid_ltb (em_log_id (ms_committed s)) (em_log_id c) then c else ms_committed s in
  mkMS com eff.

(** [append], [membership_state/mod.rs:137-151] *)
Definition ms_append (s : MemState) (m : EffMem) : MemState :=
  mkMS (ms_effective s) m.

(** [truncate], [membership_state/mod.rs:171-188] *)
Definition ms_truncate (s : MemState) (since : nat) : MemState :=
  if onat_leb (Some since) (olid_index (em_log_id (ms_effective s)))
  then mkMS (ms_committed s) (ms_committed s)
  else s.

(** [ChangeHandler::ensure_committed]/[apply],
    [membership_state/change_handler.rs:31-59] *)
Definition ms_change (s : MemState) (ch : ChangeMembers) (retain : bool) : Membership + ChangeErr :=
  if bool_decide (em_log_id (ms_effective s) = em_log_id (ms_committed s))
  then m_change (em_mem (ms_effective s)) ch retain
  else inr (EInProgress (em_log_id (ms_committed s)) (em_log_id (ms_effective s))).
