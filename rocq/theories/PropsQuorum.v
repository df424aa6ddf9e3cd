(** C10, C11, C12, C13 (request level): quorums and membership changes. *)
From Verif Require Import Types Quorum Membership QuorumSpec QuorumProofs.
From Coq Require Import Lia.
From stdpp Require Import base numbers gmap list.

(** ** C10 *)
Theorem C10_quorum_is_majority_of_every_group : forall cs ids, NoDup ids ->
  joint_is_quorum cs ids = true <-> quorum cs (list_to_set ids).
Proof. exact joint_is_quorum_spec. Qed.
Print Assumptions C10_quorum_is_majority_of_every_group.

Theorem C10_quorums_intersect : forall cs q1 q2,
  cs <> [] -> quorum cs q1 -> quorum cs q2 ->
  exists n c, c ∈ cs /\ n ∈ c /\ n ∈ q1 /\ n ∈ q2.
Proof. exact quorum_intersect_same. Qed.
Print Assumptions C10_quorums_intersect.

Theorem C10_quorum_monotone : forall cs q1 q2, q1 ⊆ q2 -> quorum cs q1 -> quorum cs q2.
Proof. exact quorum_mono. Qed.
Print Assumptions C10_quorum_monotone.

Theorem C10_all_voters_are_quorum : forall cs,
  (forall c, c ∈ cs -> c <> ∅) -> quorum cs (joint_ids cs).
Proof. exact quorum_all. Qed.
Print Assumptions C10_all_voters_are_quorum.

Theorem C10_only_voters_matter : forall cs q, quorum cs q <-> quorum cs (q ∩ joint_ids cs).
Proof. exact quorum_of_voters. Qed.
Print Assumptions C10_only_voters_matter.

Definition ex_cfgs : list (gset nat) := [ {[1; 2; 3]}; {[3; 4; 5; 6]} ].
Example C10_nontrivial :
  NoDup [1; 3; 4; 6] /\ joint_is_quorum ex_cfgs [1; 3; 4; 6] = true /\
  joint_is_quorum ex_cfgs [2; 3; 4; 5] = true /\
  joint_is_quorum ex_cfgs [1; 2; 4; 5] = false /\ ex_cfgs <> [] /\
  (forall c, c ∈ ex_cfgs -> c <> ∅).
Proof.
  split; [apply (bool_decide_eq_true _); vm_compute; reflexivity|].
  split; [vm_compute; reflexivity|]. split; [vm_compute; reflexivity|].
  split; [vm_compute; reflexivity|]. split; [done|].
  intros c [->|[->|[]%elem_of_nil]%elem_of_cons]%elem_of_cons; set_solver.
Qed.

(** ** C11 *)
Theorem C11_consecutive_memberships_share_a_group : forall m ch retain m',
  m_configs m <> [] -> m_change m ch retain = inl m' ->
  exists c, c ∈ m_configs m /\ c ∈ m_configs m'.
Proof. exact change_coherent. Qed.
Print Assumptions C11_consecutive_memberships_share_a_group.

Theorem C11_consecutive_quorums_intersect : forall m ch retain m' q q',
  m_configs m <> [] -> m_change m ch retain = inl m' ->
  quorum (m_configs m) q -> quorum (m_configs m') q' ->
  exists n, n ∈ q /\ n ∈ q' /\ voter_of m n /\ voter_of m' n.
Proof. exact change_quorums_intersect. Qed.
Print Assumptions C11_consecutive_quorums_intersect.

Theorem C11_two_requests_reach_the_goal : forall m ch retain m1 g,
  valid_membership m -> m_change m ch retain = inl m1 -> requested m ch = Some g ->
  m_configs m1 = [g] \/ exists m2, m_change m1 ch retain = inl m2 /\ m_configs m2 = [g].
Proof. exact change_twice. Qed.
Print Assumptions C11_two_requests_reach_the_goal.

Definition ex_m : Membership :=
  mkMembership [ {[1; 2; 3]} ] (list_to_map [(1, 11); (2, 12); (3, 13); (4, 14); (5, 15)]).
Example C11_nontrivial : exists m1,
  m_configs ex_m <> [] /\ valid_membership ex_m /\
  m_change ex_m (ReplaceAllVoters {[3; 4; 5]}) false = inl m1 /\
  requested ex_m (ReplaceAllVoters {[3; 4; 5]}) = Some {[3; 4; 5]} /\
  length (m_configs m1) = 2.
Proof.
  eexists. split; [done|]. split; [apply ensure_valid_spec; vm_compute; reflexivity|].
  split; [vm_compute; reflexivity|]. split; [reflexivity|]. reflexivity.
Qed.

(** ** C12 *)
Theorem C12_accepted_change_is_valid : forall m ch retain m',
  m_change m ch retain = inl m' -> valid_membership m'.
Proof. exact change_valid. Qed.
Print Assumptions C12_accepted_change_is_valid.

Theorem C12_voter_groups_after_change : forall m ch retain m',
  m_change m ch retain = inl m' -> groups_after m ch (m_configs m').
Proof. exact change_groups. Qed.
Print Assumptions C12_voter_groups_after_change.

Theorem C12_node_records_after_change : forall m ch retain m' id,
  m_change m ch retain = inl m' ->
  (dropped m m' ch retain id -> m_nodes m' !! id = None) /\
  (~ dropped m m' ch retain id -> m_nodes m' !! id = record_after m ch id).
Proof. exact change_records. Qed.
Print Assumptions C12_node_records_after_change.

Theorem C12_rejection_has_a_reason : forall m ch retain e,
  m_change m ch retain = inr e ->
  match e with
  | EEmptyMembership => exists c, c ∈ m_configs (change_target m ch retain) /\ c = ∅
  | ELearnerNotFound id =>
      voter_of (change_target m ch retain) id /\ m_nodes (change_target m ch retain) !! id = None
  | EInProgress _ _ => False
  end.
Proof. exact change_rejected. Qed.
Print Assumptions C12_rejection_has_a_reason.

Example C12_nontrivial_rejected :
  m_change ex_m (AddVoterIds {[4; 9]}) true = inr (ELearnerNotFound 9) /\
  m_change ex_m (RemoveVoters {[1; 2; 3]}) true = inr EEmptyMembership.
Proof. split; vm_compute; reflexivity. Qed.
Example C12_nontrivial_dropped : exists m1 m2,
  m_change ex_m (ReplaceAllVoters {[3; 4; 5]}) false = inl m1 /\
  m_change m1 (ReplaceAllVoters {[3; 4; 5]}) false = inl m2 /\
  m_nodes m2 !! 1 = None /\ m_nodes m2 !! 3 = Some 13.
Proof. do 2 eexists. repeat split; vm_compute; reflexivity. Qed.

(** ** C13, request level *)
Theorem C13_change_refused_while_in_progress : forall s ch retain,
  em_log_id (ms_effective s) <> em_log_id (ms_committed s) ->
  ms_change s ch retain = inr (EInProgress (em_log_id (ms_committed s)) (em_log_id (ms_effective s))).
Proof. exact ms_change_in_progress. Qed.
Print Assumptions C13_change_refused_while_in_progress.

Theorem C13_accepted_change_means_last_is_committed : forall s ch retain m',
  ms_change s ch retain = inl m' ->
  em_log_id (ms_effective s) = em_log_id (ms_committed s) /\
  m_change (em_mem (ms_effective s)) ch retain = inl m'.
Proof. exact ms_change_ok. Qed.
Print Assumptions C13_accepted_change_means_last_is_committed.
Example C13_nontrivial : exists m',
  ms_change (mkMS (mkEM (Some (mkLogId (mkLeaderId 1 1) 4)) ex_m) (mkEM (Some (mkLogId (mkLeaderId 1 1) 4)) ex_m))
    (RemoveVoters {[1]}) false = inl m' /\
  em_log_id (ms_effective (mkMS (mkEM None m_default) (mkEM (Some (mkLogId (mkLeaderId 1 1) 4)) ex_m)))
   <> em_log_id (ms_committed (mkMS (mkEM None m_default) (mkEM (Some (mkLogId (mkLeaderId 1 1) 4)) ex_m))).
Proof. eexists. split; [vm_compute; reflexivity|done]. Qed.
