(** Properties of clusters (C35-C38).

    The cluster is unbounded: any number of nodes, requests and replies delayed, reordered,
    repeated and lost.  The theorems named [_partial] hold for the runs [plain_run] of
    [ClusterSpec.v]: no node crashes, no snapshot is sent to a follower, the voters are
    those of [initialize], and the behaviours described by findings F1, F2 and F11 do not
    occur.  The theorems named [_refuted] show that without these restrictions the
    properties are false of the code as modelled: the leader sends an entry before its own
    storage has it (finding F3), crashes, restarts as leader of the same term, and gives
    the log id to another entry. *)
From stdpp Require Import base numbers option gmap list.
From Verif Require Import Types LogIdList Membership RaftState Engine Store RaftCore NodeSpec NodeExamples LogSpec Cluster ClusterSpec
  ClusterExamples ClusterProofs.
Import NodeSpec.

(** ** C35 *)

(** When two logs, of the same or different nodes at the same or different times, hold an
    entry with the same log id, they hold the same entry at every index up to it that both
    hold.  Missing: runs with the excluded behaviours. *)
Theorem C35_log_matching_partial : forall m0 cfg cl cl' i j a b x y,
  plain_reachable m0 cfg cl -> plain_run m0 cl cl' ->
  log_of (cl_node cl i) a -> log_of (cl_node cl' j) b ->
  x ∈ ls_entries a -> y ∈ ls_entries b -> e_log_id x = e_log_id y ->
  forall x' y', x' ∈ ls_entries a -> y' ∈ ls_entries b -> e_index x' = e_index y' -> e_index x' <= e_index x -> x' = y'.
Proof. exact cluster_matching. Qed.
Print Assumptions C35_log_matching_partial.

Theorem C35_log_matching_refuted : exists cfg cl0 acts cl i j x y, cl_start cfg cl0 /\ cl_run acts cl0 = Ok cl /\
  x ∈ ls_entries (dk_log (so_disk (nd_store (cl_node cl i)))) /\ y ∈ ls_entries (dk_log (so_disk (nd_store (cl_node cl j)))) /\
  e_log_id x = e_log_id y /\ x <> y.
Proof. exact matching_refuted. Qed.
Print Assumptions C35_log_matching_refuted.

(** ** C36 *)

(** An entry that a node has committed under some vote is in the log of every later
    leader whose vote is at least that one, or below the purged position there. *)
Theorem C36_leader_completeness_partial : forall m0 cfg cl cl' i j e l,
  plain_reachable m0 cfg cl -> plain_run m0 cl cl' ->
  has_committed (cl_node cl i) e -> en_leader (nd_eng (cl_node cl' j)) = Some l ->
  vote_le (rs_v (nd_state (cl_node cl i))) (ld_vote l) ->
  holds_entry (planned_log (cl_node cl' j)) e.
Proof. exact cluster_complete. Qed.
Print Assumptions C36_leader_completeness_partial.

(** It is already in the log of a leader of a greater term when a node of the smaller term
    commits it. *)
Theorem C36_earlier_leader_partial : forall m0 cfg cl cl' i j e l,
  plain_reachable m0 cfg cl -> plain_run m0 cl cl' ->
  en_leader (nd_eng (cl_node cl j)) = Some l -> has_committed (cl_node cl' i) e ->
  leader_leb (v_leader (ld_vote l)) (v_leader (rs_v (nd_state (cl_node cl' i)))) = false ->
  holds_entry (planned_log (cl_node cl j)) e.
Proof. exact cluster_complete'. Qed.
Print Assumptions C36_earlier_leader_partial.

Theorem C36_leader_completeness_refuted : exists cfg cl0 acts cl acts' cl' i j e l,
  cl_start cfg cl0 /\ cl_run acts cl0 = Ok cl /\ cl_run acts' cl = Ok cl' /\
  has_committed (cl_node cl i) e /\ en_leader (nd_eng (cl_node cl' j)) = Some l /\
  vote_le (rs_v (nd_state (cl_node cl i))) (ld_vote l) /\ ~ holds_entry (planned_log (cl_node cl' j)) e.
Proof. exact complete_refuted. Qed.
Print Assumptions C36_leader_completeness_refuted.

(** ** C37 *)

(** No two nodes commit, or apply, different entries at the same index, at any two times. *)
Theorem C37_state_machine_safety_partial : forall m0 cfg cl cl' i j x y,
  plain_reachable m0 cfg cl -> plain_run m0 cl cl' ->
  has_committed (cl_node cl i) x -> has_committed (cl_node cl' j) y -> e_index x = e_index y -> x = y.
Proof. exact cluster_agree. Qed.
Print Assumptions C37_state_machine_safety_partial.

(** Two state machines have applied different entries at the same index. *)
Theorem C37_state_machine_safety_refuted : exists cfg cl0 acts cl i j x y, cl_start cfg cl0 /\ cl_run acts cl0 = Ok cl /\
  x ∈ sm_entries (nd_sm (cl_node cl i)) /\ y ∈ sm_entries (nd_sm (cl_node cl j)) /\ e_index x = e_index y /\ x <> y.
Proof. exact agree_refuted. Qed.
Print Assumptions C37_state_machine_safety_refuted.

(** ** C38 *)

(** Two entries with the same log id, at any two nodes and times, are the same.  Missing:
    crashes, which the next theorem shows to break it. *)
Theorem C38_log_id_identifies_entry_partial : forall m0 cfg cl cl' i j a b x y,
  plain_reachable m0 cfg cl -> plain_run m0 cl cl' ->
  log_of (cl_node cl i) a -> log_of (cl_node cl' j) b ->
  x ∈ ls_entries a -> y ∈ ls_entries b -> e_log_id x = e_log_id y -> x = y.
Proof. exact cluster_ids. Qed.
Print Assumptions C38_log_id_identifies_entry_partial.

(** A leader and a follower have an entry in their logs, the leader crashes, and uses the
    log id for another entry. *)
Theorem C38_log_id_reused_refuted : exists cfg cl0 acts cl now k q keep acts' cl' i j x y,
  cl_start cfg cl0 /\ cl_run acts cl0 = Ok cl /\ cl_run (CCrash i now k q keep :: acts') cl = Ok cl' /\
  x ∈ ls_entries (planned_log (cl_node cl i)) /\ x ∈ ls_entries (planned_log (cl_node cl j)) /\ y ∈ ls_entries (planned_log (cl_node cl' i)) /\
  e_log_id x = e_log_id y /\ x <> y.
Proof. exact reuse_refuted. Qed.
Print Assumptions C38_log_id_reused_refuted.

(** ** A run that meets the hypotheses

    Three nodes: node 1 is elected, replicates to node 2, commits and applies a client's
    entry ([cx_g1]); then node 2 is elected by nodes 2 and 3 ([cx_g2]), when it does not yet
    know that the entry is committed. *)
Example C36_example :
  plain_reachable ex_members ex_cfg cx_g1 /\ plain_run ex_members cx_g1 cx_g2 /\
  (has_committed (cl_node cx_g1 1) cx_e5 /\ has_committed (cl_node cx_g2 1) cx_e5) /\
  (exists l, en_leader (nd_eng (cl_node cx_g2 2)) = Some l /\ ld_vote l = mkVote (mkLeaderId 2 2) true) /\
  rs_v (nd_state (cl_node cx_g1 1)) = mkVote (mkLeaderId 1 1) true /\
  cx_e5 ∈ ls_entries (planned_log (cl_node cx_g2 2)) /\ ls_purged (planned_log (cl_node cx_g2 2)) = None /\
  rs_committed (nd_state (cl_node cx_g2 2)) = Some (mkLogId (mkLeaderId 1 1) 1).
Proof. exact (conj cx_g1_reachable (conj cx_g2_run cx_g_facts)). Qed.
