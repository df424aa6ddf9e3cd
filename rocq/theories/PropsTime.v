(** Property theorems: the quorum-acknowledged time (C32). *)
From stdpp Require Import base numbers option gmap list.
From Verif Require Import Types LogIdList Quorum QuorumSpec Membership Progress ProgressSpec RaftState ProgressEntry Engine Store RaftCore
  NodeSpec NodeExamples LeaderTime TimeSpec TimeProofs TimeExamples.

(** For one voter group of at most three voters the reported time is one a quorum of voters vouches
    for.  Missing: larger and joint voter groups, for which the tracker over-reports
    (see [C15_greatest_quorum_value_refuted]), and changes of membership in between. *)
Theorem C32_quorum_acked_time_is_vouched_for_partial : forall c learners vote ids start ops e e' now t,
  tracked_ok [c] learners -> size c <= 3 ->
  en_leader e = Some (leader_new start vote [c] learners ids) -> time_run ops e = Ok e' ->
  (quorum_acked now e').2 = Some t ->
  exists A : gset nat, quorum [c] A /\ A ⊆ c /\
    forall j, j ∈ A -> vouches (li_node (v_leader vote)) (ops ++ [TReport now]) t j.
Proof. exact quorum_time. Qed.
Print Assumptions C32_quorum_acked_time_is_vouched_for_partial.

(** A reply is counted, with the time its request was sent, only if it answers a request the
    replication stream waits for and does not reject the leader, or if it answers a heartbeat.
    Missing, and refuted below: that the answer to a heartbeat does not reject the leader. *)
Theorem C32_counted_replies_partial : forall tag r n n' outs,
  handle_reply tag r n = (n', outs) ->
  exists ns, nd_notes n' = nd_notes n ++ ns /\
    forall ss t time, NHeartbeat ss t time ∈ ns ->
      (exists rid s w a, tag = TagStream t rid /\ r = RAppend a /\ (forall v, a <> AHigherVote v) /\
         s ∈ nd_streams n /\ st_target s = t /\ st_session s = ss /\
         st_wait s = Some w /\ sw_rid w = rid /\ sw_time w = time) \/
      (exists rid s meta v, tag = TagStreamSnap t rid /\ r = RSnapshot v /\ vote_gtb v (ss_vote ss) = false /\
         s ∈ nd_streams n /\ st_target s = t /\ st_session s = ss /\ st_snap s = Some (meta, time, rid)) \/
      (exists a, tag = TagHeartbeat ss time t /\ r = RAppend a).
Proof. exact handle_reply_counts. Qed.
Print Assumptions C32_counted_replies_partial.

(** A leader sends a heartbeat at 40, is told that a later leader exists, and reports 40 as
    acknowledged by a quorum. *)
Theorem C32_rejection_never_extends_refuted : exists acts now tag v t,
  OSend 2 tag (RpcAppend t None [] None) ∈ tx_outs acts /\ vote_gtb v t = true /\
  tx_time now acts = Some None /\
  tx_time now (acts ++ [Act now (EReply tag (RAppend (AHigherVote v))); Act now ENote]) = Some (Some 40).
Proof.
  exists tx_sent, 50, tx_tag, tx_later, tx_vote. split.
  - apply elem_of_list_In. vm_compute. tauto.
  - vm_compute. repeat split.
Qed.
Print Assumptions C32_rejection_never_extends_refuted.

(** Voters 2 and 3 and the learner 7 reply; the leader is asked at 20 and at 30. *)
Example C32_nontrivial :
  tracked_ok [{[1; 2; 3]}] [7] /\ size ({[1; 2; 3]} : gset nat) <= 3 /\
  en_leader tx_start = Some (leader_new 5 tx_vote [{[1; 2; 3]}] [7] []) /\
  exists e', time_run tx_ops tx_start = Ok e' /\ (quorum_acked 30 e').2 = Some 15.
Proof.
  split.
  { split; [discriminate|]. split; [|split; [|]].
    - intros c Hc. apply elem_of_list_singleton in Hc. subst c. discriminate.
    - apply NoDup_singleton.
    - intros x c Hx Hc. apply elem_of_list_singleton in Hx, Hc. subst. vm_compute. set_solver. }
  split; [vm_compute; repeat constructor|]. split; [reflexivity|].
  eexists. split; [vm_compute; reflexivity|]. vm_compute. reflexivity.
Qed.
