(** Linearizable reads (C27). *)
From stdpp Require Import base numbers option gmap list.
From Verif Require Import Types LogIdList Membership RaftState Engine Store RaftCore NodeSpec NodeExamples LogSpec Cluster ClusterSpec
  ClusterExamples ReadSpec NoopProofs Metrics ReadDoneProofs ReadExamples.
Import NodeSpec.

(** A client asks node [i] for a linearizable read when the cluster is in state [cl], and
    is later answered with the read log id [rl].  Then, in [cl]:
    - node [i] was leader, and [rl] is at least its commit position and at least the log
      id of the first entry of its leadership: an entry [i] has, and before which no node
      has one of that leadership;
    - no node led with a greater vote;
    - every entry any node had committed or applied, hence every write acknowledged to
      any client by then, is at or below [rl].
    Missing: runs outside [plain_run] (crashes, snapshots sent to followers, changes of the
    voters, findings F1, F2 and F11). *)
Theorem C27_linearizable_read_partial : forall m0 cfg i tx cl rl ap,
  read_answered m0 cfg i tx cl rl ap ->
  exists l, en_leader (nd_eng (cl_node cl i)) = Some l /\
    ologid_leb (rs_committed (nd_state (cl_node cl i))) rl = true /\
    (exists x, lid_leader x = v_leader (ld_vote l) /\ (exists p, holds_entry (planned_log (cl_node cl i)) (mkEntry x p)) /\
       (forall j lg e, log_of (cl_node cl j) lg -> e ∈ ls_entries lg -> lid_leader (e_log_id e) = v_leader (ld_vote l) -> lid_index x <= e_index e) /\
       ologid_leb (Some x) rl = true) /\
    (forall j l', en_leader (nd_eng (cl_node cl j)) = Some l' -> vote_le (ld_vote l') (ld_vote l)) /\
    (forall j e, has_committed (cl_node cl j) e -> ologid_leb (Some (e_log_id e)) rl = true).
Proof. exact linearizable_first. Qed.
Print Assumptions C27_linearizable_read_partial.

(** Node 1 leads three nodes and has committed an entry at index 2; it answers the read
    with that log id after a reply of node 2, while it has applied index 1 only. *)
Example C27_ex :
  read_answered ex_members ex_cfg 1 40 rx_cl (Some (mkLogId (mkLeaderId 1 1) 2)) (Some (mkLogId (mkLeaderId 1 1) 1)) /\
  has_committed (cl_node rx_cl 1) cx_e5.
Proof. destruct (rx_read rx_ok) as [H1 _]. exact (conj H1 rx_committed). Qed.

(** A client calls [ensure_linearizable] on node [i] when the cluster is in state [cl].  The
    call has the read log id [rl], and returns in any later state [cl'] in which node [i]
    has reported that it applied that index, or at once if it had applied it already.
    Then the state machine of node [i] holds every entry that any node had committed or
    applied in [cl]: the client reads everything that was acknowledged to anyone before it
    asked.
    Missing: runs outside [plain_run], as above. *)
Theorem C27_read_sees_all_partial : forall m0 cfg i tx cl rl ap cl',
  read_answered m0 cfg i tx cl rl ap -> plain_run m0 cl cl' -> read_ready rl ap (node_metrics (cl_node cl' i)) = true ->
  forall j e, has_committed (cl_node cl j) e -> e ∈ sm_entries (nd_sm (cl_node cl' i)).
Proof. exact read_done. Qed.
Print Assumptions C27_read_sees_all_partial.

(** In the run above node 1 is not ready when it is asked, and is ready after it has handled
    the report of its state machine. *)
Example C27_ex_done : plain_run ex_members rx_cl rx_cl' /\
  (let ready cl := read_ready (Some (mkLogId (mkLeaderId 1 1) 2)) (Some (mkLogId (mkLeaderId 1 1) 1)) (node_metrics (cl_node cl 1)) in
   ready rx_cl = false /\ ready rx_cl' = true).
Proof. split; [exact rx_done_run|]. vm_compute. split; reflexivity. Qed.

(** In particular, an acknowledged write is read: node [k] tells its client that the write
    [p] succeeded at log id [l]; some time later, in [cl], a client calls
    [ensure_linearizable] on any node [i], and the call returns in [cl'].  Then the state
    machine of node [i] holds the entry.
    Missing: runs outside [plain_run], as above. *)
Theorem C27_write_then_read_partial : forall m0 cfg c a c' k txw l p i tx cl rl ap cl',
  plain_reachable m0 cfg c -> gives k c a txw (CWriteOk l p) -> cl_act a c = Ok c' -> plain_act m0 c a c' -> plain_run m0 c' cl ->
  read_answered m0 cfg i tx cl rl ap -> plain_run m0 cl cl' -> read_ready rl ap (node_metrics (cl_node cl' i)) = true ->
  mkEntry l p ∈ sm_entries (nd_sm (cl_node cl' i)).
Proof. exact write_then_read. Qed.
Print Assumptions C27_write_then_read_partial.

(** ** C26: an acknowledged write is never lost or replaced *)
(** After node [k] has told its client that the write [p] succeeded at log id [l], in every
    later state [cl]: the state machine of node [k] holds the entry; whatever any node has
    committed or applied at this index is this entry; and every leader whose vote is not
    below the one node [k] had then holds it in its log, unless it has purged it.
    Missing: runs outside [plain_run], as above. *)
Theorem C26_acknowledged_write_is_kept_partial : forall m0 cfg c a c' k tx l p cl,
  plain_reachable m0 cfg c -> gives k c a tx (CWriteOk l p) -> cl_act a c = Ok c' -> plain_act m0 c a c' -> plain_run m0 c' cl ->
  mkEntry l p ∈ sm_entries (nd_sm (cl_node cl k)) /\
  (forall j e, has_committed (cl_node cl j) e -> e_index e = lid_index l -> e = mkEntry l p) /\
  (forall j ld, en_leader (nd_eng (cl_node cl j)) = Some ld -> vote_le (rs_v (nd_state (cl_node c' k))) (ld_vote ld) ->
     holds_entry (planned_log (cl_node cl j)) (mkEntry l p)).
Proof. exact acknowledged_kept. Qed.
Print Assumptions C26_acknowledged_write_is_kept_partial.

(** Node 1 tells the client of channel 30 that its write is done; then it is asked for a
    read, which finds the entry applied and returns at once. *)
Example C27_ex_write : plain_reachable ex_members ex_cfg rx_cl /\
  gives 1 rx_cl rx_tell 30 (CWriteOk (mkLogId (mkLeaderId 1 1) 2) (PNormal 5)) /\
  (cl_act rx_tell rx_cl = Ok rx_told /\ plain_act ex_members rx_cl rx_tell rx_told) /\
  read_answered ex_members ex_cfg 1 40 rx_told (Some (mkLogId (mkLeaderId 1 1) 2)) (Some (mkLogId (mkLeaderId 1 1) 2)) /\
  read_ready (Some (mkLogId (mkLeaderId 1 1) 2)) (Some (mkLogId (mkLeaderId 1 1) 2)) (node_metrics (cl_node rx_told 1)) = true.
Proof.
  split; [exact cx_g1_reachable|]. destruct (told_facts told_ok) as (H1 & H2 & H3). split; [exact H1|]. split; [exact H2|]. split; [exact H3|].
  vm_compute. reflexivity.
Qed.
