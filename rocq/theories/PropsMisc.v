(** Properties of the chunked snapshot transport (C31), the message balancer (C40) and
    the configuration (C41). *)
From stdpp Require Import base numbers option list.
From Verif Require Import Types RaftState Engine Runtime Transport MiscSpec MiscProofs.

(** ** C31 *)

(** If no request is delivered late, then for every snapshot, chunk size and sequence of
    lost requests, lost replies, restarts of either side and interleaved transfers of other
    snapshots, whatever the receiver completes under this id is exactly the sender's bytes,
    and when the sender finishes the receiver has completed it. *)
Theorem C31_transfer_exact_partial : forall id size bytes fs s,
  Forall (no_delay id) fs -> (forall x, s = Some x -> st_id x <> id) ->
  let x := xf_run id size bytes fs (xf_start s) in
  (forall d, (id, d) ∈ xf_out x -> d = bytes) /\ (xf_sender x = Finished -> (id, bytes) ∈ xf_out x).
Proof. exact transfer_safe_fresh. Qed.
Print Assumptions C31_transfer_exact_partial.

(** From any such state, once requests and replies get through the transfer finishes within
    length + 2 requests. *)
Theorem C31_transfer_finishes : forall id size bytes fs s,
  0 < size -> Forall (no_delay id) fs -> (forall x, s = Some x -> st_id x <> id) ->
  let x := xf_run id size bytes fs (xf_start s) in
  xf_sender x <> Stopped ->
  exists n, n <= length bytes + 2 /\ xf_sender (xf_run id size bytes (replicate n FReplied) x) = Finished.
Proof. exact transfer_finishes_fresh. Qed.
Print Assumptions C31_transfer_finishes.

(** With late delivery of retried chunks the full property is FALSE: the receiver does not
    check that chunks are contiguous, so a late first and a late last chunk complete a
    snapshot with a hole. *)
Theorem C31_delayed_chunks_refuted : exists fs d,
  (3, d) ∈ xf_out (xf_run 3 1 [1; 2; 3] fs (xf_start None)) /\ d <> [1; 2; 3].
Proof. exact transfer_delayed_corrupts. Qed.
Print Assumptions C31_delayed_chunks_refuted.

(** a restart in the middle, a lost reply of the last chunk and an interleaved transfer *)
Example C31_ex :
  let fs := [FReplied; FRestart; FReplied; FReplied; FReplyLost; FOther (mkChunk 9 0 [7] false);
             FReplied; FReplied; FReplied; FReplyLost; FReplied; FReplied; FReplied; FReplied] in
  Forall (no_delay 3) fs /\
  let x := xf_run 3 2 [1; 2; 3; 4; 5] fs (xf_start (Some (mkStreaming 1 8 [9]))) in
  xf_sender x = Finished /\ xf_out x = [(3, [1; 2; 3; 4; 5]); (3, [1; 2; 3; 4; 5])].
Proof. split; [repeat constructor; discriminate|]. vm_compute. auto. Qed.

(** ** C40 *)

(** For totals of at least ten, after any adjustments both budgets are at least one, add up
    to the total, and notifications have at least as much as client messages. *)
Theorem C40_budgets : forall total ops, 10 <= total ->
  let b := foldl (fun b o => bal_op o b) (bal_new total) ops in
  1 <= bal_raft_msg b /\
  exists m, bal_notification b = Ok m /\ 1 <= m /\ bal_raft_msg b <= m /\ bal_raft_msg b + m = total.
Proof. exact bal_ops_ok. Qed.
Print Assumptions C40_budgets.

(** For smaller totals a side may have no budget (the code uses 10000). *)
Theorem C40_small_totals_refuted : exists total ops, 1 <= total /\
  let b := foldl (fun b o => bal_op o b) (bal_new total) ops in
  bal_raft_msg b = 0 \/ bal_notification b = Ok 0.
Proof. exact bal_small_refuted. Qed.
Print Assumptions C40_small_totals_refuted.

(** No queue is starved: whatever arrives meanwhile, [k] rounds of the loop handle at
    least the first [k] messages of either queue, in order. *)
Theorem C40_no_starvation : forall (A B : Type) (arrivals : list (list A * list B * list B)) total ops
    (api : list A) (notes : list B), 10 <= total ->
  exists b' ha hn, loop_rounds arrivals (foldl (fun b o => bal_op o b) (bal_new total) ops) api notes = Ok (b', ha, hn) /\
    take (length arrivals) api `prefix_of` ha /\ take (length arrivals) notes `prefix_of` hn.
Proof. exact @rounds_no_starvation. Qed.
Print Assumptions C40_no_starvation.

(** But the client budget, once below 16, can never grow again: integer division makes
    "* 17 / 16" the identity there. *)
Theorem C40_budget_cannot_recover : exists ops, forall ops',
  bal_raft_msg (foldl (fun b o => bal_op o b) (bal_new (100 * 100)) (ops ++ ops')) < 16.
Proof. exact bal_default_stuck. Qed.
Print Assumptions C40_budget_cannot_recover.

Example C40_ex :
  let b := foldl (fun b o => bal_op o b) (bal_new 400) [BIncNote; BIncRaft; BIncRaft; BIncNote] in
  bal_raft_msg b = 38 /\ bal_notification b = Ok 362 /\
  loop_rounds [([8], [], [3]); ([], [9], [])] b [1; 2] [5] = Ok (b, [1; 2; 8], [5; 3; 9]).
Proof. vm_compute. auto. Qed.

(** ** C41 *)

(** Validation accepts exactly the consistent configurations, unchanged. *)
Theorem C41_validate : forall c,
  (cfg_validate c = inl c <->
   cf_heartbeat c < cf_timeout_min c /\ cf_timeout_min c < cf_timeout_max c /\ cf_max_payload c <> 0) /\
  (forall c', cfg_validate c = inl c' -> c' = c).
Proof. exact (fun c => conj (cfg_validate_spec c) (cfg_validate_same c)). Qed.
Print Assumptions C41_validate.

(** Every random election timeout drawn from an accepted configuration lies in [min, max),
    above the heartbeat interval and below the leader lease and the longer timeout. *)
Theorem C41_election_timeout : forall id r c, cfg_validate c = inl c ->
  exists t, cfg_rand_timeout r c = Ok t /\ cf_timeout_min c <= t < cf_timeout_max c /\ cf_heartbeat c < t /\
    exists ec, cfg_engine id r c = Ok ec /\ ec_id ec = id /\ ec_election_timeout ec = t /\
      ec_leader_lease ec = cf_timeout_max c /\ ec_election_timeout ec < ec_leader_lease ec /\
      ec_election_timeout ec < ec_smaller_log_timeout ec /\ 0 < ec_max_payload ec.
Proof. exact cfg_engine_spec. Qed.
Print Assumptions C41_election_timeout.

(** Every value of the interval is possible. *)
Theorem C41_every_timeout_possible : forall c t,
  cf_timeout_min c <= t < cf_timeout_max c -> exists r, cfg_rand_timeout r c = Ok t.
Proof. exact cfg_rand_onto. Qed.
Print Assumptions C41_every_timeout_possible.

Example C41_ex : cfg_validate (mkConfig 150 300 50 300 None 10 1) = inl (mkConfig 150 300 50 300 None 10 1) /\
  cfg_rand_timeout 1234 (mkConfig 150 300 50 300 None 10 1) = Ok 184 /\
  cfg_validate (mkConfig 50 300 50 300 None 10 1) = inr EElectionTimeoutLTHeartBeat.
Proof. vm_compute. auto. Qed.
