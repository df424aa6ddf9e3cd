(** Property theorems: how a leader finds a follower's matching point (C22). *)
From Coq Require Import Lia.
From stdpp Require Import base numbers option list.
From Verif Require Import Types LogIdList LogIdSpec Membership RaftState ProgressEntry ReplSpec ReplProofs ReplExamples.

(** The interval always contains the number of log ids the two logs share; a request on its way
    starts inside it and holds some consecutive entries of the leader, at most [max]. *)
Theorem C22_search_interval : forall max ks a b,
  xstart a -> xrun max ks a b ->
  x_low b <= shared (x_ids b) (x_f b) <= x_high b /\
  (forall r, pe_inflight (x_pe b) = InfLogs r ->
     exists i es, lr_prev r = last (take i (x_ids b)) /\ i <= length (x_ids b) /\
       es = take (next_index (lr_last r) - i) (drop i (x_ids b)) /\
       last es = lr_last r /\ 0 < length es <= max /\ x_low b <= i <= x_high b).
Proof. exact repl_interval. Qed.
Print Assumptions C22_search_interval.

(** Every reply raises the lower end or lowers the upper one... *)
Theorem C22_reply_shrinks_interval : forall max ks a b c,
  xstart a -> xrun max ks a b -> xstep max XReply b c ->
  (x_low b < x_low c /\ x_high c = Nat.max (x_high b) (x_low c)) \/
  (x_low c = x_low b /\ x_high c < x_high b).
Proof. exact repl_shrinks. Qed.
Print Assumptions C22_reply_shrinks_interval.

(** ... so while the leader's log stays as it is there are at most [2 * length] replies. *)
Theorem C22_search_terminates : forall max ks ks' a b c,
  xstart a -> xrun max ks a b -> xrun max ks' b c -> XLeader ∉ ks' ->
  replies ks' <= 2 * length (x_ids b).
Proof. exact repl_terminates. Qed.
Print Assumptions C22_search_terminates.

(** When nothing is on its way either the follower has the leader's whole log or something is sent
    next; a snapshot is sent only if the entry after the matching point may be purged.
    Missing, and refuted below: the same for a leader that has purged its whole log. *)
Theorem C22_search_ends_with_all_sent_partial : forall max ks a b pe ok,
  0 < max -> xstart a -> xrun max ks a b ->
  pe_inflight (x_pe b) = InfNone -> next_index (rs_purge_upto (x_s b)) < length (x_ids b) ->
  pe_next_send (x_s b) max (x_pe b) = (pe, ok) ->
  (ok = false <-> x_low b = length (x_ids b)) /\
  (ok = false -> take (length (x_ids b)) (x_f b) = x_ids b) /\
  (ok = true -> (exists r, pe_inflight pe = InfLogs r) \/
     (pe_inflight pe = InfSnapshot (rs_snap_last (x_s b)) /\ rs_snap_last (x_s b) <> None /\
      shared (x_ids b) (x_f b) < next_index (rs_purge_upto (x_s b)))).
Proof. exact repl_progress. Qed.
Print Assumptions C22_search_ends_with_all_sent_partial.

(** A leader that has purged its whole log sends a follower that has nothing neither entries nor
    a snapshot. *)
Theorem C22_snapshot_when_all_purged_refuted : exists max a pe,
  0 < max /\ xstart a /\ shared (x_ids a) (x_f a) < next_index (rs_purge_upto (x_s a)) /\
  pe_inflight (x_pe a) = InfNone /\ pe_next_send (x_s a) max (x_pe a) = (pe, false).
Proof.
  exists 10, rx_purged. eexists. split; [lia|]. split; [exact rx_purged_start|].
  split; [vm_compute; lia|]. split; reflexivity.
Qed.
Print Assumptions C22_snapshot_when_all_purged_refuted.

(** A leader with 40 entries, 3 of them purged, and a follower that shares 5 of them: one refusal,
    ten entries stored, the next ten on their way. *)
Example C22_nontrivial :
  xstart rx_start /\ xrun 10 [XSend; XReply; XSend; XReply; XSend] rx_start rx_narrowed /\
  x_low rx_narrowed = 13 /\ x_high rx_narrowed = 15 /\
  shared (x_ids rx_start) (x_f rx_start) = 5 /\ shared (x_ids rx_narrowed) (x_f rx_narrowed) = 13 /\
  next_index (rs_purge_upto (x_s rx_narrowed)) = 3 /\
  pe_inflight (x_pe rx_stored) = InfNone /\ (pe_next_send (x_s rx_stored) 10 (x_pe rx_stored)).2 = true.
Proof. split; [exact rx_started|]. split; [exact rx_run|]. vm_compute. repeat split. Qed.
