(** What a node tells about itself (C45). *)
From stdpp Require Import base numbers option gmap list.
From Verif Require Import Types LogIdList Membership Progress RaftState ProgressEntry Engine Store RaftCore NodeSpec NodeExamples LogSpec LogPropSpec LogExamples
  Metrics MetricsProofs MetricsExamples.

(** ** C45 *)

(** In every run of a node whose messages fit one history, with any timing and crashes: the
    reported last applied position is applied by the state machine, the reported snapshot is
    not ahead of the one the state machine has, and the reported purge position is the one
    of the log (with the writes submitted so far), which the state machine's snapshot covers. *)
Theorem C45_metrics_are_true : forall E cfg n, env_ok E -> fits_reachable E cfg n ->
  ologid_leb (mt_applied (node_metrics n)) (sm_applied (nd_sm n)) = true /\
  ologid_leb (mt_snapshot (node_metrics n)) (snap_last (nd_sm n)) = true /\
  mt_purged (node_metrics n) = ls_purged (so_log (nd_store n)) /\
  ologid_leb (mt_purged (node_metrics n)) (snap_last (nd_sm n)) = true.
Proof. intros E cfg n HE Hr. exact (metrics_true E (ec_id cfg) HE cfg n Hr eq_refl). Qed.
Print Assumptions C45_metrics_are_true.

(** A client that has waited until the reported applied index is at least [i] finds every
    entry up to index [i] in the state machine. *)
Theorem C45_waiting_for_applied : forall E cfg n i, env_ok E -> fits_reachable E cfg n ->
  metric_ge (node_metrics n) (AppliedIndex (Some i)) = true ->
  forall k, k <= i -> exists e, sm_entries (nd_sm n) !! k = Some e /\ e_index e = k.
Proof. intros E cfg n i HE Hr. exact (wait_applied E (ec_id cfg) HE cfg n i Hr eq_refl). Qed.
Print Assumptions C45_waiting_for_applied.

(** As long as the node runs, the reported applied position does not go back. *)
Theorem C45_applied_never_back : forall E cfg now ev n n' outs, env_ok E -> fits_step E cfg now ev n n' outs ->
  ologid_leb (mt_applied (node_metrics n)) (mt_applied (node_metrics n')) = true.
Proof. intros E cfg now ev n n' outs HE Hs. exact (applied_forward E (ec_id cfg) HE now ev n n' outs cfg Hs eq_refl). Qed.
Print Assumptions C45_applied_never_back.

(** The reported snapshot does (finding F20): a snapshot built by the node itself is reported
    when it is finished, even after a newer one has been installed; then it is behind the
    reported purge position as well. *)
Theorem C45_snapshot_never_back_refuted : exists E cfg now ev n n' outs, env_ok E /\ fits_step E cfg now ev n n' outs /\
  ologid_ltb (mt_snapshot (node_metrics n')) (mt_snapshot (node_metrics n)) = true /\
  ologid_ltb (mt_snapshot (node_metrics n')) (mt_purged (node_metrics n')) = true.
Proof.
  destruct qx_back as (n & n' & outs & Hs & Hb). apply andb_true_iff in Hb as [H1 H2].
  exists ex_env, (ex_cfg 2), 42, ENote, n, n', outs. split; [exact ex_env_ok|]. auto.
Qed.
Print Assumptions C45_snapshot_never_back_refuted.

(** Node 2 reports index 3 as last, applied, in the snapshot and purged. *)
Example C45_ex : ex_fits ex_env (ex_cfg 2) qx_installed = true /\ qx_check qx_installed [Some 3; Some 3; Some 3; Some 3] = true.
Proof. exact qx_installed_ok. Qed.
