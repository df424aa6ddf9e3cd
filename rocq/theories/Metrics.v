(** What a node tells about itself. *)
From stdpp Require Import base numbers option gmap list.
From Verif Require Import Types LogIdList Quorum Membership Progress RaftState ProgressEntry Engine Store RaftCore.

(** [RaftMetrics], [metrics/raft_metrics.rs], the fields taken from the node's state; the
    replication and heartbeat tables and the quorum-acked time are left out. *)
Record Metrics := mkMetrics {
  mt_term : nat;
  mt_vote : Vote;
  mt_last_log : option nat;
  mt_applied : option LogId;
  mt_snapshot : option LogId;
  mt_purged : option LogId;
  mt_state : ServerState;
  mt_leader : option nat;
  mt_membership : EffMem;
}.

(** [report_metrics], [core/raft_core.rs:549-585] *)
Definition node_metrics (n : Node) : Metrics :=
  let s := nd_state n in
  mkMetrics (li_term (v_leader (rs_v s))) (from_option io_vote vote_default (io_flushed (rs_io s)))
    (lid_index <$> rs_last s) (io_applied (rs_io s)) (io_snapshot (rs_io s)) (io_purged (rs_io s))
    (rs_server s) (rs_current_leader s) (rs_eff s).

(** [Metric], [metrics/metric.rs:14-24]; terms and votes are left out *)
Inductive Metric :=
| LastLogIndex (v : option nat)
| Applied (v : option LogId)
| AppliedIndex (v : option nat)
| SnapshotAt (v : option LogId)
| Purged (v : option LogId).

(** an absent value is less than every other *)
Definition oindex_leb (a b : option nat) : bool :=
  match a, b with None, _ => true | Some _, None => false | Some x, Some y => x <=? y end.
(** [partial_cmp], [metrics/metric.rs:65-78], as used by [Wait::ge], [metrics/wait.rs:237-239] *)
Definition metric_ge (m : Metrics) (x : Metric) : bool :=
  match x with
  | LastLogIndex v => oindex_leb v (mt_last_log m)
  | Applied v => ologid_leb v (mt_applied m)
  | AppliedIndex v => oindex_leb v (lid_index <$> mt_applied m)
  | SnapshotAt v => ologid_leb v (mt_snapshot m)
  | Purged v => ologid_leb v (mt_purged m)
  end.

(** The wait in [ensure_linearizable], [raft/mod.rs:535-550]: it returns at once if the applied log id that came with the read log id is not
    behind it, otherwise as soon as the node reports the index ([Wait::applied_index_at_least], [metrics/wait.rs:154-160]).
    [Option<LogId>::index] orders an absent log id first. *)
Definition read_ready (rl ap : option LogId) (m : Metrics) : bool :=
  oindex_leb (lid_index <$> rl) (lid_index <$> ap) || metric_ge m (AppliedIndex (lid_index <$> rl)).
