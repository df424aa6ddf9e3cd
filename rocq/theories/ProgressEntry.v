(** Model of the replication progress of one target, [progress/entry/mod.rs] and
    [progress/inflight/mod.rs].  The [loosen-follower-log-revert] feature is off (its
    default). *)
From Verif Require Import Types LogIdList Membership RaftState.
From stdpp Require Import base numbers option list.

(** [LogIdRange], [log_id_range.rs:19-27]: [(prev, last]] *)
Record LogIdRange := mkRange { lr_prev : option LogId; lr_last : option LogId }.

(** [Inflight], [progress/inflight/mod.rs:16-37] *)
Inductive Inflight :=
| InfNone
| InfLogs (r : LogIdRange)
| InfSnapshot (last_log_id : option LogId).

(** [Inflight::logs], [inflight/mod.rs:71-80] *)
Definition inf_logs (prev lst : option LogId) : Inflight :=
  if ologid_ltb prev lst then InfLogs (mkRange prev lst) else InfNone.

(** [Inflight::ack], [inflight/mod.rs:106-123]; [Panic] is the [unreachable!] *)
Definition inf_ack (i : Inflight) (upto : option LogId) : res Inflight :=
  match i with
  | InfNone => Panic
  | InfLogs r => Ok (inf_logs upto (lr_last r))
  | InfSnapshot _ => Ok InfNone
  end.

(** [Inflight::conflict], [inflight/mod.rs:126-140] *)
Definition inf_conflict (i : Inflight) : res Inflight :=
  match i with
  | InfNone => Panic
  | InfLogs _ => Ok InfNone
  | InfSnapshot _ => Panic
  end.

(** [ProgressEntry], [progress/entry/mod.rs:19-32] *)
Record ProgressEntry := mkPE {
  pe_matching : option LogId;
  pe_inflight : Inflight;
  pe_searching_end : nat;
}.
(** [ProgressEntry::empty], [entry/mod.rs:49-55] *)
Definition pe_empty (end_ : nat) : ProgressEntry := mkPE None InfNone end_.
Definition pe_set_inflight (i : Inflight) (p : ProgressEntry) : ProgressEntry :=
  mkPE (pe_matching p) i (pe_searching_end p).

(** [is_log_range_inflight], [entry/mod.rs:69-78] *)
Definition pe_is_log_range_inflight (p : ProgressEntry) (upto : LogId) : bool :=
  match pe_inflight p with
  | InfLogs r => ologid_ltb (lr_prev r) (Some upto)
  | _ => false
  end.

(** [update_matching], [entry/mod.rs:80-94] *)
Definition pe_update_matching (p : ProgressEntry) (m : option LogId) : res ProgressEntry :=
  let! i := inf_ack (pe_inflight p) m in
  Ok (mkPE m i (Nat.max (pe_searching_end p) (next_index m))).

(** [update_conflicting], [entry/mod.rs:108-141] *)
Definition pe_update_conflicting (p : ProgressEntry) (conflict : nat) : res ProgressEntry :=
  let! i := inf_conflict (pe_inflight p) in
  Ok (mkPE (pe_matching p) i conflict).

(** [calc_mid], [entry/mod.rs:214-219].  The subtraction wraps in a release build if
    [end < matching_next]; that this does not happen is part of the invariant proved in
    [ReplProofs]. *)
Definition calc_mid (matching_next end_ : nat) : nat :=
  matching_next + (end_ - matching_next) / 16 * 8.

(** [next_send], [entry/mod.rs:151-203]; the boolean is [true] for [Ok] *)
Definition pe_next_send (s : RaftState) (max_entries : nat) (p : ProgressEntry)
  : ProgressEntry * bool :=
  match pe_inflight p with
  | InfNone =>
      let last_next := next_index (rs_last s) in
      let purge_upto_next := next_index (rs_purge_upto s) in
      if pe_searching_end p <? purge_upto_next then
        (pe_set_inflight (InfSnapshot (rs_snap_last s)) p, true)
      else
        let start := Nat.max (calc_mid (next_index (pe_matching p)) (pe_searching_end p))
                             purge_upto_next in
        let end_ := Nat.min (start + max_entries) last_next in
        if start =? end_ then (pe_set_inflight InfNone p, false)
        else (pe_set_inflight (inf_logs (rs_prev_log_id s start) (rs_prev_log_id s end_)) p, true)
  | _ => (p, false)
  end.
