(** Vocabulary of the properties about one node's log. *)
From Verif Require Import Types LogIdList Membership Progress RaftState ProgressEntry Engine Store RaftCore NodeSpec LogSpec.
From stdpp Require Import base numbers option gmap list.

(** one step of a reachable node whose messages fit the history *)
Definition fits_step (E : Env) (cfg : EngineConfig) (now : nat) (ev : Event) (n n' : Node) (outs : list Out) : Prop :=
  fits_reachable E cfg n /\ node_step now ev n = Ok (n', outs) /\ event_fits E n ev /\
  own_fits E (nd_id n) (rs_last (nd_state n)) (step_produced ev n n').

(** position [a] is not after [b], neither as a log id nor by index *)
Definition pos_le (a b : option LogId) : Prop := ologid_leb a b = true /\ next_index a <= next_index b.

(** the entries of a log have consecutive indexes, directly after the purged ones *)
Definition no_holes (l : LogStore) : Prop :=
  map e_index (ls_entries l) = seq (next_index (ls_purged l)) (length (ls_entries l)).

(** the message is an append-entries or install-snapshot request *)
Definition is_follow_msg (ev : Event) : bool :=
  match ev with EMsg (MAppend _ _ _ _ _) | EMsg (MSnapshot _ _ _) => true | _ => false end.

(** the node answers an append-entries request with success in this step (the answer is
    sent once its condition, durability of what it acknowledges, is met) *)
Definition answers_success (ev : Event) (n n' : Node) (tx : nat) : Prop :=
  exists w, Respond w (RAppend ASuccess) tx ∈ step_produced ev n n'.

(** the entry of the log with its position and payload *)
Definition in_log (l : LogStore) (e : Entry) : Prop := e ∈ ls_entries l.

(** the snapshot holds the entries from index 0 up to its last log id *)
Definition snap_entries_ok (sn : Snapshot) : Prop :=
  map e_index (sn_data sn) = seq 0 (length (sn_data sn)) /\ sm_last (sn_meta sn) = es_last None (sn_data sn).
(** the commands queued for a state machine that has applied everything up to [from]:
    each range to apply starts right after the previous command's end, a snapshot to
    install does not go back, and the last one ends at [to] *)
Fixpoint sm_in_order (from : option LogId) (q : list SmCmd) (to : option LogId) : Prop :=
  match q with
  | [] => to = from
  | SmApply f l :: r =>
      lid_index f = next_index from /\ pos_le (Some f) (Some l) /\ sm_in_order (Some l) r to
  | SmBuild :: r => sm_in_order from r to
  | SmInstall sn _ :: r =>
      pos_le from (sm_last (sn_meta sn)) /\ snap_entries_ok sn /\ sm_in_order (sm_last (sn_meta sn)) r to
  end.

(** the log holds position [p]: nothing, an entry with this log id, or a position at or
    below the purge position *)
Definition holds_pos (l : LogStore) (p : option LogId) : Prop :=
  match p with
  | None => True
  | Some x => ls_purged l = Some x \/ S (lid_index x) < next_index (ls_purged l) \/ exists e, e ∈ ls_entries l /\ e_log_id e = x
  end.
(** the leader is not sending any follower a range of entries reaching down to [u] *)
Definition not_sending (u : LogId) (e : Engine) : Prop :=
  forall l x, en_leader e = Some l -> x ∈ vp_vec (ld_progress l) -> pe_is_log_range_inflight x.2 u = false.
