(** Model of the acceptor state, [raft_state/mod.rs], with the leased vote
    ([utime.rs]), the IO cursors ([raft_state/io_state.rs], [io_progress.rs]) and the
    log-state reader ([raft_state/log_state_reader.rs]).

    Release-build semantics: [debug_assert!] and the [Valid<..>] wrappers are not
    branches.  Durations and instants are [nat]. *)
From Verif Require Import Types LogIdList Membership.
From stdpp Require Import base numbers option gmap list.

(** A computation that may panic. *)
Inductive res (A : Type) := Ok (a : A) | Panic.
Arguments Ok {A}. Arguments Panic {A}.
Definition res_bind {A B} (x : res A) (f : A -> res B) : res B :=
  match x with Ok a => f a | Panic => Panic end.
Notation "'let!' x ':=' e 'in' k" := (res_bind e (fun x => k))
  (at level 200, x pattern, e at level 200, k at level 200).

(** ** Leased vote *)

(** [Leased<Vote, I>], [utime.rs:13-18] *)
Record Leased := mkLeased {
  l_vote : Vote;
  l_utime : option nat;
  l_lease : nat;
  l_enabled : bool;
}.
(** [Leased::default], [utime.rs:31-40] *)
Definition leased_default : Leased := mkLeased vote_default None 0 true.
(** [Leased::update], [utime.rs:132-137] *)
Definition leased_update (now lease : nat) (v : Vote) (l : Leased) : Leased :=
  mkLeased v (Some now) lease true.
(** [Leased::disable_lease], [utime.rs:141-144] *)
Definition leased_disable (l : Leased) : Leased :=
  mkLeased (l_vote l) (l_utime l) 0 false.
(** [Leased::is_expired], [utime.rs:148-153] *)
Definition leased_is_expired (now timeout : nat) (l : Leased) : bool :=
  match l_utime l with
  | Some u => u + l_lease l + timeout <? now
  | None => true
  end.
(** [Leased::touch], [utime.rs:156-168] *)
Definition leased_touch (now lease : nat) (l : Leased) : Leased :=
  mkLeased (l_vote l) (Some now) (if l_enabled l then lease else l_lease l) (l_enabled l).

(** ** IO state *)

(** [IOState], [raft_state/io_state.rs:62-83], with the three cursors of
    [IOProgress], [io_state/io_progress.rs], inlined. *)
Record IOState := mkIO {
  io_building : bool;
  io_accepted : option IOId;
  io_submitted : option IOId;
  io_flushed : option IOId;
  io_applied : option LogId;
  io_snapshot : option LogId;
  io_purged : option LogId;
}.
Definition io_default : IOState := mkIO false None None None None None None.
(** [IOState::new], [io_state.rs:105-124] *)
Definition io_state_new (v : Vote) (applied snapshot purged : option LogId) : IOState :=
  mkIO false (Some (io_new v)) (Some (io_new v)) (Some (io_new v)) applied snapshot purged.
(** [io_progress.rs:81-113]: the cursor is set without a check in a release build *)
Definition io_set_accepted (x : IOId) (s : IOState) : IOState :=
  mkIO (io_building s) (Some x) (io_submitted s) (io_flushed s) (io_applied s) (io_snapshot s) (io_purged s).
Definition io_set_submitted (x : IOId) (s : IOState) : IOState :=
  mkIO (io_building s) (io_accepted s) (Some x) (io_flushed s) (io_applied s) (io_snapshot s) (io_purged s).
Definition io_set_flushed (x : IOId) (s : IOState) : IOState :=
  mkIO (io_building s) (io_accepted s) (io_submitted s) (Some x) (io_applied s) (io_snapshot s) (io_purged s).
(** [io_state.rs:126-176] *)
Definition io_set_building (b : bool) (s : IOState) : IOState :=
  mkIO b (io_accepted s) (io_submitted s) (io_flushed s) (io_applied s) (io_snapshot s) (io_purged s).
Definition io_set_applied (x : option LogId) (s : IOState) : IOState :=
  mkIO (io_building s) (io_accepted s) (io_submitted s) (io_flushed s) x (io_snapshot s) (io_purged s).
Definition io_set_snapshot (x : option LogId) (s : IOState) : IOState :=
  mkIO (io_building s) (io_accepted s) (io_submitted s) (io_flushed s) (io_applied s) x (io_purged s).
Definition io_set_purged (x : option LogId) (s : IOState) : IOState :=
  mkIO (io_building s) (io_accepted s) (io_submitted s) (io_flushed s) (io_applied s) (io_snapshot s) x.

(** ** RaftState *)

(** [core/server_state.rs]; [Shutdown] is not modelled *)
Inductive ServerState := SLearner | SFollower | SCandidate | SLeader.
Global Instance serverstate_eq_dec : EqDecision ServerState.
Proof. solve_decision. Defined.

(** [SnapshotMeta], [storage/snapshot_meta.rs:17-30]; [StoredMembership] is an
    [EffMem]; snapshot ids are [nat]. *)
Record SnapshotMeta := mkSnapMeta {
  sm_last : option LogId;
  sm_mem : EffMem;
  sm_id : nat;
}.
Definition sm_default : SnapshotMeta := mkSnapMeta None em_default 0.

(** [RaftState], [raft_state/mod.rs:48-86] *)
Record RaftState := mkRS {
  rs_vote : Leased;
  rs_committed : option LogId;
  rs_purged_next : nat;
  rs_log_ids : list LogId;
  rs_mem : MemState;
  rs_snap : SnapshotMeta;
  rs_server : ServerState;
  rs_io : IOState;
  rs_purge_upto : option LogId;
}.
(** [RaftState::default], [raft_state/mod.rs:91-103] *)
Definition rs_default : RaftState :=
  mkRS leased_default None 0 [] ms_default sm_default SLearner io_default None.

(** Field updates. *)
Definition set_vote (x : Leased) (s : RaftState) : RaftState :=
  mkRS x (rs_committed s) (rs_purged_next s) (rs_log_ids s) (rs_mem s) (rs_snap s) (rs_server s) (rs_io s) (rs_purge_upto s).
Definition set_committed (x : option LogId) (s : RaftState) : RaftState :=
  mkRS (rs_vote s) x (rs_purged_next s) (rs_log_ids s) (rs_mem s) (rs_snap s) (rs_server s) (rs_io s) (rs_purge_upto s).
Definition set_purged (n : nat) (ids : list LogId) (s : RaftState) : RaftState :=
  mkRS (rs_vote s) (rs_committed s) n ids (rs_mem s) (rs_snap s) (rs_server s) (rs_io s) (rs_purge_upto s).
Definition set_log_ids (x : list LogId) (s : RaftState) : RaftState :=
  mkRS (rs_vote s) (rs_committed s) (rs_purged_next s) x (rs_mem s) (rs_snap s) (rs_server s) (rs_io s) (rs_purge_upto s).
Definition set_mem (x : MemState) (s : RaftState) : RaftState :=
  mkRS (rs_vote s) (rs_committed s) (rs_purged_next s) (rs_log_ids s) x (rs_snap s) (rs_server s) (rs_io s) (rs_purge_upto s).
Definition set_snap (x : SnapshotMeta) (s : RaftState) : RaftState :=
  mkRS (rs_vote s) (rs_committed s) (rs_purged_next s) (rs_log_ids s) (rs_mem s) x (rs_server s) (rs_io s) (rs_purge_upto s).
Definition set_server (x : ServerState) (s : RaftState) : RaftState :=
  mkRS (rs_vote s) (rs_committed s) (rs_purged_next s) (rs_log_ids s) (rs_mem s) (rs_snap s) x (rs_io s) (rs_purge_upto s).
Definition set_io (x : IOState) (s : RaftState) : RaftState :=
  mkRS (rs_vote s) (rs_committed s) (rs_purged_next s) (rs_log_ids s) (rs_mem s) (rs_snap s) (rs_server s) x (rs_purge_upto s).
Definition set_purge_upto (x : option LogId) (s : RaftState) : RaftState :=
  mkRS (rs_vote s) (rs_committed s) (rs_purged_next s) (rs_log_ids s) (rs_mem s) (rs_snap s) (rs_server s) (rs_io s) x.

(** ** Readers *)

(** [vote_ref], [raft_state/mod.rs:190-192] *)
Definition rs_v (s : RaftState) : Vote := l_vote (rs_vote s).
(** [get_log_id], [last_log_id], [snapshot_last_log_id], [last_purged_log_id],
    [raft_state/mod.rs:109-146] *)
Definition rs_get_log_id (s : RaftState) (i : nat) : option LogId := lil_get (rs_log_ids s) i.
Definition rs_last (s : RaftState) : option LogId := lil_last (rs_log_ids s).
Definition rs_snap_last (s : RaftState) : option LogId := sm_last (rs_snap s).
Definition rs_last_purged (s : RaftState) : option LogId :=
  if rs_purged_next s =? 0 then None else lil_first (rs_log_ids s).

(** [prev_log_id], [log_state_reader.rs:12-18] *)
Definition rs_prev_log_id (s : RaftState) (i : nat) : option LogId :=
  match i with 0 => None | S j => rs_get_log_id s j end.

(** [has_log_id], [log_state_reader.rs:23-35] *)
Definition rs_has_log_id (s : RaftState) (l : LogId) : bool :=
  if lid_index l <? next_index (rs_committed s) then true
  else match rs_get_log_id s (lid_index l) with
       | Some local => logid_eqb l local
       | None => false
       end.

(** [first_conflicting_index], [raft_state/mod.rs:299-318] *)
Fixpoint rs_first_conflicting (s : RaftState) (entries : list Entry) : nat :=
  match entries with
  | [] => 0
  | e :: r => if rs_has_log_id s (e_log_id e) then S (rs_first_conflicting s r) else 0
  end.

(** [is_initialized], [raft_state/mod.rs:199-212] *)
Definition rs_is_initialized (s : RaftState) : bool :=
  match rs_last s with
  | Some _ => true
  | None => negb (vote_eqb (rs_v s) vote_default)
  end.

Definition rs_eff (s : RaftState) : EffMem := ms_effective (rs_mem s).
(** [is_voter], [raft_state/mod.rs:358-360] *)
Definition rs_is_voter (s : RaftState) (id : nat) : bool := m_is_voter (em_mem (rs_eff s)) id.
(** [is_leading], [raft_state/mod.rs:369-371] *)
Definition rs_is_leading (s : RaftState) (id : nat) : bool :=
  m_contains (em_mem (rs_eff s)) id
  && match voted_for (rs_v s) with Some x => x =? id | None => false end.
(** [is_leader], [raft_state/mod.rs:381-383] *)
Definition rs_is_leader (s : RaftState) (id : nat) : bool :=
  rs_is_leading s id && v_committed (rs_v s).
(** [calc_server_state], [raft_state/mod.rs:332-356] *)
Definition rs_calc_server (s : RaftState) (id : nat) : ServerState :=
  if rs_is_leader s id then SLeader
  else if rs_is_leading s id then SCandidate
  else if rs_is_voter s id then SFollower else SLearner.

(** [forward_to_leader], [new_forward_to_leader], [raft_state/mod.rs:405-429]: the
    leader id and its node record, or nothing. *)
Definition rs_new_forward (s : RaftState) (to : nat) : option (nat * nat) :=
  match m_nodes (em_mem (rs_eff s)) !! to with
  | Some n => Some (to, n)
  | None => None
  end.
Definition rs_forward (s : RaftState) : option (nat * nat) :=
  if v_committed (rs_v s) then rs_new_forward s (li_node (v_leader (rs_v s))) else None.

(** ** Updates *)

(** [accept_io], [raft_state/mod.rs:224-250] *)
Definition rs_accept_io (x : IOId) (s : RaftState) : RaftState :=
  let greater := match io_accepted (rs_io s) with None => true | Some c => io_gtb x c end in
  if greater then set_io (io_set_accepted x (rs_io s)) s else s.

(** [extend_log_ids_from_same_leader], [extend_log_ids], [raft_state/mod.rs:255-261] *)
Definition rs_extend_same (entries : list Entry) (s : RaftState) : RaftState :=
  set_log_ids (lil_extend_same (rs_log_ids s) (map e_log_id entries)) s.
Definition rs_extend (entries : list Entry) (s : RaftState) : RaftState :=
  set_log_ids (lil_extend (rs_log_ids s) (map e_log_id entries)) s.

(** [update_committed], [raft_state/mod.rs:266-277]: [Some prev] if updated *)
Definition rs_update_committed (c : option LogId) (s : RaftState) : RaftState * option (option LogId) :=
  if ologid_ltb (rs_committed s) c
  then (set_mem (ms_commit (rs_mem s) c) (set_committed c s), Some (rs_committed s))
  else (s, None).

(** [purge_log], [raft_state/mod.rs:321-324] *)
Definition rs_purge_log (upto : LogId) (s : RaftState) : RaftState :=
  set_purged (S (lid_index upto)) (lil_purge (rs_log_ids s) upto) s.
