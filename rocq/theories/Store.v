(** Model of the storage a node runs on: the log store ([RaftLogStorage],
    [storage/v2/raft_log_storage.rs]), the state machine and its snapshots
    ([RaftStateMachine], [storage/v2/raft_state_machine.rs]).

    Openraft only states requirements for these; the model is the most general storage
    that meets them:
    - write operations are serialized ([raft_log_storage.rs:20-26]): they reach the disk
      in the order of submission; the disk holds the effect of a prefix of them;
    - [save_vote] has reached the disk when it returns (lines 52-57), hence so have all
      earlier operations;
    - [append] is readable when it returns and calls its callback some time after it
      reached the disk (lines 82-103);
    - [truncate], [purge], [save_committed] need not be on disk when they return.
    The application state is the list of all entries applied. *)
From Verif Require Import Types LogIdList Membership RaftState ProgressEntry Engine.
From stdpp Require Import base numbers option list.

(** ** Log store *)

(** purge position and the entries present *)
Record LogStore := mkLS { ls_purged : option LogId; ls_entries : list Entry }.
Definition ls_append (es : list Entry) (l : LogStore) : LogStore :=
  mkLS (ls_purged l) (ls_entries l ++ es).
Definition ls_truncate (since : nat) (l : LogStore) : LogStore :=
  mkLS (ls_purged l) (filter (fun e => e_index e < since) (ls_entries l)).
Definition ls_purge (upto : LogId) (l : LogStore) : LogStore :=
  mkLS (Some upto) (filter (fun e => lid_index upto < e_index e) (ls_entries l)).
(** [RaftLogReader::try_get_log_entries], [start, end) *)
Definition ls_read (start end_ : nat) (l : LogStore) : list Entry :=
  filter (fun e => start <= e_index e < end_) (ls_entries l).
(** [get_log_state().last_log_id], [raft_log_storage.rs:36-43] *)
Definition ls_last (l : LogStore) : option LogId :=
  match last (ls_entries l) with
  | Some e => Some (e_log_id e)
  | None => ls_purged l
  end.

(** what is persisted by the log store *)
Record Disk := mkDisk {
  dk_vote : option Vote;
  dk_committed : option LogId;
  dk_log : LogStore;
}.
Definition disk_empty : Disk := mkDisk None None (mkLS None []).

Inductive WOp :=
| WVote (v : Vote)
| WCommitted (c : option LogId)
| WAppend (es : list Entry)
| WTruncate (since : LogId)
| WPurge (upto : LogId).
Definition wop_apply (d : Disk) (op : WOp) : Disk :=
  match op with
  | WVote v => mkDisk (Some v) (dk_committed d) (dk_log d)
  | WCommitted c => mkDisk (dk_vote d) c (dk_log d)
  | WAppend es => mkDisk (dk_vote d) (dk_committed d) (ls_append es (dk_log d))
  | WTruncate s => mkDisk (dk_vote d) (dk_committed d) (ls_truncate (lid_index s) (dk_log d))
  | WPurge u => mkDisk (dk_vote d) (dk_committed d) (ls_purge u (dk_log d))
  end.

(** disk; operations submitted but not yet on disk, in order, with the id to report for
    an append; ids of appends on disk whose callback has not been called yet *)
Record Store := mkStore {
  so_disk : Disk;
  so_pending : list (WOp * option IOId);
  so_callbacks : list IOId;
}.
(** what a reader sees *)
Definition so_view (s : Store) : Disk := foldl wop_apply (so_disk s) (map fst (so_pending s)).
Definition so_log (s : Store) : LogStore := dk_log (so_view s).
Definition so_submit (op : WOp) (io : option IOId) (s : Store) : Store :=
  mkStore (so_disk s) (so_pending s ++ [(op, io)]) (so_callbacks s).
(** the first [k] pending operations reach the disk *)
Definition so_flush (k : nat) (s : Store) : Store :=
  mkStore (foldl wop_apply (so_disk s) (map fst (take k (so_pending s))))
          (drop k (so_pending s))
          (so_callbacks s ++ omap snd (take k (so_pending s))).
Definition so_save_vote (v : Vote) (s : Store) : Store :=
  let s1 := so_submit (WVote v) None s in so_flush (length (so_pending s1)) s1.

(** ** State machine *)

Record StateMachine := mkSM {
  sm_entries : list Entry;        (* everything applied, in order *)
  sm_applied : option LogId;      (* log id of the last entry applied *)
  sm_membership : EffMem;         (* last membership applied *)
  sm_snapshot : option Snapshot;  (* current snapshot *)
}.
Definition sm_empty : StateMachine := mkSM [] None em_default None.

(** [RaftStateMachine::apply]: one entry *)
Definition sm_apply_one (sm : StateMachine) (e : Entry) : StateMachine :=
  mkSM (sm_entries sm ++ [e]) (Some (e_log_id e))
       (match e_payload e with
        | PMembership m => mkEM (Some (e_log_id e)) m
        | _ => sm_membership sm
        end)
       (sm_snapshot sm).
Definition sm_apply (es : list Entry) (sm : StateMachine) : StateMachine := foldl sm_apply_one sm es.

(** [RaftSnapshotBuilder::build_snapshot]; snapshot ids are not used by the model *)
Definition sm_build (sm : StateMachine) : Snapshot :=
  mkSnapshot (mkSnapMeta (sm_applied sm) (sm_membership sm) 0) (sm_entries sm).
(** a finished build becomes the current snapshot unless that is already newer *)
Definition sm_set_snapshot (sn : Snapshot) (sm : StateMachine) : StateMachine :=
  let newer := match sm_snapshot sm with
               | Some old => ologid_ltb (sm_last (sn_meta old)) (sm_last (sn_meta sn))
               | None => true
               end in
  if newer then mkSM (sm_entries sm) (sm_applied sm) (sm_membership sm) (Some sn) else sm.
(** [RaftStateMachine::install_snapshot] *)
Definition sm_install (sn : Snapshot) (sm : StateMachine) : StateMachine :=
  mkSM (sn_data sn) (sm_last (sn_meta sn)) (sm_mem (sn_meta sn)) (Some sn).

(** A state machine may lose what it applied since the current snapshot: [keep] entries
    of its history survive, but no fewer than the snapshot has. *)
Definition sm_replay (es : list Entry) (sn : option Snapshot) : StateMachine :=
  sm_apply es (mkSM [] None em_default sn).
Definition sm_crash (keep : nat) (sm : StateMachine) : StateMachine :=
  match sm_snapshot sm with
  | Some sn =>
      if keep <=? length (sn_data sn) then sm_install sn sm
      else sm_apply (drop (length (sn_data sn)) (take keep (sm_entries sm))) (sm_install sn sm)
  | None => sm_replay (take keep (sm_entries sm)) None
  end.

(** ** Restart: [StorageHelper], [storage/helper.rs] *)

(** [last_membership_in_log], [helper.rs:272-306]: at most two, newest last; the
    chunked backwards scan reads the same entries as one scan. *)
Definition memberships_in (es : list Entry) : list EffMem := rev (memberships_rev (rev es)).
Definition helper_last_memberships (l : LogStore) (since : nat) : list EffMem :=
  last_two_memberships (ls_read (Nat.max (next_index (ls_purged l)) since) (next_index (ls_last l)) l).

(** [get_membership], [helper.rs:238-264] *)
Definition helper_get_membership (l : LogStore) (sm : StateMachine) : MemState :=
  match helper_last_memberships l (next_index (sm_applied sm)) with
  | [a; b] => mkMS a b
  | [a] => mkMS (sm_membership sm) a
  | _ => mkMS (sm_membership sm) (sm_membership sm)
  end.

(** [reapply_committed], [helper.rs:172-220]: the chunked loop applies [start, end);
    [Panic] is a storage error because entries are missing. *)
Definition helper_reapply (start end_ : nat) (l : LogStore) (sm : StateMachine) : res StateMachine :=
  let es := ls_read start end_ l in
  if length es =? end_ - start then Ok (sm_apply es sm) else Panic.

(** [get_initial_state], [helper.rs:64-169].  Returns the state and what it wrote. *)
Definition helper_initial_state (now : nat) (d : Disk) (sm : StateMachine)
  : res (RaftState * Disk * StateMachine) :=
  let vote := default vote_default (dk_vote d) in
  let last_applied := sm_applied sm in
  let committed := if ologid_ltb (dk_committed d) last_applied then last_applied else dk_committed d in
  let! sm1 := if ologid_ltb last_applied committed
              then helper_reapply (next_index last_applied) (next_index committed) (dk_log d) sm
              else Ok sm in
  let last_applied := if ologid_ltb last_applied committed then committed else last_applied in
  let mem := helper_get_membership (dk_log d) sm1 in
  let last_log := ls_last (dk_log d) in
  let '(d1, last_log, last_purged) :=
    match last_applied with
    | Some la =>
        if ologid_ltb last_log last_applied
        then (wop_apply d (WPurge la), last_applied, last_applied)
        else (d, last_log, ls_purged (dk_log d))
    | None => (d, last_log, ls_purged (dk_log d))
    end in
  let log := dk_log d1 in
  let sto := fun i => match ls_read i (S i) log with e :: _ => Some (e_log_id e) | [] => None end in
  match load_log_ids (S (2 * next_index last_log)) last_purged last_log sto with
  | LoadOk ids =>
      let sm2 := match sm_snapshot sm1, last_purged with
                 | None, Some _ => mkSM (sm_entries sm1) (sm_applied sm1) (sm_membership sm1) (Some (sm_build sm1))
                 | _, _ => sm1
                 end in
      let meta := match sm_snapshot sm2 with Some sn => sn_meta sn | None => sm_default end in
      Ok (mkRS (mkLeased vote (Some now) 0 true) last_applied (next_index last_purged) ids mem meta
               SLearner (io_state_new vote last_applied (sm_last meta) last_purged) last_purged,
          d1, sm2)
  | _ => Panic
  end.
