(** Model of the engine: [engine/engine_impl.rs] and its handlers
    [engine/handler/*/mod.rs], [proposer/leader.rs], [proposer/candidate.rs],
    [engine/command.rs].

    - The handlers borrow parts of the engine; here every handler function takes and
      returns the whole [Engine].
    - [C::now()] is a parameter; all reads of the clock within one call return the same
      value.
    - A panic is [Panic]: the node stops.  [debug_assert!] is not a branch.
    - Response channels [tx] are request numbers ([nat]). *)
From Verif Require Import Types LogIdList Quorum Membership Progress RaftState ProgressEntry.
From stdpp Require Import base numbers option gmap list.

(** ** Requests and responses *)

(** [raft/message/vote.rs] *)
Record VoteReq := mkVoteReq { vq_vote : Vote; vq_last : option LogId }.
Record VoteResp := mkVoteResp { vr_vote : Vote; vr_last : option LogId; vr_granted : bool }.
(** [raft/message/append_entries.rs]; [PartialSuccess] is produced by a network
    implementation only, see [Replication.v] *)
Inductive AppendResp := ASuccess | AHigherVote (v : Vote) | AConflict.
(** [raft/message/transfer_leader.rs:11-22] *)
Record TransferReq := mkTransferReq { tq_from : Vote; tq_to : nat; tq_last : option LogId }.
(** [storage/mod.rs]: [Snapshot{meta, snapshot}].  The application state is represented
    by the entries applied to reach it. *)
Record Snapshot := mkSnapshot { sn_meta : SnapshotMeta; sn_data : list Entry }.

(** [error/initialize]: [InitializeError] *)
Inductive InitErr :=
| NotAllowed (last : option LogId) (v : Vote)
| NotInMembers.

(** ** Commands *)

(** [Condition], [command.rs:285-307] *)
Inductive Condition :=
| IOFlushed (i : IOId)
| LogFlushed (l : option LogId)
| CApplied (l : option LogId)
| CSnapshot (l : option LogId).

(** [Respond], [command.rs:329-338] (those used by the engine) *)
Inductive Resp :=
| RVote (r : VoteResp)
| RAppend (r : AppendResp)
| RSnapshot (v : Vote)
| RInitialize (e : option InitErr).

(** [replication/request.rs]: what a replication stream is told to send *)
Inductive Replicate := ReplLogs (r : LogIdRange) | ReplSnapshot (l : option LogId).

(** [ReplicationSessionId], [replication/replication_session_id.rs] *)
Record SessionId := mkSession { ss_vote : Vote; ss_mem : option LogId }.

(** [Command], [command.rs:32-138]; [StateMachine] commands [core/sm/command.rs] are
    inlined ([GetSnapshot], [Func] and [BeginReceivingSnapshot] do not come from the
    engine state and are left out). *)
Inductive Command :=
| UpdateIOProgress (when : option Condition) (io : IOId)
| AppendInputEntries (committed_vote : Vote) (entries : list Entry)
| ReplicateCommitted (committed : option LogId)
| BroadcastHeartbeat (session : SessionId) (committed : option LogId)
| SaveCommitted (committed : LogId)
| CmdApply (already_committed : option LogId) (upto : LogId)
| CmdReplicate (target : nat) (req : Replicate)
| BroadcastTransferLeader (req : TransferReq)
| RebuildReplicationStreams (targets : list (nat * ProgressEntry))
| SaveVote (v : Vote)
| SendVote (req : VoteReq)
| PurgeLog (upto : LogId)
| TruncateLog (since : LogId)
| BuildSnapshot
| InstallSnapshot (s : Snapshot) (io : IOId)
| Respond (when : option Condition) (resp : Resp) (tx : nat).

(** [Command::condition], [command.rs:257-279] *)
Definition cmd_condition (c : Command) : option Condition :=
  match c with
  | UpdateIOProgress w _ => w
  | PurgeLog upto => Some (CSnapshot (Some upto))
  | Respond w _ _ => w
  | _ => None
  end.

(** ** Leader and candidate *)

Definition LeaderProgress := VecProgress ProgressEntry (option LogId).
Definition ClockProgress := VecProgress (option nat) (option nat).
Definition VoteProgress := VecProgress bool bool.
(** [learner_ids()] in ascending order (keys of a [BTreeMap]), [membership.rs:146-148] *)
Definition m_learners (m : Membership) : list nat := sorted_ids (m_learner_ids m).

(** [Leader], [proposer/leader.rs:34-71] *)
Record Leader := mkLeader {
  ld_transfer : option nat;
  ld_vote : Vote;
  ld_next_heartbeat : nat;
  ld_last : option LogId;
  ld_noop : option LogId;
  ld_progress : LeaderProgress;
  ld_clock : ClockProgress;
}.
Definition ld_set_vote (v : Vote) (l : Leader) : Leader :=
  mkLeader (ld_transfer l) v (ld_next_heartbeat l) (ld_last l) (ld_noop l) (ld_progress l) (ld_clock l).
Definition ld_set_last (x : option LogId) (l : Leader) : Leader :=
  mkLeader (ld_transfer l) (ld_vote l) (ld_next_heartbeat l) x (ld_noop l) (ld_progress l) (ld_clock l).
Definition ld_set_progress (p : LeaderProgress) (l : Leader) : Leader :=
  mkLeader (ld_transfer l) (ld_vote l) (ld_next_heartbeat l) (ld_last l) (ld_noop l) p (ld_clock l).
Definition ld_set_clock (c : ClockProgress) (l : Leader) : Leader :=
  mkLeader (ld_transfer l) (ld_vote l) (ld_next_heartbeat l) (ld_last l) (ld_noop l) (ld_progress l) c.
Definition ld_set_transfer (t : option nat) (l : Leader) : Leader :=
  mkLeader t (ld_vote l) (ld_next_heartbeat l) (ld_last l) (ld_noop l) (ld_progress l) (ld_clock l).
Definition ld_set_heartbeat (t : nat) (l : Leader) : Leader :=
  mkLeader (ld_transfer l) (ld_vote l) t (ld_last l) (ld_noop l) (ld_progress l) (ld_clock l).

(** [Candidate], [proposer/candidate.rs:24-45] *)
Record Candidate := mkCand {
  cd_start : nat;
  cd_vote : Vote;
  cd_last : option LogId;
  cd_progress : VoteProgress;
  cd_qs : list (gset nat);
  cd_learners : list nat;
}.

(** [Leader::new], [leader.rs:81-134] *)
Definition leader_new (now : nat) (vote : Vote) (qs : list (gset nat)) (learners : list nat)
    (last_leader_ids : list LogId) : Leader :=
  let lst := last last_leader_ids in
  let noop :=
    match head last_leader_ids with
    | Some f => if leader_eqb (lid_leader f) (v_leader vote) then f
                else mkLogId (v_leader vote) (next_index lst)
    | None => mkLogId (v_leader vote) (next_index lst)
    end in
  mkLeader None vote now lst (Some noop)
    (vp_new pe_matching qs learners (pe_empty (next_index lst)))
    (vp_new (fun x : option nat => x) qs learners None).

(** [Candidate::new], [candidate.rs:61-76] *)
Definition candidate_new (now : nat) (vote : Vote) (lst : option LogId) (qs : list (gset nat))
    (learners : list nat) : Candidate :=
  mkCand now vote lst (vp_new (fun b : bool => b) qs [] false) qs learners.

(** [Candidate::grant_by], [candidate.rs:91-97]; [Panic] is the [expect] *)
Definition cand_grant (c : Candidate) (target : nat) : res (Candidate * bool) :=
  let '(p, ok) := vp_update implb (fun b : bool => b) (cd_progress c) target true in
  if ok then Ok (mkCand (cd_start c) (cd_vote c) (cd_last c) p (cd_qs c) (cd_learners c), vp_granted p)
  else Panic.

(** [Candidate::into_leader], [candidate.rs:105-116] *)
Definition cand_into_leader (now : nat) (c : Candidate) : Leader :=
  leader_new now (into_committed (cd_vote c)) (cd_qs c) (cd_learners c)
    (match cd_last c with Some l => [l] | None => [] end).

(** ** Engine *)

(** [EngineConfig], [engine/engine_config.rs:12-29]; [ec_snapshot] is [None] for
    [SnapshotPolicy::Never] and [Some n] for [LogsSinceLast(n)]. *)
Record EngineConfig := mkEC {
  ec_id : nat;
  ec_snapshot : option nat;
  ec_max_keep : nat;
  ec_purge_batch : nat;
  ec_max_payload : nat;
  ec_election_timeout : nat;
  ec_smaller_log_timeout : nat;
  ec_leader_lease : nat;
}.

(** [Engine], [engine_impl.rs:68-95] *)
Record Engine := mkEngine {
  en_cfg : EngineConfig;
  en_state : RaftState;
  en_seen_greater : bool;
  en_leader : option Leader;
  en_cand : option Candidate;
  en_out : list Command;
}.
(** [Engine::new], [engine_impl.rs:100-109] *)
Definition engine_new (s : RaftState) (cfg : EngineConfig) : Engine :=
  mkEngine cfg s false None None [].

Definition upd (f : RaftState -> RaftState) (e : Engine) : Engine :=
  mkEngine (en_cfg e) (f (en_state e)) (en_seen_greater e) (en_leader e) (en_cand e) (en_out e).
Definition set_leader (l : option Leader) (e : Engine) : Engine :=
  mkEngine (en_cfg e) (en_state e) (en_seen_greater e) l (en_cand e) (en_out e).
Definition set_cand (c : option Candidate) (e : Engine) : Engine :=
  mkEngine (en_cfg e) (en_state e) (en_seen_greater e) (en_leader e) c (en_out e).
Definition set_greater (b : bool) (e : Engine) : Engine :=
  mkEngine (en_cfg e) (en_state e) b (en_leader e) (en_cand e) (en_out e).
(** [EngineOutput::push_command], [engine_output.rs:29-32] *)
Definition push (c : Command) (e : Engine) : Engine :=
  mkEngine (en_cfg e) (en_state e) (en_seen_greater e) (en_leader e) (en_cand e) (en_out e ++ [c]).
Definition push_all (cs : list Command) (e : Engine) : Engine :=
  mkEngine (en_cfg e) (en_state e) (en_seen_greater e) (en_leader e) (en_cand e) (en_out e ++ cs).
Definition en_id (e : Engine) : nat := ec_id (en_cfg e).

(** ** ServerStateHandler, SnapshotHandler, LogHandler *)

(** [update_server_state_if_changed], [server_state_handler/mod.rs:22-48] *)
Definition ssh_update (e : Engine) : Engine :=
  let ss := rs_calc_server (en_state e) (en_id e) in
  if bool_decide (rs_server (en_state e) = ss) then e else upd (set_server ss) e.

(** [trigger_snapshot], [snapshot_handler/mod.rs:30-44] *)
Definition sh_trigger (e : Engine) : Engine :=
  if io_building (rs_io (en_state e)) then e
  else push BuildSnapshot (upd (fun s => set_io (io_set_building true (rs_io s)) s) e).

(** [update_snapshot], [snapshot_handler/mod.rs:53-68] *)
Definition sh_update (meta : SnapshotMeta) (e : Engine) : Engine * bool :=
  if ologid_leb (sm_last meta) (rs_snap_last (en_state e)) then (e, false)
  else (upd (set_snap meta) e, true).

(** [SnapshotPolicy::should_snapshot], [config/config.rs:40-48] *)
Definition should_snapshot (cfg : EngineConfig) (s : RaftState) : bool :=
  match ec_snapshot cfg with
  | Some n => next_index (rs_snap_last s) + n <=? next_index (rs_committed s)
  | None => false
  end.

(** [purge_log], [log_handler/mod.rs:30-48] *)
Definition logh_purge (e : Engine) : Engine :=
  if ologid_leb (rs_purge_upto (en_state e)) (rs_last_purged (en_state e)) then e
  else match rs_purge_upto (en_state e) with
       | Some upto => push (PurgeLog upto) (upd (rs_purge_log upto) e)
       | None => e (* not reachable: [None <= _] *)
       end.

(** [calc_purge_upto], [log_handler/mod.rs:77-112].  [purge_end - 1] wraps to the
    maximum for [purge_end = 0] (possible only if the batch size is 0); a lookup there
    gives nothing. *)
Definition logh_calc_purge_upto (e : Engine) : option LogId :=
  let s := en_state e in
  let purge_end := next_index (rs_snap_last s) - ec_max_keep (en_cfg e) in
  if purge_end <? next_index (rs_last_purged s) + ec_purge_batch (en_cfg e) then None
  else if purge_end =? 0 then None
  else rs_get_log_id s (purge_end - 1).

(** [schedule_policy_based_purge], [update_purge_upto], [log_handler/mod.rs:56-67] *)
Definition logh_schedule (e : Engine) : Engine :=
  match logh_calc_purge_upto e with
  | Some l => upd (set_purge_upto (Some l)) e
  | None => e
  end.

(** ** ReplicationHandler: all functions panic if there is no leader,
    [engine_impl.rs:769-783] *)

(** [rebuild_progresses], [replication_handler/mod.rs:88-109] *)
Definition rh_rebuild_progresses (e : Engine) : res Engine :=
  match en_leader e with
  | None => Panic
  | Some l =>
      let m := em_mem (rs_eff (en_state e)) in
      let end_ := next_index (rs_last (en_state e)) in
      let l1 := ld_set_progress (vp_upgrade ologid_leb pe_matching (ld_progress l) (m_configs m)
                                   (m_learners m) (pe_empty end_)) l in
      let l2 := ld_set_clock (vp_upgrade onat_leb (fun x : option nat => x) (ld_clock l1)
                                (m_configs m) (m_learners m) None) l1 in
      Ok (set_leader (Some l2) e)
  end.

(** [rebuild_replication_streams], [replication_handler/mod.rs:254-267] *)
Definition rh_reset_inflight (my_id : nat) (x : nat * ProgressEntry) : nat * ProgressEntry :=
  if x.1 =? my_id then x else (x.1, pe_set_inflight InfNone x.2).
Definition rh_rebuild_streams (e : Engine) : res Engine :=
  match en_leader e with
  | None => Panic
  | Some l =>
      let p := ld_progress l in
      let vec := map (rh_reset_inflight (en_id e)) (vp_vec p) in
      let p1 := mkVP (vp_qs p) (vp_granted p) (vp_voters p) vec in
      Ok (push (RebuildReplicationStreams (filter (fun x => x.1 <> en_id e) vec))
               (set_leader (Some (ld_set_progress p1 l)) e))
  end.

(** [initiate_replication], [send_to_target], [replication_handler/mod.rs:273-305] *)
Fixpoint rh_send_all (my_id max : nat) (s : RaftState) (vec : list (nat * ProgressEntry))
  : res (list (nat * ProgressEntry) * list Command) :=
  match vec with
  | [] => Ok ([], [])
  | (id, p) :: r =>
      if id =? my_id then
        let! x := rh_send_all my_id max s r in Ok ((id, p) :: x.1, x.2)
      else
        let '(p1, ok) := pe_next_send s max p in
        if ok then
          match pe_inflight p1 with
          | InfNone => Panic
          | InfLogs lr =>
              let! x := rh_send_all my_id max s r in
              Ok ((id, p1) :: x.1, CmdReplicate id (ReplLogs lr) :: x.2)
          | InfSnapshot sl =>
              let! x := rh_send_all my_id max s r in
              Ok ((id, p1) :: x.1, CmdReplicate id (ReplSnapshot sl) :: x.2)
          end
        else
          let! x := rh_send_all my_id max s r in Ok ((id, p1) :: x.1, x.2)
  end.
Definition rh_initiate (e : Engine) : res Engine :=
  match en_leader e with
  | None => Panic
  | Some l =>
      let p := ld_progress l in
      let! x := rh_send_all (en_id e) (ec_max_payload (en_cfg e)) (en_state e) (vp_vec p) in
      Ok (push_all x.2
            (set_leader (Some (ld_set_progress (mkVP (vp_qs p) (vp_granted p) (vp_voters p) x.1) l)) e))
  end.

(** [append_membership], [replication_handler/mod.rs:56-82] *)
Definition rh_append_membership (lid : LogId) (m : Membership) (e : Engine) : res Engine :=
  let e1 := upd (fun s => set_mem (ms_append (rs_mem s) (mkEM (Some lid) m)) s) e in
  let! e2 := rh_rebuild_progresses e1 in
  let! e3 := rh_rebuild_streams e2 in
  rh_initiate e3.

(** [update_leader_clock], [replication_handler/mod.rs:114-144] *)
Definition rh_update_clock (node t : nat) (e : Engine) : res Engine :=
  match en_leader e with
  | None => Panic
  | Some l =>
      let '(c, ok) := vp_increase_to onat_leb (fun x : option nat => x) (fun a b => onat_ltb b a)
                        (ld_clock l) node (Some t) in
      if ok then Ok (set_leader (Some (ld_set_clock c l)) e) else Panic
  end.

(** [try_commit_quorum_accepted], [replication_handler/mod.rs:179-205] *)
Definition rh_try_commit (granted : option LogId) (e : Engine) : Engine :=
  let same := match granted with
              | Some c => is_same_leader (rs_v (en_state e)) (lid_leader c)
              | None => true
              end in
  if negb same then e
  else
    match rs_update_committed granted (en_state e) with
    | (s, Some prev) =>
        match rs_committed s with
        | Some c =>
            let e1 := push_all [ReplicateCommitted (rs_committed s); SaveCommitted c; CmdApply prev c]
                        (upd (fun _ => s) e) in
            if should_snapshot (en_cfg e1) (en_state e1) then sh_trigger e1 else e1
        | None => e (* not reachable: greater than an option *)
        end
    | (_, None) => e
    end.

(** [update_matching], [replication_handler/mod.rs:149-173] *)
Definition rh_update_matching (node : nat) (lid : option LogId) (e : Engine) : res Engine :=
  match en_leader e with
  | None => Panic
  | Some l =>
      match vp_get (ld_progress l) node with
      | None => Panic
      | Some pe =>
          let! pe1 := pe_update_matching pe lid in
          let p := (vp_update_with ologid_leb pe_matching (ld_progress l) node (fun _ => pe1)).1 in
          Ok (rh_try_commit (vp_granted p) (set_leader (Some (ld_set_progress p l)) e))
      end
  end.

(** assignment through [progress.get_mut(&target).unwrap()] *)
Definition rh_set_entry (target : nat) (f : ProgressEntry -> res ProgressEntry) (e : Engine) : res Engine :=
  match en_leader e with
  | None => Panic
  | Some l =>
      match vp_get (ld_progress l) target with
      | None => Panic
      | Some pe =>
          let! pe1 := f pe in
          Ok (set_leader (Some (ld_set_progress (vp_set (ld_progress l) target pe1) l)) e)
      end
  end.

(** [try_purge_log], [replication_handler/mod.rs:312-346] *)
Definition rh_try_purge (e : Engine) : res Engine :=
  match en_leader e with
  | None => Panic
  | Some l =>
      if ologid_leb (rs_purge_upto (en_state e)) (rs_last_purged (en_state e)) then Ok e
      else match rs_purge_upto (en_state e) with
           | None => Ok e (* not reachable *)
           | Some upto =>
               if existsb (fun x => pe_is_log_range_inflight x.2 upto) (vp_vec (ld_progress l))
               then Ok e else Ok (logh_purge e)
           end
  end.

(** result of one replication action, [replication/response.rs]: [ReplicationResult]
    or an error *)
Inductive ReplResult :=
| RRMatching (l : option LogId)
| RRConflict (l : LogId)
| RRError.

(** [update_progress], [update_conflicting], [replication_handler/mod.rs:210-250] *)
Definition rh_update_progress (target : nat) (r : ReplResult) (e : Engine) : res Engine :=
  let! e1 := match r with
             | RRMatching m => rh_update_matching target m e
             | RRConflict c => rh_set_entry target (fun pe => pe_update_conflicting pe (lid_index c)) e
             | RRError => rh_set_entry target (fun pe => Ok (pe_set_inflight InfNone pe)) e
             end in
  rh_try_purge e1.

(** [update_local_progress], [replication_handler/mod.rs:354-378] *)
Definition rh_update_local (upto : option LogId) (e : Engine) : res Engine :=
  match upto with
  | None => Ok e
  | Some _ =>
      match en_leader e with
      | None => Panic
      | Some l =>
          match vp_get (ld_progress l) (en_id e) with
          | None => Ok e
          | Some pe =>
              if ologid_leb upto (pe_matching pe) then Ok e
              else
                let l1 := ld_set_progress
                            (vp_set (ld_progress l) (en_id e) (pe_set_inflight (inf_logs None upto) pe)) l in
                rh_update_matching (en_id e) upto (set_leader (Some l1) e)
          end
      end
  end.

(** ** LeaderHandler *)

(** [assign_log_ids], [proposer/leader.rs:163-184] *)
Fixpoint assign_ids (leader : LeaderId) (start : nat) (ps : list Payload) : list Entry :=
  match ps with
  | [] => []
  | p :: r => mkEntry (mkLogId leader start) p :: assign_ids leader (S start) r
  end.

(** the loop of [leader_handler/mod.rs:63-72]: the last membership entry *)
Fixpoint last_membership (entries : list Entry) (acc : option (LogId * Membership))
  : option (LogId * Membership) :=
  match entries with
  | [] => acc
  | e :: r =>
      match e_payload e with
      | PMembership m => last_membership r (Some (e_log_id e, m))
      | _ => last_membership r acc
      end
  end.

(** [leader_append_entries], [leader_handler/mod.rs:53-96] *)
Definition lh_append (ps : list Payload) (e : Engine) : res Engine :=
  match en_leader e with
  | None => Panic
  | Some l =>
      match ps with
      | [] => Ok e
      | _ =>
          let entries := assign_ids (v_leader (ld_vote l)) (next_index (ld_last l)) ps in
          let lst := match last entries with Some x => Some (e_log_id x) | None => ld_last l end in
          let l1 := ld_set_last lst l in
          let e1 := upd (rs_extend_same entries) (set_leader (Some l1) e) in
          let e2 := upd (rs_accept_io (IOLog (ld_vote l1) (ld_last l1))) e1 in
          let e3 := push (AppendInputEntries (ld_vote l1) entries) e2 in
          let! e4 := match last_membership entries None with
                     | Some (lid, m) => rh_append_membership lid m e3
                     | None => Ok e3
                     end in
          rh_initiate e4
      end
  end.

(** [send_heartbeat], [leader_handler/mod.rs:99-107] *)
Definition lh_heartbeat (l : Leader) (e : Engine) : Engine :=
  push (BroadcastHeartbeat (mkSession (ld_vote l) (em_log_id (rs_eff (en_state e))))
                           (rs_committed (en_state e))) e.

(** [get_read_log_id], [leader_handler/mod.rs:112-116] *)
Definition lh_read_log_id (l : Leader) (e : Engine) : option LogId :=
  ologid_max (ld_noop l) (rs_committed (en_state e)).

(** [transfer_leader], [leader_handler/mod.rs:119-126] *)
Definition lh_transfer (to : nat) (l : Leader) (e : Engine) : Engine :=
  push (BroadcastTransferLeader (mkTransferReq (ld_vote l) to (ld_last l)))
    (upd (fun s => set_vote (leased_disable (rs_vote s)) s)
       (set_leader (Some (ld_set_transfer (Some to) l)) e)).

(** ** VoteHandler *)

(** [new_leader], [raft_state/mod.rs:391-402] *)
Definition rs_new_leader (now : nat) (s : RaftState) : Leader :=
  let m := em_mem (rs_eff s) in
  leader_new now (into_committed (rs_v s)) (m_configs m) (m_learners m)
    (lil_by_last_leader (rs_log_ids s)).

(** [become_leader], [vote_handler/mod.rs:159-217] *)
Definition vh_become_leader (now : nat) (e : Engine) : res Engine :=
  let fresh :=
    let l := rs_new_leader now (en_state e) in
    let e1 := set_leader (Some l) e in
    let io := IOLog (ld_vote l) (ld_last l) in
    let e2 := upd (rs_accept_io io) e1 in
    let e3 := push (UpdateIOProgress None io) e2 in
    let e4 := ssh_update e3 in
    let! e5 := rh_rebuild_streams e4 in
    if ologid_ltb (ld_last l) (ld_noop l) then lh_append [PBlank] e5 else rh_initiate e5 in
  match en_leader e with
  | Some l =>
      if leader_eqb (v_leader (ld_vote l)) (v_leader (rs_v (en_state e)))
      then Ok (ssh_update (set_leader (Some (ld_set_vote (into_committed (rs_v (en_state e))) l)) e))
      else fresh
  | None => fresh
  end.

(** [become_following], [vote_handler/mod.rs:222-233] *)
Definition vh_become_following (e : Engine) : Engine :=
  ssh_update (set_cand None (set_leader None e)).

(** [update_internal_server_state], [vote_handler/mod.rs:141-149] *)
Definition vh_update_internal (now : nat) (e : Engine) : res Engine :=
  if rs_is_leader (en_state e) (en_id e) then vh_become_leader now e
  else if rs_is_leading (en_state e) (en_id e) then Ok e
  else Ok (vh_become_following e).

(** [update_vote], [vote_handler/mod.rs:101-138]; the boolean is [true] for [Ok(())],
    [false] for [Err(ByVote)] *)
Definition vh_update_vote (now : nat) (v : Vote) (e : Engine) : res (Engine * bool) :=
  if negb (vote_geb v (rs_v (en_state e))) then Ok (e, false)
  else
    let lease := if v_committed v then ec_leader_lease (en_cfg e) else 0 in
    let e1 :=
      if vote_gtb v (rs_v (en_state e)) then
        push (SaveVote v)
          (upd (rs_accept_io (io_new v))
             (upd (fun s => set_vote (leased_update now lease v (rs_vote s)) s) e))
      else upd (fun s => set_vote (leased_touch now lease (rs_vote s)) s) e in
    let! e2 := vh_update_internal now e1 in
    Ok (e2, true).

(** [accept_vote], [vote_handler/mod.rs:60-89], with the rejection of its only caller
    [engine_impl.rs:461-467] *)
Definition vh_accept_vote (now : nat) (v : Vote) (tx : nat) (e : Engine) : res (Engine * bool) :=
  let! x := vh_update_vote now v e in
  if x.2 then Ok x
  else Ok (push (Respond (Some (IOFlushed (io_new (rs_v (en_state x.1)))))
                   (RSnapshot (rs_v (en_state x.1))) tx) x.1, false).

(** ** FollowingHandler *)

(** [following_handler], [engine_impl.rs:785-801] *)
Definition fh_vote (e : Engine) : Vote := into_committed (rs_v (en_state e)).

(** [last_two_memberships], [following_handler/mod.rs:336-351] *)
Fixpoint memberships_rev (entries_rev : list Entry) : list EffMem :=
  match entries_rev with
  | [] => []
  | e :: r =>
      match e_payload e with
      | PMembership m => mkEM (Some (e_log_id e)) m :: memberships_rev r
      | _ => memberships_rev r
      end
  end.
Definition last_two_memberships (entries : list Entry) : list EffMem :=
  rev (take 2 (memberships_rev (rev entries))).

(** [append_membership], [following_handler/mod.rs:219-243] *)
Definition fh_append_membership (entries : list Entry) (e : Engine) : Engine :=
  match last_two_memberships entries with
  | [] => e
  | ms => ssh_update (upd (fun s => set_mem (foldl ms_append (rs_mem s) ms) s) e)
  end.

(** [do_append_entries], [following_handler/mod.rs:141-157] *)
Definition fh_do_append (lv : Vote) (entries : list Entry) (e : Engine) : Engine :=
  push (AppendInputEntries lv entries) (fh_append_membership entries (upd (rs_extend entries) e)).

(** [truncate_logs], [following_handler/mod.rs:195-215] *)
Definition fh_truncate (since : nat) (e : Engine) : Engine :=
  match rs_get_log_id (en_state e) since with
  | None => e
  | Some lid =>
      let e1 := push (TruncateLog lid)
                  (upd (fun s => set_log_ids (lil_truncate (rs_log_ids s) since) s) e) in
      if onat_leb (Some since) (olid_index (em_log_id (rs_eff (en_state e1))))
      then ssh_update (upd (fun s => set_mem (ms_truncate (rs_mem s) since) s) e1)
      else e1
  end.

(** [append_entries], [following_handler/mod.rs:62-109] *)
Definition fh_append_entries (lv : Vote) (prev : option LogId) (entries : list Entry) (e : Engine) : Engine :=
  let lst := ologid_max prev (e_log_id <$> last entries) in
  let prev_accepted := io_accepted (rs_io (en_state e)) in
  let e1 := upd (rs_accept_io (IOLog lv lst)) e in
  let since := rs_first_conflicting (en_state e1) entries in
  match drop since entries with
  | x :: r => fh_do_append lv (x :: r) (fh_truncate (e_index x) e1)
  | [] =>
      if some_io_leb (IOLog lv lst) prev_accepted then e1
      else push (UpdateIOProgress (match prev_accepted with Some i => Some (IOFlushed i) | None => None end)
                                  (IOLog lv lst)) e1
  end.

(** [ensure_log_consecutive], [following_handler/mod.rs:114-131]; [true] for [Ok(())] *)
Definition fh_ensure_consecutive (prev : option LogId) (e : Engine) : Engine * bool :=
  match prev with
  | None => (e, true)
  | Some p => if rs_has_log_id (en_state e) p then (e, true)
              else (fh_truncate (lid_index p) e, false)
  end.

(** [commit_entries], [following_handler/mod.rs:161-188] *)
Definition fh_commit (leader_committed : option LogId) (e : Engine) : Engine :=
  let accepted := match io_accepted (rs_io (en_state e)) with
                  | Some i => io_last_log_id i
                  | None => None
                  end in
  let committed := ologid_min accepted leader_committed in
  match rs_update_committed committed (en_state e) with
  | (s, Some prev) =>
      match committed with
      | Some c =>
          let e1 := push_all [SaveCommitted c; CmdApply prev c] (upd (fun _ => s) e) in
          if should_snapshot (en_cfg e1) (en_state e1) then sh_trigger e1 else e1
      | None => e (* not reachable *)
      end
  | (_, None) => e
  end.

(** [update_committed_membership], [following_handler/mod.rs:247-258] *)
Definition fh_update_committed_membership (m : EffMem) (e : Engine) : Engine :=
  ssh_update (upd (fun s => set_mem (ms_update_committed (rs_mem s) m) s) e).

(** [install_full_snapshot], [following_handler/mod.rs:279-330] *)
Definition fh_install (lv : Vote) (sn : Snapshot) (e : Engine) : Engine * option Condition :=
  let meta := sn_meta sn in
  if ologid_leb (sm_last meta) (rs_committed (en_state e)) then (e, None)
  else
    match sm_last meta with
    | None => (e, None) (* not reachable: [None <= _] *)
    | Some sl =>
        match sh_update meta e with
        | (_, false) => (e, None)
        | (e1, true) =>
            let e2 :=
              match rs_get_log_id (en_state e1) (lid_index sl) with
              | Some local => if logid_eqb local sl then e1
                              else fh_truncate (next_index (rs_committed (en_state e1))) e1
              | None => e1
              end in
            let io := IOLog lv (Some sl) in
            let e3 := upd (fun s => set_committed (Some sl) (rs_accept_io io s)) e2 in
            let e4 := fh_update_committed_membership (sm_mem meta) e3 in
            let e5 := push (InstallSnapshot sn io) e4 in
            let e6 := logh_purge (upd (set_purge_upto (Some sl)) e5) in
            (e6, Some (CSnapshot (Some sl)))
        end
    end.

(** ** Engine *)

(** [startup], [engine_impl.rs:141-171] *)
Definition en_startup (now : nat) (e : Engine) : res Engine :=
  if rs_is_leader (en_state e) (en_id e) then vh_update_internal now e
  else Ok (upd (set_server (if rs_is_voter (en_state e) (en_id e) then SFollower else SLearner)) e).

(** [new_candidate], [engine_impl.rs:115-130] *)
Definition en_new_candidate (now : nat) (v : Vote) (e : Engine) : Engine :=
  let m := em_mem (rs_eff (en_state e)) in
  set_cand (Some (candidate_new now v (rs_last (en_state e)) (m_configs m) (m_learners m))) e.

(** [elect], [engine_impl.rs:211-230] *)
Definition en_elect (now : nat) (e : Engine) : res Engine :=
  let v := vote_new (S (li_term (v_leader (rs_v (en_state e))))) (en_id e) in
  let lst := rs_last (en_state e) in
  let! x := vh_update_vote now v (en_new_candidate now v e) in
  if x.2 then Ok (ssh_update (push (SendVote (mkVoteReq v lst)) x.1)) else Panic.

(** [initialize], [check_initialize], [check_members_contain_me],
    [engine_impl.rs:186-207, 665-694].  [m] is the membership of the entry. *)
Definition en_initialize (now : nat) (m : Membership) (e : Engine) : res (Engine * option InitErr) :=
  if rs_is_initialized (en_state e)
  then Ok (e, Some (NotAllowed (rs_last (en_state e)) (rs_v (en_state e))))
  else if negb (m_is_voter m (en_id e)) then Ok (e, Some NotInMembers)
  else
    let entry := mkEntry (mkLogId (mkLeaderId 0 0) 0) (PMembership m) in
    let v := into_committed vote_default in
    let e1 := upd (fun s => set_vote (leased_update now 0 v (rs_vote s)) s) e in
    let e2 := fh_do_append (fh_vote e1) [entry] e1 in
    let! e3 := en_elect now e2 in
    Ok (e3, None).

(** [handle_vote_req], [engine_impl.rs:274-325] *)
Definition en_vote_req (now : nat) (req : VoteReq) (e : Engine) : res (Engine * VoteResp) :=
  let s := en_state e in
  let reject := Ok (e, mkVoteResp (rs_v s) (rs_last s) false) in
  if v_committed (rs_v s) && negb (leased_is_expired now 0 (rs_vote s)) then reject
  else if negb (ologid_leb (rs_last s) (vq_last req)) then reject
  else
    let! x := vh_update_vote now (vq_vote req) e in
    Ok (x.1, mkVoteResp (rs_v (en_state x.1)) (rs_last (en_state x.1)) x.2).

(** [EstablishHandler::establish], [establish_handler/mod.rs:20-46] *)
Definition eh_establish (now : nat) (c : Candidate) (e : Engine) : option Engine :=
  let ok := match en_leader e with
            | Some l => vote_gtb (cd_vote c) (ld_vote l)
            | None => true
            end in
  if ok then Some (set_leader (Some (cand_into_leader now c)) e) else None.

(** [establish_leader], [engine_impl.rs:631-659] *)
Definition en_establish (now : nat) (e : Engine) : res Engine :=
  match en_cand e with
  | None => Panic
  | Some c =>
      let e0 := set_cand None e in
      match eh_establish now c e0 with
      | None => Ok e0
      | Some e1 =>
          let l := cand_into_leader now c in
          let! e2 := rh_rebuild_streams e1 in
          let! x := vh_update_vote now (ld_vote l) e2 in
          let e3 := upd (rs_accept_io (IOLog (ld_vote l) (ld_last l))) x.1 in
          lh_append [PBlank] e3
      end
  end.

(** [handle_vote_resp], [engine_impl.rs:328-374] *)
Definition en_vote_resp (now : nat) (target : nat) (resp : VoteResp) (e : Engine) : res Engine :=
  match en_cand e with
  | None => Ok e
  | Some c =>
      if vr_granted resp && vote_eqb (vr_vote resp) (cd_vote c) then
        let! x := cand_grant c target in
        let e1 := set_cand (Some x.1) e in
        if x.2 then en_establish now e1 else Ok e1
      else
        let e1 := if ologid_ltb (rs_last (en_state e)) (vr_last resp) then set_greater true e else e in
        let! x := vh_update_vote now (vr_vote resp) e1 in
        Ok x.1
  end.

(** [append_entries], [engine_impl.rs:419-434] *)
Definition en_append (now : nat) (v : Vote) (prev : option LogId) (entries : list Entry) (e : Engine)
  : res (Engine * AppendResp) :=
  let! x := vh_update_vote now v e in
  if negb x.2 then Ok (x.1, AHigherVote (rs_v (en_state x.1)))
  else
    let lv := fh_vote x.1 in
    match fh_ensure_consecutive prev x.1 with
    | (e2, false) => Ok (e2, AConflict)
    | (e2, true) => Ok (fh_append_entries lv prev entries e2, ASuccess)
    end.

(** [handle_append_entries], [engine_impl.rs:380-417], with a response channel.
    [accepted_io().unwrap()] is [Panic] on [None]. *)
Definition en_append_entries (now : nat) (v : Vote) (prev : option LogId) (entries : list Entry)
    (tx : nat) (e : Engine) : res (Engine * bool) :=
  let! x := en_append now v prev entries e in
  match x.2 with
  | ASuccess =>
      match io_accepted (rs_io (en_state x.1)) with
      | Some i => Ok (push (Respond (Some (IOFlushed i)) (RAppend ASuccess) tx) x.1, true)
      | None => Panic
      end
  | r => Ok (push (Respond None (RAppend r) tx) x.1, false)
  end.

(** [handle_commit_entries], [engine_impl.rs:438-449] *)
Definition en_commit_entries (leader_committed : option LogId) (e : Engine) : Engine :=
  fh_commit leader_committed e.

(** [handle_install_full_snapshot], [engine_impl.rs:453-482] *)
Definition en_install_snapshot (now : nat) (v : Vote) (sn : Snapshot) (tx : nat) (e : Engine) : res Engine :=
  let! x := vh_accept_vote now v tx e in
  if negb x.2 then Ok x.1
  else
    let '(e2, cond) := fh_install (fh_vote x.1) sn x.1 in
    Ok (push (Respond cond (RSnapshot (rs_v (en_state e2))) tx) e2).

(** [leader_step_down], [engine_impl.rs:495-513] *)
Definition en_step_down (now : nat) (e : Engine) : res Engine :=
  if ologid_leb (em_log_id (rs_eff (en_state e))) (rs_committed (en_state e))
  then vh_update_internal now e else Ok e.

(** [try_purge_log], [engine_impl.rs:551-565] *)
Definition en_try_purge (e : Engine) : res Engine :=
  match en_leader e with
  | Some _ => rh_try_purge e
  | None => Ok (logh_purge e)
  end.

(** [finish_building_snapshot], [engine_impl.rs:527-541] *)
Definition en_finish_building (meta : SnapshotMeta) (e : Engine) : res Engine :=
  let e1 := upd (fun s => set_io (io_set_building false (rs_io s)) s) e in
  match sh_update meta e1 with
  | (e2, false) => Ok e2
  | (e2, true) => en_try_purge (logh_schedule e2)
  end.

(** [trigger_purge_log], [engine_impl.rs:569-607] *)
Definition en_trigger_purge (index : nat) (e : Engine) : res Engine :=
  match rs_snap_last (en_state e) with
  | None => Ok e
  | Some sl =>
      if index <? next_index (rs_purge_upto (en_state e)) then Ok e
      else
        let index := if lid_index sl <? index then lid_index sl else index in
        match rs_get_log_id (en_state e) index with
        | None => Panic
        | Some lid => en_try_purge (upd (set_purge_upto (Some lid)) e)
        end
  end.

(** [trigger_transfer_leader], [engine_impl.rs:609-622] *)
Definition en_trigger_transfer (to : nat) (e : Engine) : Engine :=
  match en_leader e with
  | None => e
  | Some l => lh_transfer to l e
  end.
