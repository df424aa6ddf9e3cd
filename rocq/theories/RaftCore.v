(** Model of the node: [core/raft_core.rs] driving the engine, with its log store, state
    machine worker ([core/sm/worker.rs]), replication streams ([replication/mod.rs]) and
    heartbeat workers ([core/heartbeat/*.rs]).

    A step either handles one event (a message, a notification, a tick), or runs the
    first queued command, or lets one of the other tasks (storage, state machine
    worker, replication streams, heartbeat workers) take a step.  [RaftCore] handles an
    event only when the first queued command has to wait or there is none
    ([process_raft_msg], [process_notification], [run_engine_commands],
    [raft_core.rs:868-1015]).  A crash may happen between any two steps.
    Metrics, tracing and shutdown are not modelled.  [Panic] stands for a panic and for
    a storage error: the node stops. *)
From Verif Require Import Types LogIdList Quorum Membership Progress RaftState ProgressEntry Engine Store.
From stdpp Require Import base numbers option gmap list.

(** ** Messages *)

Inductive Rpc :=
| RpcAppend (v : Vote) (prev : option LogId) (entries : list Entry) (committed : option LogId)
| RpcVote (req : VoteReq)
| RpcSnapshot (v : Vote) (sn : Snapshot)
| RpcTransfer (req : TransferReq).

(** which task of the sender waits for the reply of an RPC; [rid] identifies the call,
    so that a reply reaches only the call it answers *)
Inductive Tag :=
| TagStream (target rid : nat)
| TagStreamSnap (target rid : nat)
| TagVote (sender_vote : Vote) (target : nat)
| TagHeartbeat (session : SessionId) (sending_time : nat) (target : nat)
| TagRead (tx : nat) (target : nat)
| TagNone.

(** answers to clients *)
Inductive ClientResp :=
| CWriteOk (log_id : LogId) (payload : Payload)
| CForward (leader : option nat)
| CChangeErr (e : ChangeErr)
| CReadOk (read_log_id applied : option LogId)
| CReadErr.

Inductive Out :=
| OSend (to : nat) (tag : Tag) (r : Rpc)
| OReply (tx : nat) (r : Resp)
| OClient (tx : nat) (r : ClientResp).

(** ** Tasks of a node *)

(** [Data], [replication/request.rs:41-52]; the callback of the snapshot task is
    handled when it arrives *)
Inductive SData := DCommitted | DLogs (r : LogIdRange) | DSnapshot.
(** [Replicate], [replication/request.rs:9-18] *)
Inductive SEvent := SECommitted (c : option LogId) | SEData (d : SData).
(** an AppendEntries RPC of a stream that waits for its reply *)
Record SWait := mkWait {
  sw_range : LogIdRange;   (* what was sent *)
  sw_todo : LogIdRange;    (* what the action asked for *)
  sw_payload : bool;
  sw_time : nat;
  sw_rid : nat;
}.
(** [ReplicationCore], [replication/mod.rs:85-160] *)
Record Stream := mkStream {
  st_target : nat;
  st_session : SessionId;
  st_committed : option LogId;
  st_matching : option LogId;
  st_queue : list SEvent;
  st_action : option SData;
  st_wait : option SWait;
  st_snap : option (SnapshotMeta * nat * nat);   (* meta, time, rid *)
}.

(** [sm::Command], [core/sm/command.rs] *)
Inductive SmCmd :=
| SmApply (first last : LogId)
| SmBuild
| SmInstall (sn : Snapshot) (io : IOId).
(** [sm::Response], [core/sm/response.rs] *)
Inductive SmResp :=
| SRBuild (meta : SnapshotMeta)
| SRInstall (io : IOId) (meta : SnapshotMeta)
| SRApply (since : nat) (entries : list Entry) (last_applied : LogId).

(** [Notification], [core/notification.rs:18-71] *)
Inductive Note :=
| NVoteResp (target : nat) (resp : VoteResp) (sender_vote : Vote)
| NHigherVote (higher sender_vote : Vote)
| NLocalIO (io : IOId)
| NReplProgress (session : SessionId) (target : nat) (r : ReplResult)
| NHeartbeat (session : SessionId) (target : nat) (sending_time : nat)
| NSm (r : SmResp).

(** a pending leadership check, [raft_core.rs:309-432] *)
Record Read := mkRead {
  rd_tx : nat;
  rd_vote : Vote;
  rd_qs : list (gset nat);
  rd_granted : list nat;
  rd_resp : option LogId * option LogId;
}.

Record Node := mkNode {
  nd_eng : Engine;
  nd_store : Store;
  nd_sm : StateMachine;
  nd_smq : list SmCmd;
  nd_builds : list Snapshot;
  nd_notes : list Note;
  nd_clients : gmap nat nat;
  nd_streams : list Stream;
  nd_hb : option (SessionId * option LogId * nat);
  nd_hbw : list nat;
  nd_reads : list Read;
}.
Definition nd_set_eng (x : Engine) (n : Node) : Node :=
  mkNode x (nd_store n) (nd_sm n) (nd_smq n) (nd_builds n) (nd_notes n) (nd_clients n) (nd_streams n) (nd_hb n) (nd_hbw n) (nd_reads n).
Definition nd_set_store (x : Store) (n : Node) : Node :=
  mkNode (nd_eng n) x (nd_sm n) (nd_smq n) (nd_builds n) (nd_notes n) (nd_clients n) (nd_streams n) (nd_hb n) (nd_hbw n) (nd_reads n).
Definition nd_set_sm (x : StateMachine) (n : Node) : Node :=
  mkNode (nd_eng n) (nd_store n) x (nd_smq n) (nd_builds n) (nd_notes n) (nd_clients n) (nd_streams n) (nd_hb n) (nd_hbw n) (nd_reads n).
Definition nd_set_smq (x : list SmCmd) (n : Node) : Node :=
  mkNode (nd_eng n) (nd_store n) (nd_sm n) x (nd_builds n) (nd_notes n) (nd_clients n) (nd_streams n) (nd_hb n) (nd_hbw n) (nd_reads n).
Definition nd_set_builds (x : list Snapshot) (n : Node) : Node :=
  mkNode (nd_eng n) (nd_store n) (nd_sm n) (nd_smq n) x (nd_notes n) (nd_clients n) (nd_streams n) (nd_hb n) (nd_hbw n) (nd_reads n).
Definition nd_set_notes (x : list Note) (n : Node) : Node :=
  mkNode (nd_eng n) (nd_store n) (nd_sm n) (nd_smq n) (nd_builds n) x (nd_clients n) (nd_streams n) (nd_hb n) (nd_hbw n) (nd_reads n).
Definition nd_set_clients (x : gmap nat nat) (n : Node) : Node :=
  mkNode (nd_eng n) (nd_store n) (nd_sm n) (nd_smq n) (nd_builds n) (nd_notes n) x (nd_streams n) (nd_hb n) (nd_hbw n) (nd_reads n).
Definition nd_set_streams (x : list Stream) (n : Node) : Node :=
  mkNode (nd_eng n) (nd_store n) (nd_sm n) (nd_smq n) (nd_builds n) (nd_notes n) (nd_clients n) x (nd_hb n) (nd_hbw n) (nd_reads n).
Definition nd_set_hb (x : option (SessionId * option LogId * nat)) (n : Node) : Node :=
  mkNode (nd_eng n) (nd_store n) (nd_sm n) (nd_smq n) (nd_builds n) (nd_notes n) (nd_clients n) (nd_streams n) x (nd_hbw n) (nd_reads n).
Definition nd_set_hbw (x : list nat) (n : Node) : Node :=
  mkNode (nd_eng n) (nd_store n) (nd_sm n) (nd_smq n) (nd_builds n) (nd_notes n) (nd_clients n) (nd_streams n) (nd_hb n) x (nd_reads n).
Definition nd_set_reads (x : list Read) (n : Node) : Node :=
  mkNode (nd_eng n) (nd_store n) (nd_sm n) (nd_smq n) (nd_builds n) (nd_notes n) (nd_clients n) (nd_streams n) (nd_hb n) (nd_hbw n) x.

Definition nd_state (n : Node) : RaftState := en_state (nd_eng n).
Definition nd_id (n : Node) : nat := en_id (nd_eng n).
Definition note (x : Note) (n : Node) : Node := nd_set_notes (nd_notes n ++ [x]) n.
Definition eng_set_out (cs : list Command) (e : Engine) : Engine :=
  mkEngine (en_cfg e) (en_state e) (en_seen_greater e) (en_leader e) (en_cand e) cs.
Definition nd_upd_io (f : IOState -> IOState) (n : Node) : Node :=
  nd_set_eng (upd (fun s => set_io (f (rs_io s)) s) (nd_eng n)) n.

(** ** Running engine commands *)

(** the four checks of [run_command], [raft_core.rs:1619-1668] *)
Definition io_opt_ltb (a : option IOId) (b : IOId) : bool :=
  match a with None => true | Some x => io_ltb x b end.
Definition cond_ok (c : option Condition) (io : IOState) : bool :=
  match c with
  | None => true
  | Some (IOFlushed i) => negb (io_opt_ltb (io_flushed io) i)
  | Some (LogFlushed l) =>
      negb (ologid_ltb (match io_flushed io with Some i => io_last_log_id i | None => None end) l)
  | Some (CApplied l) => negb (ologid_ltb (io_applied io) l)
  | Some (CSnapshot l) => negb (ologid_ltb (io_snapshot io) l)
  end.

(** [current_leader], [raft_core.rs:698-721] *)
Definition rs_current_leader (s : RaftState) : option nat :=
  if v_committed (rs_v s)
  then let id := li_node (v_leader (rs_v s)) in if rs_is_voter s id then Some id else None
  else None.

(** every voter but this node; [None] if one has no node record (the [unwrap] of
    [raft_core.rs:1076-1077, 1132-1133]) *)
Definition other_voters (s : RaftState) (me : nat) : option (list nat) :=
  let m := em_mem (rs_eff s) in
  let ids := filter (fun id => id <> me) (sorted_ids (m_voter_ids m)) in
  if forallb (fun id => m_contains m id) ids then Some ids else None.

Definition stream_push (ev : SEvent) (s : Stream) : Stream :=
  mkStream (st_target s) (st_session s) (st_committed s) (st_matching s) (st_queue s ++ [ev])
           (st_action s) (st_wait s) (st_snap s).
Definition stream_index (t : nat) (ss : list Stream) : option nat :=
  fst <$> list_find (fun s => st_target s = t) ss.

(** [spawn_replication_stream], [raft_core.rs:803-836] *)
Definition stream_new (session : SessionId) (committed : option LogId) (x : nat * ProgressEntry) : Stream :=
  mkStream x.1 session committed (pe_matching x.2) [] None None None.

(** [run_command], [raft_core.rs:1670-1802] *)
Definition run_cmd (now : nat) (c : Command) (n : Node) : res (Node * list Out) :=
  let s := nd_state n in
  match c with
  | UpdateIOProgress _ io =>
      Ok (note (NLocalIO io) (nd_upd_io (io_set_submitted io) n), [])
  | AppendInputEntries v es =>
      match last es with
      | None => Panic
      | Some e =>
          let io := IOLog (into_committed v) (Some (e_log_id e)) in
          let n1 := nd_upd_io (io_set_submitted io) n in
          Ok (nd_set_store (so_submit (WAppend es) (Some io) (nd_store n1)) n1, [])
      end
  | ReplicateCommitted c =>
      Ok (nd_set_streams (map (stream_push (SECommitted c)) (nd_streams n)) n, [])
  | BroadcastHeartbeat session c => Ok (nd_set_hb (Some (session, c, now)) n, [])
  | SaveCommitted c => Ok (nd_set_store (so_submit (WCommitted (Some c)) None (nd_store n)) n, [])
  | CmdApply prev upto =>
      match rs_get_log_id s (next_index prev) with
      | None => Panic
      | Some first => Ok (nd_set_smq (nd_smq n ++ [SmApply first upto]) n, [])
      end
  | CmdReplicate t req =>
      match stream_index t (nd_streams n) with
      | None => Panic
      | Some i =>
          let d := match req with ReplLogs r => DLogs r | ReplSnapshot _ => DSnapshot end in
          Ok (nd_set_streams (alter (stream_push (SEData d)) i (nd_streams n)) n, [])
      end
  | BroadcastTransferLeader req =>
      match other_voters s (nd_id n) with
      | None => Panic
      | Some ids => Ok (n, map (fun t => OSend t TagNone (RpcTransfer req)) ids)
      end
  | RebuildReplicationStreams targets =>
      match en_leader (nd_eng n) with
      | None => if bool_decide (targets = []) then Ok (nd_set_hbw [] (nd_set_streams [] n), []) else Panic
      | Some l =>
          if forallb (fun x => m_contains (em_mem (rs_eff s)) x.1) targets then
            let session := mkSession (ld_vote l) (em_log_id (rs_eff s)) in
            Ok (nd_set_hbw (map fst targets)
                  (nd_set_streams (map (stream_new session (rs_committed s)) targets) n), [])
          else Panic
      end
  | SaveVote v =>
      let n1 := nd_upd_io (io_set_submitted (io_new v)) n in
      let n2 := nd_set_store (so_save_vote v (nd_store n1)) n1 in
      Ok (note (NVoteResp (nd_id n) (mkVoteResp v None true) v) (note (NLocalIO (io_new v)) n2), [])
  | SendVote req =>
      match other_voters s (nd_id n) with
      | None => Panic
      | Some ids => Ok (n, map (fun t => OSend t (TagVote (vq_vote req) t) (RpcVote req)) ids)
      end
  | PurgeLog upto =>
      Ok (nd_upd_io (io_set_purged (Some upto)) (nd_set_store (so_submit (WPurge upto) None (nd_store n)) n), [])
  | TruncateLog since =>
      let n1 := nd_set_store (so_submit (WTruncate since) None (nd_store n)) n in
      let removed := filter (fun x => lid_index since <= x.1) (map_to_list (nd_clients n)) in
      Ok (nd_set_clients (filter (fun x => x.1 < lid_index since) (nd_clients n)) n1,
          map (fun x => OClient x.2 (CForward (rs_current_leader s))) removed)
  | BuildSnapshot => Ok (nd_set_smq (nd_smq n ++ [SmBuild]) n, [])
  | InstallSnapshot sn io =>
      let n1 := nd_upd_io (io_set_submitted io) n in
      Ok (nd_set_smq (nd_smq n1 ++ [SmInstall sn io]) n1, [])
  | Respond _ r tx => Ok (n, [OReply tx r])
  end.

(** [run_engine_commands], [raft_core.rs:868-900], takes the commands off the queue in
    order and puts the first that has to wait back.  A running command adds none. *)
Definition runnable (n : Node) : bool :=
  match en_out (nd_eng n) with
  | [] => false
  | c :: _ => cond_ok (cmd_condition c) (rs_io (nd_state n))
  end.
Definition run_one (now : nat) (n : Node) : res (Node * list Out) :=
  match en_out (nd_eng n) with
  | [] => Ok (n, [])
  | c :: r =>
      if cond_ok (cmd_condition c) (rs_io (nd_state n))
      then run_cmd now c (nd_set_eng (eng_set_out r (nd_eng n)) n)
      else Ok (n, [])
  end.

(** ** API messages, [handle_api_msg], [raft_core.rs:1195-1299] *)

Inductive Msg :=
| MAppend (v : Vote) (prev : option LogId) (entries : list Entry) (committed : option LogId) (tx : nat)
| MVote (req : VoteReq) (tx : nat)
| MSnapshot (v : Vote) (sn : Snapshot) (tx : nat)
| MTransfer (req : TransferReq)
| MInitialize (members : gmap nat nat) (tx : nat)
| MWrite (data : nat) (tx : nat)
| MChange (ch : ChangeMembers) (retain : bool) (tx : nat)
| MRead (tx : nat)
| MElect
| MHeartbeat
| MTriggerSnapshot
| MPurge (upto : nat)
| MTriggerTransfer (to : nat).

(** the error of [leader_handler], [engine_impl.rs:745-767] *)
Definition forward_of (s : RaftState) : option nat := fst <$> rs_forward s.

(** [handle_vote_request], [raft_core.rs:1169-1180] *)
Definition core_vote (now : nat) (req : VoteReq) (tx : nat) (e : Engine) : res Engine :=
  let! x := en_vote_req now req e in
  Ok (push (Respond (Some (IOFlushed (io_new (rs_v (en_state x.1))))) (RVote x.2) tx) x.1).

(** [handle_append_entries_request], [raft_core.rs:1183-1191] *)
Definition core_append (now : nat) (v : Vote) (prev : option LogId) (es : list Entry)
    (committed : option LogId) (tx : nat) (e : Engine) : res Engine :=
  let! x := en_append_entries now v prev es tx e in
  Ok (if x.2 then en_commit_entries committed x.1 else x.1).

(** [handle_initialize], [raft_core.rs:643-670]; [Membership::from], [membership.rs:36-43] *)
Definition core_initialize (now : nat) (members : gmap nat nat) (tx : nat) (e : Engine) : res Engine :=
  let! x := en_initialize now (mkMembership [dom members] members) e in
  let cond := match x.2 with
              | Some _ => None
              | None => Some (LogFlushed (rs_last (en_state x.1)))
              end in
  Ok (push (Respond cond (RInitialize x.2) tx) x.1).

(** [write_entry], [raft_core.rs:474-500] *)
Definition core_write (p : Payload) (tx : nat) (n : Node) : res (Node * list Out) :=
  match en_leader (nd_eng n) with
  | None => Ok (n, [OClient tx (CForward (forward_of (nd_state n)))])
  | Some l =>
      match ld_transfer l with
      | Some to => Ok (n, [OClient tx (CForward (fst <$> rs_new_forward (nd_state n) to))])
      | None =>
          let! e := lh_append [p] (nd_eng n) in
          match rs_last (en_state e) with
          | None => Panic
          | Some lst => Ok (nd_set_clients (<[lid_index lst := tx]> (nd_clients n)) (nd_set_eng e n), [])
          end
      end
  end.

(** [change_membership], [raft_core.rs:452-464] *)
Definition core_change (ch : ChangeMembers) (retain : bool) (tx : nat) (n : Node) : res (Node * list Out) :=
  match ms_change (rs_mem (nd_state n)) ch retain with
  | inr e => Ok (n, [OClient tx (CChangeErr e)])
  | inl m => core_write (PMembership m) tx n
  end.

(** [send_heartbeat], [raft_core.rs:504-529] *)
Definition core_heartbeat (e : Engine) : Engine :=
  match en_leader e with
  | None => e
  | Some l => match ld_transfer l with Some _ => e | None => lh_heartbeat l e end
  end.

(** [handle_check_is_leader_request], [raft_core.rs:279-385] *)
Definition core_read (tx : nat) (n : Node) : res (Node * list Out) :=
  match en_leader (nd_eng n) with
  | None => Ok (n, [OClient tx (CForward (forward_of (nd_state n)))])
  | Some l =>
      let s := nd_state n in
      let resp := (lh_read_log_id l (nd_eng n), io_applied (rs_io s)) in
      let qs := m_configs (em_mem (rs_eff s)) in
      if joint_is_quorum qs [nd_id n] then Ok (n, [OClient tx (CReadOk resp.1 resp.2)])
      else
        let voters := filter (fun x => vp_is_voter (ld_progress l) x.1 = Some true /\ x.1 <> nd_id n)
                        (vp_vec (ld_progress l)) in
        if forallb (fun x => m_contains (em_mem (rs_eff s)) x.1) voters then
          Ok (nd_set_reads (nd_reads n ++ [mkRead tx (rs_v s) qs [nd_id n] resp]) n,
              map (fun x => OSend x.1 (TagRead tx x.1)
                              (RpcAppend (rs_v s) (pe_matching x.2) [] (rs_committed s))) voters)
        else Panic
  end.

(** the [HandleTransferLeader] arm, [raft_core.rs:1246-1258]; the waiting of
    [raft/mod.rs:654-700] only delays the message *)
Definition core_transfer (now : nat) (req : TransferReq) (e : Engine) : res Engine :=
  if vote_eqb (rs_v (en_state e)) (tq_from req) then
    let e1 := upd (fun s => set_vote (leased_disable (rs_vote s)) s) e in
    if en_id e =? tq_to req then en_elect now e1 else Ok e1
  else Ok e.

Definition lift (n : Node) (x : res Engine) : res (Node * list Out) :=
  let! e := x in Ok (nd_set_eng e n, []).

Definition handle_msg (now : nat) (m : Msg) (n : Node) : res (Node * list Out) :=
  let e := nd_eng n in
  match m with
  | MAppend v prev es c tx => lift n (core_append now v prev es c tx e)
  | MVote req tx => lift n (core_vote now req tx e)
  | MSnapshot v sn tx => lift n (en_install_snapshot now v sn tx e)
  | MTransfer req => lift n (core_transfer now req e)
  | MInitialize ms tx => lift n (core_initialize now ms tx e)
  | MWrite d tx => core_write (PNormal d) tx n
  | MChange ch retain tx => core_change ch retain tx n
  | MRead tx => core_read tx n
  | MElect => lift n (if rs_is_voter (en_state e) (en_id e) then en_elect now e else Ok e)
  | MHeartbeat => lift n (Ok (core_heartbeat e))
  | MTriggerSnapshot => lift n (Ok (sh_trigger e))
  | MPurge upto => lift n (en_trigger_purge upto e)
  | MTriggerTransfer to => lift n (Ok (en_trigger_transfer to e))
  end.

(** ** Notifications, [handle_notification], [raft_core.rs:1302-1498] *)

(** [does_vote_match], [raft_core.rs:1556-1581] *)
Definition vote_matches (v : Vote) (e : Engine) : bool :=
  if v_committed v
  then match en_leader e with Some l => vote_eqb v (ld_vote l) | None => false end
  else match en_cand e with Some c => vote_eqb v (cd_vote c) | None => false end.
(** [does_replication_session_match], [raft_core.rs:1585-1604] *)
Definition session_matches (x : SessionId) (e : Engine) : bool :=
  vote_matches (ss_vote x) e && ologid_eqb (ss_mem x) (em_log_id (rs_eff (en_state e))).

(** [handle_apply_result], [send_response], [raft_core.rs:767-801] *)
Fixpoint apply_results (es : list Entry) (clients : gmap nat nat) : gmap nat nat * list Out :=
  match es with
  | [] => (clients, [])
  | e :: r =>
      let '(c1, o1) := match clients !! e_index e with
                       | Some tx => (delete (e_index e) clients, [OClient tx (CWriteOk (e_log_id e) (e_payload e))])
                       | None => (clients, [])
                       end in
      let '(c2, o2) := apply_results r c1 in (c2, o1 ++ o2)
  end.

Definition handle_note (now : nat) (x : Note) (n : Node) : res (Node * list Out) :=
  let e := nd_eng n in
  match x with
  | NVoteResp t resp sv =>
      match en_cand e with
      | Some _ => if vote_matches sv e then lift n (en_vote_resp now t resp e) else Ok (n, [])
      | None => Ok (n, [])
      end
  | NHigherVote v sv =>
      if vote_matches sv e then lift n (let! y := vh_update_vote now v e in Ok y.1) else Ok (n, [])
  | NLocalIO io =>
      let n1 := nd_upd_io (io_set_flushed io) n in
      match io with
      | IOVote _ => Ok (n1, [])
      | IOLog v lid =>
          match en_leader (nd_eng n1) with
          | Some _ => if vote_matches v (nd_eng n1) then lift n1 (rh_update_local lid (nd_eng n1)) else Ok (n1, [])
          | None => Ok (n1, [])
          end
      end
  | NReplProgress ss t r =>
      if session_matches ss e then lift n (rh_update_progress t r e) else Ok (n, [])
  | NHeartbeat ss t time =>
      if session_matches ss e then lift n (rh_update_clock t time e) else Ok (n, [])
  | NSm (SRBuild meta) =>
      let! e1 := en_finish_building meta e in
      Ok (nd_upd_io (io_set_snapshot (sm_last meta)) (nd_set_eng e1 n), [])
  | NSm (SRInstall io meta) =>
      Ok (nd_upd_io (fun s => io_set_snapshot (sm_last meta) (io_set_applied (sm_last meta) (io_set_flushed io s))) n, [])
  | NSm (SRApply _ es la) =>
      let n1 := nd_upd_io (io_set_applied (Some la)) n in
      let '(c, outs) := apply_results es (nd_clients n1) in
      Ok (nd_set_clients c n1, outs)
  end.

(** [handle_tick_election], [raft_core.rs:1501-1552]; [enabled] is the runtime option
    [enable_elect] *)
Definition tick_election (now : nat) (enabled : bool) (e : Engine) : res Engine :=
  let s := en_state e in
  let cfg := en_cfg e in
  if bool_decide (rs_server s = SLeader) then Ok e
  else if negb (rs_is_voter s (en_id e)) then Ok e
  else if negb enabled then Ok e
  else
    let timeout := ec_election_timeout cfg + (if en_seen_greater e then ec_smaller_log_timeout cfg else 0) in
    if (size (m_voter_ids (em_mem (rs_eff s))) =? 1) || leased_is_expired now timeout (rs_vote s)
    then en_elect now (set_greater false e)
    else Ok e.

(** the [Tick] arm, [raft_core.rs:1343-1391]; [hb_interval] is [Config::heartbeat_interval] *)
Definition handle_tick (now hb_interval : nat) (enable_elect enable_hb : bool) (e : Engine) : res Engine :=
  let! e1 := tick_election now enable_elect e in
  let e2 := match en_leader e1 with
            | Some l =>
                if ld_next_heartbeat l <=? now then
                  let e' := if enable_hb then core_heartbeat e1 else e1 in
                  set_leader (Some (ld_set_heartbeat (now + hb_interval) l)) e'
                else e1
            | None => e1
            end in
  if ologid_leb (em_log_id (rs_eff (en_state e2))) (io_applied (rs_io (en_state e2)))
  then en_step_down now e2 else Ok e2.

(** ** State machine worker, [core/sm/worker.rs:86-150, 152-198] *)

Definition sm_step (n : Node) : res Node :=
  match nd_smq n with
  | [] => Ok n
  | SmApply first lst :: r =>
      let n1 := nd_set_smq r n in
      let es := ls_read (lid_index first) (S (lid_index lst)) (so_log (nd_store n)) in
      if length es =? S (lid_index lst) - lid_index first
      then Ok (note (NSm (SRApply (lid_index first) es lst)) (nd_set_sm (sm_apply es (nd_sm n1)) n1))
      else Panic
  | SmBuild :: r => Ok (nd_set_builds (nd_builds n ++ [sm_build (nd_sm n)]) (nd_set_smq r n))
  | SmInstall sn io :: r =>
      Ok (note (NSm (SRInstall io (sn_meta sn))) (nd_set_sm (sm_install sn (nd_sm n)) (nd_set_smq r n)))
  end.

(** the spawned building task, [worker.rs:207-227] *)
Definition build_done (i : nat) (n : Node) : Node :=
  match nd_builds n !! i with
  | None => n
  | Some sn =>
      note (NSm (SRBuild (sn_meta sn)))
        (nd_set_sm (sm_set_snapshot sn (nd_sm n)) (nd_set_builds (delete i (nd_builds n)) n))
  end.

(** ** Replication streams, [replication/mod.rs] *)

(** [process_event], lines 640-686 *)
Definition stream_event (s : Stream) (ev : SEvent) : Stream :=
  match ev with
  | SECommitted c =>
      mkStream (st_target s) (st_session s) c (st_matching s) (st_queue s)
        (match st_action s with None => Some DCommitted | a => a end) (st_wait s) (st_snap s)
  | SEData d =>
      mkStream (st_target s) (st_session s) (st_committed s) (st_matching s) (st_queue s)
        (Some d) (st_wait s) (st_snap s)
  end.
Definition stream_drain (s : Stream) : Stream :=
  foldl stream_event
    (mkStream (st_target s) (st_session s) (st_committed s) (st_matching s) [] (st_action s) (st_wait s) (st_snap s))
    (st_queue s).
Definition stream_set (action : option SData) (wait : option SWait) (snap : option (SnapshotMeta * nat * nat))
    (s : Stream) : Stream :=
  mkStream (st_target s) (st_session s) (st_committed s) (st_matching s) (st_queue s) action wait snap.
Definition stream_set_matching (m : option LogId) (s : Stream) : Stream :=
  mkStream (st_target s) (st_session s) (st_committed s) m (st_queue s) (st_action s) (st_wait s) (st_snap s).
Definition nd_set_stream (i : nat) (s : Stream) (n : Node) : Node := nd_set_streams (<[i := s]> (nd_streams n)) n.

(** [send_log_entries] up to sending, lines 375-447.  [limit] is the number of entries
    [limited_get_log_entries] and the size hint allow; [None] is the panic of the
    [unwrap] on an empty read, which ends the task. *)
Definition stream_read (limit : nat) (rng : LogIdRange) (l : LogStore) : option (list Entry * LogIdRange) :=
  let start := next_index (lr_prev rng) in
  let end_ := next_index (lr_last rng) in
  if start =? end_ then Some ([], mkRange (lr_prev rng) (lr_prev rng))
  else
    let es := take limit (ls_read start end_ l) in
    match last es with
    | None => None
    | Some e => Some (es, mkRange (lr_prev rng) (Some (e_log_id e)))
    end.

(** one iteration of [main], lines 218-320, up to sending an RPC *)
Definition stream_send (now limit rid : nat) (i : nat) (n : Node) : res (Node * list Out) :=
  match nd_streams n !! i with
  | None => Ok (n, [])
  | Some s0 =>
      match st_wait s0 with
      | Some _ => Ok (n, [])
      | None =>
          let s := stream_drain s0 in
          let send := fun (rng : LogIdRange) (payload : bool) =>
            match stream_read limit rng (so_log (nd_store n)) with
            | None => Ok (nd_set_streams (delete i (nd_streams n)) n, [])
            | Some (es, sent) =>
                Ok (nd_set_stream i (stream_set None (Some (mkWait sent rng payload now rid)) (st_snap s) s) n,
                    [OSend (st_target s) (TagStream (st_target s) rid)
                       (RpcAppend (ss_vote (st_session s)) (lr_prev sent) es (st_committed s))])
            end in
          match st_action s with
          | None => Ok (nd_set_stream i s n, [])
          | Some DCommitted => send (mkRange (st_matching s) (st_matching s)) false
          | Some (DLogs rng) => send rng true
          | Some DSnapshot =>
              match sm_snapshot (nd_sm n) with
              | None => Panic
              | Some sn =>
                  Ok (nd_set_stream i (stream_set None None (Some (sn_meta sn, now, rid)) s) n,
                      [OSend (st_target s) (TagStreamSnap (st_target s) rid)
                         (RpcSnapshot (ss_vote (st_session s)) sn)])
              end
          end
      end
  end.

(** [next_action_to_send], lines 831-838 *)
Definition next_action_to_send (matching : option LogId) (todo : LogIdRange) : option SData :=
  if ologid_ltb matching (lr_last todo) then Some (DLogs (mkRange matching (lr_last todo))) else None.

(** the reply part of [send_log_entries], lines 458-512, [notify_progress], lines 538-570 *)
Definition stream_reply (i : nat) (r : AppendResp) (n : Node) : Node :=
  match nd_streams n !! i with
  | None => n
  | Some s =>
      match st_wait s with
      | None => n
      | Some w =>
          let ss := st_session s in
          let t := st_target s in
          match r with
          | ASuccess =>
              let n1 := note (NHeartbeat ss t (sw_time w)) n in
              let m := lr_last (sw_range w) in
              if sw_payload w then
                note (NReplProgress ss t (RRMatching m))
                  (nd_set_stream i (stream_set_matching m
                     (stream_set (next_action_to_send m (sw_todo w)) None (st_snap s) s)) n1)
              else nd_set_stream i (stream_set (st_action s) None (st_snap s) s) n1
          | AHigherVote v =>
              note (NHigherVote v (ss_vote ss)) (nd_set_streams (delete i (nd_streams n)) n)
          | AConflict =>
              match lr_prev (sw_range w) with
              | None => nd_set_streams (delete i (nd_streams n)) n
              | Some c =>
                  let n1 := note (NHeartbeat ss t (sw_time w)) n in
                  let n2 := nd_set_stream i (stream_set (st_action s) None (st_snap s) s) n1 in
                  if sw_payload w then note (NReplProgress ss t (RRConflict c)) n2 else n2
              end
          end
      end
  end.

(** the RPC failed or timed out, lines 289-312 *)
Definition stream_fail (i : nat) (n : Node) : Node :=
  match nd_streams n !! i with
  | None => n
  | Some s =>
      match st_wait s with
      | None => n
      | Some w =>
          let n1 := nd_set_stream i (stream_set (st_action s) None (st_snap s) s) n in
          if sw_payload w then note (NReplProgress (st_session s) (st_target s) RRError) n1 else n1
      end
  end.

(** [handle_snapshot_callback], lines 792-828; [None] is a failed transmission *)
Definition stream_snap_reply (i : nat) (r : option Vote) (n : Node) : Node :=
  match nd_streams n !! i with
  | None => n
  | Some s =>
      match st_snap s with
      | None => n
      | Some (meta, time, _) =>
          let ss := st_session s in
          let t := st_target s in
          let s1 := stream_set (st_action s) (st_wait s) None s in
          match r with
          | None => note (NReplProgress ss t RRError) (nd_set_stream i s1 n)
          | Some v =>
              if vote_gtb v (ss_vote ss)
              then note (NHigherVote v (ss_vote ss)) (nd_set_streams (delete i (nd_streams n)) n)
              else note (NReplProgress ss t (RRMatching (sm_last meta)))
                     (note (NHeartbeat ss t time)
                        (nd_set_stream i (stream_set_matching (sm_last meta) s1) n))
          end
      end
  end.

(** ** Other replies *)

(** heartbeat worker, [core/heartbeat/worker.rs:67-113] *)
Definition hb_send (t : nat) (n : Node) : Node * list Out :=
  if bool_decide (t ∈ nd_hbw n) then
    match nd_hb n with
    | Some (ss, c, time) => (n, [OSend t (TagHeartbeat ss time t) (RpcAppend (ss_vote ss) None [] c)])
    | None => (n, [])
    end
  else (n, []).

(** a reply to a leadership check, [raft_core.rs:387-420] *)
Definition read_index (tx : nat) (rs : list Read) : option nat :=
  fst <$> list_find (fun r => rd_tx r = tx) rs.
(** [granted.insert(target)]: [granted] is a set *)
Definition rd_grant (g : list nat) (t : nat) : list nat := if bool_decide (t ∈ g) then g else g ++ [t].
Definition read_reply (tx t : nat) (r : AppendResp) (n : Node) : Node * list Out :=
  match read_index tx (nd_reads n) with
  | None => (n, [])
  | Some i =>
      match nd_reads n !! i with
      | None => (n, [])
      | Some rd =>
          match r with
          | AHigherVote v =>
              (note (NHigherVote v (rd_vote rd)) (nd_set_reads (delete i (nd_reads n)) n),
               [OClient tx CReadErr])
          | _ =>
              let granted := rd_grant (rd_granted rd) t in
              if joint_is_quorum (rd_qs rd) granted
              then (nd_set_reads (delete i (nd_reads n)) n, [OClient tx (CReadOk (rd_resp rd).1 (rd_resp rd).2)])
              else (nd_set_reads (<[i := mkRead tx (rd_vote rd) (rd_qs rd) granted (rd_resp rd)]> (nd_reads n)) n, [])
          end
      end
  end.

(** a reply arrives at the task that waits for it *)
Definition handle_reply (tag : Tag) (r : Resp) (n : Node) : Node * list Out :=
  match tag, r with
  | TagStream t rid, RAppend a =>
      match stream_index t (nd_streams n) with
      | Some i =>
          match nd_streams n !! i ≫= st_wait with
          | Some w => if sw_rid w =? rid then (stream_reply i a n, []) else (n, [])
          | None => (n, [])
          end
      | None => (n, [])
      end
  | TagStreamSnap t rid, RSnapshot v =>
      match stream_index t (nd_streams n) with
      | Some i =>
          match nd_streams n !! i ≫= st_snap with
          | Some (_, _, r) => if r =? rid then (stream_snap_reply i (Some v) n, []) else (n, [])
          | None => (n, [])
          end
      | None => (n, [])
      end
  | TagVote sv t, RVote a => (note (NVoteResp t a sv) n, [])
  | TagHeartbeat ss time t, RAppend _ => (note (NHeartbeat ss t time) n, [])
  | TagRead tx t, RAppend a => read_reply tx t a n
  | _, _ => (n, [])
  end.

(** ** Events *)

Inductive Event :=
| ERun
| EMsg (m : Msg)
| ENote
| ETick (hb_interval : nat) (enable_elect enable_hb : bool)
| EIdle
| EFlush (k : nat)
| ECallback (i : nat)
| ESm
| EBuildDone (i : nat)
| EStreamSend (i limit rid : nat)
| EStreamFail (i : nat)
| EStreamSnapFail (i : nat)
| EHeartbeatSend (t : nat)
| EReply (tag : Tag) (r : Resp).

(** [RaftCore] is busy as long as it has a command to run *)
Definition when_idle (n : Node) (x : res (Node * list Out)) : res (Node * list Out) :=
  if runnable n then Ok (n, []) else x.

Definition node_step (now : nat) (ev : Event) (n : Node) : res (Node * list Out) :=
  match ev with
  | ERun => run_one now n
  | EMsg m => when_idle n (handle_msg now m n)
  | ENote =>
      when_idle n
        match nd_notes n with
        | [] => Ok (n, [])
        | x :: r => handle_note now x (nd_set_notes r n)
        end
  | ETick hb ee eh => when_idle n (lift n (handle_tick now hb ee eh (nd_eng n)))
  | EIdle =>
      (* [raft_core.rs:976-979] *)
      when_idle n
        match en_leader (nd_eng n) with
        | Some _ => lift n (rh_initiate (nd_eng n))
        | None => Ok (n, [])
        end
  | EFlush k => Ok (nd_set_store (so_flush k (nd_store n)) n, [])
  | ECallback i =>
      match so_callbacks (nd_store n) !! i with
      | None => Ok (n, [])
      | Some io =>
          let s := nd_store n in
          Ok (note (NLocalIO io)
                (nd_set_store (mkStore (so_disk s) (so_pending s) (delete i (so_callbacks s))) n), [])
      end
  | ESm => let! n1 := sm_step n in Ok (n1, [])
  | EBuildDone i => Ok (build_done i n, [])
  | EStreamSend i limit rid => stream_send now limit rid i n
  | EStreamFail i => Ok (stream_fail i n, [])
  | EStreamSnapFail i => Ok (stream_snap_reply i None n, [])
  | EHeartbeatSend t => Ok (hb_send t n)
  | EReply tag r => Ok (handle_reply tag r n)
  end.

(** ** Start and restart *)

(** [Raft::new], [raft/mod.rs:206-330], then [do_main], [raft_core.rs:254-266] *)
Definition node_start (now : nat) (cfg : EngineConfig) (d : Disk) (sm : StateMachine) : res Node :=
  let! x := helper_initial_state now d sm in
  let '(s, d1, sm1) := x in
  let! e := en_startup now (engine_new s cfg) in
  Ok (mkNode e (mkStore d1 [] []) sm1 [] [] [] ∅ [] None [] []).

(** A crash: [k] of the pending writes (and [j] entries of the next, if it is an
    append) have reached the disk; the state machine kept [keep] entries of its
    history; everything else is gone. *)
Definition crash_disk (k j : nat) (s : Store) : Disk :=
  let d := foldl wop_apply (so_disk s) (map fst (take k (so_pending s))) in
  match map fst (so_pending s) !! k with
  | Some (WAppend es) => wop_apply d (WAppend (take j es))
  | _ => d
  end.
Definition node_restart (now k j keep : nat) (n : Node) : res Node :=
  node_start now (en_cfg (nd_eng n)) (crash_disk k j (nd_store n)) (sm_crash keep (nd_sm n)).
