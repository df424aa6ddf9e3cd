(** Properties of the log of one node whose peers' messages fit one history
    (C16-C21, C33, C34). *)
From stdpp Require Import base numbers option gmap list.
From Verif Require Import Types LogIdList Membership Progress RaftState ProgressEntry Engine Store RaftCore NodeSpec NodeExamples
  LogSpec LogPropSpec LogStateProofs LogExamples PanicExamples.

(** ** C33 *)

(** purged, planned purge, snapshot, committed and last log position are in this order,
    as log ids and by index. *)
Theorem C33_positions_ordered : forall E cfg, env_ok E -> forall n, fits_reachable E cfg n ->
  let s := nd_state n in
  pos_le (rs_last_purged s) (rs_purge_upto s) /\ pos_le (rs_purge_upto s) (rs_snap_last s) /\
  pos_le (rs_snap_last s) (rs_committed s) /\ pos_le (rs_committed s) (rs_last s).
Proof. exact positions. Qed.
Print Assumptions C33_positions_ordered.

(** The log ids the engine answers with are those of the log as it will be once all queued
    writes are done; this log and the one on disk have no holes. *)
Theorem C33_log_without_holes : forall E cfg, env_ok E -> forall n, fits_reachable E cfg n ->
  rs_last_purged (nd_state n) = ls_purged (planned_log n) /\ rs_last (nd_state n) = ls_last (planned_log n) /\
  no_holes (planned_log n) /\ no_holes (dk_log (so_disk (nd_store n))) /\
  forall i x, rs_get_log_id (nd_state n) i = Some x <->
    lid_index x = i /\ (ls_purged (planned_log n) = Some x \/ exists y, y ∈ ls_entries (planned_log n) /\ e_log_id y = x).
Proof. exact log_view. Qed.
Print Assumptions C33_log_without_holes.

(** Committed, purged and snapshot position never go back. *)
Theorem C33_positions_grow : forall E cfg, env_ok E -> forall now ev n n' outs, fits_step E cfg now ev n n' outs ->
  pfx (ev_hist E) (rs_committed (nd_state n)) (rs_committed (nd_state n')) /\
  pos_le (rs_committed (nd_state n)) (rs_committed (nd_state n')) /\
  pos_le (rs_last_purged (nd_state n)) (rs_last_purged (nd_state n')) /\
  pos_le (rs_snap_last (nd_state n)) (rs_snap_last (nd_state n')).
Proof. exact positions_grow. Qed.
Print Assumptions C33_positions_grow.

(** Node 2 after following two leaders, one of which replaced an entry of the other. *)
Example C33_ex : exists n outs, ex_end (ex_cfg 2) ex_f2 = Ok (n, outs) /\ env_ok ex_env /\ fits_reachable ex_env (ex_cfg 2) n /\
  rs_committed (nd_state n) = Some (ex_lid 2 3 3) /\ rs_last (nd_state n) = Some (ex_lid 2 3 4) /\
  length (ls_entries (dk_log (so_disk (nd_store n)))) = 5.
Proof.
  eexists _, _. split; [vm_compute; reflexivity|]. split; [apply ex_env_ok|]. split; [eapply ex_reach; [apply ex_f2_fits|vm_compute; reflexivity]|].
  repeat split; vm_compute; reflexivity.
Qed.

(** ** C16 *)

(** Whatever the node's state and whatever the event contains, unless it is a leader's
    append-entries or snapshot: the commit position changes only on a leader whose vote
    stays, forward, to a log id carrying that vote's leader id. *)
Theorem C16_only_own_entries : forall now ev n n' outs, node_step now ev n = Ok (n', outs) -> is_follow_msg ev = false ->
  rs_committed (nd_state n') = rs_committed (nd_state n) \/
  rs_v (nd_state n') = rs_v (nd_state n) /\
  (forall l', en_leader (nd_eng n') = Some l' -> exists l, en_leader (nd_eng n) = Some l /\ ld_vote l' = ld_vote l) /\
  exists l c, en_leader (nd_eng n) = Some l /\ rs_committed (nd_state n') = Some c /\
     lid_leader c = v_leader (rs_v (nd_state n)) /\ ologid_ltb (rs_committed (nd_state n)) (Some c) = true.
Proof. exact step_leads_commit. Qed.
Print Assumptions C16_only_own_entries.

(** A node that leads (before and after, or only after the step) commits only entries
    with its own leader id and node id. *)
Theorem C16_leader_commits_own : forall E cfg, env_ok E -> forall now ev n n' outs l',
  fits_step E cfg now ev n n' outs -> en_leader (nd_eng n') = Some l' ->
  rs_committed (nd_state n') = rs_committed (nd_state n) \/
  exists l c, en_leader (nd_eng n) = Some l /\ ld_vote l = ld_vote l' /\ rs_committed (nd_state n') = Some c /\
    lid_leader c = v_leader (ld_vote l') /\ li_node (lid_leader c) = ec_id cfg /\
    ologid_ltb (rs_committed (nd_state n)) (Some c) = true.
Proof. exact leader_commit. Qed.
Print Assumptions C16_leader_commits_own.

(** Leader 1 with membership entry (0,0,0) and its blank (1,1,1): when node 2 has stored
    (0,0,0) nothing is committed, when it has stored (1,1,1) that is. *)
Example C16_ex : exists n1 o1 n2 o2, ex_end (ex_cfg 1) ex_lead1 = Ok (n1, o1) /\ ex_end (ex_cfg 1) ex_lead2 = Ok (n2, o2) /\
  fits_reachable ex_env (ex_cfg 1) n2 /\ is_Some (en_leader (nd_eng n2)) /\
  (exists l, en_leader (nd_eng n1) = Some l /\
     map (fun x => pe_matching x.2) (vp_vec (ld_progress l)) = [Some (ex_lid 1 1 1); Some (ex_lid 0 0 0); None]) /\
  rs_committed (nd_state n1) = None /\ rs_committed (nd_state n2) = Some (ex_lid 1 1 1).
Proof.
  eexists _, _, _, _. split; [vm_compute; reflexivity|]. split; [vm_compute; reflexivity|].
  split; [eapply ex_reach; [apply ex_lead2_fits|vm_compute; reflexivity]|]. split; [eexists; vm_compute; reflexivity|].
  split; [eexists; split; vm_compute; reflexivity|]. split; vm_compute; reflexivity.
Qed.

(** ** C17 *)

(** When the answer is success, the log held [prev] before and after; every entry of the
    request is in it or below the purge position; nothing is purged; the entries before
    [prev] stay.  The first [k] entries of the request were there already; if these are all
    of them the log is unchanged; otherwise the [k]-th was not, and exactly the entries
    from its index on are replaced by the rest of the request. *)
Theorem C17_accepted_append : forall E cfg, env_ok E -> forall now v prev es lc tx n n' outs,
  fits_step E cfg now (EMsg (MAppend v prev es lc tx)) n n' outs ->
  answers_success (EMsg (MAppend v prev es lc tx)) n n' tx ->
  holds_pos (planned_log n) prev /\ holds_pos (planned_log n') prev /\
  (forall e, e ∈ es -> e ∈ ls_entries (planned_log n') \/ e_index e < next_index (ls_purged (planned_log n'))) /\
  ls_purged (planned_log n') = ls_purged (planned_log n) /\
  (forall x, x ∈ ls_entries (planned_log n) -> e_index x < next_index prev -> x ∈ ls_entries (planned_log n')) /\
  exists k, k <= length es /\
    (forall e, e ∈ take k es -> e ∈ ls_entries (planned_log n) \/ e_index e < next_index (ls_purged (planned_log n))) /\
    ((k = length es /\ ls_entries (planned_log n') = ls_entries (planned_log n)) \/
     exists e, es !! k = Some e /\ next_index (ls_purged (planned_log n)) <= e_index e /\
       ~ (exists x, x ∈ ls_entries (planned_log n) /\ e_log_id x = e_log_id e) /\
       ls_entries (planned_log n') = filter (fun x => e_index x < e_index e) (ls_entries (planned_log n)) ++ drop k es).
Proof. exact append_holds. Qed.
Print Assumptions C17_accepted_append.

(** Node 2 holding (0,0,0), (1,1,1), (1,1,2) accepts (2,3,2), (2,3,3), (2,3,4) after (1,1,1). *)
Example C17_ex : exists n o n' outs, ex_end (ex_cfg 2) ex_f1 = Ok (n, o) /\
  fits_step ex_env (ex_cfg 2) 40 ex_replace n n' outs /\ answers_success ex_replace n n' 9 /\
  map e_log_id (ls_entries (planned_log n)) = [ex_lid 0 0 0; ex_lid 1 1 1; ex_lid 1 1 2] /\
  map e_log_id (ls_entries (planned_log n')) = [ex_lid 0 0 0; ex_lid 1 1 1; ex_lid 2 3 2; ex_lid 2 3 3; ex_lid 2 3 4].
Proof.
  eexists _, _, _, _. split; [vm_compute; reflexivity|].
  split; [eapply ex_step; [apply ex_f1_fits|vm_compute; reflexivity|vm_compute; reflexivity|vm_compute; reflexivity]|].
  split; [eexists; vm_compute; do 3 right; left|]. split; vm_compute; reflexivity.
Qed.

(** ** C18 *)

(** Whatever state the node is in and whatever a message contains: only append-entries
    and snapshot messages truncate, and never at or below the commit position. *)
Theorem C18_truncates_above_commit : forall now ev n n' outs x, node_step now ev n = Ok (n', outs) ->
  TruncateLog x ∈ step_produced ev n n' ->
  is_follow_msg ev = true /\ next_index (rs_committed (nd_state n)) <= lid_index x.
Proof. exact step_truncates. Qed.
Print Assumptions C18_truncates_above_commit.

(** A committed entry stays in the log unless a purge covers it. *)
Theorem C18_committed_entries_stay : forall now ev n n' outs x, node_step now ev n = Ok (n', outs) ->
  x ∈ ls_entries (planned_log n) -> e_index x < next_index (rs_committed (nd_state n)) ->
  x ∈ ls_entries (planned_log n') \/ exists u, PurgeLog u ∈ step_produced ev n n' /\ e_index x <= lid_index u.
Proof. exact step_keeps_committed. Qed.
Print Assumptions C18_committed_entries_stay.

(** And what is purged is covered by the node's snapshot. *)
Theorem C18_purged_is_in_snapshot : forall E cfg, env_ok E -> forall now ev n n' outs x, fits_step E cfg now ev n n' outs ->
  x ∈ ls_entries (planned_log n) -> e_index x < next_index (rs_committed (nd_state n)) ->
  x ∈ ls_entries (planned_log n') \/
  e_index x < next_index (rs_last_purged (nd_state n')) /\ e_index x < next_index (rs_snap_last (nd_state n')).
Proof. exact keeps_or_snapshot. Qed.
Print Assumptions C18_purged_is_in_snapshot.

(** The request of [C17_ex] truncates from index 2, (1,1,1) being committed.  A request
    from a leader without (1,1,1) truncates nothing at all. *)
Example C18_ex : exists n o, ex_end (ex_cfg 2) ex_f1 = Ok (n, o) /\ rs_committed (nd_state n) = Some (ex_lid 1 1 1) /\
  let trunc prev es := match node_step 40 (EMsg (MAppend ex_v3 prev es None 9)) n with
                       | Ok (n', _) => omap (fun c => match c with TruncateLog x => Some x | _ => None end) (en_out (nd_eng n'))
                       | Panic => [] end in
  trunc (Some (ex_lid 1 1 1)) (drop 2 ex_log3) = [ex_lid 1 1 2] /\
  trunc (Some (ex_lid 0 0 0)) [mkEntry (ex_lid 2 3 1) PBlank] = [].
Proof. eexists _, _. split; [vm_compute; reflexivity|]. repeat split; vm_compute; reflexivity. Qed.

(** ** C19 *)

(** A node that is not leading moves its commit position only forward, and only: by an
    append-entries request of the leader it then follows, to the smaller of the request's
    commit position and the last position [y] accepted from this leader, which both logs
    contain; or by installing that leader's snapshot, to its last position. *)
Theorem C19_follower_commit : forall E cfg, env_ok E -> forall now ev n n' outs,
  fits_step E cfg now ev n n' outs -> en_leader (nd_eng n) = None ->
  rs_committed (nd_state n') = rs_committed (nd_state n) \/
  (exists v prev es lc tx y, ev = EMsg (MAppend v prev es lc tx) /\ rs_v (nd_state n') = v /\
     ologid_ltb (rs_committed (nd_state n)) (rs_committed (nd_state n')) = true /\
     rs_committed (nd_state n') = ologid_min y lc /\
     io_accepted (rs_io (nd_state n')) = Some (IOLog v y) /\
     pfx (ev_hist E) y (ls_last (planned_log n')) /\ pfx (ev_hist E) y (ev_tip E (v_leader v))) \/
  (exists v sn tx, ev = EMsg (MSnapshot v sn tx) /\ rs_v (nd_state n') = v /\
     ologid_ltb (rs_committed (nd_state n)) (rs_committed (nd_state n')) = true /\
     rs_committed (nd_state n') = sm_last (sn_meta sn)).
Proof. exact follower_commit. Qed.
Print Assumptions C19_follower_commit.

(** Leader 3 reports (2,3,3) committed and sends up to (2,3,4): node 2 commits (2,3,3).
    Leader 1 reporting more than was sent has node 2 commit what was sent. *)
Example C19_ex : exists n o n' outs, ex_end (ex_cfg 2) ex_f1 = Ok (n, o) /\
  fits_step ex_env (ex_cfg 2) 40 ex_replace n n' outs /\ en_leader (nd_eng n) = None /\
  rs_committed (nd_state n) = Some (ex_lid 1 1 1) /\ rs_committed (nd_state n') = Some (ex_lid 2 3 3) /\
  exists n2 outs2, fits_step ex_env (ex_cfg 2) 4 (EMsg (MAppend ex_v1 (Some (ex_lid 1 1 1)) [] (Some (ex_lid 1 1 4)) 9)) n n2 outs2 /\
    rs_committed (nd_state n2) = Some (ex_lid 1 1 2).
Proof.
  eexists _, _, _, _. split; [vm_compute; reflexivity|].
  split; [eapply ex_step; [apply ex_f1_fits|vm_compute; reflexivity|vm_compute; reflexivity|vm_compute; reflexivity]|].
  split; [vm_compute; reflexivity|]. split; [vm_compute; reflexivity|]. split; [vm_compute; reflexivity|].
  eexists _, _. split; [eapply ex_step; [apply ex_f1_fits|vm_compute; reflexivity|vm_compute; reflexivity|vm_compute; reflexivity]|vm_compute; reflexivity].
Qed.

(** ** C20 *)

(** A snapshot from a leader with a smaller vote changes nothing.  One not newer than the
    commit position changes nothing of log, snapshot, purge and commit position and
    membership.  Otherwise all positions become the snapshot's last log id; the log
    keeps the entries above it if it contains that log id and is emptied if not; the
    committed membership is not older than the snapshot's, and neither is the effective
    one by index. *)
Theorem C20_install : forall E cfg, env_ok E -> forall now v sn tx n n' outs,
  fits_step E cfg now (EMsg (MSnapshot v sn tx)) n n' outs -> runnable n = false ->
  let s := nd_state n in let s' := nd_state n' in
  (vote_geb v (rs_v s) = false /\ s' = s /\ planned_log n' = planned_log n /\ en_leader (nd_eng n') = en_leader (nd_eng n)) \/
  (vote_geb v (rs_v s) = true /\ rs_v s' = v /\ en_leader (nd_eng n') = None /\
   ((ologid_leb (sm_last (sn_meta sn)) (rs_committed s) = true /\
     rs_committed s' = rs_committed s /\ rs_snap s' = rs_snap s /\ rs_purge_upto s' = rs_purge_upto s /\
     rs_last_purged s' = rs_last_purged s /\ rs_mem s' = rs_mem s /\ planned_log n' = planned_log n) \/
    exists sl, sm_last (sn_meta sn) = Some sl /\ ologid_ltb (rs_committed s) (Some sl) = true /\
      rs_committed s' = Some sl /\ rs_snap s' = sn_meta sn /\ rs_purge_upto s' = Some sl /\ rs_last_purged s' = Some sl /\
      ls_purged (planned_log n') = Some sl /\
      ls_entries (planned_log n') =
        (if bool_decide (sl ∈ map e_log_id (ls_entries (planned_log n)))
         then filter (fun e => lid_index sl < e_index e) (ls_entries (planned_log n)) else []) /\
      ologid_leb (em_log_id (sm_mem (sn_meta sn))) (em_log_id (ms_committed (rs_mem s'))) = true /\
      next_index (em_log_id (sm_mem (sn_meta sn))) <= next_index (em_log_id (ms_effective (rs_mem s'))))).
Proof. exact install_spec. Qed.
Print Assumptions C20_install.

(** Node 2 with (1,1,2) at index 2 installs leader 3's snapshot up to (2,3,3): its log is
    emptied.  After it has taken leader 3's entries the same snapshot changes nothing. *)
Example C20_ex : exists n o n' outs, ex_end (ex_cfg 2) ex_f1 = Ok (n, o) /\
  fits_step ex_env (ex_cfg 2) 50 ex_install n n' outs /\ runnable n = false /\
  rs_committed (nd_state n') = Some (ex_lid 2 3 3) /\ ls_entries (planned_log n') = [] /\
  exists n2 o2 n3 o3, ex_end (ex_cfg 2) ex_f2 = Ok (n2, o2) /\ fits_step ex_env (ex_cfg 2) 50 ex_install n2 n3 o3 /\ runnable n2 = false /\
    rs_committed (nd_state n2) = Some (ex_lid 2 3 3) /\ planned_log n3 = planned_log n2 /\ length (ls_entries (planned_log n3)) = 5.
Proof.
  eexists _, _, _, _. split; [vm_compute; reflexivity|].
  split; [eapply ex_step; [apply ex_f1_fits|vm_compute; reflexivity|vm_compute; reflexivity|vm_compute; reflexivity]|].
  split; [vm_compute; reflexivity|]. split; [vm_compute; reflexivity|]. split; [vm_compute; reflexivity|].
  eexists _, _, _, _. split; [vm_compute; reflexivity|].
  split; [eapply ex_step; [apply ex_f2_fits|vm_compute; reflexivity|vm_compute; reflexivity|vm_compute; reflexivity]|].
  repeat split; vm_compute; reflexivity.
Qed.

(** ** C21 *)

(** The planned purge position changes only: when a snapshot is installed; when the user
    asks to purge up to an index, not beyond that index; or after building a snapshot, to
    leave exactly the configured number of entries before the end of the snapshot, and
    only if at least the configured batch can be purged. *)
Theorem C21_planned_purge : forall now ev n n' outs, node_step now ev n = Ok (n', outs) ->
  rs_purge_upto (nd_state n') = rs_purge_upto (nd_state n) \/
  (exists v sn tx, ev = EMsg (MSnapshot v sn tx)) \/
  (exists i x, ev = EMsg (MPurge i) /\ rs_purge_upto (nd_state n') = Some x /\ lid_index x <= i) \/
  (exists x, ev = ENote /\ rs_purge_upto (nd_state n') = Some x /\
     S (lid_index x) + ec_max_keep (en_cfg (nd_eng n)) = next_index (rs_snap_last (nd_state n')) /\
     next_index (rs_last_purged (nd_state n)) + ec_purge_batch (en_cfg (nd_eng n)) <= S (lid_index x)).
Proof. exact step_plan. Qed.
Print Assumptions C21_planned_purge.

(** What is purged lies within the snapshot, and no follower is being sent it.  (That
    purged <= planned <= snapshot <= committed <= last is [C33_positions_ordered].) *)
Theorem C21_purges_only_snapshotted : forall E cfg, env_ok E -> forall now ev n n' outs u,
  fits_step E cfg now ev n n' outs -> PurgeLog u ∈ step_produced ev n n' ->
  not_sending u (nd_eng n') /\ pos_le (Some u) (rs_last_purged (nd_state n')) /\ pos_le (Some u) (rs_snap_last (nd_state n')).
Proof. exact purge_inflight. Qed.
Print Assumptions C21_purges_only_snapshotted.

(** Keeping 1 entry: having built a snapshot up to index 3 node 2 purges up to index 2. *)
Example C21_ex : exists n o n' outs, ex_end (ex_cfg 2) ex_f3 = Ok (n, o) /\
  fits_step ex_env (ex_cfg 2) 43 ENote n n' outs /\ rs_purge_upto (nd_state n) = None /\
  rs_purge_upto (nd_state n') = Some (ex_lid 2 3 2) /\ rs_snap_last (nd_state n') = Some (ex_lid 2 3 3) /\
  PurgeLog (ex_lid 2 3 2) ∈ step_produced ENote n n'.
Proof.
  eexists _, _, _, _. split; [vm_compute; reflexivity|].
  split; [eapply ex_step; [apply ex_f3_fits|vm_compute; reflexivity|vm_compute; reflexivity|vm_compute; reflexivity]|].
  split; [vm_compute; reflexivity|]. split; [vm_compute; reflexivity|]. split; [vm_compute; reflexivity|].
  vm_compute. left.
Qed.

(** ** C34 *)

(** The state machine has applied exactly the entries from index 0 to its applied
    position, once each and in order, all of them committed. *)
Theorem C34_applied_in_order : forall E cfg, env_ok E -> forall n, fits_reachable E cfg n ->
  map e_index (sm_entries (nd_sm n)) = seq 0 (length (sm_entries (nd_sm n))) /\
  sm_applied (nd_sm n) = es_last None (sm_entries (nd_sm n)) /\
  pos_le (sm_applied (nd_sm n)) (rs_committed (nd_state n)).
Proof. exact sm_state. Qed.
Print Assumptions C34_applied_in_order.

(** The commands waiting for the state machine continue this without gap or overlap, up to
    a committed position. *)
Theorem C34_queue_in_order : forall E cfg, env_ok E -> forall n, fits_reachable E cfg n ->
  exists to, sm_in_order (sm_applied (nd_sm n)) (nd_smq n) to /\ pos_le to (rs_committed (nd_state n)).
Proof. exact sm_queue_order. Qed.
Print Assumptions C34_queue_in_order.

(** Without a crash what is applied only grows, by the range of the first waiting command,
    read from the log, or by installing a snapshot that contains all of it. *)
Theorem C34_applied_grows : forall E cfg, env_ok E -> forall now ev n n' outs, fits_step E cfg now ev n n' outs ->
  exists es, sm_entries (nd_sm n') = sm_entries (nd_sm n) ++ es /\
    (es <> [] -> ev = ESm /\ ((exists f l r, nd_smq n = SmApply f l :: r /\ nd_smq n' = r /\
       forall e, e ∈ es -> e ∈ ls_entries (so_log (nd_store n)) /\ lid_index f <= e_index e <= lid_index l) \/
      (exists sn io r, nd_smq n = SmInstall sn io :: r /\ nd_smq n' = r /\ sm_entries (nd_sm n') = sn_data sn))).
Proof. exact sm_grows. Qed.
Print Assumptions C34_applied_grows.

(** That a queued range always reaches the state machine is false of the code (finding F6):
    when a snapshot is accepted while the range waits behind an answer that waits for the
    disk, the node panics when the range is due. *)
Theorem C34_queued_range_applied_refuted : exists E cfg now n r, env_ok E /\ fits_reachable E cfg n /\
  en_out (nd_eng n) = CmdApply (Some (ex_lid 1 1 1)) (ex_lid 2 3 3) :: r /\ node_step now ERun n = Panic.
Proof. exact queued_apply_panics. Qed.
Print Assumptions C34_queued_range_applied_refuted.

(** Node 2 with the ranges 0-1 and 2-2 waiting. *)
Example C34_ex : exists n o n' outs, ex_end (ex_cfg 2) ex_f4 = Ok (n, o) /\ fits_reachable ex_env (ex_cfg 2) n /\
  nd_smq n = [SmApply (ex_lid 0 0 0) (ex_lid 1 1 1); SmApply (ex_lid 1 1 2) (ex_lid 1 1 2)] /\
  sm_entries (nd_sm n) = [] /\
  fits_step ex_env (ex_cfg 2) 5 ESm n n' outs /\ map e_log_id (sm_entries (nd_sm n')) = [ex_lid 0 0 0; ex_lid 1 1 1].
Proof.
  eexists _, _, _, _. split; [vm_compute; reflexivity|].
  split; [eapply ex_reach; [apply ex_f4_fits|vm_compute; reflexivity]|]. split; [vm_compute; reflexivity|]. split; [vm_compute; reflexivity|].
  split; [eapply ex_step; [apply ex_f4_fits|vm_compute; reflexivity|vm_compute; reflexivity|vm_compute; reflexivity]|].
  vm_compute; reflexivity.
Qed.
