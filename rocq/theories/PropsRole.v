(** Properties about leadership, restart, initialization, roles and a leader's own entries
    (C07, C24, C25, C29, C30, C39). *)
From stdpp Require Import base numbers option gmap list.
From Verif Require Import Types LogIdList Quorum QuorumSpec Membership Progress RaftState ProgressEntry Engine Store RaftCore VoteSpec NodeSpec NodeExamples
  LogSpec LogPropSpec LogStateProofs LogExamples RoleSpec RoleProofs OwnProofs StartProofs RolePropProofs RoleExamples RestartExamples HonestSpec HonestProofs.
Import NodeSpec.

(** ** C07 *)

(** Whatever two nodes went through (any events, any messages, crashes): if both lead, now
    or earlier, under the same leader id, they are the same node. *)
Theorem C07_one_leader_per_id : forall now1 cfg1 f1 acts1 n1 o1 now2 cfg2 f2 acts2 n2 o2 L,
  node_fresh now1 cfg1 = Ok f1 -> node_run acts1 f1 = Ok (n1, o1) ->
  node_fresh now2 cfg2 = Ok f2 -> node_run acts2 f2 = Ok (n2, o2) ->
  leads n1 L -> leads n2 L -> ec_id cfg1 = ec_id cfg2.
Proof. exact one_leader_per_id. Qed.
Print Assumptions C07_one_leader_per_id.

(** Single-term-leader mode: voters see any requests in any order; two candidates'
    votes of the same term, each adopted by a quorum, name the same node. *)
Theorem C07_one_leader_per_term : forall (v0 : nat -> StdVote) (reqs : nat -> list StdVote) qs q1 q2 a b,
  qs <> [] -> quorum qs q1 -> quorum qs q2 ->
  (forall x, x ∈ q1 -> a ∈ std_adopted (v0 x) (reqs x)) -> (forall x, x ∈ q2 -> b ∈ std_adopted (v0 x) (reqs x)) ->
  sv_committed a = false -> sv_committed b = false -> sl_voted (sv_leader a) <> None -> sl_voted (sv_leader b) <> None ->
  sl_term (sv_leader a) = sl_term (sv_leader b) -> sv_leader a = sv_leader b.
Proof. exact std_one_per_term. Qed.
Print Assumptions C07_one_leader_per_term.

(** Node 1 leads under (1,1); node 2, having run the same events, does not. *)
Example C07_ex : exists f n o f2 n2 o2, node_fresh 0 (ex_cfg 1) = Ok f /\ node_run ex_leading f = Ok (n, o) /\ leads n (mkLeaderId 1 1) /\
  node_fresh 0 (ex_cfg 2) = Ok f2 /\ node_run ex_leading f2 = Ok (n2, o2) /\ en_leader (nd_eng n2) = None.
Proof.
  eexists _, _, _, _, _, _. split; [vm_compute; reflexivity|]. split; [vm_compute; reflexivity|]. split; [eexists; split; reflexivity|].
  split; [vm_compute; reflexivity|]. split; vm_compute; reflexivity.
Qed.
(** Voters 1, 2, 3; node 1's vote of term 5 is adopted by 1 and 2, and 2 refuses node 3's. *)
Example C07_ex_term : let a := mkStdVote (mkStdLeaderId 5 (Some 1)) false in let b := mkStdVote (mkStdLeaderId 5 (Some 3)) false in
  quorum [{[1; 2; 3]}] {[1; 2]} /\ a ∈ std_adopted (mkStdVote (mkStdLeaderId 2 (Some 2)) true) [a; b] /\
  ~ b ∈ std_adopted (mkStdVote (mkStdLeaderId 2 (Some 2)) true) [a; b].
Proof.
  cbn zeta. split; [intros c Hc; apply elem_of_list_singleton in Hc as ->; unfold majority; vm_compute; lia|].
  match goal with |- _ ∈ ?l /\ _ => let l' := eval vm_compute in l in change l with l' end.
  split; [left|]. intros H. apply elem_of_list_singleton in H. discriminate.
Qed.

(** ** C24 *)

(** A crash leaves the disk [d] and the state machine [sm].  After the restart the vote is
    the stored one; the commit position [c] is the larger of the applied and the saved commit position;
    exactly the log entries between both are applied, once and in order; nothing is queued;
    the disk is unchanged, or if the state machine is ahead of the log, the log is purged to
    the applied position; the log ids are those of the disk, the snapshot is the stored one
    or, if there is none, one built from the applied entries; the membership is the last one
    in the applied and logged entries.
    Partial: [act_fits] asks that a state machine ahead of the stored log is ahead of it
    both by index and by log id, and that then its snapshot, if any, is up to date. *)
Theorem C24_restart_partial : forall E cfg, env_ok E -> forall now k j keep n n' outs,
  fits_reachable E cfg n -> node_act (Crash now k j keep) n = Ok (n', outs) -> act_fits E (Crash now k j keep) n n' ->
  let d := crash_disk k j (nd_store n) in let sm := sm_crash keep (nd_sm n) in
  let c := ologid_max (sm_applied sm) (dk_committed d) in let d' := so_disk (nd_store n') in
  (rs_v (nd_state n') = default vote_default (dk_vote d) /\ stored_vote n' = default vote_default (dk_vote d)) /\
  (rs_committed (nd_state n') = c /\ sm_applied (nd_sm n') = c) /\
  (exists es, sm_entries (nd_sm n') = sm_entries sm ++ es /\ (forall e, e ∈ es -> in_log (dk_log d) e) /\
     map e_index es = seq (next_index (sm_applied sm)) (next_index c - next_index (sm_applied sm))) /\
  (nd_smq n' = [] /\ nd_builds n' = [] /\ nd_notes n' = [] /\ nd_streams n' = [] /\ so_pending (nd_store n') = []) /\
  (d' = d \/ (ologid_ltb (ls_last (dk_log d)) (sm_applied sm) = true /\ d' = mkDisk (dk_vote d) (dk_committed d) (mkLS (sm_applied sm) []))) /\
  (en_leader (nd_eng n') = None -> en_out (nd_eng n') = [] /\ rs_last (nd_state n') = ls_last (dk_log d') /\
                                    rs_last_purged (nd_state n') = ls_purged (dk_log d')) /\
  (rs_snap (nd_state n') = match sm_snapshot (nd_sm n') with Some sn => sn_meta sn | None => sm_default end /\
   (sm_snapshot (nd_sm n') = sm_snapshot sm \/
    (sm_snapshot sm = None /\ exists sn, sm_snapshot (nd_sm n') = Some sn /\ sn_data sn = sm_entries (nd_sm n') /\ sm_last (sn_meta sn) = c))) /\
  rs_eff (nd_state n') = mem_of (sm_entries (nd_sm n') ++ filter (fun e => next_index c <= e_index e) (ls_entries (dk_log d))).
Proof. exact restart. Qed.
Print Assumptions C24_restart_partial.

(** Node 2 has applied four entries; the crash loses all of what the state machine did not
    make durable, and everything up to the saved commit position is applied again. *)
Example C24_ex : exists n o n' outs, ex_end (ex_cfg 2) ex_f2 = Ok (n, o) /\ fits_reachable ex_env (ex_cfg 2) n /\
  node_act rs_crash n = Ok (n', outs) /\ act_fits ex_env rs_crash n n' /\
  sm_applied (nd_sm n) = Some (ex_lid 2 3 3) /\ sm_applied (sm_crash 0 (nd_sm n)) = None /\
  map e_log_id (sm_entries (nd_sm n')) = [ex_lid 0 0 0; ex_lid 1 1 1; ex_lid 2 3 2; ex_lid 2 3 3] /\
  rs_last (nd_state n') = Some (ex_lid 2 3 4) /\ rs_v (nd_state n') = ex_v3.
Proof.
  eexists _, _, _, _. split; [vm_compute; reflexivity|]. split; [eapply ex_reach; [apply ex_f2_fits|vm_compute; reflexivity]|].
  split; [vm_compute; reflexivity|]. split; [apply act_fitsb_ok; vm_compute; reflexivity|]. repeat split; vm_compute; reflexivity.
Qed.

(** Without [act_fits] the property is false of the code.  All three runs crash with the
    state machine ahead of the stored log.

    F14: a snapshot up to (2,3,3) is installed and the crash comes before the truncation of
    the log reaches the disk.  The log is purged up to (2,3,3); the entries (1,1,4) and
    (1,1,5) that the leader had replaced stay on disk behind it, and the node's own list of
    log ids does not have them. *)
Theorem C24_stale_tail_refuted : exists E cfg now k j keep n n' outs, env_ok E /\ fits_reachable E cfg n /\
  node_act (Crash now k j keep) n = Ok (n', outs) /\
  rs_last (nd_state n') = Some (ex_lid 2 3 3) /\ ls_purged (dk_log (so_disk (nd_store n'))) = Some (ex_lid 2 3 3) /\
  map e_log_id (ls_entries (dk_log (so_disk (nd_store n')))) = [ex_lid 1 1 4; ex_lid 1 1 5].
Proof. exact stale_tail_refuted. Qed.
Print Assumptions C24_stale_tail_refuted.

(** F12: the stored log ends with (2,3,2), the installed snapshot with (1,1,4).  Nothing is
    purged, the last log id stays behind the applied one, and once elected the node
    proposes an entry at index 3 although it has applied index 4. *)
Theorem C24_last_behind_applied_refuted : exists E cfg now k j keep n n' outs, env_ok E /\ fits_reachable E cfg n /\
  node_act (Crash now k j keep) n = Ok (n', outs) /\
  rs_last (nd_state n') = Some (ex_lid 2 3 2) /\ rs_committed (nd_state n') = Some (ex_lid 1 1 4) /\ sm_applied (nd_sm n') = Some (ex_lid 1 1 4) /\
  exists acts n'' outs', node_run acts n' = Ok (n'', outs') /\ en_leader (nd_eng n'') <> None /\
    mkEntry (ex_lid 4 2 3) PBlank ∈ ls_entries (so_log (nd_store n'')) /\ sm_applied (nd_sm n'') = Some (ex_lid 1 1 4).
Proof. exact last_behind_refuted. Qed.
Print Assumptions C24_last_behind_applied_refuted.

(** F15: a leader has applied an entry its own storage does not have yet, with a snapshot
    before it.  The log is purged beyond the snapshot: neither holds (1,1,2). *)
Theorem C24_purged_beyond_snapshot_refuted : exists E cfg now k j keep n n' outs, env_ok E /\ fits_reachable E cfg n /\
  node_act (Crash now k j keep) n = Ok (n', outs) /\
  ls_purged (dk_log (so_disk (nd_store n'))) = Some (ex_lid 1 1 2) /\ ls_entries (dk_log (so_disk (nd_store n'))) = [] /\
  sm_last (rs_snap (nd_state n')) = Some (ex_lid 1 1 1) /\ snap_last (nd_sm n') = Some (ex_lid 1 1 1).
Proof. exact purged_beyond_refuted. Qed.
Print Assumptions C24_purged_beyond_snapshot_refuted.

(** ** C25 *)

(** Initialization succeeds exactly on an empty log with the initial vote on a node that
    is one of the given members: the first entry is the membership, at index 0, and the node
    campaigns with term 1.  Otherwise an error is queued and nothing else changes. *)
Theorem C25_initialize : forall now ms tx n n' outs,
  node_step now (EMsg (MInitialize ms tx)) n = Ok (n', outs) -> runnable n = false ->
  let s := nd_state n in let s' := nd_state n' in
  (rs_last s = None /\ rs_v s = vote_default /\ nd_id n ∈ dom ms ->
     let m := mkMembership [dom ms] ms in let v1 := mkVote (mkLeaderId 1 (nd_id n)) false in let l0 := mkLogId (mkLeaderId 0 0) 0 in
     step_produced (EMsg (MInitialize ms tx)) n n' =
       [AppendInputEntries (mkVote (mkLeaderId 0 0) true) [mkEntry l0 (PMembership m)]; SaveVote v1; SendVote (mkVoteReq v1 (Some l0));
        Respond (Some (LogFlushed (Some l0))) (RInitialize None) tx] /\
     rs_v s' = v1 /\ rs_last s' = Some l0 /\ rs_eff s' = mkEM (Some l0) m /\ rs_server s' = SCandidate /\ campaigns n' v1 [dom ms] /\
     rs_committed s' = rs_committed s) /\
  (~ (rs_last s = None /\ rs_v s = vote_default /\ nd_id n ∈ dom ms) ->
     exists err, n' = nd_set_eng (push (Respond None (RInitialize (Some err)) tx) (nd_eng n)) n /\
      (err = NotAllowed (rs_last s) (rs_v s) /\ (rs_last s <> None \/ rs_v s <> vote_default) \/
       err = NotInMembers /\ rs_last s = None /\ rs_v s = vote_default /\ nd_id n ∉ dom ms)) /\
  outs = [].
Proof. exact initialize_step. Qed.
Print Assumptions C25_initialize.

(** Node 1 is initialized; node 4 is not a member; node 1 is not initialized again. *)
Example C25_ex : exists f n o f4 n4 o4 n' o', node_fresh 0 (ex_cfg 1) = Ok f /\ node_fresh 0 (ex_cfg 4) = Ok f4 /\
  runnable f = false /\ rs_last (nd_state f) = None /\ rs_v (nd_state f) = vote_default /\ nd_id f ∈ dom ex_members /\
  node_run ex_init f = Ok (n, o) /\ runnable n = false /\ rs_last (nd_state n) = Some (ex_lid 0 0 0) /\
  node_step 1 (EMsg (MInitialize ex_members 7)) f4 = Ok (n4, o4) /\ en_out (nd_eng n4) = [Respond None (RInitialize (Some NotInMembers)) 7] /\
  node_step 1 (EMsg (MInitialize ex_members 9)) n = Ok (n', o') /\
  en_out (nd_eng n') = [Respond None (RInitialize (Some (NotAllowed (Some (ex_lid 0 0 0)) (mkVote (mkLeaderId 1 1) false)))) 9].
Proof.
  eexists _, _, _, _, _, _, _, _. split; [vm_compute; reflexivity|]. split; [vm_compute; reflexivity|].
  split; [vm_compute; reflexivity|]. split; [vm_compute; reflexivity|]. split; [vm_compute; reflexivity|].
  split; [apply (bool_decide_eq_true_1 (_ ∈ _)); vm_compute; reflexivity|].
  split; [vm_compute; reflexivity|]. repeat split; vm_compute; reflexivity.
Qed.

(** ** C29 *)

(** A leader stops leading only if its vote changes, or a message or reply brings its own
    vote, or in a tick when the latest membership does not contain it and is committed and
    applied.  Partial: the second case, a leader handed its own vote back, is not excluded
    here, whatever the peers send; with honest peers it does not occur, see the next theorem. *)
Theorem C29_when_leadership_ends_partial : forall E cfg, env_ok E -> forall now ev n n' outs,
  fits_step E cfg now ev n n' outs -> en_leader (nd_eng n) <> None -> en_leader (nd_eng n') = None ->
  rs_v (nd_state n') <> rs_v (nd_state n) \/ rs_v (nd_state n) ∈ carried_votes ev n \/
  ((exists hb ee eh, ev = ETick hb ee eh) /\ m_contains (nd_mem n) (ec_id cfg) = false /\
   ologid_leb (em_log_id (rs_eff (nd_state n))) (rs_committed (nd_state n)) = true /\
   ologid_leb (em_log_id (rs_eff (nd_state n))) (io_applied (rs_io (nd_state n))) = true).
Proof. exact leader_lost. Qed.
Print Assumptions C29_when_leadership_ends_partial.

(** When the peers are honest, a leader's own vote never ends its leadership: it ends with
    the adoption of another vote, or in a tick when the node is not in the latest membership
    and that membership is committed and applied.  A leader in the membership is not
    affected by ticks. *)
Theorem C29_when_leadership_ends : forall E cfg, env_ok E -> forall now ev n n' outs,
  honest_reachable E cfg n -> honest_event n ev ->
  fits_step E cfg now ev n n' outs -> en_leader (nd_eng n) <> None -> en_leader (nd_eng n') = None ->
  rs_v (nd_state n') <> rs_v (nd_state n) \/
  ((exists hb ee eh, ev = ETick hb ee eh) /\ m_contains (nd_mem n) (ec_id cfg) = false /\
   ologid_leb (em_log_id (rs_eff (nd_state n))) (rs_committed (nd_state n)) = true /\
   ologid_leb (em_log_id (rs_eff (nd_state n))) (io_applied (rs_io (nd_state n))) = true).
Proof. exact honest_loss. Qed.
Print Assumptions C29_when_leadership_ends.

(** Nodes are honest: the vote requests they send carry uncommitted votes, whatever they
    went through ... *)
Theorem C29_nodes_ask_honestly : forall cfg n now ev n' outs t tag req, reachable cfg n -> node_step now ev n = Ok (n', outs) ->
  OSend t tag (RpcVote req) ∈ outs -> v_committed (vq_vote req) = false.
Proof. exact requests_open. Qed.
Print Assumptions C29_nodes_ask_honestly.

(** ... and an append is refused for its vote only with a greater vote. *)
Theorem C29_nodes_refuse_honestly : forall now v prev es lc tx n n' outs w v' tx',
  node_step now (EMsg (MAppend v prev es lc tx)) n = Ok (n', outs) ->
  Respond w (RAppend (AHigherVote v')) tx' ∈ step_produced (EMsg (MAppend v prev es lc tx)) n n' ->
  tx' = tx /\ vote_gtb v' v = true.
Proof. exact refusals_higher. Qed.
Print Assumptions C29_nodes_refuse_honestly.

(** Leader 1 hears of a vote of term 2 from a follower that refuses its entries: its
    leadership ends in the step that takes that note, with the vote.  In the same run
    without that refusal it ends in a tick, as in the example below. *)
Example C29_honest_ex : exists n1 o1 n2 o2, ex_end (ex_cfg 1) rm_refused = Ok (n1, o1) /\ env_ok rm_env /\ honest_reachable rm_env (ex_cfg 1) n1 /\
  en_leader (nd_eng n1) <> None /\ node_step 8 ENote n1 = Ok (n2, o2) /\ en_leader (nd_eng n2) = None /\
  rs_v (nd_state n2) = vote_new 2 2 /\
  exists n3 o3, ex_end (ex_cfg 1) rm_committed = Ok (n3, o3) /\ honest_reachable rm_env (ex_cfg 1) n3.
Proof.
  eexists _, _, _, _. split; [vm_compute; reflexivity|]. split; [apply rm_env_ok|].
  split; [eapply ex_honest_reach; [apply rm_refused_honest|vm_compute; reflexivity]|]. split; [discriminate|].
  split; [vm_compute; reflexivity|]. split; [reflexivity|]. split; [vm_compute; reflexivity|].
  eexists _, _. split; [vm_compute; reflexivity|]. eapply ex_honest_reach; [apply rm_committed_honest|vm_compute; reflexivity].
Qed.
(** Node 2, whose vote is of term 2, refuses an append of term 1 with it; node 1 asks for
    votes after [initialize]. *)
Example C29_honest_nodes_ex : exists n o n1 o1,
  ex_end (ex_cfg 2) [Act 1 (EMsg (MVote (mkVoteReq (vote_new 2 3) None) 5)); Act 1 ERun; Act 1 (EFlush 0); Act 1 ENote; Act 1 ERun] = Ok (n, o) /\
  node_step 2 (EMsg (MAppend (mkVote (mkLeaderId 1 1) true) None [] None 6)) n = Ok (n1, o1) /\
  (exists w, Respond w (RAppend (AHigherVote (vote_new 2 3))) 6 ∈ step_produced (EMsg (MAppend (mkVote (mkLeaderId 1 1) true) None [] None 6)) n n1) /\
  exists n2 o2 n3 o3, ex_end (ex_cfg 1) [Act 1 (EMsg (MInitialize rm_two 7)); Act 1 ERun; Act 1 ERun] = Ok (n2, o2) /\
  node_step 1 ERun n2 = Ok (n3, o3) /\ exists tag req, OSend 2 tag (RpcVote req) ∈ o3.
Proof.
  eexists _, _, _, _. split; [vm_compute; reflexivity|]. split; [vm_compute; reflexivity|].
  split; [eexists; vm_compute; left|].
  eexists _, _, _, _. split; [vm_compute; reflexivity|]. split; [vm_compute; reflexivity|]. eexists _, _. left.
Qed.

(** The first tick of the idle leader after that does end its leadership. *)
Theorem C29_removed_leader_steps_down : forall E cfg, env_ok E -> forall now hb ee eh n n' outs,
  fits_reachable E cfg n -> node_step now (ETick hb ee eh) n = Ok (n', outs) -> runnable n = false -> en_leader (nd_eng n) <> None ->
  m_contains (nd_mem n) (ec_id cfg) = false ->
  ologid_leb (em_log_id (rs_eff (nd_state n))) (rs_committed (nd_state n)) = true ->
  ologid_leb (em_log_id (rs_eff (nd_state n))) (io_applied (rs_io (nd_state n))) = true ->
  en_leader (nd_eng n') = None /\ en_cand (nd_eng n') = None /\
  rs_server (nd_state n') = if m_is_voter (nd_mem n) (ec_id cfg) then SFollower else SLearner.
Proof. exact leader_steps_down. Qed.
Print Assumptions C29_removed_leader_steps_down.

(** Leader 1 removes itself; it leads while (1,1,3) is not committed, also through a tick,
    and becomes a learner at the first tick after that. *)
Example C29_ex : exists n1 o1 n2 o2 n3 o3, ex_end (ex_cfg 1) (rm_gone ++ ex_settle 6) = Ok (n1, o1) /\ env_ok rm_env /\
  en_leader (nd_eng n1) <> None /\ m_contains (nd_mem n1) 1 = false /\ rs_committed (nd_state n1) = Some (ex_lid 1 1 2) /\
  (exists n o, node_step 6 rm_tick n1 = Ok (n, o) /\ en_leader (nd_eng n) <> None) /\
  ex_end (ex_cfg 1) rm_committed = Ok (n2, o2) /\ fits_reachable rm_env (ex_cfg 1) n2 /\ runnable n2 = false /\ en_leader (nd_eng n2) <> None /\
  rs_committed (nd_state n2) = Some (ex_lid 1 1 3) /\ io_applied (rs_io (nd_state n2)) = Some (ex_lid 1 1 3) /\
  node_step 7 rm_tick n2 = Ok (n3, o3) /\ en_leader (nd_eng n3) = None /\ rs_server (nd_state n3) = SLearner.
Proof.
  eexists _, _, _, _, _, _. split; [vm_compute; reflexivity|]. split; [apply rm_env_ok|]. split; [discriminate|].
  split; [vm_compute; reflexivity|]. split; [vm_compute; reflexivity|]. split; [eexists _, _; split; [vm_compute; reflexivity|discriminate]|].
  split; [vm_compute; reflexivity|]. split; [eapply ex_reach; [apply rm_committed_fits|vm_compute; reflexivity]|].
  split; [vm_compute; reflexivity|]. split; [discriminate|]. repeat split; vm_compute; reflexivity.
Qed.

(** ** C30 *)

(** The reported role is the one the vote and the latest membership give the node, except:
    a leader that a newer membership removed still reports leader (see C29); a node with its
    own uncommitted vote that is not campaigning, as after a restart, may report another role. *)
Theorem C30_role_partial : forall E cfg, env_ok E -> forall n, fits_reachable E cfg n ->
  role_of (ec_id cfg) (rs_v (nd_state n)) (nd_mem n) (rs_server (nd_state n)) \/
  (rs_server (nd_state n) = SLeader /\ li_node (v_leader (rs_v (nd_state n))) = ec_id cfg /\ v_committed (rs_v (nd_state n)) = true /\
   m_contains (nd_mem n) (ec_id cfg) = false /\ en_leader (nd_eng n) <> None) \/
  (li_node (v_leader (rs_v (nd_state n))) = ec_id cfg /\ v_committed (rs_v (nd_state n)) = false /\
   m_contains (nd_mem n) (ec_id cfg) = true /\ en_leader (nd_eng n) = None /\ en_cand (nd_eng n) = None).
Proof. exact role. Qed.
Print Assumptions C30_role_partial.

(** A forwarding hint names a member that owns the node's committed vote; it names the node
    itself only while it leads. *)
Theorem C30_forward : forall E cfg, env_ok E -> forall n to x, fits_reachable E cfg n -> rs_forward (nd_state n) = Some (to, x) ->
  v_committed (rs_v (nd_state n)) = true /\ to = li_node (v_leader (rs_v (nd_state n))) /\ m_nodes (nd_mem n) !! to = Some x /\
  (to = ec_id cfg -> en_leader (nd_eng n) <> None).
Proof. exact forward. Qed.
Print Assumptions C30_forward.

(** Both exceptions occur: leader 1 after appending its own removal, and node 1 restarted
    while campaigning. *)
Theorem C30_role_refuted :
  (exists E n, env_ok E /\ fits_reachable E (ex_cfg 1) n /\ rs_server (nd_state n) = SLeader /\
     ~ role_of 1 (rs_v (nd_state n)) (nd_mem n) (rs_server (nd_state n))) /\
  (exists E n, env_ok E /\ fits_reachable E (ex_cfg 1) n /\ rs_server (nd_state n) = SFollower /\
     ~ role_of 1 (rs_v (nd_state n)) (nd_mem n) (rs_server (nd_state n))).
Proof.
  split.
  - exists rm_env. eexists. split; [apply rm_env_ok|]. split; [eapply ex_reach; [apply rm_gone_fits|vm_compute; reflexivity]|].
    split; [reflexivity|]. intros [[_ H] _]. vm_compute in H. discriminate.
  - exists ex_env. eexists. split; [apply ex_env_ok|]. split; [eapply ex_reach; [apply rc_crash_fits|vm_compute; reflexivity]|].
    split; [reflexivity|]. intros [H _]. apply H. split; vm_compute; reflexivity.
Qed.
Print Assumptions C30_role_refuted.

(** Node 2 follows leader (2,3) and forwards to node 3. *)
Example C30_ex : exists n o, ex_end (ex_cfg 2) ex_f2 = Ok (n, o) /\ fits_reachable ex_env (ex_cfg 2) n /\
  rs_server (nd_state n) = SFollower /\ rs_forward (nd_state n) = Some (3, 13).
Proof.
  eexists _, _. split; [vm_compute; reflexivity|]. split; [eapply ex_reach; [apply ex_f2_fits|vm_compute; reflexivity]|]. split; vm_compute; reflexivity.
Qed.

(** ** C39 *)

(** In one step a node proposes at most one entry itself; a node that becomes leader does.
    The entry carries the leader id of the node's own committed vote and the index directly
    after its last entry; on becoming leader it is blank, afterwards it is what the client
    asked for.  The only other entry a node makes is the one of initialization. *)
Theorem C39_own_entries : forall E cfg, env_ok E -> forall now ev n n' outs, fits_step E cfg now ev n n' outs ->
  let ps := proposals (ec_id cfg) (step_produced ev n n') in
  length ps <= 1 /\
  (en_leader (nd_eng n) = None -> en_leader (nd_eng n') <> None -> ps <> []) /\
  forall v es, (v, es) ∈ ps ->
   (exists p, es = [mkEntry (mkLogId (v_leader v) (next_index (rs_last (nd_state n)))) p] /\
      v = rs_v (nd_state n') /\ v_committed v = true /\ li_node (v_leader v) = ec_id cfg /\ en_leader (nd_eng n') <> None /\
      rs_last (nd_state n') = Some (mkLogId (v_leader v) (next_index (rs_last (nd_state n)))) /\
      ((en_leader (nd_eng n) <> None /\ rs_v (nd_state n) = v /\
        ((exists d tx, ev = EMsg (MWrite d tx) /\ p = PNormal d) \/ (exists ch rt tx m, ev = EMsg (MChange ch rt tx) /\ p = PMembership m))) \/
       (en_leader (nd_eng n) = None /\ rs_v (nd_state n) = mkVote (v_leader v) false /\ p = PBlank))) \/
   (exists ms tx, ev = EMsg (MInitialize ms tx) /\ rs_last (nd_state n) = None /\ es = [mkEntry (mkLogId (mkLeaderId 0 0) 0) (PMembership (mkMembership [dom ms] ms))]).
Proof. exact own_entries. Qed.
Print Assumptions C39_own_entries.

(** A leader never truncates its log nor installs a snapshot. *)
Theorem C39_leader_keeps_log : forall E cfg, env_ok E -> forall now ev n n' outs,
  fits_step E cfg now ev n n' outs -> en_leader (nd_eng n') <> None ->
  forall c, c ∈ step_produced ev n n' -> match c with TruncateLog _ | InstallSnapshot _ _ => False | _ => True end.
Proof. exact leader_keeps_log. Qed.
Print Assumptions C39_leader_keeps_log.

(** The step in which node 1 becomes leader, and its first change request. *)
Example C39_ex : exists n o n' outs, ex_end (ex_cfg 1) ex_before_lead = Ok (n, o) /\ fits_step ex_env (ex_cfg 1) 2 ENote n n' outs /\
  proposals 1 (step_produced ENote n n') = [(mkVote (mkLeaderId 1 1) true, [mkEntry (ex_lid 1 1 1) PBlank])].
Proof.
  eexists _, _, _, _. split; [vm_compute; reflexivity|].
  split; [eapply ex_step; [apply ex_before_lead_fits|vm_compute; reflexivity|vm_compute; reflexivity|vm_compute; reflexivity]|]. vm_compute. reflexivity.
Qed.
Example C39_ex_change : exists n o n' outs, ex_end (ex_cfg 1) rm_before = Ok (n, o) /\ fits_step rm_env (ex_cfg 1) 6 rm_change n n' outs /\
  proposals 1 (step_produced rm_change n n') = [(mkVote (mkLeaderId 1 1) true, [mkEntry (ex_lid 1 1 3) (PMembership rm_end)])].
Proof.
  eexists _, _, _, _. split; [vm_compute; reflexivity|].
  split; [eapply ex_step; [apply rm_before_fits|vm_compute; reflexivity|vm_compute; reflexivity|vm_compute; reflexivity]|]. vm_compute. reflexivity.
Qed.
