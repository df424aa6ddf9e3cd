(** Nothing is acknowledged before it is durable (C23). *)
From stdpp Require Import base numbers option gmap list.
From Verif Require Import Types LogIdList Membership RaftState ProgressEntry Engine Store RaftCore NodeSpec NodeExamples LogSpec LogPropSpec
  LogExamples DurableSpec DurableProofs DurableExamples Metrics DurMetricsProofs.
Import NodeSpec.

(** ** C23 *)

(** Every run of a node, with any messages, timing and crashes: at any later crash point the
    disk holds a vote that is not behind the vote of any vote reply the node has sent. *)
Theorem C23_vote_reply_durable : forall cfg now0 n0 acts n outs,
  node_fresh now0 cfg = Ok n0 -> node_run acts n0 = Ok (n, outs) ->
  forall tx r, OReply tx (RVote r) ∈ outs -> at_any_crash n (vote_kept (vr_vote r)).
Proof. exact replies_kept. Qed.
Print Assumptions C23_vote_reply_durable.

(** Every run of a node whose messages fit one history, with any timing and crashes: a
    positive append reply answers an append-entries request of the run, and at any later
    crash point the disk holds a vote that is not behind the request's; unless this vote is
    of another leader, the position and the entries of the request are in the log on disk
    (or have been purged from it).
    Missing: runs in which the node is sent a snapshot, where it is false, see
    [C23_append_reply_durable_refuted]; and leaders of term 0, which do not exist: it is the
    term of the log entry written by the initialization. *)
Theorem C23_append_reply_durable_partial : forall E cfg, env_ok E -> forall now0 n0 acts n outs,
  node_fresh now0 cfg = Ok n0 -> run_fits E acts n0 -> no_snapshots acts -> node_run acts n0 = Ok (n, outs) ->
  forall tx, OReply tx (RAppend ASuccess) ∈ outs ->
  exists now v prev es lc, Act now (EMsg (MAppend v prev es lc tx)) ∈ acts /\
    (li_term (v_leader v) <> 0 -> at_any_crash n (append_kept v prev es)).
Proof. intros E cfg HE now0 n0 acts n outs Hf. exact (append_durable E (ec_id cfg) HE now0 cfg n0 acts n outs Hf eq_refl). Qed.
Print Assumptions C23_append_reply_durable_partial.

(** Node 2 acknowledges four entries of leader 1 (request 8), a position to leader 3 (9) and
    that leader's entries (10), which replace two of the first leader's; then it crashes. *)
Example C23_ex : exists n0 n outs, node_fresh 0 (ex_cfg 2) = Ok n0 /\ run_fits ex_env ex_d3 n0 /\ no_snapshots ex_d3 /\
  node_run ex_d3 n0 = Ok (n, outs) /\ OReply 8 (RAppend ASuccess) ∈ outs /\ OReply 10 (RAppend ASuccess) ∈ outs /\
  disk_vote (crash_disk 0 0 (nd_store n)) = ex_v3 /\
  map e_log_id (ls_entries (dk_log (crash_disk 0 0 (nd_store n)))) = [ex_lid 0 0 0; ex_lid 1 1 1; ex_lid 2 3 2; ex_lid 2 3 3; ex_lid 2 3 4].
Proof.
  eexists _, _, _. split; [vm_compute; reflexivity|]. split; [apply fitsb_ok; vm_compute; reflexivity|].
  split; [intros now v sn tx Hin; unfold ex_d3, ex_d2, ex_d1 in Hin; apply elem_of_list_In in Hin; cbn in Hin; intuition discriminate|].
  split; [vm_compute; reflexivity|].
  split; [apply elem_of_list_In; vm_compute; auto 10|]. split; [apply elem_of_list_In; vm_compute; auto 10|]. split; vm_compute; reflexivity.
Qed.
(** As long as the entries have been written but are not durable the node does not answer:
    the same entries, with all commands run but nothing flushed. *)
Example C23_ex_waits :
  let x := ex_end (ex_cfg 2) (take 13 ex_d1) in let w := ex_end (ex_cfg 2) (take 1 ex_d1 ++ ex_runs 3 12) in
  ex_acks w = [] /\ ex_disk 0 0 w = Some (mkVote (mkLeaderId 1 1) true, []) /\ ex_acks x = [8] /\
  ex_disk 0 0 x = Some (mkVote (mkLeaderId 1 1) true, [ex_lid 0 0 0; ex_lid 1 1 1; ex_lid 1 1 2; ex_lid 1 1 3]).
Proof. vm_compute. repeat split. Qed.

(** With snapshots it is false (finding F18): node 2 has acknowledged (1,1,1) to leader 3,
    but not committed it.  Leader 3 then sends a snapshot up to (2,3,3), and node 2's own
    entry at this index is another one.  It truncates its log after its commit position, and
    if it crashes before the snapshot is installed, (1,1,1) is gone. *)
Theorem C23_append_reply_durable_refuted : exists E cfg now0 n0 acts n outs v prev tx now lc k j,
  env_ok E /\ node_fresh now0 cfg = Ok n0 /\ run_fits E acts n0 /\ node_run acts n0 = Ok (n, outs) /\
  Act now (EMsg (MAppend v prev [] lc tx)) ∈ acts /\ OReply tx (RAppend ASuccess) ∈ outs /\ li_term (v_leader v) <> 0 /\
  disk_vote (crash_disk k j (nd_store n)) = v /\ ~ holds_pos (dk_log (crash_disk k j (nd_store n))) prev /\ sm_snapshot (nd_sm n) = None.
Proof.
  exists ex_env, (ex_cfg 2), 0. eexists _. exists ex_d4. eexists _, _. exists ex_v3, (Some (ex_lid 1 1 1)), 9, 40, None, 1, 0.
  split; [exact ex_env_ok|]. split; [vm_compute; reflexivity|]. split; [apply fitsb_ok; vm_compute; reflexivity|]. split; [vm_compute; reflexivity|].
  split; [apply elem_of_list_In; vm_compute; auto 30|]. split; [apply elem_of_list_In; vm_compute; auto 10|]. split; [discriminate|].
  split; [vm_compute; reflexivity|]. split; [|vm_compute; reflexivity].
  intros [Hp|[Hp|(e & He & Hid)]]; [vm_compute in Hp; discriminate|vm_compute in Hp; inversion Hp|].
  apply elem_of_list_In in He. vm_compute in He. destruct He as [<-|[]]. vm_compute in Hid. discriminate.
Qed.
Print Assumptions C23_append_reply_durable_refuted.

(** The vote a node reports in its metrics is on its disk: at any later crash point the disk
    holds a vote of the same or a later leadership, and unless the reported vote is one of
    the node's own, a vote that is not behind it.
    Missing: runs in which the node is sent a snapshot; that the node's own vote is on disk
    together with the mark that it won the election. *)
Theorem C23_reported_vote_durable_partial : forall E cfg now0 n0 acts n outs, env_ok E ->
  node_fresh now0 cfg = Ok n0 -> run_fits E acts n0 -> no_snapshots acts -> node_run acts n0 = Ok (n, outs) ->
  at_any_crash n (fun d => leader_leb (v_leader (mt_vote (node_metrics n))) (v_leader (disk_vote d)) = true /\
    (li_node (v_leader (mt_vote (node_metrics n))) <> ec_id cfg -> li_term (v_leader (mt_vote (node_metrics n))) <> 0 ->
       vote_kept (mt_vote (node_metrics n)) d)).
Proof. intros E cfg now0 n0 acts n outs HE Hf. exact (reported_vote_kept E (ec_id cfg) now0 cfg n0 acts n outs HE Hf eq_refl). Qed.
Print Assumptions C23_reported_vote_durable_partial.

(** The run of [C23_ex]: after its first step node 2 follows leader 1 but reports no vote,
    because nothing is on disk; later it reports what is on disk. *)
Example C23_ex_reported :
  let f k := match ex_end (ex_cfg 2) (take k ex_d3) with
             | Ok x => Some (mt_vote (node_metrics x.1), rs_v (nd_state x.1), disk_vote (crash_disk 0 0 (nd_store x.1)))
             | Panic => None
             end in
  f 1 = Some (vote_default, ex_v1, vote_default) /\ f 10 = Some (ex_v1, ex_v1, ex_v1) /\ f 25 = Some (ex_v1, ex_v3, ex_v3) /\ f 91 = Some (ex_v3, ex_v3, ex_v3).
Proof. vm_compute. repeat split. Qed.
