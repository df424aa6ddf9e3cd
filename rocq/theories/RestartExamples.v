(** Runs whose crash leaves a state machine ahead of the stored log in the ways that
    [crash_fits] excludes, and what the code makes of it (findings F12, F14 and F15). *)
From stdpp Require Import base numbers option gmap list.
From Verif Require Import Types LogIdList Membership Progress RaftState ProgressEntry Engine Store RaftCore NodeSpec NodeExamples
  LogSpec LogPropSpec LogExamples RoleSpec.

(** what a crash of a node makes of it, as a decidable question *)
Definition rx_check (E : Env) (cfg : EngineConfig) (acts : list Action) (now k j keep : nat) (P : Node -> Node -> bool) : bool :=
  ex_fits E cfg acts &&
  match ex_end cfg acts with
  | Ok (n, _) => match node_act (Crash now k j keep) n with Ok (n', _) => P n n' | Panic => false end
  | Panic => false
  end.
Lemma rx_check_ok E cfg acts now k j keep P : rx_check E cfg acts now k j keep P = true ->
  exists n n' outs, fits_reachable E cfg n /\ node_act (Crash now k j keep) n = Ok (n', outs) /\ P n n' = true.
Proof.
  unfold rx_check. rewrite andb_true_iff. intros [Hf Hc]. destruct (ex_end cfg acts) as [[n o]|] eqn:He; [|discriminate].
  destruct (node_act _ n) as [[n' outs]|] eqn:Ha; [|discriminate]. exists n, n', outs. split; [eapply ex_reach; eauto|auto].
Qed.

(** F14: node 2 has leader 1's log up to index 5 on disk, is sent leader 3's snapshot up to
    index 3, installs it, and crashes before the log is truncated on disk. *)
Definition rx_stale : list Action :=
  ex_f1 ++ [Act 3 (EMsg (MAppend ex_v1 (Some (ex_lid 1 1 2)) (drop 3 ex_log1) None 9))] ++ ex_settle 3 ++
  [Act 40 ex_install] ++ ex_runs 40 9 ++ [Act 40 ESm].
Lemma stale_tail : exists n n' outs, fits_reachable ex_env (ex_cfg 2) n /\ node_act (Crash 50 0 0 9) n = Ok (n', outs) /\
  bool_decide (rs_last (nd_state n') = Some (ex_lid 2 3 3)) && bool_decide (ls_purged (dk_log (so_disk (nd_store n'))) = Some (ex_lid 2 3 3)) &&
  bool_decide (map e_log_id (ls_entries (dk_log (so_disk (nd_store n')))) = [ex_lid 1 1 4; ex_lid 1 1 5]) = true.
Proof. apply (rx_check_ok _ _ rx_stale). vm_compute. reflexivity. Qed.

(** F12: node 2 has an entry of leader 3 at index 2 on disk, is sent the snapshot of a later
    leader that never had it, up to (1,1,4), installs it and crashes. *)
Definition rx_tips := ex_tips ++ [(mkLeaderId 3 3, ex_lid 1 1 5)].
Definition rx_env : Env := mk_env ex_logs rx_tips.
Lemma rx_env_ok : env_ok rx_env.
Proof. apply env_okb_ok. vm_compute. reflexivity. Qed.
Definition rx_snap : Snapshot := mkSnapshot (mkSnapMeta (Some (ex_lid 1 1 4)) (mkEM (Some (ex_lid 0 0 0)) ex_mem) 1) (take 5 ex_log1).
Definition rx_short : list Action :=
  ex_f1 ++ [Act 40 (EMsg (MAppend ex_v3 (Some (ex_lid 1 1 1)) (take 1 (drop 2 ex_log3)) None 9))] ++ ex_settle 40 ++
  [Act 41 (EMsg (MSnapshot (mkVote (mkLeaderId 3 3) true) rx_snap 10))] ++ ex_runs 41 9 ++ [Act 41 ESm].
(** then it is elected by node 1 and proposes its first entry *)
Definition rx_vote : Vote := mkVote (mkLeaderId 4 2) false.
Definition rx_elect : list Action :=
  [Act 60 (EMsg MElect)] ++ ex_settle 60 ++
  [Act 61 (EReply (TagVote rx_vote 1) (RVote (mkVoteResp rx_vote None true))); Act 61 ENote; Act 61 ENote] ++ ex_runs 61 6.
Definition rx_after (acts : list Action) (n : Node) (P : Node -> bool) : bool :=
  match node_run acts n with Ok (n', _) => P n' | Panic => false end.
Lemma last_behind : exists n n' outs, fits_reachable rx_env (ex_cfg 2) n /\ node_act (Crash 50 0 0 9) n = Ok (n', outs) /\
  bool_decide (rs_last (nd_state n') = Some (ex_lid 2 3 2)) && bool_decide (rs_committed (nd_state n') = Some (ex_lid 1 1 4)) &&
  bool_decide (sm_applied (nd_sm n') = Some (ex_lid 1 1 4)) &&
  rx_after rx_elect n' (fun n'' => match en_leader (nd_eng n'') with
    | Some l => bool_decide (mkEntry (ex_lid 4 2 3) PBlank ∈ ls_entries (so_log (nd_store n''))) && bool_decide (sm_applied (nd_sm n'') = Some (ex_lid 1 1 4))
    | None => false
    end) = true.
Proof. apply (rx_check_ok _ _ rx_short). vm_compute. reflexivity. Qed.

(** F15: leader 1 has built a snapshot up to index 1; nodes 2 and 3 acknowledge its next
    entry, it commits and applies that, and crashes before its own storage has it. *)
Definition rx_round (now i t k rid : nat) : list Action :=
  [Act now (EStreamSend i k rid); Act now (EReply (TagStream t rid) (RAppend ASuccess)); Act now ENote; Act now ENote] ++ ex_runs now 6.
Definition rx_built : list Action :=
  ex_leading ++ rx_round 4 0 2 2 1 ++ [Act 4 EIdle] ++ ex_runs 4 6 ++ rx_round 4 0 2 2 2 ++ [Act 4 ESm; Act 4 ENote; Act 4 (EMsg MTriggerSnapshot)] ++ ex_runs 4 6 ++
  [Act 4 ESm; Act 4 (EBuildDone 0); Act 4 ENote; Act 4 ENote].
Definition rx_ahead : list Action :=
  rx_built ++ [Act 5 (EMsg (MWrite 5 8))] ++ ex_runs 5 9 ++ rx_round 5 0 2 1 3 ++ rx_round 5 1 3 3 4 ++ [Act 5 EIdle] ++ ex_runs 5 6 ++
  rx_round 5 1 3 3 5 ++ rx_round 5 1 3 3 6 ++ [Act 5 ESm].
Lemma purged_beyond : exists n n' outs, fits_reachable ex_env (ex_cfg 1) n /\ node_act (Crash 50 0 0 9) n = Ok (n', outs) /\
  bool_decide (ls_purged (dk_log (so_disk (nd_store n'))) = Some (ex_lid 1 1 2)) && bool_decide (map e_log_id (ls_entries (dk_log (so_disk (nd_store n')))) = []) &&
  bool_decide (sm_last (rs_snap (nd_state n')) = Some (ex_lid 1 1 1)) && bool_decide (snap_last (nd_sm n') = Some (ex_lid 1 1 1)) = true.
Proof. apply (rx_check_ok _ _ rx_ahead). vm_compute. reflexivity. Qed.

Lemma stale_tail_refuted : exists E cfg now k j keep n n' outs, env_ok E /\ fits_reachable E cfg n /\
  node_act (Crash now k j keep) n = Ok (n', outs) /\
  rs_last (nd_state n') = Some (ex_lid 2 3 3) /\ ls_purged (dk_log (so_disk (nd_store n'))) = Some (ex_lid 2 3 3) /\
  map e_log_id (ls_entries (dk_log (so_disk (nd_store n')))) = [ex_lid 1 1 4; ex_lid 1 1 5].
Proof.
  destruct stale_tail as (n & n' & outs & H1 & H2 & H3). rewrite !andb_true_iff, !bool_decide_eq_true in H3. destruct H3 as [[A B] C].
  exists ex_env, (ex_cfg 2), 50, 0, 0, 9, n, n', outs. split; [apply ex_env_ok|]. auto 9.
Qed.
Lemma last_behind_refuted : exists E cfg now k j keep n n' outs, env_ok E /\ fits_reachable E cfg n /\
  node_act (Crash now k j keep) n = Ok (n', outs) /\
  rs_last (nd_state n') = Some (ex_lid 2 3 2) /\ rs_committed (nd_state n') = Some (ex_lid 1 1 4) /\ sm_applied (nd_sm n') = Some (ex_lid 1 1 4) /\
  exists acts n'' outs', node_run acts n' = Ok (n'', outs') /\ en_leader (nd_eng n'') <> None /\
    mkEntry (ex_lid 4 2 3) PBlank ∈ ls_entries (so_log (nd_store n'')) /\ sm_applied (nd_sm n'') = Some (ex_lid 1 1 4).
Proof.
  destruct last_behind as (n & n' & outs & H1 & H2 & H3). rewrite !andb_true_iff, !bool_decide_eq_true in H3. destruct H3 as [[[A B] C] D].
  exists rx_env, (ex_cfg 2), 50, 0, 0, 9, n, n', outs. split; [apply rx_env_ok|]. do 5 (split; [assumption|]). exists rx_elect.
  unfold rx_after in D. destruct (node_run rx_elect n') as [[n'' o']|]; [|discriminate]. exists n'', o'. split; [reflexivity|].
  destruct (en_leader (nd_eng n'')); [|discriminate]. rewrite andb_true_iff, !bool_decide_eq_true in D. destruct D. split; [discriminate|]. auto.
Qed.
Lemma purged_beyond_refuted : exists E cfg now k j keep n n' outs, env_ok E /\ fits_reachable E cfg n /\
  node_act (Crash now k j keep) n = Ok (n', outs) /\
  ls_purged (dk_log (so_disk (nd_store n'))) = Some (ex_lid 1 1 2) /\ ls_entries (dk_log (so_disk (nd_store n'))) = [] /\
  sm_last (rs_snap (nd_state n')) = Some (ex_lid 1 1 1) /\ snap_last (nd_sm n') = Some (ex_lid 1 1 1).
Proof.
  destruct purged_beyond as (n & n' & outs & H1 & H2 & H3). rewrite !andb_true_iff, !bool_decide_eq_true in H3. destruct H3 as [[[A B] C] D].
  apply map_eq_nil in B. exists ex_env, (ex_cfg 1), 50, 0, 0, 9, n, n', outs. split; [apply ex_env_ok|]. auto 9.
Qed.
