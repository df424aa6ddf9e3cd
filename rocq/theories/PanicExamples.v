(** Runs in which every message fits the history and the node still panics (findings F6
    and F9). *)
From stdpp Require Import base numbers option gmap list.
From Verif Require Import Types LogIdList Membership Progress RaftState ProgressEntry Engine Store RaftCore NodeSpec NodeExamples
  LogSpec LogPropSpec LogExamples.

Definition px_check (E : Env) (cfg : EngineConfig) (acts : list Action) (now : nat) (ev : Event) (P : Node -> bool) : bool :=
  ex_fits E cfg acts &&
  match ex_end cfg acts with
  | Ok (n, _) => match node_step now ev n with Ok _ => false | Panic => P n end
  | Panic => false
  end.
Lemma px_check_ok E cfg acts now ev P : px_check E cfg acts now ev P = true ->
  exists n, fits_reachable E cfg n /\ node_step now ev n = Panic /\ P n = true.
Proof.
  unfold px_check. rewrite andb_true_iff. intros [Hf Hc]. destruct (ex_end cfg acts) as [[n o]|] eqn:He; [|discriminate].
  destruct (node_step now ev n) as [|] eqn:Ha; [discriminate|]. exists n. split; [eapply ex_reach; eauto|auto].
Qed.

(** F6: node 2 accepts entries that are committed up to index 3; while the answer waits for
    the disk, the command to apply them waits behind it, and a snapshot up to index 4
    arrives.  Then the disk is done. *)
Definition px_snap : Snapshot := mkSnapshot (mkSnapMeta (Some (ex_lid 2 3 4)) (mkEM (Some (ex_lid 0 0 0)) ex_mem) 1) (take 5 ex_log3).
Definition px_apply : list Action :=
  ex_f1 ++ [Act 40 ex_replace] ++ ex_runs 40 4 ++ [Act 41 (EMsg (MSnapshot ex_v3 px_snap 10)); Act 42 (EFlush 9); Act 42 (ECallback 0);
    Act 42 ENote; Act 42 ENote; Act 42 ENote] ++ ex_runs 42 2.
Lemma queued_apply_panics : exists E cfg now n r, env_ok E /\ fits_reachable E cfg n /\
  en_out (nd_eng n) = CmdApply (Some (ex_lid 1 1 1)) (ex_lid 2 3 3) :: r /\ node_step now ERun n = Panic.
Proof.
  destruct (px_check_ok ex_env (ex_cfg 2) px_apply 42 ERun
              (fun n => match en_out (nd_eng n) with
                        | CmdApply a b :: _ => bool_decide (a = Some (ex_lid 1 1 1)) && bool_decide (b = ex_lid 2 3 3)
                        | _ => false
                        end)) as (n & H1 & H2 & H3); [vm_compute; reflexivity|].
  destruct (en_out (nd_eng n)) as [|[] r] eqn:Ho; try discriminate. rewrite andb_true_iff, !bool_decide_eq_true in H3. destruct H3 as [-> ->].
  exists ex_env, (ex_cfg 2), 42, n, r. split; [apply ex_env_ok|]. auto.
Qed.

(** F9: leader 1 hands leadership to the learner 4. *)
Definition px_mem : Membership := mkMembership [{[1;2;3]}] {[1 := 1; 2 := 2; 3 := 3; 4 := 4]}.
Definition px_log : list Entry := [mkEntry (ex_lid 0 0 0) (PMembership ex_mem); mkEntry (ex_lid 1 1 1) PBlank; mkEntry (ex_lid 1 1 2) (PMembership px_mem)].
Definition px_env : Env := mk_env [px_log] [(mkLeaderId 1 1, ex_lid 1 1 2)].
Lemma px_env_ok : env_ok px_env.
Proof. apply env_okb_ok. vm_compute. reflexivity. Qed.
Definition px_learner : list Action := Act 3 (EMsg (MAppend ex_v1 None px_log (Some (ex_lid 1 1 2)) 8)) :: ex_settle 3.
Definition px_transfer : Event := EMsg (MTransfer (mkTransferReq ex_v1 4 (Some (ex_lid 1 1 2)))).
Definition px_elected : list Action := [Act 4 px_transfer] ++ ex_runs 4 6 ++ [Act 4 (EFlush 9); Act 4 ENote].
Lemma learner_target_panics : exists E cfg acts n now n' outs, env_ok E /\ fits_reachable E cfg n /\
  m_is_voter (em_mem (rs_eff (nd_state n))) (ec_id cfg) = false /\
  node_run (Act now px_transfer :: acts) n = Ok (n', outs) /\ fits_reachable E cfg n' /\ node_step now ENote n' = Panic.
Proof.
  assert (Hb : match ex_end (ex_cfg 4) px_learner with
               | Ok (n, _) => negb (m_is_voter (em_mem (rs_eff (nd_state n))) 4)
               | Panic => false end = true) by (vm_compute; reflexivity).
  destruct (ex_end (ex_cfg 4) px_learner) as [[n o]|] eqn:He; [|discriminate].
  assert (Hc : match node_run px_elected n with Ok (n', _) => match node_step 4 ENote n' with Panic => true | Ok _ => false end | Panic => false end = true).
  { assert (Hq : match ex_end (ex_cfg 4) px_learner with
                 | Ok (n, _) => match node_run px_elected n with Ok (n', _) => match node_step 4 ENote n' with Panic => true | Ok _ => false end | Panic => false end
                 | Panic => false end = true) by (vm_compute; reflexivity). by rewrite He in Hq. }
  destruct (node_run px_elected n) as [[n' o']|] eqn:Hr; [|discriminate]. destruct (node_step 4 ENote n') eqn:Hp; [discriminate|].
  assert (He' : ex_end (ex_cfg 4) (px_learner ++ px_elected) = Ok (n', o ++ o')).
  { revert He Hr. unfold ex_end. destruct (node_fresh 0 (ex_cfg 4)) as [n0|]; cbn [res_bind]; [|discriminate].
    generalize px_learner as l, px_elected as q. clear. intros l q. revert n0 o. induction l as [|a r IH]; intros n0 o; cbn [app node_run].
    - intros [= -> <-] Hr. exact Hr.
    - destruct (node_act a n0) as [[x ox]|]; cbn; [|discriminate]. destruct (node_run r x) as [[y oy]|] eqn:Hy; cbn; [|discriminate].
      intros [= -> <-] Hr. rewrite (IH x oy Hy Hr). cbn. by rewrite app_assoc. }
  exists px_env, (ex_cfg 4), (drop 1 px_elected), n, 4, n', o'. split; [apply px_env_ok|]. split; [eapply ex_reach; [|exact He]; vm_compute; reflexivity|].
  split; [by apply negb_true_iff in Hb|]. split; [exact Hr|]. split; [eapply ex_reach; [|exact He']; vm_compute; reflexivity|exact Hp].
Qed.
