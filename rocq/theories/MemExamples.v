(** Runs with membership entries that one leader replaces by another's, used to show that
    the hypotheses of the membership theorems are met and where they are needed. *)
From Coq Require Import Bool Lia ZifyBool ZifyNat.
From stdpp Require Import base numbers option gmap relations list.
From Verif Require Import Types TypesProofs LogIdList Quorum Membership Progress RaftState ProgressEntry Engine Store RaftCore
  NodeSpec NodeExamples LogSpec LogProofs LogPropSpec LogExamples MemSpec MemLogProofs MemProofs.

Definition mem_fitsb (E : Env) (n : Node) (ev : Event) : bool :=
  let ms := rs_mem (nd_state n) in
  match ev with
  | EMsg (MAppend v _ _ _ _) =>
      negb (vote_geb v (rs_v (nd_state n))) || pfxd (ev_hist E) (em_log_id (ms_committed ms)) (ev_tip E (v_leader v))
  | EMsg (MSnapshot v sn _) =>
      negb (vote_geb v (rs_v (nd_state n))) ||
      (pfxd (ev_hist E) (em_log_id (ms_committed ms)) (ev_tip E (v_leader v)) &&
       ((next_index (sm_last (sn_meta sn)) <=? next_index (rs_last (nd_state n))) ||
        pfxd (ev_hist E) (em_log_id (ms_effective ms)) (sm_last (sn_meta sn)) ||
        (next_index (em_log_id (ms_effective ms)) <=? next_index (em_log_id (sm_mem (sn_meta sn))))))
  | _ => true
  end.
Lemma mem_fitsb_ok E n ev : mem_fitsb E n ev = true -> mem_fits E n ev.
Proof.
  unfold mem_fitsb, mem_fits, vote_le. destruct ev as [|m| | | | | | | | | | | |]; try done. destruct m; try done.
  - intros Hb Hv. rewrite Hv in Hb. by apply pfxd_ok.
  - intros Hb Hv. rewrite Hv in Hb. cbn in Hb. apply andb_true_iff in Hb as [H1 H2]. split; [by apply pfxd_ok|].
    intros Hlt. rewrite !orb_true_iff in H2. destruct H2 as [[H2|H2]|H2]; [lia|left; by apply pfxd_ok|right; lia].
Qed.
Fixpoint run_memb (E : Env) (acts : list Action) (n : Node) : bool :=
  match acts with
  | [] => true
  | a :: r => match a with Act _ ev => mem_fitsb E n ev | Crash _ _ _ _ => true end &&
              match node_act a n with Ok x => run_memb E r x.1 | Panic => true end
  end.
Lemma run_memb_ok E acts : forall n, run_memb E acts n = true -> run_mem_fits E acts n.
Proof.
  induction acts as [|a r IH]; intros n; cbn [run_memb run_mem_fits]; [done|]. rewrite andb_true_iff. intros [H1 H2]. split.
  - destruct a; [by apply mem_fitsb_ok|done].
  - destruct (node_act a n); [auto|done].
Qed.
Definition ex_mem_fits (E : Env) (cfg : EngineConfig) (acts : list Action) : bool :=
  match node_fresh 0 cfg with Ok n0 => fitsb E acts n0 && run_memb E acts n0 | Panic => false end.
Lemma ex_mem_reach E cfg acts n outs : ex_mem_fits E cfg acts = true -> ex_end cfg acts = Ok (n, outs) -> mem_reachable E cfg n.
Proof.
  unfold ex_mem_fits, ex_end. intros Hf He. destruct (node_fresh 0 cfg) as [n0|] eqn:Hn; [|discriminate].
  apply andb_true_iff in Hf as [Hf Hm]. exists 0, n0, acts, outs. split; [exact Hn|]. split; [by apply fitsb_ok|]. split; [by apply run_memb_ok|exact He].
Qed.

(** leader 1 of term 1 proposes a change at index 3, leader 3 of term 2 another at index 2 *)
Definition mx_mem1 : Membership := mkMembership [{[1;2;3]}; {[1;2]}] (m_nodes ex_mem).
Definition mx_mem3 : Membership := mkMembership [{[1;2;3]}; {[2;3]}] (m_nodes ex_mem).
Definition mx_log1 : list Entry := take 3 ex_log1 ++ [mkEntry (ex_lid 1 1 3) (PMembership mx_mem1)].
Definition mx_log3 : list Entry :=
  take 2 ex_log1 ++ [mkEntry (ex_lid 2 3 2) (PMembership mx_mem3); mkEntry (ex_lid 2 3 3) (PNormal 9); mkEntry (ex_lid 2 3 4) (PNormal 10);
                     mkEntry (ex_lid 2 3 5) (PNormal 11); mkEntry (ex_lid 2 3 6) (PNormal 12)].
Definition mx_logs := [mx_log1; mx_log3].
Definition mx_tips : list (LeaderId * LogId) := [(mkLeaderId 1 1, ex_lid 1 1 3); (mkLeaderId 2 3, ex_lid 2 3 6)].
Definition mx_env : Env := mk_env mx_logs mx_tips.
Lemma mx_env_ok : env_ok mx_env.
Proof. apply env_okb_ok. vm_compute. reflexivity. Qed.
Definition mx_append (v : Vote) (prev : option LogId) (es : list Entry) (lc : option LogId) : Action := Act 3 (EMsg (MAppend v prev es lc 9)).
(** node 2 has all of leader 1's log, the first entry committed *)
Definition mx_f1 : list Action := [mx_append ex_v1 None mx_log1 (Some (ex_lid 0 0 0))] ++ ex_settle 3.
(** then leader 3's up to index 4, committed to index 1 or 3 *)
Definition mx_f2 (c : LogId) : list Action :=
  mx_f1 ++ [mx_append ex_v3 (Some (ex_lid 1 1 1)) (take 3 (drop 2 mx_log3)) (Some c)] ++ ex_settle 3.
(** and a restart *)
Definition mx_f3 (c : LogId) : list Action := mx_f2 c ++ [Crash 50 10 0 10].
(** instead of the entries, leader 3's snapshot up to index 6 *)
Definition mx_snap : Snapshot := mkSnapshot (mkSnapMeta (Some (ex_lid 2 3 6)) (mkEM (Some (ex_lid 2 3 2)) mx_mem3) 1) mx_log3.
Definition mx_f4 : list Action :=
  mx_f1 ++ [Act 4 (EMsg (MSnapshot ex_v3 mx_snap 10))] ++ ex_settle 4 ++ [Act 4 ESm; Act 4 ESm; Act 4 ENote; Act 4 ENote] ++ ex_settle 4 ++ ex_settle 4.
(** the whole log of leader 1 with nothing known to be committed *)
Definition mx_f5 : list Action := [mx_append ex_v1 None mx_log1 None] ++ ex_settle 3.
Definition mx_sum (n : Node) : option LogId * option LogId * EffMem * EffMem :=
  (rs_last (nd_state n), rs_committed (nd_state n), ms_effective (rs_mem (nd_state n)), ms_committed (rs_mem (nd_state n))).

(** what a run of node 2 ends with *)
Definition mx_check (acts : list Action) (sum : option LogId * option LogId * EffMem * EffMem) : bool :=
  match ex_end (ex_cfg 2) acts with
  | Ok x => bool_decide (mx_sum x.1 = sum) && match en_out (nd_eng x.1) with [] => true | _ => false end
  | Panic => false
  end.
Lemma mx_at acts sum : mx_check acts sum = true ->
  exists n outs, ex_end (ex_cfg 2) acts = Ok (n, outs) /\ mx_sum n = sum /\ en_out (nd_eng n) = [].
Proof.
  unfold mx_check. destruct (ex_end (ex_cfg 2) acts) as [[n outs]|]; [|discriminate]. cbn [fst].
  rewrite andb_true_iff, bool_decide_eq_true. intros [H1 H2]. exists n, outs. destruct (en_out (nd_eng n)); [auto|discriminate].
Qed.
Lemma mx_mem_at acts sum : mx_check acts sum && ex_mem_fits mx_env (ex_cfg 2) acts = true ->
  exists n outs, ex_end (ex_cfg 2) acts = Ok (n, outs) /\ mem_reachable mx_env (ex_cfg 2) n /\ mx_sum n = sum /\ en_out (nd_eng n) = [].
Proof.
  rewrite andb_true_iff. intros [H1 H2]. destruct (mx_at _ _ H1) as (n & outs & A & B & C). exists n, outs. split; [exact A|].
  split; [eapply ex_mem_reach; eauto|auto].
Qed.

(** ** Where the exact property fails *)
Lemma mx_not (m m' : EffMem) E p : env_ok E -> path_mem (ev_hist E) p m -> em_log_id m' <> em_log_id m -> ~ path_mem (ev_hist E) p m'.
Proof. intros HE H1 H2 H3. apply H2. f_equal. eapply pm_fun; [apply HE|exact H3|exact H1]. Qed.
Lemma effective_refuted : exists E cfg n,
  env_ok E /\ fits_reachable E cfg n /\ en_out (nd_eng n) = [] /\
  rs_last (nd_state n) = Some (ex_lid 2 3 6) /\ rs_committed (nd_state n) = Some (ex_lid 2 3 6) /\
  em_log_id (ms_effective (rs_mem (nd_state n))) = Some (ex_lid 1 1 3) /\
  ~ path_mem (ev_hist E) (rs_last (nd_state n)) (ms_effective (rs_mem (nd_state n))).
Proof.
  destruct (mx_at mx_f4 (Some (ex_lid 2 3 6), Some (ex_lid 2 3 6), mkEM (Some (ex_lid 1 1 3)) mx_mem1, mkEM (Some (ex_lid 2 3 2)) mx_mem3))
    as (n & outs & Hn & Hs & Ho); [vm_compute; reflexivity|].
  exists mx_env, (ex_cfg 2), n. split; [apply mx_env_ok|]. split; [eapply ex_reach; [|exact Hn]; vm_compute; reflexivity|].
  unfold mx_sum in Hs. injection Hs as -> -> -> _. split; [exact Ho|]. split; [reflexivity|]. split; [reflexivity|]. split; [reflexivity|].
  eapply mx_not; [apply mx_env_ok|exists mx_log3; split; [apply chainb_ok; vm_compute; reflexivity|split; reflexivity]|].
  discriminate.
Qed.
Lemma committed_refuted : exists E cfg n,
  env_ok E /\ mem_reachable E cfg n /\ en_out (nd_eng n) = [] /\ rs_committed (nd_state n) = None /\
  em_log_id (ms_committed (rs_mem (nd_state n))) = Some (ex_lid 0 0 0) /\
  ~ path_mem (ev_hist E) (rs_committed (nd_state n)) (ms_committed (rs_mem (nd_state n))).
Proof.
  destruct (mx_mem_at mx_f5 (Some (ex_lid 1 1 3), None, mkEM (Some (ex_lid 1 1 3)) mx_mem1, mkEM (Some (ex_lid 0 0 0)) ex_mem))
    as (n & outs & Hn & Hr & Hs & Ho); [vm_compute; reflexivity|].
  exists mx_env, (ex_cfg 2), n. split; [apply mx_env_ok|]. split; [exact Hr|].
  unfold mx_sum in Hs. injection Hs as _ -> _ ->. split; [exact Ho|]. split; [reflexivity|]. split; [reflexivity|].
  eapply mx_not; [apply mx_env_ok|exists []; split; [exact I|split; reflexivity]|]. discriminate.
Qed.
