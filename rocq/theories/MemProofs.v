(** The memberships of a node follow its log. *)
From Coq Require Import Bool Lia ZifyBool ZifyNat.
From stdpp Require Import base numbers option gmap relations list.
From Verif Require Import Types TypesProofs LogIdList Quorum Membership Progress RaftState ProgressEntry Engine Store RaftCore
  EnginePrims NodeSpec NodePrims StoreProofs VoteNodeProofs ElectProofs KindProofs LogSpec LogProofs EngLogProofs WalkProofs NodeLogProofs
  StepLogProofs LogPropSpec RoleSpec LogStateProofs LeadProofs OwnProofs MemSpec MemLogProofs.
Import NodeSpec.

Definition quietc (cs : list Command) : Prop :=
  forall c, c ∈ cs -> match c with TruncateLog _ | InstallSnapshot _ _ => False | _ => True end.
Definition qrun (e e' : Engine) : Prop :=
  exists cs, en_out e' = en_out e ++ cs /\ rs_mem (en_state e') = foldl mem_cmd (rs_mem (en_state e)) cs /\ quietc cs.
Definition one_cut (ms : MemState) (cs : list Command) : Prop :=
  quietc cs \/ exists a x b, cs = a ++ TruncateLog x :: b /\ quietc a /\ quietc b /\ foldl mem_cmd ms a = ms /\
    next_index (em_log_id (ms_committed ms)) <= lid_index x.
Definition crun (e e' : Engine) : Prop :=
  exists cs, en_out e' = en_out e ++ cs /\ rs_mem (en_state e') = foldl mem_cmd (rs_mem (en_state e)) cs /\ one_cut (rs_mem (en_state e)) cs.

Lemma quietc_app a b : quietc a -> quietc b -> quietc (a ++ b).
Proof. intros H1 H2 c [Hc|Hc]%elem_of_app; [apply H1|apply H2]; exact Hc. Qed.
Lemma qrun_prims ks e e' : prims ks e e' -> KPop ∉ ks -> KTruncate ∉ ks -> KInstall ∉ ks -> qrun e e'.
Proof.
  intros Hp H1 H2 H3. destruct (prims_memrun _ _ _ Hp H1) as (cs & Ho & Hm). exists cs. split; [done|]. split; [done|].
  destruct (OwnProofs.prims_cmds _ _ _ Hp H1) as (cs' & Ho' & Hc). rewrite Ho in Ho'. apply app_inv_head in Ho' as <-.
  intros c Hin. destruct (Hc _ Hin) as (k & a & b & Hk & Hkk). destruct c; try done; cbn in Hkk.
  - destruct Hkk as [[->| ->] _]; contradiction.
  - subst. contradiction.
Qed.
Lemma qrun_c e e' : qrun e e' -> crun e e'.
Proof. intros (cs & H1 & H2 & H3). exists cs. split; [done|split; [done|]]. by left. Qed.
Lemma crun_pre a b c : qrun a b -> rs_mem (en_state b) = rs_mem (en_state a) -> crun b c -> crun a c.
Proof.
  intros (c1 & H1 & H2 & H3) He (c2 & H4 & H5 & H6). exists (c1 ++ c2). rewrite H4, H1, app_assoc, foldl_app, <- H2. split; [done|]. split; [done|].
  destruct H6 as [H6|(x & y & z & -> & Q1 & Q2 & Q3 & Q4)]; [left; by apply quietc_app|right].
  exists (c1 ++ x), y, z. rewrite <- app_assoc, foldl_app, <- H2. rewrite He in Q3, Q4 |- *. split; [done|]. split; [by apply quietc_app|done].
Qed.
Lemma crun_post a b c : crun a b -> qrun b c -> crun a c.
Proof.
  intros (c1 & H1 & H2 & H3) (c2 & H4 & H5 & H6). exists (c1 ++ c2). rewrite H4, H1, app_assoc, foldl_app, <- H2. split; [done|]. split; [done|].
  destruct H3 as [H3|(x & y & z & -> & Q1 & Q2 & Q3 & Q4)]; [left; by apply quietc_app|right].
  exists x, y, (z ++ c2). rewrite <- app_assoc. split; [done|]. split; [done|]. split; [by apply quietc_app|done].
Qed.
Lemma crun_truncate since e : next_index (em_log_id (ms_committed (rs_mem (en_state e)))) <= since -> crun e (fh_truncate since e).
Proof.
  intros Hi. destruct (memrun_truncate since e) as (cs & Ho & Hm). exists cs. split; [done|split; [done|]].
  rewrite fh_truncate_eq in Ho. destruct (rs_get_log_id (en_state e) since) as [lid|] eqn:Hg.
  - cbn [push upd en_out] in Ho. apply app_inv_head in Ho as <-. right. exists [], lid, []. pose proof (lil_get_index _ _ _ Hg) as Hx.
    split; [done|]. split; [intros c Hc%elem_of_nil; done|]. split; [intros c Hc%elem_of_nil; done|]. split; [done|lia].
  - left. rewrite <- (app_nil_r (en_out e)) in Ho at 1. apply app_inv_head in Ho as <-. intros c Hc%elem_of_nil; done.
Qed.

Lemma fits_reachable_step E cfg a n n' outs : fits_reachable E cfg n -> node_act a n = Ok (n', outs) -> act_fits E a n n' -> fits_reachable E cfg n'.
Proof.
  intros (now0 & n0 & acts & o & H1 & H2 & H3) Hs Hf. exists now0, n0, (acts ++ [a]), (o ++ outs). split; [exact H1|].
  assert (Hrun : forall acts n0 o, run_fits E acts n0 -> node_run acts n0 = Ok (n, o) ->
            run_fits E (acts ++ [a]) n0 /\ node_run (acts ++ [a]) n0 = Ok (n', o ++ outs)).
  { clear - Hs Hf. induction acts as [|b r IH]; intros n0 o; cbn [app run_fits node_run].
    - intros _ [= -> <-]. rewrite Hs. cbn. rewrite ?app_nil_r. auto.
    - destruct (node_act b n0) as [[x ox]|] eqn:Ha; cbn; [|discriminate]. intros [F1 F2] Hr.
      cbn in Hr |- *. destruct (node_run r x) as [[y oy]|] eqn:Hy; [|discriminate]. cbn in Hr. injection Hr as -> <-.
      destruct (IH x oy F2 Hy) as [I1 I2]. rewrite I2. cbn. rewrite app_assoc. auto. }
  destruct (Hrun _ _ _ H2 H3). auto.
Qed.

Section mem.
  Context (E : Env) (me : nat) (HE : env_ok E).
  Notation H := (ev_hist E).
  Notation tip := (ev_tip E).
  Let Hok : hist_ok H := proj1 HE.

  Lemma walk_minv cs : forall w w' ms, pos E w -> walk E me w cs w' -> quietc cs -> MI E w ms -> MI E w' (foldl mem_cmd ms cs).
  Proof using HE.
    induction cs as [|c r IH]; intros w w' ms Hp Hw Hq Hm; [cbn in Hw; by subst|]. destruct Hw as [H1 H2]. cbn [foldl].
    eapply IH; [|exact H2| |].
    - eapply (wok_pos E me Hok); eauto.
    - intros x Hx. apply Hq. by apply elem_of_cons; right.
    - eapply (mi_step E me HE); [exact Hp|exact H1| |exact Hm]. specialize (Hq c (elem_of_list_here _ _)). destruct c; done.
  Qed.
  Lemma walk_cut cs w w' ms : pos E w -> walk E me w cs w' -> one_cut ms cs -> MI E w ms -> MI E w' (foldl mem_cmd ms cs).
  Proof using HE.
    intros Hp Hw [Hq|(a & x & b & -> & Q1 & Q2 & Q3 & Q4)] Hm; [by eapply walk_minv|].
    apply (walk_app E me) in Hw as (m & W1 & W2). destruct W2 as [W2 W3]. rewrite foldl_app. cbn [foldl].
    pose proof (walk_pos E me Hok _ _ _ Hp W1) as Pm.
    eapply walk_minv; [|exact W3|exact Q2|].
    - eapply (wok_pos E me Hok); eauto.
    - eapply (mi_step E me HE); [exact Pm|exact W2| |eapply walk_minv; [exact Hp|exact W1|exact Q1|exact Hm]]. cbn. rewrite Q3. exact Q4.
  Qed.

  Lemma minv_com L cur ms : Minv H L cur ms -> pfx H (em_log_id (ms_committed ms)) L.
  Proof using HE.
    intros [Me Mc]. destruct Mc as [->|(p & J & Mp & Cp)]; [by apply (pm_id H Hok)|].
    destruct (jb_pfx H Hok _ _ _ J Me) as (J1 & _). eapply pfx_trans; [|exact J1]. by apply (pm_id H Hok).
  Qed.
  Lemma append_crun now v prev es D e e' r : ei E me D e -> v_committed v = true -> li_node (v_leader v) <> me ->
    pfx H None prev -> chain H prev es -> pfx H (es_last prev es) (tip (v_leader v)) ->
    (vote_le (rs_v (en_state e)) v -> pfx H (rs_committed (en_state e)) (tip (v_leader v))) ->
    (vote_le (rs_v (en_state e)) v -> pfx H (em_log_id (ms_committed (rs_mem (en_state e)))) (tip (v_leader v))) ->
    pfx H (em_log_id (ms_committed (rs_mem (en_state e)))) (dlast D) ->
    en_append now v prev es e = Ok (e', r) -> crun e e'.
  Proof using HE.
    intros I Hc Hf Hr Hch Htip Hcom Hmt Hml Hu. unfold en_append in Hu. rok Hu.
    assert (Hfe : li_node (v_leader v) <> en_id e) by (rewrite (ei_id _ _ _ _ I); exact Hf).
    destruct (vote_foreign_rest _ _ _ _ Hx Hfe) as (Hm & _).
    assert (Q : qrun e x.1) by (eapply qrun_prims; [eapply vh_update_vote_prims; exact Hx|notin..]).
    destruct (update_vote_foreign E me HE now v D e x I Hf Hx) as (D1 & (R1 & I1 & L1 & _ & Hco & _) & Hok1).
    destruct x as [e1 ok]. cbn [fst snd] in *. destruct ok; cbn [negb] in Hu.
    2:{ injection Hu as <- <-. by apply qrun_c. }
    destruct (Hok1 eq_refl) as (V1 & Hge & Hl1 & Hc1). clear Hok1.
    specialize (Hcom Hge). specialize (Hmt Hge). rewrite <- L1 in Hml. rewrite <- Hm in Hmt, Hml.
    eapply crun_pre; [exact Q|exact Hm|]. clear Q.
    assert (Hprevt : pfx H prev (tip (v_leader v))) by (eapply pfx_trans; [apply chain_pfx; exact Hch|exact Htip]).
    assert (Hcut : forall p e2, pfx H (Some p) (tip (v_leader v)) -> rs_has_log_id (en_state e2) p = false -> ec E D1 (en_state e2) ->
      rs_mem (en_state e2) = rs_mem (en_state e1) -> crun e2 (fh_truncate (lid_index p) e2)).
    { intros p e2 Hp Hh C Hq. apply crun_truncate. rewrite Hq. eapply (lacks_id E HE); [exact C|exact Hp|exact Hh|exact Hmt|exact Hml]. }
    assert (Happ : crun e1 (fh_append_entries (fh_vote e1) prev es e1)).
    { unfold fh_append_entries. set (e2 := upd (rs_accept_io _) e1).
      assert (Hm2 : rs_mem (en_state e2) = rs_mem (en_state e1)) by (subst e2; cbn; rewrite rs_accept_io_eq; reflexivity).
      assert (Q2 : qrun e1 e2). { exists []. rewrite app_nil_r. split; [done|]. split; [exact Hm2|]. intros c Hcc%elem_of_nil; done. }
      assert (C2 : ec E D1 (en_state e2)) by (subst e2; unpush; rewrite rs_accept_io_eq; eapply ec_ext; [apply I1|reflexivity..]).
      pose proof (drop_conflicting (en_state e2) es) as Hconf.
      pose proof (take_drop (rs_first_conflicting (en_state e2) es) es) as Htd.
      destruct (drop (rs_first_conflicting (en_state e2) es) es) as [|x q] eqn:Hd.
      - destruct (some_io_leb _ _); [by apply qrun_c|]. apply qrun_c. destruct Q2 as (cs & A1 & A2 & A3).
        eexists (cs ++ [_]). split; [cbn [push en_out]; rewrite A1, <- app_assoc; reflexivity|]. rewrite foldl_app. cbn [push en_state]. split; [exact A2|].
        apply quietc_app; [exact A3|]. intros c ->%elem_of_list_singleton; done.
      - eapply crun_pre; [exact Q2|exact Hm2|]. eapply crun_post.
        + apply (Hcut (e_log_id x) e2); [|exact Hconf|exact C2|exact Hm2].
          eapply pfx_trans; [|exact Htip]. rewrite <- Htd in Hch |- *. apply chain_app in Hch as [_ Hch2]. rewrite es_last_app, es_last_cons.
          apply chain_pfx. apply Hch2.
        + eapply (qrun_prims [KFollowAppend]); [|notin..]. pone pr_follow_append; [discriminate|]. cbn [head]. left. rewrite fh_truncate_committed.
          apply has_log_id_false in Hconf. exact Hconf. }
    unfold fh_ensure_consecutive in Hu. destruct prev as [p|].
    - destruct (rs_has_log_id (en_state e1) p) eqn:Hh; injection Hu as <- <-; [exact Happ|].
      apply Hcut; [exact Hprevt|exact Hh|apply I1|done].
    - injection Hu as <- <-. exact Happ.
  Qed.

  Definition node_mem (n : Node) : Prop :=
    Minv H (rs_last (nd_state n)) (rs_committed (nd_state n)) (rs_mem (nd_state n)).

  Context (cfg : EngineConfig) (Hme : ec_id cfg = me).

  Lemma planned_run now ev n n' outs : fits_step E cfg now ev n n' outs -> ev <> ERun -> crun (nd_eng n) (nd_eng n') -> node_mem n -> node_mem n'.
  Proof using HE Hme.
    intros Hst He (cs & Ho & Hm & Hc) Hn. pose proof Hst as (Hr & Hs & Hf & Hown).
    pose proof (reachable_inv E me HE cfg n Hr Hme) as HN.
    pose proof (step_walk E me HE now ev n (n', outs) Hs Hf Hown HN) as Hw. cbn [fst] in Hw.
    pose proof (node_step_inv E me HE now ev n (n', outs) Hs Hf Hown HN) as HN'. cbn [fst] in HN'.
    rewrite (produced_app ev _ _ _ He Ho) in Hw.
    pose proof (ec_last E _ _ (ei_ec _ _ _ _ (node_ei E me n HN))) as L1.
    pose proof (ec_last E _ _ (ei_ec _ _ _ _ (node_ei E me n' HN'))) as L2.
    unfold node_mem, nd_state in *. rewrite L1 in Hn. rewrite L2, Hm.
    apply (walk_cut _ _ _ _ (node_pos E me HE n HN) Hw Hc). exact Hn.
  Qed.
  Lemma step_mem now ev n n' outs : fits_step E cfg now ev n n' outs -> mem_fits E n ev -> node_mem n -> node_mem n'.
  Proof using HE Hme.
    intros Hst Hmf Hn. pose proof Hst as (Hr & Hs & Hf & Hown).
    pose proof (reachable_inv E me HE cfg n Hr Hme) as HN.
    pose proof (node_ei E me n HN) as I. assert (Hid : nd_id n = me) by (apply (node_id E me n HN)).
    assert (Hidle : runnable n = true -> forall (f : res (Node * list Out)), when_idle n f = Ok (n', outs) -> n' = n).
    { intros Hrn f Hq. unfold when_idle in Hq. rewrite Hrn in Hq. by injection Hq as <- _. }
    assert (Hq : KTruncate ∉ event_kinds ev n -> KInstall ∉ event_kinds ev n -> KPop ∉ event_kinds ev n -> ev <> ERun -> node_mem n').
    { intros K1 K2 K3 He. eapply planned_run; [exact Hst|exact He| |exact Hn]. apply qrun_c.
      eapply qrun_prims; [exact (node_step_kinds _ _ _ _ Hs)|done..]. }
    destruct ev as [|m| | | | | | | | | | | |] eqn:Hev; try (apply Hq; [notin..|discriminate]).
    - clear Hq Hidle. cbn [node_step] in Hs. unfold run_one in Hs. destruct (en_out (nd_eng n)) as [|c r] eqn:Ho; [by injection Hs as <- _|].
      destruct (cond_ok _ _); [|by injection Hs as <- _].
      destruct (run_cmd_eng _ _ _ _ Hs) as (io & He & _). cbn [fst] in He. unfold node_mem, nd_state in *. rewrite He. exact Hn.
    - destruct m; try (apply Hq; [notin..|discriminate]); clear Hq.
      + destruct (runnable n) eqn:Hrn; [by rewrite (Hidle eq_refl _ Hs)|]. clear Hidle.
        eapply planned_run; [exact Hst|discriminate| |exact Hn].
        cbn [node_step] in Hs. unfold when_idle in Hs. rewrite Hrn in Hs. cbn [handle_msg] in Hs.
        unfold lift in Hs. rok Hs. injection Hs as <- _. cbn [nd_set_eng nd_eng].
        unfold core_append in Hx. rok Hx. injection Hx as <-. unfold en_append_entries in Hx0. rok Hx0. destruct x as [e1 r]. cbn [fst snd] in Hx0.
        destruct Hf as ((F1 & F2 & F3) & F4 & F5 & F6 & F7). rewrite Hid in F2.
        assert (Hcr : crun (nd_eng n) e1).
        { eapply append_crun; [exact I|exact F1|exact F2|exact F5|exact F4|exact F6|exact F3|exact Hmf| |exact Hx].
          rewrite <- (ec_last E _ _ (ei_ec _ _ _ _ I)). eapply minv_com. exact Hn. }
        assert (Hresp : forall w rr t, qrun e1 (push (Respond w rr t) e1)).
        { intros w rr t. eexists [_]. split; [reflexivity|]. split; [done|]. intros c ->%elem_of_list_singleton; done. }
        destruct r; [destruct (io_accepted (rs_io (en_state e1))) as [i|]; [|discriminate]|..]; injection Hx0 as <-; cbn [fst snd];
          [|by eapply crun_post..].
        eapply crun_post; [eapply crun_post; [exact Hcr|apply Hresp]|]. eapply qrun_prims; [apply fh_commit_prims|notin..].
      + destruct (runnable n) eqn:Hrn; [by rewrite (Hidle eq_refl _ Hs)|]. clear Hidle.
        pose proof (node_step_inv E me HE _ _ n (n', outs) Hs Hf Hown HN) as HN'. cbn [fst] in HN'.
        pose proof (ec_last E _ _ (ei_ec _ _ _ _ I)) as L1.
        pose proof (ec_last E _ _ (ei_ec _ _ _ _ (node_ei E me n' HN'))) as L2.
        unfold node_mem. destruct Hf as (F1 & F4 & F5).
        destruct (install_step E cfg HE _ _ _ _ _ _ _ Hst Hrn) as [(_ & -> & _ & _)|(Hge & _ & _ & Hc)]; [exact Hn|].
        destruct (Hmf Hge) as [Hmt Hx10]. clear Hmf.
        unfold nd_state in *. rewrite L2. unfold node_mem, nd_state in Hn. rewrite L1 in Hn, Hx10.
        change (dk_log (planned n')) with (planned_log n'). change (dk_log (planned n)) with (planned_log n) in *.
        destruct Hc as [(_ & -> & _ & _ & _ & _ & -> & ->)|(sl & Hsl & Hlt & -> & _ & _ & Hpu & Hc)]; [exact Hn|].
        pose proof (snap_mem E _ F4) as Hsm. rewrite Hsl in *.
        destruct Hc as [(Hp & He & ->)|(Hp & He & mm & -> & Hmm)].
        * replace (ls_last (planned_log n')) with (ls_last (planned_log n)).
          { eapply minv_install; [exact Hok|exact Hn|exact Hp|exact Hsm]. }
          pose proof (ec_log _ _ _ (ei_ec _ _ _ _ I)) as Hlog. change (dk_log (planned n)) with (planned_log n) in Hlog.
          pose proof (ec_purged_com E _ _ (ei_ec _ _ _ _ I)) as Hpc. change (dk_log (planned n)) with (planned_log n) in Hpc.
          assert (Hi : next_index (ls_purged (planned_log n)) <= S (lid_index sl)).
          { destruct (decide (next_index (ls_purged (planned_log n)) <= S (lid_index sl))) as [|Hi]; [done|exfalso].
            assert (Hx : pfx H (Some sl) (rs_committed (en_state (nd_eng n)))).
            { eapply pfx_trans; [|exact Hpc]. eapply (pfx_of_idx H Hok); [exact Hp|apply (log_ok_pfx H); exact Hlog|cbn; lia]. }
            apply (pfx_le H Hok) in Hx. congruence. }
          destruct (ls_purge_ok H Hok sl _ Hlog Hp Hi) as [_ Hl]. rewrite <- Hl. f_equal.
          destruct (planned_log n') as [a b]. cbn in Hpu, He. subst. reflexivity.
        * replace (ls_last (planned_log n')) with (Some sl) by (unfold ls_last; rewrite He, Hpu; reflexivity).
          destruct (minv_self H Hok _ _ _ Hn) as [S1 S2]. pose proof (minv_com _ _ _ Hn) as Hcl.
          assert (Hcs : pfx H (em_log_id (ms_committed (rs_mem (en_state (nd_eng n))))) (Some sl)).
          { destruct (pfx_linear H _ _ _ Hmt F5) as [|Hl]; [done|]. exfalso. apply Hp. eapply pfx_trans; [exact Hl|exact Hcl]. }
          assert (Hkeep : mm = rs_mem (en_state (nd_eng n)) -> 
            (pfx H (em_log_id (ms_effective (rs_mem (en_state (nd_eng n))))) (Some sl) \/
             next_index (em_log_id (ms_effective (rs_mem (en_state (nd_eng n))))) <= next_index (em_log_id (sm_mem (sn_meta sn)))) ->
            Minv H (Some sl) (Some sl) (ms_update_committed mm (sm_mem (sn_meta sn)))).
          { intros -> Hx. apply minv_replace; [exact Hok|exact Hsm|exact Hcs|exact S2|exact S1|]. by rewrite onat_leb_next. }
          destruct Hmm as [[-> Hi]|Hmm]; [apply Hkeep; [done|apply Hx10; cbn; lia]|].
          unfold ms_truncate in Hmm. destruct (onat_leb _ _) eqn:Ho in Hmm.
          -- subst mm. apply minv_replace; cbn [ms_committed ms_effective]; auto.
          -- apply Hkeep; [exact Hmm|]. left.
             assert (Hni : next_index (em_log_id (ms_effective (rs_mem (en_state (nd_eng n))))) <= next_index (rs_committed (en_state (nd_eng n)))).
             { destruct (decide (next_index (rs_committed (en_state (nd_eng n))) < next_index (em_log_id (ms_effective (rs_mem (en_state (nd_eng n))))))) as [l|]; [|lia].
               apply onat_leb_idx in l. congruence. }
             destruct F1 as (_ & _ & F3). eapply pfx_trans with (b := rs_committed (en_state (nd_eng n))).
             ++ eapply (pfx_of_idx H Hok); [apply (pm_id H Hok); apply Hn|apply (ec_last' _ _ _ (ei_ec _ _ _ _ I))|exact Hni].
             ++ eapply pfx_of_leb; [exact Hok|apply F3; exact Hge|exact F5|]. clear - Hlt. unfold nd_state in *. revert Hlt. generalize (rs_committed (en_state (nd_eng n))). intros o. destruct o; ord.
    - cbn [event_kinds] in Hq. destruct (nd_notes n) as [|x r]; [apply Hq; [notin..|discriminate]|].
      destruct x as [| | | | |q]; try (apply Hq; [notin..|discriminate]). destruct q; (apply Hq; [notin..|discriminate]).
  Qed.

  (** ** Starting *)
  Lemma loaded_mem l sm : log_ok H l -> sm_ok E sm -> 
    (pfx H (sm_applied sm) (ls_last l) /\ pfx H (ls_purged l) (sm_applied sm) -> Minv H (ls_last l) (sm_applied sm) (helper_get_membership l sm)) /\
    (next_index (ls_last l) <= next_index (sm_applied sm) -> Minv H (sm_applied sm) (sm_applied sm) (helper_get_membership l sm)).
  Proof using HE.
    clear Hme cfg. clear me. intros Hl Hs.
    assert (Hm : path_mem H (sm_applied sm) (sm_membership sm)).
    { exists (sm_entries sm). destruct Hs as [S1 S2 S3 S4]. rewrite S2, S3. auto. }
    assert (H0 : Minv H (sm_applied sm) (sm_applied sm) (mkMS (sm_membership sm) (sm_membership sm))) by (split; [exact Hm|by left]).
    assert (Hg : helper_get_membership l sm = foldl ms_append (mkMS (sm_membership sm) (sm_membership sm)) (helper_last_memberships l (next_index (sm_applied sm)))).
    { unfold helper_get_membership, helper_last_memberships. set (es := ls_read _ _ _).
      destruct (last_two_cases es) as [(_ & ->)|[(m & _ & ->)|(r & m1 & m2 & _ & ->)]]; reflexivity. }
    rewrite Hg. unfold helper_last_memberships.
    assert (Hempty : next_index (ls_last l) <= next_index (sm_applied sm) -> 
      ls_read (Nat.max (next_index (ls_purged l)) (next_index (sm_applied sm))) (next_index (ls_last l)) l = []).
    { intros Hi. unfold ls_read. induction (ls_entries l) as [|x r IH]; [done|]. rewrite filter_cons_False; [done|lia]. }
    split.
    - intros [Ha Hp]. destruct (decide (next_index (ls_last l) <= next_index (sm_applied sm))) as [Hi|Hi].
      + rewrite (Hempty Hi). replace (ls_last l) with (sm_applied sm); [exact H0|]. apply (pfx_eq_idx H Hok _ _ Ha). exact Hi.
      + replace (Nat.max _ _) with (next_index (sm_applied sm)) by (apply (pfx_idx H Hok) in Hp; lia).
        destruct (ls_last l) as [x|] eqn:Hx; [|cbn in Hi; lia]. cbn [next_index].
        destruct (read_chain E HE l (sm_applied sm) x Hl Hp Ha) as (R1 & R2 & _); [rewrite Hx; constructor|].
        rewrite <- R2. eapply minv_append; [exact Hok|exact H0|exact R1|constructor].
    - intros Hi. rewrite (Hempty Hi). exact H0.
  Qed.
  Lemma start_mem d n : start_loaded E me d n -> node_inv E me n -> node_mem n.
  Proof using HE.
    intros (e0 & D' & sm1 & Ho & (_ & _ & cs & Ho' & Hw) & I0 & Hpe & Hpr & Hsm & Ha & Hm & Hlog & Hd) HN.
    assert (HD : D' = planned n).
    { pose proof (walk_view E me _ _ _ Hw) as Hv. cbn [w_d] in Hv. rewrite Hv. unfold planned, so_view. rewrite Hpe, Ho', Ho. reflexivity. }
    subst D'.
    assert (Hq : qrun e0 (nd_eng n)) by (eapply qrun_prims; [exact Hpr|notin..]).
    destruct Hq as (cs' & Ho2 & Hm2 & Hq). rewrite Ho' in Ho2. apply app_inv_head in Ho2 as <-.
    unfold node_mem, nd_state. rewrite (ec_last E _ _ (ei_ec _ _ _ _ (node_ei E me n HN))), Hm2.
    apply (walk_minv _ _ _ _ (ec_pos E HE _ _ (ei_ec _ _ _ _ I0)) Hw Hq).
    unfold MI, wl. cbn [w_must w_d w_cur]. rewrite <- Ha, Hm. destruct (loaded_mem _ _ Hlog Hsm) as [A B].
    destruct Hd as [(-> & Hp)|(-> & Hi)]; auto.
  Qed.
  Lemma restart_id now k j keep n n' : node_restart now k j keep n = Ok n' -> nd_id n' = nd_id n.
  Proof.
    intros Hx. unfold node_restart, node_start in Hx. rok Hx. destruct x as [[s d1] sm1]. rok Hx. injection Hx as <-.
    unfold nd_id, en_id. cbn [nd_eng]. apply en_startup_prims in Hx1.
    assert (Hc : en_cfg x = en_cfg (engine_new s (en_cfg (nd_eng n)))).
    { revert Hx1. apply (prims_ind_rel ks_startup (fun a b => en_cfg b = en_cfg a)); [reflexivity|congruence|].
      intros ? a b _ Hp. eapply prim_cfg; exact Hp. }
    rewrite Hc. reflexivity.
  Qed.
  Lemma restart_mem now k j keep n n' : node_restart now k j keep n = Ok n' -> node_inv E me n ->
    crash_fits E (crash_disk k j (nd_store n)) (sm_crash keep (nd_sm n)) ->
    own_fits E (nd_id n) (ls_last (dk_log (so_disk (nd_store n')))) (en_out (nd_eng n')) -> node_mem n'.
  Proof using HE.
    intros Hx HN Hcf Hown. pose proof (restart_id _ _ _ _ _ _ Hx) as Hid. rewrite (node_id E me n HN) in Hid, Hown.
    destruct (start_full E me HE _ _ _ _ n' (crash_disk_ok E me HE k j keep n HN) Hcf Hx Hid Hown) as [A B].
    eapply start_mem; [exact B|exact A].
  Qed.
  Lemma fresh_mem now n : node_fresh now cfg = Ok n -> node_mem n.
  Proof using HE Hme.
    intros Hf. destruct (fresh_inv E me HE now cfg n Hf Hme) as [HN Hid].
    assert (Ho : en_out (nd_eng n) = []).
    { unfold node_fresh, node_start in Hf. rok Hf. destruct x as [[s d1] sm1]. rok Hf. injection Hf as <-.
      apply helper_initial_inv in Hx as (? & ? & ? & ? & Hx). cbv zeta in Hx. destruct Hx as (_ & _ & _ & _ & Hx).
      unfold en_startup in Hx0. cbn [engine_new en_state] in Hx0.
      assert (Hl : rs_is_leader s (en_id (engine_new s cfg)) = false).
      { rewrite Hx. unfold rs_is_leader. cbn. apply andb_false_r. }
      rewrite Hl in Hx0. injection Hx0 as <-. reflexivity. }
    assert (Hfull : node_inv E me n /\ start_loaded E me disk_empty n).
    { eapply start_full; [exact HE| | |exact Hf|exact Hid|].
      - constructor; cbn; try constructor; try exact Logic.I; try constructor; try discriminate; cbn; auto.
      - left. constructor.
      - rewrite Ho. intros v es Hin. inversion Hin. }
    destruct Hfull as [_ B]. eapply start_mem; [exact B|exact HN].
  Qed.

  Lemma mem_run acts : forall n x, node_run acts n = Ok x -> run_fits E acts n -> run_mem_fits E acts n ->
    fits_reachable E cfg n -> node_mem n -> node_mem x.1.
  Proof using HE Hme.
    induction acts as [|a r IH]; intros n x Hr; cbn [node_run run_fits run_mem_fits] in *.
    - injection Hr as <-. auto.
    - rok Hr. rok Hr. injection Hr as <-. intros [Hf Hfr] [Hm Hmr] Hreach Hn.
      assert (Hreach' : fits_reachable E cfg x0.1).
      { destruct x0 as [n1 o1]. eapply fits_reachable_step; [exact Hreach|exact Hx|exact Hf]. }
      apply (IH _ _ Hx0 Hfr Hmr Hreach'). pose proof (reachable_inv E me HE cfg n Hreach Hme) as HN.
      destruct a as [now ev|now k j keep]; cbn [node_act act_fits] in *.
      + destruct x0 as [n1 o1]. destruct Hf as [Hf Hown]. eapply step_mem; [|exact Hm|exact Hn]. repeat split; [exact Hreach|exact Hx|exact Hf|exact Hown].
      + rok Hx. injection Hx as <-. cbn [fst] in *. destruct Hf as [Hcf Hown]. by eapply restart_mem.
  Qed.
  Theorem mem_inv n : mem_reachable E cfg n -> fits_reachable E cfg n /\ node_mem n.
  Proof using HE Hme.
    intros (now & n0 & acts & outs & Hf & Hr & Hm & Hrun). split; [exists now, n0, acts, outs; auto|].
    apply (mem_run acts n0 (n, outs) Hrun Hr Hm); [|by eapply fresh_mem].
    exists now, n0, [], []. split; [exact Hf|]. split; [exact Logic.I|reflexivity].
  Qed.

  Theorem mem_follows n : mem_reachable E cfg n ->
    let s := nd_state n in let ms := rs_mem s in
    path_mem H (rs_last s) (ms_effective ms) /\
    (ms_committed ms = ms_effective ms \/
     exists p, just_before H (ms_effective ms) p /\ path_mem H p (ms_committed ms) /\ pfx H (rs_committed s) p) /\
    (next_index (em_log_id (ms_committed ms)) <= next_index (rs_committed s) -> path_mem H (rs_committed s) (ms_committed ms)) /\
    (forall m, path_mem H (rs_committed s) m -> next_index (em_log_id m) <= next_index (em_log_id (ms_committed ms))).
  Proof using HE Hme.
    intros Hr. cbv zeta. destruct (mem_inv n Hr) as [Hreach [Me Mc]].
    pose proof (reachable_inv E me HE cfg n Hreach Hme) as HN. pose proof (ei_ec _ _ _ _ (node_ei E me n HN)) as C.
    assert (Hcl : pfx H (rs_committed (nd_state n)) (rs_last (nd_state n))).
    { unfold nd_state. rewrite (ec_last E _ _ C). apply (ec_last' _ _ _ C). }
    split; [exact Me|]. split; [exact Mc|].
    assert (Hx : exists q, path_mem H q (ms_committed (rs_mem (nd_state n))) /\ pfx H (rs_committed (nd_state n)) q).
    { destruct Mc as [->|(p & _ & Mp & Cp)]; [exists (rs_last (nd_state n)); auto|exists p; auto]. }
    destruct Hx as (q & Q1 & Q2). split.
    - intros Hi. eapply pm_between; [exact Hok|exact Q1| |exact Q2]. eapply (pfx_of_idx H Hok); [apply (pm_id H Hok); exact Q1|exact Q2|exact Hi].
    - intros m Hm. apply (pfx_idx H Hok). eapply pm_le; [exact Hok|exact Q1|exact Hm|exact Q2].
  Qed.
End mem.
