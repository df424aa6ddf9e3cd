(** The commands of a step support the answers that are still queued. *)
From Coq Require Import Bool Lia ZifyBool ZifyNat.
From stdpp Require Import base numbers option gmap relations list.
From Verif Require Import Types TypesProofs LogIdList LogIdListProofs Quorum Membership Progress RaftState
  ProgressEntry Engine EnginePrims Store RaftCore NodeSpec NodePrims KindProofs VoteNodeProofs LogSpec LogProofs WalkProofs
  EngLogProofs NodeLogProofs StepLogProofs LogPropSpec LogStateProofs LeadProofs OwnProofs ClNodeProofs ClStepProofs DurIoProofs DurProofs.
Import NodeSpec.

Section durstep.
  Context (E : Env) (me : nat) (HE : env_ok E).
  Notation H := (ev_hist E).
  Notation tip := (ev_tip E).
  Let Hok : hist_ok H := proj1 HE.
  Context (Rq : nat -> Vote -> option LogId -> Prop).

  Definition harmless (c : Command) : Prop :=
    match c with
    | AppendInputEntries v _ => ~ fgn me (v_leader v)
    | UpdateIOProgress _ io => ~ fgn me (v_leader (io_vote io))
    | TruncateLog _ | InstallSnapshot _ _ | Respond _ (RAppend ASuccess) _ => False
    | _ => True
    end.
  Definition no_purge_due (w : W) : Prop := match w_must w with MPurgeTo _ => False | _ => True end.
  Lemma harmless_dok w c A : pos E w -> no_purge_due w -> wok E me w c -> harmless c ->
    dok E me Rq (w_d w) A c /\ no_purge_due (wnext w c).
  Proof.
    intros P Hm Hw Hh. unfold no_purge_due in *.
    destruct c as [wc io|v es|[c|]|ss lc|c|pv up|t rq|rq|ts|v|rq|u|y| |sn io|wc r tx]; cbn [wnext w_must dok wok harmless] in *;
      try contradiction; try (split; [exact Logic.I|first [exact Hm|exact Logic.I]]; fail).
    - split; [|exact Hm]. intros Hf. destruct Hw as (_ & v' & x' & -> & Hv & _). cbn [io_vote] in Hh. rewrite Hv in Hh. contradiction.
    - split; [|exact Hm]. intros Hf. destruct Hw as (_ & _ & _ & _ & Hv). rewrite Hv in Hh. contradiction.
    - destruct Hw as [(Hmn & Hu & Hn)|(Hmn & _)]; [|rewrite Hmn in Hm; contradiction].
      split; [|exact Logic.I]. split; [|exact Hn]. pose proof (p_must _ _ P) as Hpm. rewrite Hmn in Hpm. eapply pfx_trans; [exact Hu|apply Hpm].
    - split; [|exact Hm]. destruct r as [|[]| |]; try exact Logic.I. contradiction.
  Qed.
  Lemma harmless_walk cs : forall w w' A, pos E w -> no_purge_due w -> walk E me w cs w' -> (forall c, c ∈ cs -> harmless c) ->
    dwalk E me Rq (w_d w) A cs /\
    (fgn me (vl (w_d w')) -> foldl anext A cs = [] \/ (foldl anext A cs = A /\ dvote (w_d w') = dvote (w_d w))).
  Proof using HE.
    induction cs as [|c r IH]; intros w w' A P Hm Hw Hc; cbn [walk dwalk foldl] in *.
    { subst w'. auto. }
    destruct Hw as [Hw Hr]. assert (Hh : harmless c) by (apply Hc, elem_of_cons; auto).
    destruct (harmless_dok w c A P Hm Hw Hh) as [Hd Hm'].
    assert (P' : pos E (wnext w c)) by (apply (wok_pos E me Hok); assumption).
    destruct (IH (wnext w c) w' (anext A c) P' Hm' Hr) as [Hd' HA]; [intros c' Hc'; apply Hc, elem_of_cons; auto|].
    split; [split; [exact Hd|exact Hd']|]. intros Hf. specialize (HA Hf).
    destruct c as [wc io|v es|[c|]|ss lc|c|pv up|t rq|rq|ts|v|rq|u|y| |sn io|wc r0 tx]; cbn [anext] in *; auto.
    - destruct HA as [HA|[_ HA]]; [auto|]. exfalso. apply Hh. destruct Hw as (_ & _ & _ & _ & Hv). rewrite Hv.
      change (dvote (w_d (wnext w (AppendInputEntries v es)))) with (dvote (w_d w)) in HA. unfold vl in *. rewrite <- HA. exact Hf.
    - left. destruct HA as [HA|[HA _]]; exact HA.
  Qed.

  (** ** Steps other than append-entries and install-snapshot requests *)
  Lemma lcown_of D e : ei E me D e -> lcown e.
  Proof.
    intros I. pose proof (ei_id _ _ _ _ I) as Hid. split.
    - intros c Hc. destruct (ei_cl _ _ _ _ I c Hc) as (_ & _ & Hn & _). congruence.
    - intros l Hl. destruct (ei_el _ _ _ _ I l Hl) as (_ & _ & Hn & _). congruence.
  Qed.
  Lemma step_appends now ev n n' outs : node_step now ev n = Ok (n', outs) -> node_inv E me n -> is_follow_msg ev = false ->
    forall v es, AppendInputEntries v es ∈ step_produced ev n n' -> ~ fgn me (v_leader v).
  Proof using HE.
    intros Hs HN Hfm v es Hin. destruct (is_run ev) as [->|He]; [apply elem_of_nil in Hin as []|].
    pose proof (node_ei E me n HN) as I. pose proof (ei_id _ _ _ _ I) as Hid.
    pose proof (node_step_kinds _ _ _ _ Hs) as Hk. cbn [fst] in Hk.
    assert (Hq : KPop ∉ event_kinds ev n -> KFollowAppend ∉ event_kinds ev n -> ~ fgn me (v_leader v)).
    { intros N1 N2 [Hf _]. destruct (prims_appends _ _ _ Hk N1 N2 (lcown_of _ _ I)) as (cs & Ho & Hc).
      rewrite (produced_app _ _ _ _ He Ho) in Hin. apply Hf. rewrite <- Hid. eapply Hc. exact Hin. }
    destruct ev as [|m| | | | | | | | | | | |]; try congruence; try (apply Hq; cbn; notin).
    - destruct m; try (apply Hq; cbn; notin); try discriminate Hfm. clear Hq Hk.
      cbn [node_step] in Hs; unfold when_idle in Hs; destruct (runnable n).
      { injection Hs as <- _. rewrite (produced_app _ n n [] He) in Hin by (rewrite app_nil_r; reflexivity). apply elem_of_nil in Hin as []. }
      cbn [handle_msg] in Hs; unfold lift in Hs; rok Hs; injection Hs as <- _.
      destruct (decide (rs_last (nd_state n) = None /\ rs_v (nd_state n) = vote_default /\ nd_id n ∈ dom members)) as [(D1 & D2 & D3)|Hn].
      + destruct (initialize_ok _ _ _ _ _ D1 D2 D3 Hx) as (Ho & _).
        rewrite (produced_app (EMsg _) n (nd_set_eng x n) _ He Ho) in Hin.
        repeat (apply elem_of_cons in Hin as [Hin|Hin]; [try discriminate Hin|]); [|apply elem_of_nil in Hin as []].
        injection Hin as -> _. intros [_ Hf]. apply Hf. reflexivity.
      + destruct (initialize_refused _ _ _ _ _ Hx Hn) as (err & He' & _).
        rewrite (produced_app (EMsg _) n (nd_set_eng x n) [Respond None (RInitialize (Some err)) tx] He) in Hin by (cbn; rewrite He'; reflexivity).
        apply elem_of_list_singleton in Hin. discriminate Hin.
    - apply Hq; cbn [event_kinds]; (destruct (nd_notes n) as [|y r]; [notin|]); destruct y as [| | | | |[]]; notin.
  Qed.
  Lemma step_harmless now ev n n' outs : node_step now ev n = Ok (n', outs) -> node_inv E me n -> is_follow_msg ev = false ->
    forall c, c ∈ step_produced ev n n' -> harmless c.
  Proof using HE.
    intros Hs HN Hfm c Hc. destruct c as [wc io|v es|cc|ss lc|c|pv up|t rq|rq|ts|v|rq|u|y| |sn io|wc r tx]; try exact Logic.I; cbn [harmless].
    - destruct (is_run ev) as [->|He]; [apply elem_of_nil in Hc as []|].
      destruct (step_uq _ _ _ _ He Hs Hfm) as (_ & cs & Ho & Hcs). cbn [fst] in Ho. rewrite (produced_app _ _ _ _ He Ho) in Hc.
      specialize (Hcs _ Hc). cbn in Hcs. intros [Hf _]. apply Hf. rewrite Hcs. apply (node_id E me n HN).
    - eapply step_appends; eauto.
    - apply (step_truncates _ _ _ _ _ _ Hs) in Hc as [Hc _]. congruence.
    - destruct (is_run ev) as [->|He]; [apply elem_of_nil in Hc as []|].
      pose proof (node_step_kinds _ _ _ _ Hs) as Hp. cbn [fst] in Hp.
      assert (Hk : KInstall ∉ event_kinds ev n /\ KPop ∉ event_kinds ev n).
      { destruct ev as [|m| | | | | | | | | | | |]; cbn [event_kinds] in *; try (split; notin); try congruence.
        - destruct m; try (split; notin); discriminate Hfm.
        - destruct (nd_notes n) as [|y r]; [split; notin|]. destruct y as [| | | | |[]]; split; notin. }
      destruct Hk as [Hk1 Hk2]. destruct (OwnProofs.prims_cmds _ _ _ Hp Hk2) as (cs & Ho & Hcs).
      rewrite (produced_app _ _ _ _ He Ho) in Hc. destruct (Hcs _ Hc) as (k & a & b & Hkin & Hkk). cbn in Hkk. subst k. contradiction.
    - pose proof (step_responds _ _ _ _ _ Hs _ _ _ Hc) as Hr. destruct r as [|[]| |]; try exact Logic.I.
      destruct ev as [|m| | | | | | | | | | | |]; try exact Hr. destruct m; try exact Hr; try discriminate Hfm.
      + destruct Hr as (_ & ? & ? & ? & _). discriminate.
      + destruct Hr as (? & ?). discriminate.
  Qed.
  Lemma step_acc now ev n n' outs : node_step now ev n = Ok (n', outs) -> node_inv E me n -> ev <> ERun -> is_follow_msg ev = false ->
    rs_v (nd_state n') = rs_v (nd_state n) -> fgn me (v_leader (rs_v (nd_state n))) ->
    io_accepted (rs_io (nd_state n')) = io_accepted (rs_io (nd_state n)).
  Proof using HE.
    intros Hs HN He Hfm Hv Hf. pose proof (node_ei E me n HN) as I. pose proof (ei_id _ _ _ _ I) as Hid.
    pose proof (node_step_kinds _ _ _ _ Hs) as Hk. cbn [fst] in Hk.
    assert (Hl : en_leader (nd_eng n) = None).
    { destruct (en_leader (nd_eng n)) as [l|] eqn:Hl; [|reflexivity]. exfalso. destruct (ei_el _ _ _ _ I l Hl) as (E1 & _ & E2 & _).
      rewrite E1 in E2. destruct Hf as [Hf _]. apply Hf. exact E2. }
    assert (Hq : KAccept ∉ event_kinds ev n -> KInstall ∉ event_kinds ev n -> KEstablish ∉ event_kinds ev n -> KInitVote ∉ event_kinds ev n ->
      KPop ∉ event_kinds ev n -> io_accepted (rs_io (nd_state n')) = io_accepted (rs_io (nd_state n))).
    { intros N1 N2 N3 N4 N5. destruct (prims_acc _ _ _ Hk N1 N2 N3 N4 N5) as [_ Ha].
      apply Ha; [exact Hv|rewrite Hid; apply Hf|exact Hl]. }
    destruct ev as [|m| | | | | | | | | | | |]; try congruence; try (apply Hq; cbn; notin).
    - destruct m; try (apply Hq; cbn; notin); try discriminate Hfm. clear Hq Hk.
      cbn [node_step] in Hs; unfold when_idle in Hs; destruct (runnable n); [injection Hs as <- _; reflexivity|].
      cbn [handle_msg] in Hs; unfold lift in Hs; rok Hs; injection Hs as <- _.
      destruct (decide (rs_last (nd_state n) = None /\ rs_v (nd_state n) = vote_default /\ nd_id n ∈ dom members)) as [(D1 & D2 & D3)|Hn].
      + destruct Hf as [_ Hf]. rewrite D2 in Hf. destruct Hf. reflexivity.
      + destruct (initialize_refused _ _ _ _ _ Hx Hn) as (err & He' & _). unfold nd_state. cbn [nd_eng nd_set_eng]. rewrite He'. reflexivity.
    - cbn [node_step] in Hs; unfold when_idle in Hs; destruct (runnable n); [injection Hs as <- _; reflexivity|].
      cbn [event_kinds] in *. destruct (nd_notes n) as [|y r]; [injection Hs as <- _; reflexivity|].
      destruct y as [t resp sv| | | | |[]]; try (apply Hq; notin). cbn [handle_note] in Hs.
      destruct (en_cand (nd_eng (nd_set_notes r n))) as [c|] eqn:Hc; [|injection Hs as <- _; reflexivity].
      exfalso. destruct (ei_cl _ _ _ _ I c Hc) as (E1 & _ & E2 & _). rewrite E1 in E2. destruct Hf as [Hf _]. apply Hf. exact E2.
  Qed.

  (** ** An append-entries request *)
  Definition AI (A : list (option LogId)) (e : Engine) : Prop :=
    fgn me (v_leader (rs_v (en_state e))) ->
    forall a, a ∈ A -> exists y, io_accepted (rs_io (en_state e)) = Some (IOLog (rs_v (en_state e)) y) /\ pfx H a y.
  Definition drun (A : list (option LogId)) (D : Disk) (e : Engine) (A' : list (option LogId)) (D' : Disk) (e' : Engine) : Prop :=
    exists cs, en_out e' = en_out e ++ cs /\ D' = foldl dapply D cs /\ A' = foldl anext A cs /\ dwalk E me Rq D A cs.
  Lemma drun_trans A D e A1 D1 e1 A2 D2 e2 : drun A D e A1 D1 e1 -> drun A1 D1 e1 A2 D2 e2 -> drun A D e A2 D2 e2.
  Proof.
    intros (c1 & O1 & -> & -> & W1) (c2 & O2 & -> & -> & W2). exists (c1 ++ c2). rewrite O2, O1, app_assoc, !foldl_app.
    repeat split; auto. apply dwalk_app. auto.
  Qed.
  Lemma drun_one A D e c e' : en_out e' = en_out e ++ [c] -> dok E me Rq D A c -> drun A D e (anext A c) (dapply D c) e'.
  Proof. intros Ho Hd. exists [c]. cbn. auto. Qed.
  Lemma drun_same A D e e' : en_out e' = en_out e -> drun A D e A D e'.
  Proof. intros Ho. exists []. rewrite app_nil_r. cbn. auto. Qed.
  Lemma drun_disk A D e A' D' e' D2 : drun A D e A' D' e' -> runs E me D e D2 e' -> D' = D2.
  Proof.
    intros (cs & Ho & -> & _) (_ & _ & c2 & O2 & Hw). rewrite Ho in O2. apply app_inv_head in O2 as <-.
    apply (walk_view E me) in Hw. cbn [w_d] in Hw. rewrite dapply_fold. auto.
  Qed.
  Lemma vote_drun now v D e x D1 A : ei E me D e -> AI A e -> vh_update_vote now v e = Ok x -> runs E me D e D1 x.1 -> ei E me D1 x.1 ->
    exists A', drun A D e A' D1 x.1 /\ AI A' x.1.
  Proof using HE.
    intros I HA Hu (Hcfg & Hle & cs & Ho & Hw) I1. pose proof (ei_id _ _ _ _ I) as Hid.
    pose proof (vh_update_vote_prims _ _ _ _ Hu) as Hp.
    assert (Hh : forall c, c ∈ cs -> harmless c).
    { destruct (OwnProofs.prims_cmds _ _ _ Hp) as (c1 & O1 & K1); [notin|]. rewrite Ho in O1. apply app_inv_head in O1 as <-.
      destruct (update_vote_uq _ _ _ _ Hu) as (_ & c1 & O1 & U1). rewrite Ho in O1. apply app_inv_head in O1 as <-.
      destruct (prims_appends _ _ _ Hp) as (c1 & O1 & P1); [notin|notin|eapply lcown_of; exact I|]. rewrite Ho in O1. apply app_inv_head in O1 as <-.
      intros c Hc. destruct (K1 _ Hc) as (k & a & b & Hkin & Hkk).
      destruct c as [wc io|v0 es|cc|ss lc|c|pv up|t rq|rq|ts|v0|rq|u|y| |sn io|wc r tx]; try exact Logic.I; cbn [harmless cmd_of] in *.
      - specialize (U1 _ Hc). cbn in U1. intros [Hf _]. congruence.
      - specialize (P1 _ _ Hc). intros [Hf _]. congruence.
      - destruct Hkk as [[-> | ->] _]; revert Hkin; notin.
      - subst k. revert Hkin. notin.
      - subst k. exfalso. revert Hkin. notin. }
    destruct (harmless_walk cs _ _ A (ec_pos E HE _ _ (ei_ec _ _ _ _ I)) Logic.I Hw Hh) as [Hd HA']. cbn [w_d] in *.
    exists (foldl anext A cs). split.
    { exists cs. apply (walk_view E me) in Hw. cbn [w_d] in Hw. rewrite dapply_fold. auto. }
    intros Hf a Ha. rewrite <- (ei_vote _ _ _ _ I1) in Hf. destruct (HA' Hf) as [Hn|[HeA Hv]]; [rewrite Hn in Ha; apply elem_of_nil in Ha as []|].
    rewrite HeA in Ha. rewrite (ei_vote _ _ _ _ I1), (ei_vote _ _ _ _ I) in Hv. rewrite (ei_vote _ _ _ _ I1), Hv in Hf.
    destruct (prims_acc _ _ _ Hp) as [_ Hac]; [notin..|].
    destruct (Hac Hv) as (Hacc & _).
    - rewrite Hid. apply Hf.
    - destruct (en_leader e) as [l|] eqn:Hl; [|reflexivity]. exfalso. destruct (ei_el _ _ _ _ I l Hl) as (E1 & _ & E2 & _).
      rewrite E1 in E2. destruct Hf as [Hf _]. apply Hf. exact E2.
    - rewrite Hacc, Hv. apply HA; assumption.
  Qed.
  Lemma truncate_drun since D e A : vl D = v_leader (rs_v (en_state e)) -> ec E D (en_state e) ->
    (forall x, pfx H x (tip (vl D)) -> pfx H x (dlast D) -> next_index x <= since) ->
    exists D', drun A D e A D' (fh_truncate since e).
  Proof using HE.
    intros Hv C Hy. rewrite fh_truncate_eq. destruct (rs_get_log_id (en_state e) since) as [lid|] eqn:Hg.
    - apply (ec_get E HE D _ _ _ C) in Hg as (G1 & G2 & G3). exists (dapply D (TruncateLog lid)).
      apply (drun_one A D e (TruncateLog lid)); [reflexivity|]. cbn [dok]. intros _. rewrite G3. exact Hy.
    - exists D. apply drun_same. reflexivity.
  Qed.
  Lemma acc_max D e v lst : following E me D e v -> pfx H lst (tip (v_leader v)) ->
    exists y, io_accepted (rs_io (rs_accept_io (IOLog v lst) (en_state e))) = Some (IOLog v y) /\ pfx H y (tip (v_leader v)) /\ pfx H lst y /\
      forall y0, io_accepted (rs_io (en_state e)) = Some (IOLog v y0) -> pfx H y0 y.
  Proof using HE Rq.
    intros F Htip. pose proof F as [F1 F2 F3 F4 F5 F6 F7]. pose proof (ei_acc _ _ _ _ F1) as Ac.
    destruct (accepted_accept E me D (en_state e) v lst Ac F3) as (y & Hy & Hle); [congruence|congruence|].
    exists y. split; [exact Hy|].
    assert (Hc : y = lst \/ io_accepted (rs_io (en_state e)) = Some (IOLog v y)).
    { rewrite rs_accept_io_eq in Hy. cbn [set_io rs_io] in Hy. unfold io_accept in Hy.
      destruct (match io_accepted (rs_io (en_state e)) with None => true | Some c => io_gtb (IOLog v lst) c end); cbn in Hy; [left; congruence|auto]. }
    assert (Hyt : pfx H y (tip (v_leader v))).
    { destruct Hc as [-> |Hc]; [exact Htip|]. unfold acc_ok in Ac. rewrite Hc in Ac. destruct Ac as (_ & _ & Ac & _). apply Ac. exact F4. }
    split; [exact Hyt|]. split; [eapply (pfx_of_leb H Hok); eauto|].
    intros y0 Hy0. destruct Hc as [-> |Hc]; [|assert (y0 = y) as -> by congruence; constructor].
    assert (Hy0t : pfx H y0 (tip (v_leader v))) by (unfold acc_ok in Ac; rewrite Hy0 in Ac; destruct Ac as (_ & _ & Ac & _); apply Ac; exact F4).
    eapply (pfx_of_leb H Hok); [exact Hy0t|exact Htip|].
    destruct (ologid_leb y0 lst) eqn:Hlt; [reflexivity|]. exfalso.
    rewrite rs_accept_io_eq in Hy. cbn [set_io rs_io] in Hy. unfold io_accept in Hy. rewrite Hy0 in Hy.
    destruct (io_gtb (IOLog v lst) (IOLog v y0)) eqn:Hg.
    - unfold io_gtb, io_cmp in Hg. cbn [io_vote io_last_log_id] in Hg.
      replace (vote_pcmp v v) with (PC (Some Eq)) in Hg; [|unfold vote_pcmp, vote_pcmp_of; destruct v as [[t n] []]; unfold leader_cmp; cbn; rewrite !Nat.compare_refl; reflexivity].
      assert (Hl : ologid_leb lst y0 = false) by (unfold ologid_leb; destruct (ologid_cmp lst y0); [discriminate..|reflexivity]). ord.
    - rewrite Hy0 in Hy. injection Hy as ->. ord.
  Qed.
  Lemma do_append_rest v es e : rs_v (en_state (fh_do_append v es e)) = rs_v (en_state e) /\ rs_io (en_state (fh_do_append v es e)) = rs_io (en_state e).
  Proof. rewrite fh_do_append_eq. cbn. destruct (last_two_memberships es); auto. Qed.
  Lemma truncate_rest i e : rs_v (en_state (fh_truncate i e)) = rs_v (en_state e) /\ rs_io (en_state (fh_truncate i e)) = rs_io (en_state e).
  Proof. rewrite fh_truncate_eq. destruct (rs_get_log_id _ _); cbn; auto. destruct (onat_leb _ _); cbn; auto. Qed.
  Lemma append_drun prev es D e v A : following E me D e v -> AI A e ->
    pfx H None prev -> chain H prev es -> pfx H (es_last prev es) (tip (v_leader v)) -> pfx H prev (dlast D) ->
    exists A' D', drun A D e A' D' (fh_append_entries v prev es e) /\ AI A' (fh_append_entries v prev es e) /\
      exists y, io_accepted (rs_io (en_state (fh_append_entries v prev es e))) = Some (IOLog v y) /\
        pfx H (es_last prev es) y /\ pfx H y (tip (v_leader v)).
  Proof using HE.
    intros F HA Hr Hch Htip Hprev. pose proof F as [F1 F2 F3 F4 F5 F6 F7]. pose proof F1 as [I1 I2 I3 I4 I5 I6].
    unfold fh_append_entries. rewrite (es_last_max E HE prev es Hch). set (lst := es_last prev es) in *.
    set (e1 := upd (rs_accept_io (IOLog v lst)) e).
    assert (C1 : ec E D (en_state e1)) by (subst e1; unpush; rewrite rs_accept_io_eq; eapply ec_ext; [exact I1|reflexivity..]).
    assert (V1 : rs_v (en_state e1) = v) by (subst e1; unpush; rewrite rs_accept_io_v; exact F2).
    destruct (acc_max D e v lst F Htip) as (y & Hy & Hyt & Hly & Hold).
    change (io_accepted (rs_io (en_state e1)) = Some (IOLog v y)) in Hy.
    assert (Hvl : vl D = v_leader v) by (unfold vl; rewrite I2, F2; reflexivity).
    assert (HA1 : AI A e1).
    { intros Hf a Ha. rewrite V1 in Hf. rewrite V1. unfold AI in HA. rewrite F2 in HA. destruct (HA Hf a Ha) as (y0 & Hy0 & Hp0).
      exists y. split; [exact Hy|]. eapply pfx_trans; [exact Hp0|]. apply Hold. exact Hy0. }
    pose proof (drop_conflicting (en_state e1) es) as Hconf.
    pose proof (take_drop (rs_first_conflicting (en_state e1) es) es) as Htd.
    destruct (drop (rs_first_conflicting (en_state e1) es) es) as [|x r] eqn:Hd.
    - destruct (some_io_leb _ _).
      + exists A, D. split; [apply drun_same; reflexivity|]. split; [exact HA1|]. eauto.
      + exists A, D. split; [|split; [exact HA1|eauto]].
        apply (drun_one A D e (UpdateIOProgress (match io_accepted (rs_io (en_state e)) with Some i => Some (IOFlushed i) | None => None end) (IOLog v lst))); [reflexivity|].
        cbn [dok]. rewrite Hvl. intros Hf. rewrite I2, F2. exists lst. split; [reflexivity|]. split; [exact F3|]. split; [exact Htip|].
        destruct A as [|a0 A]; [left; reflexivity|right]. unfold AI in HA. rewrite F2 in HA.
        destruct (HA Hf a0) as (y0 & Hy0 & _); [apply elem_of_cons; auto|]. exists y0. rewrite Hy0. split; [reflexivity|].
        split. { unfold acc_ok in I3. rewrite Hy0 in I3. apply I3. exact F4. }
        intros a Ha. destruct (HA Hf a Ha) as (y1 & Hy1 & Hp1). rewrite Hy0 in Hy1. injection Hy1 as <-. exact Hp1.
    - assert (Hxr : eid (x :: r) = lst).
      { subst lst. rewrite <- Htd, es_last_app. unfold eid, es_last. destruct (last (x :: r)) eqn:Hl; [reflexivity|]. apply last_None in Hl. discriminate. }
      pose proof Hch as Hch0. rewrite <- Htd in Hch0. apply chain_app in Hch0 as [Hcha Hchb].
      assert (Hxt : pfx H (Some (e_log_id x)) (tip (v_leader v))).
      { eapply pfx_trans; [|exact Htip]. subst lst. rewrite <- Htd, es_last_app, es_last_cons.
        destruct Hchb as [_ Hchb]. apply chain_pfx in Hchb. exact Hchb. }
      destruct (truncate_drun (e_index x) D e1 A) as (D2 & R2).
      + rewrite V1. exact Hvl.
      + exact C1.
      + rewrite Hvl. intros z Hz1 Hz2. apply (lacks_id E HE D (en_state e1) (e_log_id x) z (tip (v_leader v))); auto.
      + set (e2 := fh_truncate (e_index x) e1) in *.
        exists (anext A (AppendInputEntries v (x :: r))), (dapply D2 (AppendInputEntries v (x :: r))).
        assert (Hv2 : dvote D2 = dvote D).
        { destruct R2 as (cs & Ho & -> & _). unfold e2 in Ho. rewrite fh_truncate_eq in Ho. rewrite dapply_fold.
          destruct (rs_get_log_id (en_state e1) (e_index x)); cbn in Ho.
          - apply app_inv_head in Ho as <-. reflexivity.
          - rewrite <- (app_nil_r (en_out e)) in Ho at 1. apply app_inv_head in Ho as <-. reflexivity. }
        assert (Hst : rs_v (en_state (fh_do_append v (x :: r) e2)) = v /\ rs_io (en_state (fh_do_append v (x :: r) e2)) = rs_io (en_state e1)).
        { destruct (do_append_rest v (x :: r) e2) as [Q1 Q2]. destruct (truncate_rest (e_index x) e1) as [Q3 Q4].
          rewrite Q1, Q2. unfold e2. rewrite Q3, Q4. auto. }
        destruct Hst as [Hsv Hsio]. split; [|split].
        * eapply drun_trans; [apply (drun_same A D e e1); reflexivity|]. eapply drun_trans; [exact R2|].
          apply drun_one; [rewrite fh_do_append_eq; reflexivity|]. cbn [dok]. intros _.
          rewrite Hxr. unfold vl. rewrite Hv2. fold (vl D). rewrite Hvl, I2, F2. split; [|exact Htip].
          unfold into_committed. destruct v; cbn in F3 |- *. subst. reflexivity.
        * intros Hf a Ha. rewrite Hsv, Hsio in *. exists y. split; [exact Hy|]. cbn [anext] in Ha. apply elem_of_cons in Ha as [->|Ha].
          -- rewrite Hxr. exact Hly.
          -- unfold AI in HA1. rewrite V1 in HA1. destruct (HA1 Hf a Ha) as (y1 & Hy1 & Hp1). rewrite Hy in Hy1. injection Hy1 as <-. exact Hp1.
        * exists y. rewrite Hsio. auto.
  Qed.
  Definition idle_cmd (c : Command) : Prop :=
    match c with
    | SaveCommitted _ | CmdApply _ _ | BuildSnapshot | ReplicateCommitted _ => True
    | Respond _ (RAppend ASuccess) _ => False
    | Respond _ _ _ => True
    | _ => False
    end.
  Lemma idle_dwalk cs : forall D A, (forall c, c ∈ cs -> idle_cmd c) -> dwalk E me Rq D A cs /\ foldl anext A cs = A.
  Proof.
    induction cs as [|c r IH]; intros D A Hc; cbn [dwalk foldl]; [auto|].
    assert (Hi : idle_cmd c) by (apply Hc, elem_of_cons; auto).
    assert (Ha : anext A c = A) by (destruct c; try reflexivity; contradiction). rewrite Ha.
    destruct (IH (dapply D c) A) as [I1 I2]; [intros c' Hc'; apply Hc, elem_of_cons; auto|].
    split; [split; [|exact I1]|exact I2]. destruct c; try exact Logic.I; try contradiction. destruct resp as [|[]| |]; try exact Logic.I. contradiction.
  Qed.
  Lemma fh_commit_out lc e : exists cs, en_out (fh_commit lc e) = en_out e ++ cs /\ forall c, c ∈ cs -> idle_cmd c.
  Proof.
    assert (Hnil : exists cs, en_out e = en_out e ++ cs /\ forall c, c ∈ cs -> idle_cmd c).
    { exists []. rewrite app_nil_r. split; [reflexivity|]. intros c Hc. apply elem_of_nil in Hc as []. }
    unfold fh_commit, rs_update_committed. destruct (ologid_ltb _ _); [|exact Hnil].
    destruct (ologid_min _ _) as [c|]; [|exact Hnil]. clear Hnil. set (e1 := push_all _ _).
    assert (Ho : exists pv, en_out e1 = en_out e ++ [SaveCommitted c; CmdApply pv c]) by (eexists; reflexivity).
    destruct Ho as [pv Ho]. destruct (should_snapshot _ _); [unfold sh_trigger; destruct (io_building _)|].
    - exists [SaveCommitted c; CmdApply pv c]. split; [exact Ho|]. intros c0 Hc. inl Hc; subst; exact Logic.I.
    - exists ([SaveCommitted c; CmdApply pv c] ++ [BuildSnapshot]). cbn [push en_out upd]. rewrite Ho, <- app_assoc. split; [reflexivity|].
      intros c0 Hc. cbn [app] in Hc. inl Hc; subst; exact Logic.I.
    - exists [SaveCommitted c; CmdApply pv c]. split; [exact Ho|]. intros c0 Hc. inl Hc; subst; exact Logic.I.
  Qed.
  Lemma commit_drun lc D e A : AI A e -> exists D', drun A D e A D' (fh_commit lc e) /\ AI A (fh_commit lc e).
  Proof.
    intros HA. destruct (fh_commit_out lc e) as (cs & Ho & Hc). destruct (idle_dwalk cs D A Hc) as [W1 W2].
    exists (foldl dapply D cs). split; [exists cs; auto|].
    destruct (commit_rest lc e) as (V & _ & _ & Ac). unfold AI. rewrite V, Ac. exact HA.
  Qed.
  Lemma append_dur now v prev es lc tx n n' outs A :
    node_step now (EMsg (MAppend v prev es lc tx)) n = Ok (n', outs) -> event_fits E n (EMsg (MAppend v prev es lc tx)) -> node_inv E me n ->
    Rq tx v (es_last prev es) -> AI A (nd_eng n) ->
    exists A' D', drun A (planned n) (nd_eng n) A' D' (nd_eng n') /\ AI A' (nd_eng n').
  Proof using HE.
    intros Hs Hf HN HR HA. pose proof (node_ei E me n HN) as I. pose proof (node_id E me n HN) as Hid.
    cbn [node_step] in Hs. unfold when_idle in Hs. destruct (runnable n).
    { injection Hs as <- _. exists A, (planned n). split; [apply drun_same; reflexivity|exact HA]. }
    cbn [handle_msg] in Hs. unfold lift in Hs. rok Hs. injection Hs as <- _. cbn [nd_eng nd_set_eng].
    unfold core_append in Hx. rok Hx. injection Hx as <-. unfold en_append_entries in Hx0. rok Hx0.
    destruct Hf as ((F1 & F2 & F3) & F4 & F5 & F6 & F7). rewrite Hid in F2.
    unfold en_append in Hx. rok Hx.
    destruct (update_vote_foreign E me HE now v _ _ x1 I F2 Hx1) as (D1 & (R1 & I1 & L1 & _ & Hco & _) & Hok1).
    destruct (vote_drun now v _ _ x1 D1 A I HA Hx1 R1 I1) as (A1 & DR1 & HA1).
    destruct x1 as [e1 ok]. cbn [fst snd] in *.
    assert (Hrej : forall rr D2 e2, rr <> ASuccess -> drun A1 D1 e1 A1 D2 e2 -> AI A1 e2 -> x0 = (push (Respond None (RAppend rr) tx) e2, false) ->
      exists A' D', drun A (planned n) (nd_eng n) A' D' (if x0.2 then en_commit_entries lc x0.1 else x0.1) /\ AI A' (if x0.2 then en_commit_entries lc x0.1 else x0.1)).
    { intros rr D2 e2 Hrr DR2 HA2 ->. cbn [fst snd]. exists A1, D2. split; [|exact HA2].
      eapply drun_trans; [exact DR1|]. eapply drun_trans; [exact DR2|]. apply (drun_one A1 D2 e2 (Respond None (RAppend rr) tx)); [reflexivity|].
      destruct rr; try exact Logic.I. congruence. }
    destruct ok; cbn [negb] in Hx.
    2:{ injection Hx as <-. injection Hx0 as <-. eapply Hrej; [| |exact HA1|reflexivity]; [discriminate|apply drun_same; reflexivity]. }
    destruct (Hok1 eq_refl) as (V1 & Hge & Hl1 & Hc1). clear Hok1.
    assert (Fo : following E me D1 e1 v).
    { constructor; auto. rewrite Hco. apply F3. exact Hge. }
    assert (Hprevt : pfx H prev (tip (v_leader v))) by (eapply pfx_trans; [apply chain_pfx; exact F4|exact F6]).
    assert (Hv : fh_vote e1 = v).
    { unfold fh_vote. rewrite V1. destruct v; cbn in F1; subst; reflexivity. }
    assert (Hdv : dvote D1 = v) by (rewrite (ei_vote _ _ _ _ I1); exact V1).
    rewrite Hv in Hx. unfold fh_ensure_consecutive in Hx.
    assert (Happ : pfx H prev (dlast D1) -> x = (fh_append_entries v prev es e1, ASuccess) ->
      exists A' D', drun A (planned n) (nd_eng n) A' D' (if x0.2 then en_commit_entries lc x0.1 else x0.1) /\ AI A' (if x0.2 then en_commit_entries lc x0.1 else x0.1)).
    { intros Hp ->. cbn [fst snd] in Hx0.
      destruct (append_drun prev es D1 e1 v A1 Fo HA1 F5 F4 F6 Hp) as (A2 & D2 & DR2 & HA2 & y & Hy & Hy1 & Hy2).
      destruct (EngLogProofs.append_follow E me HE prev es D1 e1 v Fo F5 F4 F6 Hp) as (D2' & R2 & Fo2 & _).
      pose proof (drun_disk _ _ _ _ _ _ _ DR2 R2) as HD2. subst D2'. rewrite Hy in Hx0. injection Hx0 as <-. cbn [fst snd].
      pose proof (ei_vote _ _ _ _ (fo_ei _ _ _ _ _ Fo2)) as Hv2. rewrite (fo_v _ _ _ _ _ Fo2) in Hv2.
      set (e2 := fh_append_entries v prev es e1) in *. set (e3 := push (Respond (Some (IOFlushed (IOLog v y))) (RAppend ASuccess) tx) e2).
      destruct (commit_drun lc D2 e3 A2) as (D3 & DR3 & HA3); [exact HA2|]. exists A2, D3. split; [|exact HA3].
      eapply drun_trans; [exact DR1|]. eapply drun_trans; [exact DR2|]. eapply drun_trans; [|exact DR3].
      apply (drun_one A2 D2 e2 (Respond (Some (IOFlushed (IOLog v y))) (RAppend ASuccess) tx)); [reflexivity|].
      cbn [dok]. unfold vl. rewrite Hv2. exists (es_last prev es), y. auto. }
    destruct prev as [p|].
    - destruct (rs_has_log_id (en_state e1) p) eqn:Hh.
      + injection Hx as <-. apply Happ; [|reflexivity].
        eapply has_id with (t := tip (v_leader v)); [exact HE|apply I1|exact Hprevt|apply Fo|exact Hh].
      + injection Hx as <-. cbn [fst snd] in Hx0. injection Hx0 as <-.
        destruct (truncate_drun (lid_index p) D1 e1 A1) as (D2 & DR2).
        * rewrite V1. unfold vl. rewrite Hdv. reflexivity.
        * apply I1.
        * unfold vl. rewrite Hdv. intros z Hz1 Hz2. eapply lacks_id; [exact HE|apply I1|exact Hprevt|exact Hh|exact Hz1|exact Hz2].
        * eapply Hrej; [|exact DR2| |reflexivity]; [discriminate|].
          destruct (truncate_rest (lid_index p) e1) as [Q1 Q2]. unfold AI. rewrite Q1, Q2. exact HA1.
    - injection Hx as <-. apply Happ; [|reflexivity]. eapply ec_root. apply I1.
  Qed.
  (** every step but install-snapshot *)
  Theorem step_dur now ev n n' outs A : ev <> ERun -> node_step now ev n = Ok (n', outs) -> event_fits E n ev ->
    own_fits E (nd_id n) (rs_last (nd_state n)) (step_produced ev n n') -> node_inv E me n -> node_inv E me n' ->
    match ev with EMsg (MSnapshot _ _ _) => False | EMsg (MAppend v prev es _ tx) => Rq tx v (es_last prev es) | _ => True end ->
    AI A (nd_eng n) ->
    dwalk E me Rq (planned n) A (step_produced ev n n') /\ AI (foldl anext A (step_produced ev n n')) (nd_eng n').
  Proof using HE.
    intros He Hs Hf Hown HN HN' Hm HA. destruct (is_follow_msg ev) eqn:Hfm.
    - destruct ev as [|m| | | | | | | | | | | |]; try discriminate. destruct m; try discriminate; [|contradiction].
      destruct (append_dur _ _ _ _ _ _ _ _ _ A Hs Hf HN Hm HA) as (A' & D' & (cs & Ho & _ & -> & Hd) & HA').
      rewrite (produced_app (EMsg _) _ _ _ He Ho). auto.
    - pose proof (step_walk E me HE now ev n (n', outs) Hs Hf Hown HN) as Hw. cbn [fst] in Hw.
      destruct (harmless_walk _ _ _ A (node_pos E me HE n HN) Logic.I Hw (step_harmless _ _ _ _ _ Hs HN Hfm)) as [Hd HA']. cbn [w_d] in *.
      split; [exact Hd|]. intros Hfg a Ha.
      pose proof (ei_vote _ _ _ _ (node_ei E me n HN)) as Hv0. pose proof (ei_vote _ _ _ _ (node_ei E me n' HN')) as Hv1.
      unfold vl in HA'. rewrite Hv1 in HA'. destruct (HA' Hfg) as [Hn|[HeA Hv]]; [rewrite Hn in Ha; apply elem_of_nil in Ha as []|].
      rewrite HeA in Ha. rewrite Hv0 in Hv. change (rs_v (nd_state n') = rs_v (nd_state n)) in Hv.
      unfold nd_state in Hv. rewrite Hv in Hfg |- *. pose proof (step_acc _ _ _ _ _ Hs HN He Hfm Hv Hfg) as Hacc. unfold nd_state in Hacc. rewrite Hacc.
      apply HA; assumption.
  Qed.
End durstep.
