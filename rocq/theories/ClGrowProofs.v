(** One step of a node of a cluster: the record of the run grows so that the node's new
    vote and log agree with it. *)
From Coq Require Import Bool Lia ZifyBool ZifyNat.
From stdpp Require Import base numbers option gmap relations list.
From Verif Require Import Types TypesProofs LogIdList Quorum QuorumSpec Membership Progress RaftState ProgressEntry Engine Store RaftCore
  EnginePrims NodeSpec NodePrims VoteNodeProofs ElectProofs KindProofs LogSpec LogProofs EngLogProofs WalkProofs NodeLogProofs
  StepLogProofs LogPropSpec RoleSpec RoleProofs LogStateProofs LeadProofs OwnProofs ProtoProofs ClusterSpec ClNodeProofs ClLogProofs
  ClVoteProofs ClCoreProofs ClStepProofs.
Import NodeSpec.

Lemma pfx_dec H z : pfx H None z -> forall a, pfx H a z \/ ~ pfx H a z.
Proof.
  intros Hz. remember None as o eqn:Ho. induction Hz as [x|o y p pl Hy Hp IH]; intros a; subst.
  - destruct a as [a|]; [right|left; constructor]. intros Ha. apply pfx_none_inv in Ha. discriminate.
  - destruct (decide (a = Some y)) as [->|Hne]; [left; constructor|]. destruct (IH eq_refl a) as [Ha|Ha]; [left; econstructor; eauto|right].
    intros Hc. inversion Hc as [|a' y' p' pl' Hy' Hp']; subst; [congruence|]. apply Ha. congruence.
Qed.

Lemma prims_keep_leader ks e e' : prims ks e e' -> KFollow ∉ ks -> isS (en_leader e) = true -> isS (en_leader e') = true.
Proof.
  intros Hp Hk. revert e e' Hp. apply (prims_ind_rel ks (fun e e' => isS (en_leader e) = true -> isS (en_leader e') = true)); auto.
  intros k a b Hin Hp Ha. destruct (k_changes_leader k) eqn:Hkl; [|rewrite (prim_leader_same _ _ _ Hp Hkl); exact Ha].
  destruct Hp; try discriminate; try reflexivity; [contradiction|]. rewrite leader_appended_eq. reflexivity.
Qed.
(** a leader that commits still leads *)
Lemma step_commit_leads now ev n n' outs : node_step now ev n = Ok (n', outs) -> is_follow_msg ev = false ->
  rs_committed (nd_state n') = rs_committed (nd_state n) \/ (isS (en_leader (nd_eng n)) = true -> isS (en_leader (nd_eng n')) = true).
Proof.
  intros Hs Hf. pose proof (node_step_kinds _ _ _ _ Hs) as Hp. cbn [fst] in Hp.
  destruct ev as [|m| | | | | | | | | | | |]; cbn [event_kinds] in *; try (left; exact (prims_committed _ _ _ Hp eq_refl)).
  - destruct m; try discriminate Hf; try (left; exact (prims_committed _ _ _ Hp eq_refl)).
  - destruct (nd_notes n) as [|y r]; [left; exact (prims_committed _ _ _ Hp eq_refl)|].
    destruct y as [| | | | |[]]; try (left; exact (prims_committed _ _ _ Hp eq_refl)); right; eapply prims_keep_leader; try exact Hp; notin.
Qed.
Lemma progress_leads now n n' outs ss t m : node_step now ENote n = Ok (n', outs) -> hd_error (nd_notes n) = Some (NReplProgress ss t m) ->
  leads_commit (nd_eng n) (nd_eng n').
Proof.
  intros Hs Hn. pose proof (node_step_kinds _ _ _ _ Hs) as Hp. cbn [fst event_kinds] in Hp. destruct (nd_notes n) as [|y r]; [discriminate|].
  injection Hn as ->. eapply prims_leads_commit; eauto.
Qed.

Lemma vle_antisym a b : vote_le a b -> vote_le b a -> a = b.
Proof.
  intros H1 H2. vord. apply vote_eq_iff. destruct (v_committed a), (v_committed b); try (split; [lia|split; [lia|reflexivity]]);
  exfalso; destruct H1 as [?|[? [?|[? [?|?]]]]], H2 as [?|[? [?|[? [?|?]]]]]; try lia; discriminate.
Qed.
Lemma vle_min v : vote_le vote_default v.
Proof. vord. destruct (v_leader v) as [[|t] [|k]]; cbn; auto; lia. Qed.

Lemma ev_vote_dec ev : (exists req tx, ev = EMsg (MVote req tx)) \/ (forall req tx, ev <> EMsg (MVote req tx)).
Proof. destruct ev as [|m| | | | | | | | | | | |]; try (right; discriminate). destruct m; try (right; discriminate). left. eauto. Qed.
Lemma log_event_cases ev : log_event ev = true ->
  (exists v prev es lc tx, ev = EMsg (MAppend v prev es lc tx)) \/ (exists v sn tx, ev = EMsg (MSnapshot v sn tx)) \/ (exists ms tx, ev = EMsg (MInitialize ms tx)).
Proof. destruct ev as [|m| | | | | | | | | | | |]; try discriminate. destruct m; try discriminate; intros _; eauto 10. Qed.

Section grow.
  Context (m0 : gmap nat nat) (cfg : EngineConfig).
  Notation V := (dom m0).
  Notation i := (ec_id cfg).

  Record ncore (w : World) (n : Node) : Prop := {
    nc_core : core w i (rs_v (nd_state n)) (rs_committed (nd_state n)) (rs_last (nd_state n));
    nc_fits : fits_reachable (wd_env w) cfg n;
    nc_match : forall l, en_leader (nd_eng n) = Some l -> forall t m, (t, m) ∈ matched l -> m = None \/ ackc w t (v_leader (ld_vote l)) m;
  }.
  (** what is known of an event when it reaches the node *)
  Definition ev_ok (w : World) (n : Node) (ev : Event) : Prop :=
    (forall v, v ∈ carried_votes ev n -> VK w v) /\
    match ev with
    | EMsg (MAppend v prev es lc tx) =>
        v_committed v = true /\ wd_elec w (v_leader v) /\ li_node (v_leader v) <> nd_id n /\ chain (wh w) prev es /\
        pfx (wh w) None prev /\ pfx (wh w) (es_last prev es) (wtip w (v_leader v)) /\ CO w lc v
    | EMsg (MVote req _) => v_committed (vq_vote req) = false /\ wd_cand w (v_leader (vq_vote req)) /\ li_node (v_leader (vq_vote req)) <> nd_id n
    | EMsg (MTransfer req) => li_node (v_leader (tq_from req)) <> nd_id n
    | EMsg (MSnapshot _ _ _) => False
    | EMsg (MInitialize ms _) => ms = m0
    | EMsg MElect => en_leader (nd_eng n) = None
    | EReply _ r => Forall (own_vote_known n) (resp_votes r)
    | ENote => match hd_error (nd_notes n) with
               | Some (NReplProgress ss t (RRMatching m)) => m = None \/ ackc w t (v_leader (ss_vote ss)) m
               | _ => True
               end
    | _ => True
    end.
  (** a candidate that a last grant makes a leader has the grants of a quorum *)
  Definition wins_ok (w : World) (n : Node) (ev : Event) : Prop :=
    forall t resp sv c c', note_taken ev n = Some (NVoteResp t resp sv) -> en_cand (nd_eng n) = Some c ->
      vr_granted resp = true -> vr_vote resp = cd_vote c -> cand_grant c t = Ok (c', true) ->
      wd_cand w (v_leader (cd_vote c)) /\ exists G, quorum [V] G /\ forall j, j ∈ G -> exists g, wd_grant w j (v_leader (cd_vote c)) g /\
        ologid_leb g (wd_init w (v_leader (cd_vote c))) = true.
  Definition first_ok (w : World) : Prop :=
    wh w first_id = None \/ wh w first_id = Some (None, PMembership (mkMembership [V] m0)).

  Lemma wle_env j w w' : wle j w w' -> env_le (wd_env w) (wd_env w').
  Proof. intros Hl. split; apply Hl. Qed.
  Lemma ncore_still j w w' n : world_ok [V] w -> wle j w w' -> still i w w' -> ncore w n -> ncore w' n.
  Proof.
    intros W Hl S C. constructor.
    - eapply core_still; eauto. apply C.
    - eapply fits_reachable_mono; [eapply wle_env; eauto|apply C].
    - intros l Hle t m Hin. destruct (nc_match _ _ C l Hle t m Hin) as [Hm|Hm]; [auto|right; eapply wle_ackc; eauto].
  Qed.
  Lemma ev_ok_mono j w w' n ev : wle j w w' -> ev_ok w n ev -> ev_ok w' n ev.
  Proof.
    intros Hl [H1 H2]. split; [intros v Hv; eapply VK_mono; [exact Hl|auto]|].
    destruct ev as [|m| | | | | | | | | | | |]; auto; [destruct m; auto|].
    - destruct H2 as (A & B & C & D & E & F & G). split; [exact A|]. split; [apply Hl, B|]. split; [exact C|]. split; [eapply chain_mono; [apply Hl|exact D]|].
      split; [eapply wle_pfx; eauto|]. split; [|eapply CO_mono; eauto]. eapply pfx_trans; [eapply wle_pfx; eauto|apply Hl].
    - destruct H2 as (A & B & C). split; [exact A|]. split; [apply Hl, B|exact C].
    - destruct (hd_error (nd_notes n)) as [[| | |ss t [m| |]| |]|]; auto. destruct H2 as [H2|H2]; [auto|right; eapply wle_ackc; eauto].
  Qed.

  Context (w : World) (W : world_ok [V] w) (now : nat) (ev : Event) (n n' : Node) (outs : list Out)
    (C : ncore w n) (Hs : node_step now ev n = Ok (n', outs)) (Hev : ev_ok w n ev).
  Let HE : env_ok (wd_env w) := wk_env _ _ W.
  Lemma g_id : nd_id n = i.
  Proof using W C. apply (node_id (wd_env w)), (reach_inv (wd_env w) cfg HE), C. Qed.
  Lemma qs_ne : [V] <> [].
  Proof. discriminate. Qed.

  Lemma grow_fits : (forall ms tx, ev = EMsg (MInitialize ms tx) -> rs_is_initialized (nd_state n) = false ->
      wh w first_id = Some (None, PMembership (mkMembership [V] m0))) -> event_fits (wd_env w) n ev.
  Proof using W C Hs Hev.
    intros Hi. destruct Hev as [_ H]. destruct ev as [|m| | | | | | | | | | | |]; cbn; auto. destruct m; cbn; auto.
    - destruct H as (H1 & H2 & H3 & H4 & H5 & H6 & H7). split; [|split; [exact H4|split; [exact H5|split; [exact H6|]]]].
      + split; [exact H1|]. split; [exact H3|]. intros Hv. eapply (CO_tip [V] w _ _ qs_ne W); [|exact H2]. eapply CO_vote; [exact Hv|]. apply (c_com _ _ _ _ _ (nc_core _ _ C)).
      + eapply (CO_tip [V] w _ _ qs_ne W); eauto.
    - intros Hc. exfalso. apply H. exact Hc.
    - destruct H.
    - intros Hni. rewrite H. exact (Hi _ _ eq_refl Hni).
  Qed.

  (** the positions the leader has recorded *)
  Lemma grow_match w1 : world_ok [V] w1 -> wle i w w1 -> fits_step (wd_env w1) cfg now ev n n' outs ->
    (forall L, li_node L = i -> rs_v (nd_state n') = mkVote L true -> wd_ack w1 i L (rs_last (nd_state n'))) ->
    forall l, en_leader (nd_eng n') = Some l -> forall t m, (t, m) ∈ matched l -> m = None \/ ackc w1 t (v_leader (ld_vote l)) m.
  Proof using W C Hs Hev.
    intros W1 Hl Hst Hlead l Hle t m Hin. destruct (step_inv (wd_env w1) cfg (wk_env _ _ W1) _ _ _ _ _ Hst) as [HN HN'].
    pose proof (node_ei _ _ _ HN) as I. pose proof (node_ei _ _ _ HN') as I'. pose proof g_id as Hid.
    destruct (ei_el _ _ _ _ I' l Hle) as (E1 & E2 & E3 & _ & E5 & _).
    assert (Hme : forall m, (i, m) ∈ matched l -> ackc w1 i (v_leader (ld_vote l)) m).
    { intros m1 Hin1. exists (rs_last (nd_state n')). split.
      - apply Hlead; [exact E3|]. unfold nd_state. rewrite <- E1. destruct (ld_vote l) as [L c]. cbn in *. rewrite E2. reflexivity.
      - rewrite (ec_last _ _ _ (node_ec _ _ _ HN')). exact (E5 _ Hin1). }
    destruct (step_matched _ _ _ _ _ Hs) as (X & HX & HXs); [intros c Hc; apply (ei_cl _ _ _ _ I c Hc)|].
    destruct (HX l Hle (t, m) Hin) as [Hm|[Hm|(l0 & Hl0 & Hv & Hin0)]].
    - left. exact Hm.
    - destruct (HXs t m Hm) as [->|(ss & l0 & -> & Hn & Hl0 & Hss)]; [right; rewrite Hid in Hin |- *; apply Hme; exact Hin|].
      destruct (progress_leads _ _ _ _ _ _ _ Hs Hn) as (_ & HL & _). destruct (HL l Hle) as (l1 & Hl1 & Hv1). replace l1 with l0 in * by congruence.
      destruct Hev as [_ He]. cbn in He. rewrite Hn in He. rewrite Hv1, <- Hss. destruct He as [He|He]; [auto|right; eapply wle_ackc; eauto].
    - cbn in Hv. rewrite <- Hv. destruct (nc_match _ _ C l0 Hl0 t m Hin0) as [Hm|Hm]; [auto|right; eapply wle_ackc; eauto].
  Qed.
  (** a leader that commits *)
  Lemma grow_commit w1 : world_ok [V] w1 -> wle i w w1 -> fits_step (wd_env w1) cfg now ev n n' outs -> is_follow_msg ev = false ->
    counted V n n' -> core w1 i (rs_v (nd_state n')) (rs_committed (nd_state n)) (rs_last (nd_state n')) ->
    exists w2, world_ok [V] w2 /\ wle i w1 w2 /\ wh w2 = wh w1 /\ wd_env w2 = wd_env w1 /\
      (forall j L g, wd_grant w2 j L g <-> wd_grant w1 j L g) /\
      core w2 i (rs_v (nd_state n')) (rs_committed (nd_state n')) (rs_last (nd_state n')).
  Proof using W C Hs Hev.
    intros W1 Hl Hst Hfm Hct HC. destruct (step_inv (wd_env w1) cfg (wk_env _ _ W1) _ _ _ _ _ Hst) as [HN HN'].
    pose proof (node_ei _ _ _ HN) as I. pose proof (node_ei _ _ _ HN') as I'.
    destruct (step_leads_commit _ _ _ _ _ Hs Hfm) as [Hc|(Hv & Hll & l & c & Hle & Hc & Hlc & Hlt)].
    { exists w1. rewrite Hc. split; [exact W1|]. split; [apply wle_refl|]. split; [reflexivity|]. split; [reflexivity|]. split; [intros; reflexivity|exact HC]. }
    destruct (step_commit_leads _ _ _ _ _ Hs Hfm) as [Hc'|Hle'].
    { exists w1. rewrite Hc'. split; [exact W1|]. split; [apply wle_refl|]. split; [reflexivity|]. split; [reflexivity|]. split; [intros; reflexivity|exact HC]. }
    rewrite Hle in Hle'. specialize (Hle' eq_refl). destruct (en_leader (nd_eng n')) as [l'|] eqn:Hl'; [|discriminate].
    destruct (ei_el _ _ _ _ I' l' Hl') as (E1 & E2 & E3 & _).
    destruct (rs_v (nd_state n')) as [L b] eqn:Hrv. pose proof E1 as E1'. change (en_state (nd_eng n')) with (nd_state n') in E1'. rewrite Hrv in E1'. rewrite E1' in E2, E3. cbn in E2, E3. subst b.
    assert (HcL : lid_leader c = L) by (rewrite <- Hv in Hlc; exact Hlc).
    pose proof (ec_last' _ _ _ (node_ec _ _ _ HN')) as Hcl. rewrite <- (ec_last _ _ _ (node_ec _ _ _ HN')) in Hcl. rewrite Hc in Hcl.
    destruct (Hct l' Hl') as (A & QA & HA).
    { rewrite Hc. intros Heq. rewrite <- Heq, ologid_ltb_SS, logid_ltb_irrefl in Hlt. discriminate. }
    assert (HA' : forall j, j ∈ A -> ackc w1 j L (Some c)).
    { intros j Hj. destruct (HA j Hj) as (m & (e & Hin & <-) & Hm). rewrite Hc in Hm.
      assert (Hmt : (j, pe_matching e) ∈ matched l') by (unfold matched; apply elem_of_list_fmap; exists (j, e); auto).
      destruct (grow_match w1 W1 Hl Hst) with (l := l') (t := j) (m := pe_matching e) as [Hn|(x & Hx & Hp)]; auto.
      - intros M HM HvM. rewrite Hrv in HvM. apply (c_lead _ _ _ _ _ HC M HM HvM).
      - rewrite Hn in Hm. discriminate.
      - rewrite E1' in Hx. cbn in Hx. exists x. split; [exact Hx|]. destruct (wk_ack _ _ W1 _ _ _ Hx) as [_ Hxt].
        destruct (c_lead _ _ _ _ _ HC L E3 eq_refl) as [Htip _]. rewrite Htip in Hxt.
        eapply pfx_trans; [|exact Hp]. eapply (pfx_of_leb _ (proj1 (wk_env _ _ W1))); [exact Hcl| |exact Hm]. eapply pfx_trans; eauto. }
    destruct (core_commit [V] w1 W1 i L _ _ c A HC E3 HcL Hcl QA HA' (ologid_ltb_leb _ _ Hlt)) as (W2 & Hl2 & C2).
    exists (ext_com L c w1). rewrite Hc. split; [exact W2|]. split; [exact Hl2|]. split; [reflexivity|]. split; [reflexivity|]. split; [intros; reflexivity|exact C2].
  Qed.

  Definition gained (w1 : World) : Prop :=
    match ev with
    | EMsg (MAppend v prev es lc tx) => answers_success ev n n' tx -> ackc w1 i (v_leader v) (es_last prev es)
    | EMsg (MVote req tx) => rs_v (nd_state n') = vq_vote req -> wd_grant w1 i (v_leader (vq_vote req)) (rs_last (nd_state n))
    | _ => True
    end.
  Record grown (w1 : World) : Prop := {
    gr_ok : world_ok [V] w1;
    gr_le : wle i w w1;
    gr_first : wh w1 first_id = wh w first_id;
    gr_fits : fits_step (wd_env w1) cfg now ev n n' outs;
    gr_core : core w1 i (rs_v (nd_state n')) (if is_follow_msg ev then rs_committed (nd_state n') else rs_committed (nd_state n)) (rs_last (nd_state n'));
    gr_gain : gained w1;
  }.
  Let Hid := g_id.
  Context (Hf : event_fits (wd_env w) n ev).
  Lemma g_ei : ei (wd_env w) i (planned n) (nd_eng n).
  Proof using W C. apply node_ei, (reach_inv (wd_env w) cfg HE), C. Qed.
  Lemma g_last : rs_last (nd_state n) = dlast (planned n).
  Proof using W C. apply (ec_last _ _ _ (node_ec _ _ _ (reach_inv (wd_env w) cfg HE _ (nc_fits _ _ C)))). Qed.
  Lemma g_lead : oleader_le (rs_last (nd_state n)) (v_leader (rs_v (nd_state n))).
  Proof using W C. rewrite g_last. apply (ec_lead _ _ _ (ei_ec _ _ _ _ g_ei)). Qed.
  Lemma g_root : pfx (wh w) None (rs_last (nd_state n)).
  Proof using W C.
    rewrite g_last. apply (log_ok_root _), (ec_log _ _ _ (ei_ec _ _ _ _ g_ei)).
  Qed.
  Lemma g_own : own_case ev n n' (proposals (nd_id n) (step_produced ev n n')).
  Proof using W C Hs Hf.
    eapply (own_step (wd_env w) i); eauto; [apply (reach_inv (wd_env w) cfg HE), C|apply (reach_RI (wd_env w) cfg HE), C].
  Qed.
  Lemma g_step w1 : wle i w w1 -> own_fits (wd_env w1) (nd_id n) (rs_last (nd_state n)) (step_produced ev n n') -> fits_step (wd_env w1) cfg now ev n n' outs.
  Proof using C Hs Hf.
    intros Hl Ho. split; [eapply fits_reachable_mono; [eapply wle_env; eauto|apply C]|]. split; [exact Hs|]. split; [|exact Ho].
    eapply event_fits_mono; [eapply wle_env; eauto|exact Hf].
  Qed.

  (** requests of a leader *)
  Lemma grow_append v prev es lc tx : ev = EMsg (MAppend v prev es lc tx) -> exists w1, grown w1.
  Proof using W C Hs Hev Hf.
    intros He. pose proof g_own as Ho. assert (Hst : fits_step (wd_env w) cfg now ev n n' outs).
    { apply g_step; [apply wle_refl|]. destruct Ho as [[Hp _]|[(p & _ & _ & _ & _ & _ & [(_ & _ & [(d & x & -> & _)|(a & b & c & d & -> & _)])|(_ & _ & -> & _)])|(ms & x & -> & _)]]; try discriminate.
      apply own_fits_nil, Hp. }
    pose proof Hst as Hst'. rewrite He in Hst'. pose proof (nc_core _ _ C) as HC. destruct Hev as [_ Hok]. rewrite He in Hok. destruct Hok as (H1 & H2 & H3 & H4 & H5 & H6 & H7). rewrite g_id in H3.
    assert (Hfm : is_follow_msg ev = true) by (rewrite He; reflexivity).
    assert (Hgain : forall w1, ~ answers_success (EMsg (MAppend v prev es lc tx)) n n' tx \/ ackc w1 i (v_leader v) (es_last prev es) -> gained w1).
    { intros w1 Hg. unfold gained. rewrite He. intros Ha. destruct Hg as [Hg|Hg]; [contradiction|exact Hg]. }
    destruct (append_case (wd_env w) i HE cfg _ _ _ _ _ _ _ _ _ eq_refl Hst') as [(A1 & A2 & A3 & _ & _ & A6)|(A1 & A2 & A3 & A4 & A5)].
    { exists w. constructor; auto; [apply wle_refl|]. rewrite Hfm, A1, A2, A3. exact HC. }
    assert (Hup : ologid_leb (rs_committed (nd_state n)) (rs_committed (nd_state n')) = true).
    { apply (pfx_le _ (proj1 HE)). eapply (LogStateProofs.step_committed (wd_env w) cfg HE). exact Hst. }
    assert (HC1 : forall com', CO w com' v -> ologid_leb (rs_committed (nd_state n)) com' = true -> core w i v com' (rs_last (nd_state n'))).
    { intros com' Hcom Hcc. eapply (core_append [V] w W i); [apply pfx_dec, (wk_env _ _ W)|exact HC|exact H1|exact H2|exact A2|exact H3| |exact Hcom|exact Hcc]. exact A5. }
    assert (Hcn : CO w (rs_committed (nd_state n)) v) by (eapply CO_vote; [exact A2|apply (c_com _ _ _ _ _ HC)]).
    destruct (append_step (wd_env w) cfg HE _ _ _ _ _ _ _ _ _ Hst') as [[B1 B2]|(y & B1 & B2 & B3 & B4 & B5 & B6 & B7 & B8)].
    { exists w. constructor; auto; [apply wle_refl|]. rewrite Hfm, A1, B1. apply HC1; [exact Hcn|apply ologid_leb_refl]. }
    assert (Hcom : CO w (rs_committed (nd_state n')) v).
    { destruct B5 as [->|[-> _]]; [exact Hcn|]. pose proof (CO_tip [V] w _ _ qs_ne W H7 H2) as Hlc.
      pose proof (ei_acc _ _ _ _ (fo_ei _ _ _ _ _ B1)) as A. unfold acc_ok, nd_state in *. rewrite B3 in A. destruct A as (_ & _ & A & _). specialize (A H3).
      unfold ologid_min. destruct (ologid_leb y lc) eqn:Hle; [|exact H7]. eapply CO_down; [|exact H7].
      eapply (pfx_of_leb _ (proj1 HE)); [exact A|exact Hlc|exact Hle]. }
    destruct v as [L b]. cbn in H1. subst b. change (ls_last (planned_log n')) with (dlast (planned n')) in B7.
    rewrite <- (ec_last _ _ _ (ei_ec _ _ _ _ (fo_ei _ _ _ _ _ B1))) in B7.
    destruct (core_ack [V] w W i L _ _ (es_last prev es) (HC1 _ Hcom Hup) H2 H6 B7) as (W1 & Hl1 & C1).
    exists (ext_ack i L (es_last prev es) w). constructor; auto.
    - rewrite Hfm, A1. exact C1.
    - apply Hgain. right. exists (es_last prev es). split; [right; auto|constructor].
  Qed.
  (** initialization *)
  Lemma grow_init tx : ev = EMsg (MInitialize m0 tx) -> exists w1, grown w1.
  Proof using W C Hs Hf.
    intros He. pose proof g_own as Ho. pose proof (nc_core _ _ C) as HC. pose proof Hs as Hs0. rewrite He in Hs0.
    cbn [node_step] in Hs0. unfold when_idle in Hs0.
    assert (Hsame : en_state (nd_eng n') = en_state (nd_eng n) -> proposals (nd_id n) (step_produced ev n n') = [] -> exists w1, grown w1).
    { intros Hst Hp. exists w. constructor; auto; [apply wle_refl|apply g_step; [apply wle_refl|apply own_fits_nil, Hp]| |unfold gained; rewrite He; exact Logic.I].
      rewrite He. unfold nd_state. cbn. rewrite Hst. exact HC. }
    destruct (runnable n).
    { injection Hs0 as <- _. apply Hsame; [reflexivity|]. rewrite (produced_app ev n n []); [reflexivity|rewrite He; discriminate|rewrite app_nil_r; reflexivity]. }
    cbn [handle_msg] in Hs0. unfold lift in Hs0. rok Hs0. injection Hs0 as Hn' _.
    assert (Hcs : (rs_last (nd_state n) = None /\ rs_v (nd_state n) = vote_default /\ en_id (nd_eng n) ∈ V) \/
                  ~ (rs_last (nd_state n) = None /\ rs_v (nd_state n) = vote_default /\ en_id (nd_eng n) ∈ V)).
    { destruct (decide (rs_last (nd_state n) = None)); [|right; tauto]. destruct (decide (rs_v (nd_state n) = vote_default)); [|right; tauto].
      destruct (decide (en_id (nd_eng n) ∈ V)); [left; auto|right; tauto]. }
    destruct Hcs as [(S1 & S2 & S3)|Hrf].
    - destruct (initialize_ok _ _ _ _ _ S1 S2 S3 Hx) as (Q1 & Q2 & Q3 & _ & _ & _ & _ & Q8 & _).
      assert (Hhist : wh w lid0 = Some (None, PMembership (mkMembership [V] m0))).
      { rewrite He in Hf. apply Hf. unfold rs_is_initialized. rewrite S1, S2. reflexivity. }
      assert (Hown : own_fits (wd_env w) (nd_id n) (rs_last (nd_state n)) (step_produced ev n n')).
      { rewrite S1. destruct Ho as [[Hp _]|[(p & _ & _ & _ & _ & _ & [(_ & _ & [(d & y & E1 & _)|(a & b & c & d & E1 & _)])|(_ & _ & E1 & _)])|(ms & y & E1 & _ & _ & _ & _ & Hp)]];
          try (rewrite He in E1; discriminate E1).
        - apply own_fits_nil, Hp.
        - rewrite He in E1. injection E1 as <- _. eapply own_fits_one; [exact Hp|]. cbn. split; [exact Hhist|exact Logic.I]. }
      rewrite S1, S2 in HC. apply core_first with (x := Some lid0) in HC.
      destruct (core_elect [V] w W i _ _ _ HC) as (W1 & Hl1 & C1 & _).
      { eapply pfx_step; [exact Hhist|constructor]. }
      { reflexivity. }
      exists (ext_cand (mkLeaderId 1 i) (Some lid0) w). constructor; auto.
      + apply g_step; [exact Hl1|]. eapply own_fits_mono; [eapply wle_env; exact Hl1|exact Hown].
      + rewrite He, <- Hn'. unfold nd_state in *. cbn [is_follow_msg nd_eng nd_set_eng]. rewrite Q2, Q3. unfold vote_new.
        rewrite (ei_id _ _ _ _ g_ei). exact C1.
      + unfold gained. rewrite He. exact Logic.I.
    - destruct (initialize_refused _ _ _ _ _ Hx Hrf) as (err & Hx2 & _). apply Hsame; rewrite <- Hn'; [cbn; rewrite Hx2; reflexivity|].
      rewrite (produced_app ev n _ [Respond None (RInitialize (Some err)) tx]); [reflexivity|rewrite He; discriminate|]. cbn [nd_eng nd_set_eng]. rewrite Hx2. reflexivity.
  Qed.
  (** a leader's new entry, possibly the first after winning the election *)
  Lemma grow_lead p : proposals (nd_id n) (step_produced ev n n') =
      [(rs_v (nd_state n'), assign_ids (v_leader (rs_v (nd_state n'))) (next_index (rs_last (nd_state n))) [p])] ->
    rs_last (nd_state n') = Some (mkLogId (v_leader (rs_v (nd_state n'))) (next_index (rs_last (nd_state n)))) ->
    isS (en_leader (nd_eng n')) = true -> li_node (v_leader (rs_v (nd_state n'))) = nd_id n -> v_committed (rs_v (nd_state n')) = true ->
    is_follow_msg ev = false -> (forall req tx, ev <> EMsg (MVote req tx)) -> wins_ok w n ev ->
    (rs_v (nd_state n') = rs_v (nd_state n) \/
     (isS (en_leader (nd_eng n)) = false /\ ev = ENote /\ rs_v (nd_state n) = mkVote (v_leader (rs_v (nd_state n'))) false)) -> exists w1, grown w1.
  Proof using W C Hs Hev Hf.
    intros Hp Hlst Hl' Hown Hcm Hfm Hnv Hwin Hcase. rewrite g_id in Hown. pose proof (nc_core _ _ C) as HC.
    destruct (rs_v (nd_state n')) as [L b] eqn:Hrv. cbn in Hp, Hown, Hcm, Hlst, Hcase. subst b.
    assert (Hw0 : exists w0, world_ok [V] w0 /\ wle i w w0 /\ wh w0 = wh w /\ core w0 i (mkVote L true) (rs_committed (nd_state n)) (rs_last (nd_state n))).
    { destruct Hcase as [Hv|(Hnl & He & Hv)]; [exists w; rewrite Hv; split; [exact W|]; split; [apply wle_refl|]; split; [reflexivity|exact HC]|].
      destruct (vote_win (wd_env w) cfg HE _ _ _ _ _ L (nc_fits _ _ C) Hf Hs) as (t & resp & sv & c & c' & G1 & G2 & G3 & G4 & G5 & G6); auto; [rewrite He; discriminate| |].
      { intros Hin. destruct Hev as [Hk _]. specialize (Hk _ Hin). destruct Hk as [Hk|[_ Hk]]; [discriminate|]. specialize (Hk eq_refl). cbn in Hk.
        apply (vle_tf L). rewrite <- Hv. apply (c_own' _ _ _ _ _ HC L Hown Hk). }
      destruct (Hwin _ _ _ _ _ G1 G2 G3 ltac:(congruence) G6) as (Hc & G & QG & HG). rewrite G5 in Hc, HG. cbn in Hc, HG.
      assert (Hnd : mkVote L false <> vote_default) by (intros Hd; destruct (wk_cand _ _ W L Hc) as [Ht _]; apply Ht; injection Hd as ->; reflexivity).
      rewrite Hv in HC. destruct (core_win [V] w W i L _ _ G HC Hown Hnd QG HG) as (W1 & Hl1 & C1).
      exists (ext_ack i L (rs_last (nd_state n)) (ext_elec L w)). split; [exact W1|]. split; [exact Hl1|]. split; [reflexivity|exact C1]. }
    destruct Hw0 as (w0 & W0 & Hl0 & Hh0 & HC0). destruct (core_entry [V] w0 W0 i L _ _ p HC0 Hown) as (W1 & Hl1 & C1 & Hh & _).
    set (w1 := ext_ack _ _ _ _) in *. exists w1. constructor; auto.
    - eapply wle_trans; eauto.
    - rewrite <- Hh0. cbn. rewrite decide_False; [reflexivity|]. intros Heq. assert (He : wd_elec w0 L) by (destruct (c_v _ _ _ _ _ HC0) as [?|[_ H]]; [discriminate|apply H; reflexivity]).
      destruct (wk_elec _ _ W0 _ He) as (Hc & _). destruct (wk_cand _ _ W0 _ Hc) as [Ht _]. apply Ht. injection Heq as <- _. reflexivity.
    - apply g_step; [eapply wle_trans; eauto|]. eapply own_fits_one; [exact Hp|]. cbn. split; [exact Hh|exact Logic.I].
    - rewrite Hfm, Hrv, Hlst. exact C1.
    - unfold gained. destruct ev as [|m| | | | | | | | | | | |]; auto. destruct m; auto; [discriminate|]. destruct (Hnv _ _ eq_refl).
  Qed.
  (** any other step *)
  Lemma grow_quiet : proposals (nd_id n) (step_produced ev n n') = [] ->
    (isS (en_leader (nd_eng n')) = true -> isS (en_leader (nd_eng n)) = true) -> log_event ev = false -> exists w1, grown w1.
  Proof using W C Hs Hev Hf.
    intros Hp Hll Hle. pose proof (nc_core _ _ C) as HC.
    assert (Hst : fits_step (wd_env w) cfg now ev n n' outs) by (apply g_step; [apply wle_refl|apply own_fits_nil, Hp]).
    pose proof (step_last (wd_env w) i HE cfg _ _ _ _ _ eq_refl Hst Hle Hp) as Hlst.
    destruct (step_vote _ _ _ _ _ Hs) as [Hvle _].
    assert (Hfm : is_follow_msg ev = false) by (destruct ev as [|m| | | | | | | | | | | |]; try reflexivity; destruct m; try reflexivity; discriminate).
    assert (Hmk : forall w1, world_ok [V] w1 -> wle i w w1 -> wh w1 = wh w ->
        core w1 i (rs_v (nd_state n')) (rs_committed (nd_state n)) (rs_last (nd_state n)) -> gained w1 -> exists w1, grown w1).
    { intros w1 W1 Hl1 Hh C1 Hg. exists w1. constructor; auto.
      - rewrite Hh. reflexivity.
      - apply g_step; [exact Hl1|apply own_fits_nil, Hp].
      - rewrite Hfm, Hlst. exact C1. }
    assert (Hgen : (forall w1, gained w1) -> exists w1, grown w1).
    { intros Hg. destruct (vote_quiet (wd_env w) cfg HE _ _ _ _ _ (nc_fits _ _ C) Hf Hs Hp Hll) as [Hv|[Hv|Hv]].
      - apply (Hmk w W (wle_refl _ _) eq_refl); [rewrite Hv; exact HC|apply Hg].
      - pose proof (proj1 Hev _ Hv) as HV. destruct (decide (li_node (v_leader (rs_v (nd_state n'))) = i)) as [Ho|Ho].
        + apply (Hmk w W (wle_refl _ _) eq_refl); [|apply Hg]. replace (rs_v (nd_state n')) with (rs_v (nd_state n)); [exact HC|].
          apply vle_antisym; [exact Hvle|]. destruct HV as [->|[V1 V2]]; [apply vle_min|].
          destruct (rs_v (nd_state n')) as [L []]; [apply (c_own' _ _ _ _ _ HC L Ho), V2; reflexivity|apply (c_own _ _ _ _ _ HC L Ho), V1].
        + apply (Hmk w W (wle_refl _ _) eq_refl); [|apply Hg]. eapply core_vote; [exact HC|exact HV|exact Hvle|exact Ho].
      - destruct (core_elect [V] w W i _ _ _ HC g_root g_lead) as (W1 & Hl1 & C1 & _).
        eapply (Hmk _ W1 Hl1 eq_refl); [|apply Hg]. rewrite Hv. unfold own_next_vote, vote_new. rewrite (ei_id _ _ _ _ g_ei). exact C1. }
    destruct (ev_vote_dec ev) as [(req & tx & He)|Hnv].
    2:{ apply Hgen. intros w1. clear - Hnv Hle. unfold gained. destruct ev as [|m| | | | | | | | | | | |]; auto. destruct m; auto; [discriminate|]. destruct (Hnv _ _ eq_refl). }
    assert (Hg : forall w1, (rs_v (nd_state n') = vq_vote req -> wd_grant w1 i (v_leader (vq_vote req)) (rs_last (nd_state n))) -> gained w1).
    { intros w1 Hg. unfold gained. rewrite He. exact Hg. }
    destruct (decide (rs_v (nd_state n') = vq_vote req)) as [Hv|Hv]; [|apply Hgen; intros w1; apply Hg; intros Hc; contradiction].
    pose proof (proj2 Hev) as HV. rewrite He in HV. destruct HV as (V1 & V2 & V3). rewrite g_id in V3. destruct (vq_vote req) as [L b] eqn:Hq. cbn in V1, V2, V3. subst b. rewrite Hv in Hvle.
    destruct (core_grant [V] w W i _ _ _ L HC Hvle V3 V2) as (W1 & Hl1 & C1).
    apply (Hmk _ W1 Hl1 eq_refl); [rewrite Hv; exact C1|]. apply Hg. intros _. right. auto.
  Qed.

  Lemma grow_core : wins_ok w n ev -> exists w1, grown w1.
  Proof using W C Hs Hev Hf.
    intros Hwin. pose proof g_own as Ho.
    destruct (log_event ev) eqn:Hle.
    { destruct (log_event_cases _ Hle) as [(v & prev & es & lc & tx & He)|[(v & sn & tx & He)|(ms & tx & He)]].
      - eapply grow_append; eauto.
      - pose proof (proj2 Hev) as HV. rewrite He in HV. destruct HV.
      - pose proof (proj2 Hev) as HV. rewrite He in HV. rewrite HV in He. eapply grow_init; eauto. }
    destruct Ho as [[Hp Hl]|[(p & H1 & H2 & H3 & H4 & H5 & Hc)|(ms & tx & He & _)]].
    - apply grow_quiet; auto.
    - assert (Hfm : is_follow_msg ev = false /\ (forall req tx, ev <> EMsg (MVote req tx)) /\
        (rs_v (nd_state n') = rs_v (nd_state n) \/
         (isS (en_leader (nd_eng n)) = false /\ ev = ENote /\ rs_v (nd_state n) = mkVote (v_leader (rs_v (nd_state n'))) false))).
      { destruct Hc as [(_ & Hv & [(d & x & -> & _)|(a & b & c & d & -> & _)])|(Hn & _ & -> & Hv)]; (split; [reflexivity|]); (split; [discriminate|]); auto. }
      destruct Hfm as (F1 & F2 & F3). eapply grow_lead; eauto.
    - rewrite He in Hle. discriminate.
  Qed.
End grow.

(** One step of a node. *)
Theorem grow m0 cfg w now ev n n' outs : world_ok [dom m0] w -> first_ok m0 w -> ncore cfg w n -> node_step now ev n = Ok (n', outs) ->
  ev_ok m0 w n ev -> wins_ok m0 w n ev -> counted (dom m0) n n' ->
  exists w', world_ok [dom m0] w' /\ wle (ec_id cfg) w w' /\ first_ok m0 w' /\ fits_step (wd_env w') cfg now ev n n' outs /\
    ncore cfg w' n' /\ gained cfg ev n n' w'.
Proof.
  intros W F C Hs Hev Hwin Hct.
  assert (H0 : exists w0, world_ok [dom m0] w0 /\ wle (ec_id cfg) w w0 /\ first_ok m0 w0 /\ ncore cfg w0 n /\ wins_ok m0 w0 n ev /\ event_fits (wd_env w0) n ev).
  { assert (Hw : (forall ms tx, ev = EMsg (MInitialize ms tx) -> rs_is_initialized (nd_state n) = false ->
                    wh w first_id = Some (None, PMembership (mkMembership [dom m0] m0))) ->
      exists w0, world_ok [dom m0] w0 /\ wle (ec_id cfg) w w0 /\ first_ok m0 w0 /\ ncore cfg w0 n /\ wins_ok m0 w0 n ev /\ event_fits (wd_env w0) n ev).
    { intros Hi. exists w. split; [exact W|]. split; [apply wle_refl|]. split; [exact F|]. split; [exact C|]. split; [exact Hwin|]. eapply grow_fits; eauto. }
    destruct F as [F|F]; [|apply Hw; auto].
    destruct ev as [|m| | | | | | | | | | | |] eqn:He; try (apply Hw; discriminate). destruct m; try (apply Hw; discriminate).
    destruct (Hev) as [_ Hm]. subst members. set (pl := PMembership (mkMembership [dom m0] m0)).
    pose proof (ext_first_ok _ _ W pl F) as W0. pose proof (ext_first_le w (ec_id cfg) pl F) as Hl.
    assert (C0 : ncore cfg (ext_first pl w) n) by (eapply ncore_still; [exact W|exact Hl|constructor; auto|exact C]).
    assert (Hh : wh (ext_first pl w) first_id = Some (None, pl)) by (cbn; rewrite decide_True by reflexivity; reflexivity).
    exists (ext_first pl w). split; [exact W0|]. split; [exact Hl|]. split; [right; exact Hh|]. split; [exact C0|].
    split; [intros t resp sv c c' Hn; discriminate Hn|]. eapply grow_fits; [exact W0|exact C0|exact Hs| |intros ms tx0 _ _; exact Hh].
    eapply ev_ok_mono; [exact Hl|exact Hev]. }
  destruct H0 as (w0 & W0 & Hl0 & F0 & C0 & Hwin0 & Hf0).
  pose proof (ev_ok_mono _ _ _ _ _ _ Hl0 Hev) as Hev0.
  destruct (grow_core m0 cfg w0 W0 now ev n n' outs C0 Hs Hev0 Hf0 Hwin0) as (w1 & [W1 Hl1 F1 S1 C1 G1]).
  assert (Hend : exists w2, world_ok [dom m0] w2 /\ wle (ec_id cfg) w1 w2 /\ wh w2 = wh w1 /\ wd_env w2 = wd_env w1 /\
      core w2 (ec_id cfg) (rs_v (nd_state n')) (rs_committed (nd_state n')) (rs_last (nd_state n'))).
  { destruct (is_follow_msg ev) eqn:Hfm.
    - exists w1. split; [exact W1|]. split; [apply wle_refl|]. auto.
    - destruct (grow_commit m0 cfg w0 W0 now ev n n' outs C0 Hs Hev0 w1 W1 Hl1 S1 Hfm Hct C1) as (w2 & X1 & X2 & X3 & X4 & X5 & X6). exists w2. auto 10. }
  destruct Hend as (w2 & W2 & Hl2 & Hh2 & He2 & C2). pose proof (wle_trans _ _ _ _ Hl0 (wle_trans _ _ _ _ Hl1 Hl2)) as Hl.
  assert (S2 : fits_step (wd_env w2) cfg now ev n n' outs) by (rewrite He2; exact S1).
  exists w2. split; [exact W2|]. split; [exact Hl|]. split; [unfold first_ok in *; rewrite Hh2, F1; exact F0|]. split; [exact S2|]. split.
  - constructor; [exact C2|eapply fits_step_reach; exact S2|]. eapply (grow_match m0 cfg w0 W0 now ev n n' outs C0 Hs Hev0 w2 W2); [eapply wle_trans; eauto|exact S2|].
    intros L HL Hv. apply (c_lead _ _ _ _ _ C2 L HL Hv).
  - unfold gained in *. destruct ev as [|m| | | | | | | | | | | |]; auto. destruct m; auto.
    + intros Ha. eapply wle_ackc; [exact Hl2|]. apply G1, Ha.
    + intros Hv. apply (wl_grant _ _ _ Hl2), G1, Hv.
Qed.
