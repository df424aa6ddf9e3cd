(** How a node comes to lead, over a whole run. *)
From Coq Require Import Bool Lia ZifyBool ZifyNat Sorted.
From stdpp Require Import base numbers option gmap relations list.
From Verif Require Import Types TypesProofs LogIdList Quorum QuorumSpec QuorumProofs Membership Progress RaftState ProgressEntry
  Engine EnginePrims Store RaftCore NodeSpec NodePrims StoreProofs VoteNodeProofs ElectProofs.

Lemma node_run_app a b n : node_run (a ++ b) n =
  (let! x := node_run a n in let! y := node_run b x.1 in Ok (y.1, x.2 ++ y.2)).
Proof.
  revert n. induction a as [|c a IH]; intros n; cbn [app node_run].
  - cbn. destruct (node_run b n) as [[? ?]|]; reflexivity.
  - destruct (node_act c n) as [[n1 o1]|]; cbn; [|reflexivity]. rewrite IH.
    destruct (node_run a n1) as [[n2 o2]|]; cbn; [|reflexivity].
    destruct (node_run b n2) as [[n3 o3]|]; cbn; [|reflexivity]. rewrite app_assoc. reflexivity.
Qed.
Lemma run_notes_app a b n n1 o1 : node_run a n = Ok (n1, o1) ->
  run_notes (a ++ b) n = run_notes a n ++ run_notes b n1.
Proof.
  revert n o1. induction a as [|c a IH]; intros n o1 H; cbn [app node_run run_notes] in *.
  - injection H as -> _. reflexivity.
  - rok H. rok H. injection H as <- <-. destruct x0. rewrite (IH _ _ Hx0), app_assoc. reflexivity.
Qed.
Lemma run_carried_app a b n n1 o1 : node_run a n = Ok (n1, o1) ->
  run_carried (a ++ b) n = run_carried a n ++ run_carried b n1.
Proof.
  revert n o1. induction a as [|c a IH]; intros n o1 H; cbn [app node_run run_carried] in *.
  - injection H as -> _. reflexivity.
  - rok H. rok H. injection H as <- <-. destruct x0. rewrite (IH _ _ Hx0), app_assoc. reflexivity.
Qed.
Lemma node_run_snoc a c n n2 o2 : node_run (a ++ [c]) n = Ok (n2, o2) ->
  exists n1 o1 o, node_run a n = Ok (n1, o1) /\ node_act c n1 = Ok (n2, o) /\ o2 = o1 ++ o.
Proof.
  rewrite node_run_app. intros H. rok H. destruct x as [n1 o1]. rok H. injection H as <- <-. cbn [fst snd node_run] in *.
  rok Hx0. injection Hx0 as <-. destruct x0 as [n2' o]. exists n1, o1, o. cbn. rewrite app_nil_r. auto.
Qed.

(** a committed vote is first stored by winning an election or because it was received *)
Lemma step_committed h now ev n n' outs L :
  ev <> ERun -> cinv h n -> node_step now ev n = Ok (n', outs) ->
  mkVote L true ∈ saved_votes (en_out (nd_eng n')) -> mkVote L true ∉ saved_votes (en_out (nd_eng n)) ->
  (exists t resp sv qs G, note_taken ev n = Some (NVoteResp t resp sv) /\
     campaigns n (mkVote L false) qs /\
     quorum qs G /\ forall x, x ∈ G -> x ∈ joint_ids qs /\ granted_by (h ++ taken ev n) (mkVote L false) x) \/
  mkVote L true ∈ carried_votes ev n.
Proof.
  intros He Hi Hs Hin Hno.
  destruct (node_step_srel _ _ _ _ _ He Hs) as [(_ & cs & Ho & _ & HP & _)|(t & resp & sv & c & c' & Hn & Hc & Hg & Hv & Hgr & _ & cs & Ho & _ & HP & _)].
  - right. rewrite Ho, saved_app in Hin. apply elem_of_app in Hin as [Hin|Hin]; [contradiction|].
    rewrite Forall_forall in HP. apply HP in Hin as [_ [Hin|Hin]]; [exact Hin|discriminate].
  - left. cbn [set_leader set_cand en_out] in Ho. rewrite Ho, saved_app in Hin. apply elem_of_app in Hin as [Hin|Hin]; [contradiction|].
    rewrite Forall_forall in HP. apply HP in Hin. unfold into_committed in Hin. injection Hin as HLc.
    destruct (Hi c Hc) as (Hun & G & HG & Hgb).
    destruct (cand_grant_rep _ _ _ _ _ HG Hgr) as (Ht & Hqs & G' & Hin & Hnd & Hok & _).
    assert (Hcv : cd_vote c = mkVote L false) by (destruct (cd_vote c) as [? []]; cbn in *; congruence).
    exists t, resp, sv, (cd_qs c), (list_to_set G'). split; [exact Hn|]. split; [exists c; auto|].
    split; [apply joint_is_quorum_spec; [exact Hnd|]; symmetry; exact Hok|].
    intros x Hx. apply elem_of_list_to_set in Hx. apply Hin in Hx as [Hx| ->].
    + split.
      * destruct HG as (_ & R & _ & Hperm). apply elem_of_elements. rewrite <- Hperm. apply elem_of_app. auto.
      * destruct (Hgb x Hx) as (rs & s & Hx1 & Hy). exists rs, s. rewrite Hcv in Hy. split; [apply elem_of_app; auto|exact Hy].
    + split; [exact Ht|]. exists resp, sv. split; [|split; congruence]. unfold taken. rewrite Hn. apply elem_of_app. right. left.
Qed.

Lemma vchain_mem v cs w : vchain v cs w -> w ∈ v :: saved_votes cs.
Proof. intros H. apply vchain_saved in H as [H _]. apply last_elem_of. exact H. Qed.

(** what running a command does to the stored vote and the queue *)
Lemma run_step_votes now n n' outs :
  vinv n -> node_step now ERun n = Ok (n', outs) ->
  (forall v, v ∈ stored_vote n' :: saved_votes (en_out (nd_eng n')) ->
             v ∈ stored_vote n :: saved_votes (en_out (nd_eng n))) /\
  en_leader (nd_eng n') = en_leader (nd_eng n).
Proof.
  intros [Hnw Hch] H.
  apply node_step_cases in H as [-> ->|c r _ Ho _ H|Hne|t c x r Hne|He Hs _]; try congruence.
  - auto.
  - split.
    + rewrite Ho in Hch. destruct Hch as [Hok Hch].
      assert (Hout : en_out (nd_eng n') = r).
      { destruct c; cbn [run_cmd] in H;
        repeat match type of H with
        | context [match ?t with _ => _ end] => destruct t eqn:?; try discriminate H
        end; injection H as <- <-; reflexivity. }
      assert (Hrv : stored_vote n' = vote_after (stored_vote n) c).
      { eapply run_cmd_vinv in H; [|exact Hok|exact Hnw|exact Hch|reflexivity]. destruct H as (_ & H & _). exact H. }
      intros v. rewrite Hrv, Hout, Ho. intros Hv.
      destruct c; cbn [vote_after] in Hv |- *; try exact Hv. right. exact Hv.
    + apply run_cmd_prims in H. cbn [fst nd_set_eng nd_eng] in H.
      assert (Hk : forall a b, prims [KCursor] a b -> en_leader b = en_leader a).
      { apply prims_ind_rel; [auto|congruence|]. intros k a b Hk Hp. apply elem_of_list_singleton in Hk as ->.
        inversion Hp. reflexivity. }
      apply Hk in H. rewrite H. reflexivity.
  - rewrite He. split; [|reflexivity].
    assert (Hd : dk_vote (so_disk (nd_store n')) = dk_vote (so_disk (nd_store n))).
    { destruct Hs as [->|[(k & ? & ->)|(i & io & ? & ? & ->)]]; [reflexivity|apply so_flush_vote; exact Hnw|reflexivity]. }
    unfold stored_vote. rewrite Hd. auto.
Qed.
Lemma other_step_stored now ev n n' outs :
  vinv n -> ev <> ERun -> node_step now ev n = Ok (n', outs) -> stored_vote n' = stored_vote n.
Proof.
  intros [Hnw _] Hne H.
  apply node_step_cases in H as [-> _|c r E _ _ _|_ _ _ (Hs & _) _ _|t c x r _ _ _ _ _ Hn' _|_ Hs _].
  - reflexivity.
  - congruence.
  - unfold stored_vote. rewrite Hs. reflexivity.
  - unfold stored_vote. rewrite Hn'. reflexivity.
  - destruct Hs as [Hs|[(k & _ & Hs)|(i & io & _ & _ & Hs)]]; unfold stored_vote; rewrite Hs; try reflexivity.
    rewrite so_flush_vote by exact Hnw. reflexivity.
Qed.

Lemma node_start_leads now cfg d sm n L : node_start now cfg d sm = Ok n -> leads n L ->
  li_node L = en_id (nd_eng n) /\ default vote_default (dk_vote d) = mkVote L true.
Proof.
  intros H (l & Hl & HL). pose proof (node_start_vinv _ _ _ _ _ H) as (_ & _ & Hrv).
  apply node_start_engine in H as (s & d1 & sm1 & Hh & Hp).
  assert (Hvs : rs_v s = default vote_default (dk_vote d)).
  { apply helper_initial_inv in Hh as (sm0 & ll & lp & ids & Hh). cbv zeta in Hh. destruct Hh as (_ & _ & _ & _ & Hs).
    rewrite Hs. reflexivity. }
  apply (prims_srel (fun _ => False)) in Hp as (Hc & cs & Ho & Hch & HP & Hlead); [|reflexivity].
  destruct (Hlead _ Hl) as [(l0 & Hl0 & _)|(Hid & Hin)]; [discriminate Hl0|]. rewrite HL in *.
  split; [rewrite Hid; unfold en_id; rewrite Hc; reflexivity|].
  destruct (saved_votes cs) as [|v vs]; [|inversion HP; contradiction].
  apply elem_of_list_singleton in Hin. cbn [engine_new en_state] in Hin. congruence.
Qed.
Lemma node_start_saved now cfg d sm n : node_start now cfg d sm = Ok n -> saved_votes (en_out (nd_eng n)) = [].
Proof.
  intros H. apply node_start_engine in H as (s & d1 & sm1 & _ & Hp).
  apply (prims_srel (fun _ => False)) in Hp as (Hc & cs & Ho & Hch & HP & Hlead); [|reflexivity].
  cbn [engine_new en_out app] in Ho. rewrite Ho. destruct (saved_votes cs) as [|v vs]; [reflexivity|inversion HP; contradiction].
Qed.
Lemma node_run_cfg now0 cfg n0 acts n outs : node_fresh now0 cfg = Ok n0 -> node_run acts n0 = Ok (n, outs) -> en_cfg (nd_eng n) = cfg.
Proof.
  assert (Hst : forall now d sm n, node_start now cfg d sm = Ok n -> en_cfg (nd_eng n) = cfg).
  { intros now d sm m H. apply node_start_engine in H as (s & d1 & sm1 & _ & Hp).
    apply (prims_srel (fun _ => False)) in Hp as (Hc & _); [|reflexivity]. exact Hc. }
  intros Hf. apply Hst in Hf. revert n0 n outs Hf. induction acts as [|a r IH]; intros n0 n outs Hf H; cbn [node_run] in H.
  - injection H as <- _. exact Hf.
  - rok H. rok H. injection H as <- <-. destruct x as [n1 o1]. destruct x0 as [n2 o2]. eapply IH; [|exact Hx0].
    destruct a as [now ev|now k j keep]; cbn [node_act fst] in *.
    + apply node_step_prims in Hx. rewrite <- Hf. clear -Hx.
      revert Hx. apply (prims_ind_rel ks_all (fun a b => en_cfg b = en_cfg a)); [reflexivity|congruence|].
      intros k a b _ Hp. eapply prim_cfg. exact Hp.
    + rok Hx. injection Hx as <- <-. unfold node_restart in Hx1. rewrite Hf in Hx1. eapply Hst. exact Hx1.
Qed.

Definition cown (e : Engine) : Prop := forall c, en_cand e = Some c -> li_node (v_leader (cd_vote c)) = en_id e.
Lemma prims_cown ks e e' : prims ks e e' -> cown e -> cown e'.
Proof.
  apply (prims_ind_rel ks (fun a b => cown a -> cown b)); [auto|auto|].
  intros k a b _ Hp Hi c Hc. unfold cown, en_id in *. rewrite (prim_cfg _ _ _ Hp).
  destruct Hp; try (apply Hi; exact Hc; fail); try (discriminate Hc).
  - injection Hc as <-. reflexivity.
  - injection Hc as <-. match goal with Hg : cand_grant _ _ = _ |- _ => rewrite (cand_grant_vote _ _ _ _ Hg) end. auto.
  - apply Hi. rewrite <- Hc. symmetry. apply leader_appended_rest.
  - apply Hi. rewrite <- Hc. symmetry. apply fh_do_append_rest.
  - apply Hi. rewrite <- Hc. symmetry. apply fh_truncate_rest.
  - apply Hi. rewrite <- Hc. symmetry. apply sh_trigger_rest.
  - apply Hi. rewrite <- Hc. symmetry. apply logh_purge_rest.
  - apply Hi. rewrite <- Hc. symmetry. apply fh_install_rest.
Qed.
Lemma run_cown now0 cfg n0 acts n outs : node_fresh now0 cfg = Ok n0 -> node_run acts n0 = Ok (n, outs) -> cown (nd_eng n).
Proof.
  assert (Hst : forall now cfg d sm n, node_start now cfg d sm = Ok n -> cown (nd_eng n)).
  { intros now c d sm m H. apply node_start_engine in H as (s & d1 & sm1 & _ & Hp). eapply prims_cown; [exact Hp|]. intros x Hx. discriminate Hx. }
  intros Hf. apply Hst in Hf. revert n0 n outs Hf. induction acts as [|a r IH]; intros n0 n outs Hf H; cbn [node_run] in H.
  - injection H as <- _. exact Hf.
  - rok H. rok H. injection H as <- <-. destruct x as [n1 o1]. destruct x0 as [n2 o2]. eapply IH; [|exact Hx0].
    destruct a as [now ev|now k j keep]; cbn [node_act fst] in *.
    + apply node_step_prims in Hx. eapply prims_cown; eassumption.
    + rok Hx. injection Hx as <- <-. unfold node_restart in Hx1. eapply Hst. exact Hx1.
Qed.
Lemma leads_dec n L : leads n L \/ ~ leads n L.
Proof.
  destruct (en_leader (nd_eng n)) as [l|] eqn:Hl.
  - destruct (decide (v_leader (ld_vote l) = L)) as [He|He]; [left; exists l; auto|right].
    intros (l' & Hl' & HL). congruence.
  - right. intros (l' & Hl' & _). congruence.
Qed.

Definition comes_from (acts : list Action) (n0 : Node) (L : LeaderId) : Prop :=
  won_election acts n0 L \/ mkVote L true ∈ run_carried acts n0.

Lemma run_committed now0 cfg n0 acts : forall n outs L,
  node_fresh now0 cfg = Ok n0 -> node_run acts n0 = Ok (n, outs) ->
  (mkVote L true ∈ stored_vote n :: saved_votes (en_out (nd_eng n)) -> comes_from acts n0 L) /\
  (leads n L -> li_node L = ec_id cfg /\ comes_from acts n0 L).
Proof.
  induction acts as [|a acts IH] using rev_ind; intros n outs L Hf H.
  - cbn in H. injection H as <- <-. pose proof (node_start_vinv _ _ _ _ _ Hf) as (_ & Hsv & _).
    split.
    + rewrite Hsv, (node_start_saved _ _ _ _ _ Hf). cbn. intros Hin. apply elem_of_list_singleton in Hin. discriminate.
    + intros Hl. apply (node_start_leads _ _ _ _ _ _ Hf) in Hl as [_ Hl]. discriminate Hl.
  - pose proof (node_run_cfg _ _ _ _ _ _ Hf H) as Hcfg2.
    apply node_run_snoc in H as (n1 & o1 & o & Hrun & Ha & ->).
    pose proof (node_run_cfg _ _ _ _ _ _ Hf Hrun) as Hcfg.
    assert (Hv1 : vinv n1).
    { apply (reachable_vinv cfg). exists now0, n0, acts, o1. auto. }
    assert (Hc1 : cinv (run_notes acts n0) n1).
    { apply (node_run_cinv acts [] n0 n1 o1); [|exact Hrun]. eapply node_start_cinv. exact Hf. }
    assert (Hweak : forall M, comes_from acts n0 M -> comes_from (acts ++ [a]) n0 M).
    { intros M [(b & t & r & m & om & qs & G & -> & Hm)|Hin].
      - left. exists b, t, (r ++ [a]), m, om, qs, G. split; [rewrite <- app_assoc; reflexivity|exact Hm].
      - right. rewrite (run_carried_app _ _ _ _ _ Hrun). apply elem_of_app. auto. }
    destruct (IH n1 o1 L Hf Hrun) as [IHs IHl].
    destruct a as [now ev|now k j keep]; cbn [node_act] in Ha.
    + assert (Hd : ev = ERun \/ ev <> ERun) by (destruct ev; auto; right; discriminate).
      destruct Hd as [-> |Hne].
      * apply run_step_votes in Ha as [Hs Hl]; [|exact Hv1]. split; [intros Hin; apply Hweak, IHs, Hs, Hin|].
        intros (l & Hl1 & HL). destruct IHl as [Hid Hcf]; [exists l; split; [congruence|exact HL]|]. auto.
      * assert (Hcar : mkVote L true ∈ carried_votes ev n1 -> comes_from (acts ++ [Act now ev]) n0 L).
        { intros Hin. right. rewrite (run_carried_app _ _ _ _ _ Hrun). apply elem_of_app. right. cbn [run_carried].
          destruct (node_act _ _); [apply elem_of_app; left|]; exact Hin. }
        assert (Hwon : forall qs G t resp sv, note_taken ev n1 = Some (NVoteResp t resp sv) ->
           campaigns n1 (mkVote L false) qs -> quorum qs G ->
           (forall x, x ∈ G -> x ∈ joint_ids qs /\ granted_by (run_notes acts n0 ++ taken ev n1) (mkVote L false) x) ->
           comes_from (acts ++ [Act now ev]) n0 L).
        { intros qs G t resp sv Hn Hcm Hq Hg. left. assert (ev = ENote) as -> by (destruct ev; try discriminate Hn; reflexivity).
          exists acts, now, [], n1, o1, qs, G. repeat split; auto.
          - destruct (Hg x H) as [Hj _]. apply elem_of_joint_ids. exact Hj.
          - destruct (Hg x H) as [_ (rs & s & Hin & Hy)]. exists rs, s. split; [|exact Hy].
            rewrite (run_notes_app _ _ _ _ _ Hrun). cbn [run_notes]. unfold taken in Hin.
            cbn [node_act]. rewrite Ha. cbn [run_notes]. rewrite app_nil_r. exact Hin. }
        pose proof (other_step_stored _ _ _ _ _ Hv1 Hne Ha) as Hst.
        split.
        -- intros Hin. rewrite Hst in Hin.
           destruct (decide (mkVote L true ∈ stored_vote n1 :: saved_votes (en_out (nd_eng n1)))) as [Hold|Hnew]; [auto|].
           apply elem_of_cons in Hin as [Hin|Hin]; [exfalso; apply Hnew; rewrite Hin; left|].
           destruct (step_committed _ _ _ _ _ _ L Hne Hc1 Ha Hin) as [(t & resp & sv & qs & G & Hn & Hcm & Hq & Hg)|Hc]; [|eauto|auto].
           intros Hx. apply Hnew. right. exact Hx.
        -- intros Hl. destruct (leads_dec n1 L) as [Hl1|Hl1]; [destruct (IHl Hl1); auto|].
           destruct (step_leads _ _ _ _ _ _ L Hc1 Ha Hl Hl1) as [(t & resp & sv & qs & G & Hn & _ & _ & Hcm & Hq & Hg)|(Hid & [Hrv|Hc])].
           ++ split; [|eauto]. destruct Hcm as (c & Hc & Hcv & _). rewrite <- Hcfg. change L with (v_leader (mkVote L false)). rewrite <- Hcv. eapply run_cown; [exact Hf|exact Hrun|exact Hc].
           ++ split; [rewrite Hid; unfold en_id; rewrite Hcfg; reflexivity|]. apply Hweak, IHs. rewrite <- Hrv. apply vchain_mem. apply Hv1.
           ++ split; [rewrite Hid; unfold en_id; rewrite Hcfg; reflexivity|]. auto.
    + rok Ha. injection Ha as <- <-. unfold node_restart in Hx.
      pose proof (node_start_vinv _ _ _ _ _ Hx) as (_ & Hsv & _).
      assert (Hd : default vote_default (dk_vote (crash_disk k j (nd_store n1))) = stored_vote n1).
      { rewrite crash_disk_vote by apply Hv1. reflexivity. }
      split.
      * rewrite Hsv, (node_start_saved _ _ _ _ _ Hx). intros Hin. apply elem_of_list_singleton in Hin.
        apply Hweak, IHs. rewrite Hin, Hd. left.
      * intros Hl. apply (node_start_leads _ _ _ _ _ _ Hx) in Hl as [Hid Hl].
        split; [rewrite Hid; unfold en_id; rewrite Hcfg2; reflexivity|]. apply Hweak, IHs. rewrite <- Hl, Hd. left.
Qed.

(** ** Further forms of the election lemmas used in the property files *)

Lemma acts_vote acts : forall n n' outs,
  Forall (fun a => exists now ev, a = Act now ev) acts -> node_run acts n = Ok (n', outs) ->
  vote_le (rs_v (nd_state n)) (rs_v (nd_state n')).
Proof.
  induction acts as [|a r IH]; intros n n' outs Ha H; cbn [node_run] in H.
  - injection H as <- _. apply vote_geb_refl.
  - inversion Ha as [|? ? (now & ev & ->) Hr]; subst. rok H. rok H. injection H as <- <-.
    destruct x as [n1 o1]. destruct x0 as [n2 o2]. cbn [fst node_act] in *.
    apply step_vote in Hx as [Hx _]. eapply vote_geb_trans; [|exact Hx]. eapply IH; eassumption.
Qed.

Lemma sublist_elem {A} (l k : list A) x : l `sublist_of` k -> x ∈ l -> x ∈ k.
Proof.
  induction 1 as [|y l k Hs IH|y l k Hs IH]; intros H; [exact H| |right; auto].
  apply elem_of_cons in H as [->|H]; [left|right; auto].
Qed.
Lemma sublist_sorted {A} (R : relation A) l k : l `sublist_of` k -> StronglySorted R k -> StronglySorted R l.
Proof.
  induction 1 as [|x l k Hs IH|x l k Hs IH]; intros H; inversion H; subst; auto.
  constructor; auto. rewrite Forall_forall in *. intros y Hy.
  match goal with Hf : forall _, _ ∈ k -> _ |- _ => apply Hf end.
  eapply sublist_elem; eassumption.
Qed.
Lemma run_granted_sorted cfg n acts n' outs :
  reachable cfg n -> node_run acts n = Ok (n', outs) ->
  StronglySorted vote_le (granted_votes outs) /\
  Forall (vote_le (stored_vote n)) (granted_votes outs) /\
  Forall (fun v => vote_le v (stored_vote n')) (granted_votes outs).
Proof.
  intros Hr H. apply reachable_vinv in Hr. destruct (node_run_vinv _ _ _ _ Hr H) as (_ & _ & Hs & H1 & H2).
  pose proof (granted_sublist outs) as Hsub. split; [eapply sublist_sorted; eassumption|].
  rewrite !Forall_forall in *. split; intros v Hv; [apply H1|apply H2]; eapply sublist_elem; eassumption.
Qed.

Lemma vote_event_step now req tx n n' outs :
  node_step now (EMsg (MVote req tx)) n = Ok (n', outs) -> runnable n = false ->
  exists e' resp, en_vote_req now req (nd_eng n) = Ok (e', resp) /\
    nd_eng n' = push (Respond (Some (IOFlushed (io_new (rs_v (en_state e'))))) (RVote resp) tx) e'.
Proof.
  cbn [node_step]. unfold when_idle. intros H Hr. rewrite Hr in H. cbn [handle_msg] in H. unfold lift in H.
  rok H. injection H as <- <-. unfold core_vote in Hx. rok Hx. injection Hx as <-. destruct x0 as [e' resp].
  exists e', resp. split; [reflexivity|]. reflexivity.
Qed.

Lemma elect_candidate now e e' : en_elect now e = Ok e' ->
  forall c, en_cand e' = Some c ->
  cd_vote c = rs_v (en_state e') /\ cd_qs c = m_configs (em_mem (rs_eff (en_state e))) /\ cd_last c = rs_last (en_state e).
Proof.
  intros H c Hc. pose proof (elect_spec _ _ _ H) as [Hv _]. rewrite Hv. apply en_elect_split in H. cbv zeta in H.
  apply prims_nocand in H as [_ [H|H]]; [|congruence|reflexivity].
  rewrite H in Hc. cbn in Hc. injection Hc as <-. cbn. auto.
Qed.

Lemma tick_event now hb ee eh n n' outs :
  node_step now (ETick hb ee eh) n = Ok (n', outs) ->
  (runnable n = true -> n' = n) /\
  (runnable n = false -> handle_tick now hb ee eh (nd_eng n) = Ok (nd_eng n')).
Proof.
  cbn [node_step]. unfold when_idle. intros H. destruct (runnable n); [injection H as <- _; split; [auto|discriminate]|].
  split; [discriminate|]. intros _. unfold lift in H. rok H. injection H as <- _. reflexivity.
Qed.
Lemma election_due_em now ee e : election_due now ee e \/ ~ election_due now ee e.
Proof.
  rewrite <- election_due_dec.
  destruct (bool_decide _); [right; intuition discriminate|]. destruct (rs_is_voter _ _); [|right; intuition discriminate].
  destruct ee; [|right; intuition discriminate]. destruct (_ || _); [left; auto|right; intuition discriminate].
Qed.
Lemma tick_event_spec now hb ee eh n n' outs :
  node_step now (ETick hb ee eh) n = Ok (n', outs) ->
  (rs_v (nd_state n') <> rs_v (nd_state n) \/ (exists c, en_cand (nd_eng n') = Some c /\ en_cand (nd_eng n) <> Some c) ->
     election_due now ee (nd_eng n)) /\
  (runnable n = false -> election_due now ee (nd_eng n) -> rs_v (nd_state n') = own_next_vote n).
Proof.
  intros H. destruct (tick_event _ _ _ _ _ _ _ H) as [H1 H2]. destruct (runnable n).
  - rewrite H1 by reflexivity. split; [|discriminate]. intros [Hc|(c & Hc & Hn)]; congruence.
  - specialize (H2 eq_refl). assert (Hd : election_due now ee (nd_eng n) \/ ~ election_due now ee (nd_eng n)) by apply election_due_em.
    apply tick_spec in H2 as [Ha Hb]. split; [|intros _; exact Ha].
    intros Hor. destruct Hd as [Hd|Hd]; [exact Hd|]. destruct (Hb Hd) as [Hv Hc]. exfalso.
    destruct Hor as [Hor|(c & Hc1 & Hc2)]; [apply Hor; exact Hv|]. destruct Hc; congruence.
Qed.
