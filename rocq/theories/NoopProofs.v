(** A leader of a plain run records the log id of the first entry of its leadership (C27). *)
From Coq Require Import Bool Lia ZifyBool ZifyNat.
From stdpp Require Import base numbers option gmap relations sorting list.
From Verif Require Import Types TypesProofs LogIdList Quorum QuorumSpec QuorumProofs Membership Progress RaftState ProgressEntry Engine Store RaftCore
  EnginePrims NodeSpec NodePrims VoteNodeProofs ElectProofs KindProofs LogSpec LogProofs EngLogProofs WalkProofs NodeLogProofs
  StepLogProofs LogPropSpec RoleSpec RoleProofs LogStateProofs LeadProofs OwnProofs MemSpec MemLogProofs MemProofs ProtoProofs Cluster ClusterSpec
  ClNodeProofs ClLogProofs ClVoteProofs ClCoreProofs ClStepProofs ClGrowProofs ClItemProofs ClusterProofs ReadSpec ReadProofs TransferProofs ReadLeadProofs.
Import NodeSpec.

Definition kept (x : option LogId) (L : LeaderId) (e : Engine) : Prop :=
  exists l, en_leader e = Some l /\ ld_noop l = x /\ v_leader (ld_vote l) = L.
Lemma prim_kept k e e' x L : prim k e e' -> k <> KLeaderFresh -> k <> KEstablish -> k <> KFollow -> kept x L e -> kept x L e'.
Proof.
  intros H H1 H2 H3 (l & Hl & Ht & Hv). destruct H; try congruence; try (exists l; repeat split; assumption).
  - exists l'. assert (l0 = l) as -> by congruence. repeat split; congruence.
  - exists l'. assert (l0 = l) as -> by congruence. repeat split; congruence.
  - assert (l0 = l) as -> by congruence. eexists. split; [reflexivity|]. split; [exact Ht|]. cbn. congruence.
  - assert (l0 = l) as -> by congruence. eexists. split; [reflexivity|]. split; [exact Ht|]. exact Hv.
  - assert (l0 = l) as -> by congruence. destruct (leader_appended_rest ps l e) as (_ & _ & _ & _ & l1 & Ha & Hb & Hc & Hd).
    exists l1. repeat split; congruence.
  - exists l. split; [|auto]. rewrite <- Hl. apply fh_do_append_rest.
  - exists l. split; [|auto]. rewrite <- Hl. apply fh_truncate_rest.
  - exists l. split; [|auto]. rewrite <- Hl. apply sh_trigger_rest.
  - exists l. split; [|auto]. rewrite <- Hl. apply logh_purge_rest.
  - exists l. split; [|auto]. rewrite <- Hl. apply fh_install_rest.
Qed.
Lemma prims_kept ks e e' x L : prims ks e e' -> existsb k_transfer ks = false -> kept x L e -> kept x L e'.
Proof.
  intros Hp Hk. revert e e' Hp. apply (prims_ind_rel ks (fun e e' => kept x L e -> kept x L e')); [auto|auto|].
  intros k a b Hin Hp.
  assert (Hn : k_transfer k = false).
  { destruct (k_transfer k) eqn:Hc; [|reflexivity]. exfalso. assert (existsb k_transfer ks = true); [|congruence].
    apply existsb_exists. exists k. split; [apply elem_of_list_In; exact Hin|exact Hc]. }
  apply (prim_kept k a b x L Hp); intros ->; discriminate.
Qed.
Lemma internal_kept now e e' l l' x L : vh_update_internal now e = Ok e' -> en_leader e = Some l -> ld_noop l = x /\ v_leader (ld_vote l) = L ->
  v_leader (ld_vote l) = v_leader (rs_v (en_state e)) -> en_leader e' = Some l' -> ld_noop l' = x /\ v_leader (ld_vote l') = L.
Proof.
  unfold vh_update_internal. intros H Hl Ht Hv Hl'. destruct (rs_is_leader _ _).
  - unfold vh_become_leader in H. cbv zeta in H. rewrite Hl, Hv in H.
    assert (leader_eqb (v_leader (rs_v (en_state e))) (v_leader (rs_v (en_state e))) = true) as Hr by (by apply leader_eqb_true). rewrite Hr in H.
    injection H as <-. unfold ssh_update in Hl'. cbv zeta in Hl'. destruct (bool_decide _); cbn in Hl'; injection Hl' as <-; (split; [apply Ht|]); cbn; destruct Ht as [_ Ht]; congruence.
  - destruct (rs_is_leading _ _); injection H as <-; [replace l' with l by congruence; exact Ht|].
    unfold vh_become_following, ssh_update in Hl'. cbv zeta in Hl'. destruct (bool_decide _); cbn in Hl'; discriminate.
Qed.
Lemma update_vote_kept now v e y l l' x L : vh_update_vote now v e = Ok y -> en_leader e = Some l -> ld_noop l = x /\ v_leader (ld_vote l) = L ->
  ld_vote l = rs_v (en_state e) -> en_leader y.1 = Some l' -> (vote_geb v (rs_v (en_state e)) = true -> v = rs_v (en_state e)) ->
  ld_noop l' = x /\ v_leader (ld_vote l') = L.
Proof.
  unfold vh_update_vote. intros H Hl Ht Hv Hl' Hvv. destruct (vote_geb v (rs_v (en_state e))) eqn:Hge; cbn [negb] in H.
  - rewrite (Hvv eq_refl) in *. rok H. injection H as <-. cbn [fst] in Hl'. rewrite vote_gtb_negb, vote_geb_refl in Hx. cbn [negb] in Hx.
    eapply internal_kept; [exact Hx|exact Hl|exact Ht| |exact Hl']. cbn. rewrite Hv. reflexivity.
  - injection H as <-. cbn in Hl'. replace l' with l by congruence. exact Ht.
Qed.

(** ** A leader that goes on leading *)
Section stays.
  Context (E E' : Env) (me : nat).
  Lemma lead_kept now ev n n' outs x0 L0 : node_inv E me n -> node_inv E' me n' -> node_step now ev n = Ok (n', outs) -> event_fits E n ev ->
    kept x0 L0 (nd_eng n) -> en_leader (nd_eng n') <> None -> kept x0 L0 (nd_eng n').
  Proof.
    intros In In' Hs Hf Hh Hl'.
    pose proof (node_ei E me _ In) as I. pose proof (node_id E me n In) as Hid.
    destruct Hh as (l & Hld & Ht). destruct (en_leader (nd_eng n')) as [l'|] eqn:Hld'; [|contradiction]. clear Hl'.
    destruct (ei_el _ _ _ _ I l Hld) as (L1 & L2 & L3 & _ & _ & _ & L7). destruct (ei_el _ _ _ _ (node_ei E' me _ In') l' Hld') as (L1' & L2' & L3' & _).
    pose proof (node_step_kinds _ _ _ _ Hs) as Hp. cbn [fst] in Hp.
    assert (Hpf : existsb k_transfer (event_kinds ev n) = false -> kept x0 L0 (nd_eng n')).
    { intros Hk. apply (prims_kept _ _ _ _ _ Hp Hk). exists l. auto. }
    assert (Hsame : en_leader (nd_eng n') = en_leader (nd_eng n) -> kept x0 L0 (nd_eng n')).
    { intros Heq. exists l. rewrite Heq. auto. }
    assert (Hown : forall v, rs_v (nd_state n') = v -> vote_geb v (rs_v (nd_state n)) = true -> (li_node (v_leader v) = me -> vote_known n v) -> v = rs_v (nd_state n)).
    { intros v Hv Hge Hk. assert (Hm : li_node (v_leader v) = me) by (rewrite <- Hv; unfold nd_state; congruence). destruct (Hk Hm) as [Hle _].
      destruct (vote_gtb v (rs_v (nd_state n))) eqn:Hg; [|].
      - exfalso. unfold vote_le in Hle. rewrite vote_gtb_negb, Hle in Hg. discriminate.
      - destruct (decide (v = rs_v (nd_state n))) as [|Hne]; [assumption|]. exfalso.
        assert (vote_gtb v (rs_v (nd_state n)) = true); [|congruence]. apply vote_gtb_iff. auto. }
    destruct ev as [|m| | | | | | | | | | | |] eqn:Hev; try (apply Hpf; reflexivity).
    - cbn [node_step] in Hs. unfold when_idle in Hs. destruct (runnable n) eqn:Hrn; [injection Hs as <- _; apply Hsame; reflexivity|].
      destruct m; try (apply Hpf; reflexivity); cbn [handle_msg] in Hs; try (apply lift_prims in Hs as (e' & Hs & Hq); injection Hq as -> ->; cbn [nd_eng nd_set_eng] in * ).
      + destruct Hf as ((_ & Hne & _) & _).
        destruct (OwnProofs.append_follow _ _ _ _ _ _ _ _ Hs) as [(w & r & ->)|Hv]; [apply Hsame; reflexivity|]. exfalso. congruence.
      + unfold RaftCore.core_vote in Hs. rok Hs. injection Hs as <-. cbn [push en_leader] in *. unfold en_vote_req in Hx.
        destruct (_ && _); [injection Hx as <-; apply Hsame; reflexivity|]. destruct (negb _); [injection Hx as <-; apply Hsame; reflexivity|].
        rok Hx. injection Hx as <-. cbn [fst] in *. exists l'. split; [exact Hld'|].
        eapply update_vote_kept; [exact Hx0|exact Hld|exact Ht|exact L1|exact Hld'|]. intros Hge.
        destruct (update_vote_v _ _ _ _ Hx0) as (V1 & V2 & V3). apply Hown; [apply V3; congruence|exact Hge|]. cbn in Hf. unfold own_vote_known in Hf. rewrite Hid in Hf. exact Hf.
      + destruct Hf as ((_ & Hne & _) & _).
        destruct (install_follow _ _ _ _ _ _ Hs) as [(w & r & ->)|Hv]; [apply Hsame; reflexivity|]. exfalso. congruence.
      + unfold core_transfer in Hs. destruct (vote_eqb _ _); [|injection Hs as <-; apply Hsame; reflexivity]. cbv zeta in Hs.
        destruct (en_id _ =? _); [|injection Hs as <-; apply Hsame; reflexivity]. exfalso. apply elect_spec in Hs as (Hv & _). rewrite L1', Hv in L2'. discriminate.
      + destruct (initialize_refused _ _ _ _ _ Hs) as (err & -> & _); [|apply Hsame; reflexivity].
        intros (_ & Hv & _). rewrite L1, Hv in L2. discriminate.
      + cbn in Hf. congruence.
    - cbn [event_kinds] in *. cbn [node_step] in Hs. destruct (nd_notes n) as [|x r] eqn:Hnt; [apply Hpf; reflexivity|].
      unfold when_idle in Hs. destruct (runnable n) eqn:Hrn; [injection Hs as <- _; apply Hsame; reflexivity|].
      destruct x as [| | | | |q]; try (apply Hpf; reflexivity).
      + cbn [handle_note nd_set_notes nd_eng] in Hs. destruct (en_cand (nd_eng n)) as [c|] eqn:Hc; [|injection Hs as <- _; apply Hsame; reflexivity].
        destruct (ei_cl _ _ _ _ I c Hc) as (_ & _ & _ & _ & Hln). congruence.
      + cbn [handle_note nd_set_notes nd_eng] in Hs.
        destruct (vote_matches _ _); [|injection Hs as <- _; apply Hsame; reflexivity].
        apply lift_prims in Hs as (e' & Hs & Hq); injection Hq as -> ->. rok Hs. injection Hs as <-. cbn [nd_eng nd_set_eng] in *. exists l'. split; [exact Hld'|].
        eapply update_vote_kept; [exact Hx|exact Hld|exact Ht|exact L1|exact Hld'|]. intros Hge.
        destruct (update_vote_v _ _ _ _ Hx) as (V1 & V2 & V3). apply Hown; [apply V3; congruence|exact Hge|].
        destruct In as (w0 & pcs & wv & D & N). pose proof (NodeLogProofs.n_notes _ _ _ _ _ _ _ N) as Hno. rewrite Hnt in Hno. apply Forall_cons in Hno as [Hno _]. exact Hno.
      + destruct q; apply Hpf; reflexivity.
    - cbn [node_step] in Hs. unfold when_idle in Hs. destruct (runnable n); [injection Hs as <- _; apply Hsame; reflexivity|].
      apply lift_prims in Hs as (e' & Hs & Hq); injection Hq as -> ->. cbn [nd_eng nd_set_eng] in *. unfold handle_tick in Hs. rok Hs.
      assert (x = nd_eng n) as ->.
      { unfold tick_election in Hx. rewrite L7 in Hx. rewrite bool_decide_eq_true_2 in Hx by reflexivity. congruence. }
      rewrite Hld in Hs. set (e2 := if ld_next_heartbeat l <=? now then _ else _) in Hs.
      assert (Q : en_state e2 = en_state (nd_eng n) /\ exists l2, en_leader e2 = Some l2 /\ ld_noop l2 = ld_noop l /\ ld_vote l2 = ld_vote l).
      { unfold e2. destruct (_ <=? _); [|eauto]. unfold core_heartbeat. rewrite Hld. destruct enable_hb; [destruct (ld_transfer l) eqn:Htt|]; cbn; split; eauto 6. }
      destruct Q as (Q1 & l2 & Q2 & Q3 & Q4). clearbody e2. exists l'. split; [exact Hld'|].
      destruct (ologid_leb _ _); [|injection Hs as <-; replace l' with l2 by congruence; rewrite Q3, Q4; exact Ht]. unfold en_step_down in Hs. destruct (ologid_leb _ _); [|injection Hs as <-; replace l' with l2 by congruence; rewrite Q3, Q4; exact Ht].
      eapply internal_kept; [exact Hs|exact Q2|rewrite Q3, Q4; exact Ht| |exact Hld']. rewrite Q1. congruence.
  Qed.
End stays.

(** ** A leader that begins *)
Lemma establish_noop now e e' c : en_cand e = Some c -> en_leader e = None -> cd_vote c = rs_v (en_state e) ->
  v_committed (cd_vote c) = false -> (forall y, cd_last c = Some y -> lid_leader y <> v_leader (cd_vote c)) -> en_establish now e = Ok e' ->
  kept (Some (mkLogId (v_leader (cd_vote c)) (next_index (cd_last c)))) (v_leader (cd_vote c)) e'.
Proof.
  intros Hc Hl Hv Hcm Hlt He. set (v := into_committed (rs_v (en_state e))). unfold en_establish in He. rewrite Hc in He. cbv zeta in He. unfold eh_establish in He.
  cbn [set_cand en_leader] in He. rewrite Hl in He. rok He. rok He.
  unfold rh_rebuild_streams in Hx. cbn [set_leader en_leader] in Hx. injection Hx as Hx.
  assert (Hlv : ld_vote (cand_into_leader now c) = v) by (unfold v; rewrite <- Hv; reflexivity).
  assert (Hln : ld_noop (cand_into_leader now c) = Some (mkLogId (v_leader (cd_vote c)) (next_index (cd_last c)))).
  { cbn. destruct (cd_last c) as [y|]; cbn; [|reflexivity].
    destruct (leader_eqb (lid_leader y) (v_leader (cd_vote c))) eqn:Hb; [|reflexivity]. apply leader_eqb_eq in Hb. destruct (Hlt y eq_refl Hb). }
  set (l0 := cand_into_leader now c) in *. clearbody l0.
  assert (Hst : en_state x = en_state e) by (rewrite <- Hx; reflexivity).
  assert (Hlx : exists l1, en_leader x = Some l1 /\ ld_vote l1 = v /\ ld_noop l1 = ld_noop l0).
  { rewrite <- Hx. cbn. eexists. split; [reflexivity|]. cbn. auto. }
  clear Hx. destruct Hlx as (l1 & Hl1 & Hlv1 & Hln1).
  assert (Hgt : vote_gtb v (rs_v (en_state e)) = true).
  { unfold v. rewrite <- Hv in *. clear - Hcm. destruct (cd_vote c) as [L k]. cbn in Hcm. subst k. ord. }
  unfold vh_update_vote in Hx0. rewrite Hlv, Hst, (vote_gtb_geb _ _ Hgt), Hgt in Hx0. cbn [negb] in Hx0. rok Hx0. injection Hx0 as <-.
  cbn [fst] in He. set (ev := push _ _) in Hx.
  assert (Hv3 : rs_v (en_state ev) = v) by (subst ev; cbn; acc; cbn; reflexivity).
  assert (Hl3 : en_leader ev = Some l1) by exact Hl1. clearbody ev.
  assert (Hlx0 : en_leader x1 <> None) by (intros Hno; unfold lh_append in He; cbn in He; rewrite Hno in He; discriminate).
  destruct (en_leader x1) as [l2|] eqn:Hl2; [|congruence].
  destruct (internal_kept _ _ _ l1 l2 (ld_noop l1) (v_leader v) Hx Hl3) as [K1 K2]; [rewrite Hlv1; auto|rewrite Hlv1, Hv3; reflexivity|exact Hl2|].
  eapply prims_kept; [eapply lh_append_prims; [|exact He]; cbn; lia|reflexivity|]. exists l2. split; [cbn; exact Hl2|]. split; [congruence|]. rewrite K2. unfold v. rewrite <- Hv. reflexivity.
Qed.
Section begins.
  Context (E : Env) (cfg : EngineConfig) (HE : env_ok E).
  Notation me := (ec_id cfg).
  Lemma begin_noop now ev n n' outs : fits_reachable E cfg n -> event_fits E n ev -> node_step now ev n = Ok (n', outs) ->
    (forall ms tx, ev <> EMsg (MInitialize ms tx)) ->
    (forall L, rs_v (nd_state n) = mkVote L false -> li_node L = me -> mkVote L true ∉ carried_votes ev n) ->
    (forall c, en_cand (nd_eng n) = Some c -> oleader_lt (rs_last (nd_state n)) (v_leader (rs_v (nd_state n)))) ->
    en_leader (nd_eng n) = None -> en_leader (nd_eng n') <> None ->
    exists L c, rs_v (nd_state n) = mkVote L false /\ rs_v (nd_state n') = mkVote L true /\ en_cand (nd_eng n) = Some c /\
      rs_last (nd_state n') = Some (mkLogId L (next_index (rs_last (nd_state n)))) /\
      kept (Some (mkLogId L (next_index (rs_last (nd_state n))))) L (nd_eng n').
  Proof using HE.
    intros Hr Hf Hs Hni Hcar Hlt Hno Hl'. pose proof (reach_inv E cfg HE n Hr) as HN. pose proof (node_ei E me n HN) as I.
    pose proof (own_step E me now ev n n' outs HN (reach_RI E cfg HE n Hr) Hf Hs) as Ho.
    assert (Hb : isS (en_leader (nd_eng n)) = false) by (rewrite Hno; reflexivity).
    assert (Hs' : isS (en_leader (nd_eng n')) = true) by (destruct (en_leader (nd_eng n')); [reflexivity|congruence]).
    destruct Ho as [(_ & Hx)|[(p & _ & Hla & _ & Hid & Hcm & [(Hx & _)|(_ & _ & He & Hv)])|(ms & tx & Hbad & _)]]; [rewrite Hx in Hb by exact Hs'; discriminate Hb|congruence| |destruct (Hni ms tx Hbad)].
    destruct (rs_v (nd_state n')) as [L b] eqn:Hrv. cbn in Hid, Hcm, Hv, Hla. subst b. rewrite (node_id E me n HN) in Hid.
    destruct (vote_win E cfg HE _ _ _ _ _ L Hr Hf Hs ltac:(rewrite He; discriminate) Hb Hs' Hv Hrv (Hcar L Hv Hid)) as (t & resp & sv & c & c' & Hnt & Hcd & G1 & G2 & G3 & Hg).
    exists L, c. split; [exact Hv|]. split; [reflexivity|]. split; [exact Hcd|]. split; [exact Hla|]. subst ev.
    specialize (Hlt c Hcd). rewrite Hv in Hlt. cbn in Hlt.
    destruct (ei_cl _ _ _ _ I c Hcd) as (C1 & C2 & C3 & C4 & C5). pose proof (ec_last E _ _ (ei_ec _ _ _ _ I)) as Hlast.
    cbn [node_step] in Hs. cbn [note_taken] in Hnt. destruct (nd_notes n) as [|x r] eqn:Hnn; [destruct (runnable n); discriminate|].
    unfold when_idle in Hs. destruct (runnable n) eqn:Hrn; [injection Hs as <- _; congruence|].
    assert (x = NVoteResp t resp sv) as -> by (cbn in Hnt; congruence). cbn [handle_note nd_set_notes nd_eng] in Hs. rewrite Hcd in Hs.
    destruct (vote_matches _ _); [|injection Hs as <- _; cbn in Hl'; congruence].
    apply lift_prims in Hs as (e' & Hs & Hq). injection Hq as -> ->. cbn [nd_eng nd_set_eng] in *.
    unfold en_vote_resp in Hs. rewrite Hcd, G1, G2, G3 in Hs. replace (vote_eqb _ _) with true in Hs by (symmetry; apply vote_eqb_true; reflexivity). cbn [andb] in Hs.
    rewrite Hg in Hs. cbn [res_bind fst snd] in Hs.
    assert (Hc' : cd_vote c' = cd_vote c /\ cd_last c' = cd_last c).
    { unfold cand_grant in Hg. destruct (vp_update _ _ _ _ _) as [q []]; [injection Hg as <- _|discriminate]. auto. }
    destruct Hc' as [V' L'].
    pose proof (establish_noop now (set_cand (Some c') (nd_eng n)) e' c' eq_refl C5) as K.
    rewrite V', L', G3 in K. cbn [v_leader] in K. unfold nd_state. rewrite Hlast, <- C4. apply K; [cbn; rewrite <- C1, G3; reflexivity|reflexivity| |exact Hs].
    intros y Hy. unfold nd_state in Hlt. rewrite Hlast, <- C4, Hy in Hlt. cbn in Hlt. intros Heq. rewrite Heq in Hlt. revert Hlt. clear. unfold leader_lt. ord.
  Qed.
End begins.

(** ** Along runs *)
Definition first_own (w : World) (n : Node) : Prop := forall l, en_leader (nd_eng n) = Some l ->
  let L := v_leader (ld_vote l) in
  ld_noop l = Some (mkLogId L (next_index (wd_init w L))) /\ pfx (wh w) (ld_noop l) (wtip w L).

Lemma run_noop m0 cfg cl0 cl : cl_start cfg cl0 -> plain_run m0 cl0 cl -> exists w, clinv m0 cfg w cl /\ forall j, first_own w (cl_node cl j).
Proof.
  intros H0 Hr. induction Hr as [|a c c' Hr (w & I & IH) Ha Hp].
  { exists world0. split; [apply start_clinv, H0|]. intros j. destruct H0 as (_ & _ & H0). destruct (H0 j) as (_ & now & Hf).
    destruct (fresh_facts _ _ _ Hf) as (_ & _ & _ & _ & F5 & F6 & _). intros l Hl. congruence. }
  destruct (clinv_step _ _ _ _ _ _ I Ha Hp) as (i0 & w' & Hl & I'). exists w'. split; [exact I'|].
  assert (Hkeep : forall j l l', en_leader (nd_eng (cl_node c j)) = Some l -> ld_noop l' = ld_noop l -> v_leader (ld_vote l') = v_leader (ld_vote l) ->
    ld_noop l' = Some (mkLogId (v_leader (ld_vote l')) (next_index (wd_init w' (v_leader (ld_vote l'))))) /\ pfx (wh w') (ld_noop l') (wtip w' (v_leader (ld_vote l')))).
  { intros j l l' Hj Hn Hv. destruct (IH j l Hj) as [N1 N2]. destruct (leader_facts _ _ _ _ _ _ I Hj) as (Hel & _). rewrite Hn, Hv.
    rewrite (wl_init _ _ _ Hl) by (apply (wk_elec _ _ (ci_world _ _ _ _ I)), Hel). split; [exact N1|].
    apply (pfx_trans _ _ (wtip w (v_leader (ld_vote l)))); [apply (pfx_mono _ _ _ _ (wl_hist _ _ _ Hl)), N2|apply Hl]. }
  destruct (act_step _ _ _ _ Ha Hp) as (i & now & ev & n' & outs & He & Hs & ->). intros j l' Hl'. cbn in Hl'. destruct (decide (j = i)) as [->|Hj]; [|eapply Hkeep; eauto].
  pose proof (f_ninv _ _ _ _ I' i) as HN'. pose proof (f_core _ _ _ _ I' i) as C'. cbn in HN', C'. rewrite decide_True in HN', C' by reflexivity.
  pose proof (event_arrives _ _ _ _ _ _ _ _ I He) as Har.
  unfold plain_act in Hp. rewrite He in Hp. destruct Hp as (P1 & P2 & P3).
  destruct (init_dec ev) as [(ms & tx & ->)|Hni].
  { assert (Hsame : en_leader (nd_eng n') = en_leader (nd_eng (cl_node c i))); [|rewrite Hsame in Hl'; eapply Hkeep; eauto].
    revert Hs. clear. cbn [node_step]. unfold when_idle. destruct (runnable _); [intros [= <- <-]; reflexivity|]. cbn [handle_msg]. intros Hs.
    apply lift_prims in Hs as (e' & Hs & Hp). injection Hp as -> ->. generalize dependent (cl_node c i). intros n Hs.
    destruct (decide (rs_last (nd_state n) = None /\ rs_v (nd_state n) = vote_default /\ en_id (nd_eng n) ∈ dom ms)) as [(A & B & C)|Hno].
    - destruct (initialize_ok _ _ _ _ _ A B C Hs) as (_ & _ & _ & _ & _ & _ & X & _). exact X.
    - destruct (initialize_refused _ _ _ _ _ Hs Hno) as (err & -> & _). reflexivity. }
  pose proof (ci_world _ _ _ _ I) as W. pose proof (ci_core _ _ _ _ I i) as C. pose proof (ci_item _ _ _ _ I i) as It. pose proof (ci_cfg _ _ _ _ I) as Hc.
  assert (E1 : ev_ok m0 w (cl_node c i) ev) by (eapply (s_ev_ok m0 (cfg i) i w (stored c) (cl_sent c)); eauto using ci_sent).
  assert (Hf : event_fits (wd_env w) (cl_node c i) ev).
  { eapply (grow_fits m0 (cfg i)); [exact W|exact C|exact Hs|exact E1|]. intros ms tx Hx. destruct (Hni ms tx Hx). }
  pose proof (f_ninv _ _ _ _ I i) as HN. pose proof (f_core _ _ _ _ I i) as Co.
  destruct (en_leader (nd_eng (cl_node c i))) as [l|] eqn:Hli.
  - destruct (lead_kept (wd_env w) (wd_env w') i now ev (cl_node c i) n' outs (ld_noop l) (v_leader (ld_vote l)) HN HN' Hs Hf) as (l2 & X1 & X2 & X3); [exists l; auto|congruence|].
    assert (l2 = l') as -> by congruence. eapply Hkeep; eauto.
  - assert (Hinit : forall x, en_cand (nd_eng (cl_node c i)) = Some x ->
        wd_cand w (v_leader (rs_v (nd_state (cl_node c i)))) /\ wd_init w (v_leader (rs_v (nd_state (cl_node c i)))) = rs_last (nd_state (cl_node c i))).
    { intros x Hx. destruct (ei_cl _ _ _ _ (node_ei _ _ _ HN) x Hx) as (X1 & X2 & X3 & _). pose proof (it_cterm _ _ _ _ _ _ It x Hx) as Ht.
      rewrite X1 in *. fold (nd_state (cl_node c i)) in *.
      assert (Hnd : rs_v (nd_state (cl_node c i)) <> vote_default) by (intros Hd; rewrite Hd in Ht; apply Ht; reflexivity). split.
      - destruct (c_v _ _ _ _ _ Co) as [Hd|[Hd _]]; [contradiction|exact Hd].
      - apply (c_cand _ _ _ _ _ Co); [exact X3| |exact Hnd]. destruct (rs_v (nd_state (cl_node c i))) as [L b]. cbn in X2. subst b. reflexivity. }
    destruct (begin_noop (wd_env w) (cfg i) (wk_env _ _ W) now ev (cl_node c i) n' outs) as (L & x & V1 & V2 & Hcd & V4 & l2 & X1 & X2 & X3);
      [apply C|exact Hf|exact Hs|exact Hni| | |exact Hli|congruence|].
    + intros L Hv Hown Hin. destruct E1 as [Hk _]. specialize (Hk _ Hin). destruct Hk as [Hk|[_ Hk]]; [discriminate|]. specialize (Hk eq_refl). cbn in Hk.
      apply (vle_tf L). rewrite <- Hv. apply (c_own' _ _ _ _ _ (nc_core _ _ _ C) L Hown Hk).
    + intros x Hx. destruct (Hinit x Hx) as [H1 H2]. rewrite <- H2. apply (wk_cand _ _ W), H1.
    + assert (l2 = l') as -> by congruence. destruct (Hinit x Hcd) as [H1 H2]. rewrite V1 in H1, H2. cbn in H1, H2.
      cbv zeta. rewrite X3. rewrite (wl_init _ _ _ Hl) by exact H1. rewrite H2. split; [exact X2|].
      rewrite X2, <- V4. destruct (ei_el _ _ _ _ (node_ei _ _ _ HN') l' Hl') as (Y1 & _ & Y3 & _).
      destruct (c_lead _ _ _ _ _ C' L) as [Hti _]; [rewrite X3 in Y3; exact Y3|exact V2|]. rewrite Hti. constructor.
Qed.

(** what a leader recorded is the log id of the first entry of its leadership *)
Lemma noop_first m0 cfg cl0 cl i l : cl_start cfg cl0 -> plain_run m0 cl0 cl -> en_leader (nd_eng (cl_node cl i)) = Some l ->
  exists x, ld_noop l = Some x /\ lid_leader x = v_leader (ld_vote l) /\ (exists p, holds_entry (planned_log (cl_node cl i)) (mkEntry x p)) /\
    forall j lg e, log_of (cl_node cl j) lg -> e ∈ ls_entries lg -> lid_leader (e_log_id e) = v_leader (ld_vote l) -> lid_index x <= e_index e.
Proof.
  intros H0 Hr Hl. destruct (run_noop _ _ _ _ H0 Hr) as (w & I & N). destruct (N i l Hl) as [N1 N2]. cbv zeta in *.
  destruct (leader_facts _ _ _ _ _ _ I Hl) as (Hel & Ht & _ & _). pose proof (ci_world _ _ _ _ I) as W. pose proof (wk_env _ _ W) as HE.
  set (L := v_leader (ld_vote l)) in *. exists (mkLogId L (next_index (wd_init w L))). split; [exact N1|]. split; [reflexivity|]. rewrite N1 in N2.
  destruct HE as [Hok HE']. destruct (wk_elec _ _ W L Hel) as (Hcd & Hin & _). destruct (wk_cand _ _ W L Hcd) as (Hterm & _ & Hlt & _). split.
  - assert (Hh : pfx (wh w) None (Some (mkLogId L (next_index (wd_init w L))))).
    { eapply (pfx_of_idx (wh w) Hok); [apply (HE' L)|exact N2|cbn; lia]. }
    inversion Hh as [|a y q pl Hy Hp]. exists pl. eapply holds_path; [exact Hok| | |exact Hy].
    + apply (f_log _ _ _ _ I i). right; right; reflexivity.
    + cbn [e_log_id]. rewrite <- Ht. exact N2.
  - intros j lg e Hlg He Hle. destruct (f_log _ _ _ _ I j lg Hlg) as [_ Hch]. destruct (chain_elem (wh w) Hok _ _ _ Hch He) as (_ & _ & _ & _ & q & Hq).
    destruct (wk_hist _ _ W (e_log_id e)) as [Hf|[_ Hp]]; [eauto| |].
    { exfalso. rewrite Hf in Hle. cbn in Hle. rewrite <- Hle in Hterm. apply Hterm. reflexivity. }
    rewrite Hle in Hp. cbn [lid_index]. unfold e_index. destruct (Nat.le_gt_cases (next_index (wd_init w L)) (lid_index (e_log_id e))) as [|Hgt]; [assumption|exfalso].
    assert (Hpi : pfx (wh w) (Some (e_log_id e)) (wd_init w L)) by (eapply (pfx_of_idx (wh w) Hok); [exact Hp|exact Hin|cbn; lia]).
    destruct (wd_init w L) as [z|] eqn:Hz; [|cbn in Hgt; lia]. apply (pfx_leader (wh w) Hok) in Hpi. rewrite Hle in Hpi. cbn in Hlt. revert Hpi Hlt. clear. unfold leader_lt. ord.
Qed.

Theorem linearizable_first m0 cfg i tx cl rl ap : read_answered m0 cfg i tx cl rl ap ->
  exists l, en_leader (nd_eng (cl_node cl i)) = Some l /\
    ologid_leb (rs_committed (nd_state (cl_node cl i))) rl = true /\
    (exists x, lid_leader x = v_leader (ld_vote l) /\ (exists p, holds_entry (planned_log (cl_node cl i)) (mkEntry x p)) /\
       (forall j lg e, log_of (cl_node cl j) lg -> e ∈ ls_entries lg -> lid_leader (e_log_id e) = v_leader (ld_vote l) -> lid_index x <= e_index e) /\
       ologid_leb (Some x) rl = true) /\
    (forall j l', en_leader (nd_eng (cl_node cl j)) = Some l' -> vote_le (ld_vote l') (ld_vote l)) /\
    (forall j e, has_committed (cl_node cl j) e -> ologid_leb (Some (e_log_id e)) rl = true).
Proof.
  intros Hra. destruct (linearizable _ _ _ _ _ _ _ Hra) as (l & Hl & H1 & (x & X1 & X2 & X3) & H3 & H4). exists l. split; [exact Hl|]. split; [exact H1|].
  split; [|auto]. destruct Hra as (cl0 & before & acts & lst & clr & H0 & Hb & _). apply acts_run in Hb.
  destruct (noop_first _ _ _ _ _ _ H0 Hb Hl) as (y & Y1 & Y2 & Y3 & Y4). assert (y = x) as -> by congruence. exists x. auto.
Qed.
