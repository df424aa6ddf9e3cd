(** A leader of a plain run has a configuration with voters. *)
From Coq Require Import Bool Lia ZifyBool ZifyNat.
From stdpp Require Import base numbers option gmap relations sorting list.
From Verif Require Import Types TypesProofs LogIdList Quorum QuorumSpec QuorumProofs Membership Progress RaftState ProgressEntry Engine Store RaftCore
  EnginePrims NodeSpec NodePrims VoteNodeProofs ElectProofs KindProofs LogSpec LogProofs EngLogProofs WalkProofs NodeLogProofs
  StepLogProofs LogPropSpec RoleSpec RoleProofs LogStateProofs LeadProofs OwnProofs MemSpec MemLogProofs MemProofs ProtoProofs Cluster ClusterSpec
  ClNodeProofs ClLogProofs ClVoteProofs ClCoreProofs ClStepProofs ClGrowProofs ClItemProofs ClusterProofs ReadSpec ReadProofs.
Import NodeSpec.

Definition voted (ms : MemState) : Prop := m_configs (em_mem (ms_effective ms)) <> [].
Definition conf (n : Node) : Prop := voted (rs_mem (nd_state n)).
(** a leader, or a candidate that can win, has voters *)
Definition lconf (n : Node) : Prop :=
  en_leader (nd_eng n) <> None \/ (exists c, en_cand (nd_eng n) = Some c /\ cd_qs c <> []) -> conf n.

Lemma change_voted ms ch rt m : ms_change ms ch rt = inl m -> voted ms -> m_configs m <> [].
Proof.
  unfold ms_change, m_change, voted. destruct (bool_decide _); [|discriminate]. destruct (ensure_valid _); [discriminate|].
  assert (Hf : forall a g, find_coherent a g <> []).
  { intros a g. unfold find_coherent. destruct (joint_coherent_one a g); [discriminate|]. destruct (last a); discriminate. }
  intros [= <-] Hv. destruct ch; cbn [change_target next_coherent m_configs]; auto; apply Hf.
Qed.
Lemma fold_voted cs : forall ms, quietc cs -> (forall v es m, AppendInputEntries v es ∈ cs -> m ∈ last_two_memberships es -> m_configs (em_mem m) <> []) ->
  voted ms -> voted (foldl mem_cmd ms cs).
Proof.
  induction cs as [|c r IH]; intros ms Hq Ha Hv; [exact Hv|]. cbn [foldl]. apply IH.
  - intros x Hx. apply Hq. right. exact Hx.
  - intros v es m Hx. apply Ha with (v := v). right. exact Hx.
  - pose proof (Hq c ltac:(left)) as Hqc. destruct c; cbn [mem_cmd]; try exact Hv; try destruct Hqc.
    + assert (Hin : forall m, m ∈ last_two_memberships entries -> m_configs (em_mem m) <> []) by (intros m; eapply Ha; left).
      revert Hin Hv. generalize ms. induction (last_two_memberships entries) as [|m l IHl]; intros ms0 Hin Hv0; [exact Hv0|].
      cbn [foldl]. apply IHl; [intros m1 H1; apply Hin; right; exact H1|]. apply (Hin m). left.
    + unfold ms_commit. destruct (ologid_leb _ _); exact Hv.
Qed.

Section step.
  Context (E : Env) (cfg : EngineConfig) (HE : env_ok E).
  Notation me := (ec_id cfg).
  Context (now : nat) (ev : Event) (n n' : Node) (outs : list Out).
  Context (Hr : fits_reachable E cfg n) (Hs : node_step now ev n = Ok (n', outs)).

  Lemma conf_step : event_fits E n ev -> is_follow_msg ev = false -> (forall ms tx, ev <> EMsg (MInitialize ms tx)) -> conf n -> conf n'.
  Proof using HE Hr Hs.
    intros Hf Hfm Hni Hc. pose proof (reach_inv E cfg HE n Hr) as HN. pose proof (node_ei E me n HN) as I.
    destruct (is_run ev) as [->|He].
    { pose proof (node_step_kinds _ _ _ _ Hs) as Hk. cbn [fst event_kinds] in Hk. apply prims_rk in Hk; [|reflexivity].
      unfold conf, voted, nd_state, rk, rs_eff in *. injection Hk as _ _ Hk _ _ _. rewrite Hk. exact Hc. }
    pose proof (own_step E me now ev n n' outs HN (reach_RI E cfg HE n Hr) Hf Hs) as Ho.
    pose proof (node_step_kinds _ _ _ _ Hs) as Hk. cbn [fst] in Hk.
    assert (Hks : KPop ∉ event_kinds ev n /\ KTruncate ∉ event_kinds ev n /\ KInstall ∉ event_kinds ev n /\ KFollowAppend ∉ event_kinds ev n).
    { destruct ev as [|m| | | | | | | | | | | |]; try (repeat split; notin); try congruence.
      - destruct m; try discriminate Hfm; try (repeat split; notin). destruct (Hni members tx eq_refl).
      - cbn [event_kinds]. destruct (nd_notes n) as [|x r]; [repeat split; notin|]. destruct x as [| | | | |[]]; repeat split; notin. }
    destruct Hks as (K1 & K2 & K3 & K4). destruct (qrun_prims _ _ _ Hk K1 K2 K3) as (cs & Hout & Hmem & Hq).
    assert (Hown : lcown (nd_eng n)).
    { split; [intros c Hcd|intros l Hl]; rewrite (ei_id _ _ _ _ I); [apply (ei_cl _ _ _ _ I c Hcd)|apply (ei_el _ _ _ _ I l Hl)]. }
    destruct (prims_appends _ _ _ Hk K1 K4 Hown) as (cs' & Hout' & Happ). rewrite Hout in Hout'. apply app_inv_head in Hout' as <-.
    assert (Hprod : step_produced ev n n' = cs).
    { unfold step_produced. rewrite Hout, drop_app. destruct ev; try reflexivity. congruence. }
    rewrite Hprod in Ho. unfold conf. unfold nd_state in Hmem |- *. rewrite Hmem. apply fold_voted; [exact Hq| |exact Hc].
    intros v es m Hin Hm. pose proof (proposals_elem (nd_id n) cs v es Hin (Happ _ _ Hin)) as Hp.
    destruct Ho as [(Hnil & _)|[(p & Hone & _ & _ & _ & _ & Hcase)|(ms & tx & Hbad & _)]].
    - rewrite Hnil in Hp. apply elem_of_nil in Hp as [].
    - rewrite Hone in Hp. apply elem_of_list_singleton in Hp. injection Hp as _ ->. cbn [assign_ids] in Hm. unfold last_two_memberships in Hm. cbn in Hm.
      destruct p as [|d|m1]; cbn in Hm; try (apply elem_of_nil in Hm as []; fail). apply elem_of_list_singleton in Hm as ->. cbn.
      destruct Hcase as [(_ & _ & [(d & tx & _ & Hpl)|(ch & rt & tx & m2 & _ & Hpl & Hch)])|(_ & Hpl & _)]; try discriminate Hpl.
      injection Hpl as ->. eapply change_voted; [exact Hch|exact Hc].
    - destruct (Hni ms tx Hbad).
  Qed.

  (** what leads or campaigns afterwards had voters before, or has them now *)
  Lemma lconf_step h : (forall ms tx, ev <> EMsg (MInitialize ms tx)) -> event_fits E n ev -> (forall v sn tx, ev <> EMsg (MSnapshot v sn tx)) ->
    (forall L, rs_v (nd_state n) = mkVote L false -> li_node L = me -> mkVote L true ∉ carried_votes ev n) ->
    (forall l, en_leader (nd_eng n') = Some l -> li_node (v_leader (rs_v (nd_state n'))) = nd_id n) ->
    (forall c, en_cand (nd_eng n') = Some c -> li_node (v_leader (rs_v (nd_state n'))) = nd_id n) ->
    cinv h n -> lconf n -> lconf n'.
  Proof using HE Hr Hs.
    intros Hni Hf Hns Hcar Hl' Hc' Hci Hlc Hprem. pose proof (reach_inv E cfg HE n Hr) as HN. pose proof (node_ei E me n HN) as I.
    pose proof (own_step E me now ev n n' outs HN (reach_RI E cfg HE n Hr) Hf Hs) as Ho.
    assert (Hbefore : conf n).
    { destruct Hprem as [Hl|(c' & Hcd & Hq)].
      - destruct (isS (en_leader (nd_eng n))) eqn:Hb; [apply Hlc; left; destruct (en_leader (nd_eng n)); [discriminate|discriminate Hb]|].
        assert (Hs' : isS (en_leader (nd_eng n')) = true) by (destruct (en_leader (nd_eng n')); [reflexivity|congruence]).
        destruct Ho as [(_ & Hx)|[(p & _ & _ & _ & Hid & Hcm & [(Hx & _)|(_ & _ & He & Hv)])|(ms & tx & Hbad & _)]].
        + rewrite Hx in Hb by exact Hs'. discriminate Hb.
        + congruence.
        + destruct (rs_v (nd_state n')) as [L b] eqn:Hrv. cbn in Hid, Hcm, Hv. subst b. rewrite (node_id E me n HN) in Hid.
          destruct (vote_win E cfg HE _ _ _ _ _ L Hr Hf Hs ltac:(rewrite He; discriminate) Hb Hs' Hv Hrv (Hcar L Hv Hid)) as (t & resp & sv & c & c' & _ & Hcd & _ & _ & _ & Hg).
          apply Hlc. right. exists c. split; [exact Hcd|]. destruct (Hci c Hcd) as (_ & G & HG & _). destruct (cand_grant_rep _ _ _ _ _ HG Hg) as (Hj & _).
          intros Hq. rewrite Hq in Hj. clear - Hj. cbn in Hj. set_solver.
        + destruct (Hni ms tx Hbad).
      - destruct (step_cands _ _ _ _ _ Hs c' Hcd) as [(c & H1 & H2)|[H1|H1]].
        + apply Hlc. right. exists c. split; [exact H1|]. congruence.
        + exfalso. destruct ev as [|m| | | | | | | | | | | |]; try congruence. destruct m; congruence.
        + unfold conf, voted. rewrite H1 in Hq. exact Hq. }
    destruct (is_follow_msg ev) eqn:Hfm; [|apply conf_step; auto].
    assert (Hown : li_node (v_leader (rs_v (nd_state n'))) = nd_id n).
    { destruct Hprem as [Hl|(c' & Hcd & _)]; [destruct (en_leader (nd_eng n')) eqn:Hx; [eauto|congruence]|eauto]. }
    destruct ev as [|m| | | | | | | | | | | |]; try discriminate Hfm. destruct m; try discriminate Hfm; [|destruct (Hns _ _ _ eq_refl)].
    cbn [node_step] in Hs. unfold when_idle in Hs. destruct (runnable n); [injection Hs as <- <-; exact Hbefore|].
    cbn [handle_msg] in Hs. apply lift_prims in Hs as (e' & Hs & Hp). injection Hp as -> ->.
    destruct Hf as ((_ & Hne & _) & _). destruct (OwnProofs.append_follow _ _ _ _ _ _ _ _ Hs) as [(w & r & ->)|Hv]; [exact Hbefore|].
    exfalso. unfold nd_state in Hown. cbn [nd_eng nd_set_eng] in Hown. rewrite Hv in Hown. congruence.
  Qed.
End step.

Lemma init_lconf now ms tx n n' outs : node_step now (EMsg (MInitialize ms tx)) n = Ok (n', outs) -> lconf n -> lconf n'.
Proof.
  cbn [node_step]. unfold when_idle. destruct (runnable n); [intros [= <- <-]; auto|]. cbn [handle_msg]. intros Hs Hl.
  apply lift_prims in Hs as (e' & Hs & Hp). injection Hp as -> ->.
  destruct (decide (rs_last (nd_state n) = None /\ rs_v (nd_state n) = vote_default /\ en_id (nd_eng n) ∈ dom ms)) as [(A & B & C)|Hno].
  - destruct (initialize_ok _ _ _ _ _ A B C Hs) as (_ & _ & _ & He & _). intros _. unfold conf, voted, nd_state. cbn [nd_eng nd_set_eng]. unfold rs_eff in He. rewrite He. discriminate.
  - destruct (initialize_refused _ _ _ _ _ Hs Hno) as (err & -> & _). exact Hl.
Qed.

(** ** Along runs *)

Lemma event_arrives m0 cfg w cl a i now ev : clinv m0 cfg w cl -> cl_event a cl = Some (i, now, ev) -> arrives w (stored cl) (cl_sent cl) i ev.
Proof.
  intros I He. destruct a as [i0 now0 ev0|k now0|m now0|]; cbn [cl_event] in He; [| | |discriminate].
  - destruct (local_event _ _) eqn:Hl; [|discriminate]. injection He as -> -> ->. apply ar_local, Hl.
  - destruct (cl_sent cl !! k) as [p|] eqn:Hk; [|discriminate]. destruct (Nat.eqb_spec (pk_from p) (pk_to p)) as [|Hne]; [discriminate|]. injection He as <- <- <-.
    eapply ar_request; eauto.
  - destruct (cl_replied cl !! m) as [[[j k] r]|] eqn:Hm; [|discriminate]. destruct (cl_sent cl !! k) as [p|] eqn:Hk; [|discriminate].
    destruct (Nat.eqb_spec (pk_to p) j) as [Hj|]; [|discriminate]. injection He as <- <- <-. eapply ar_reply; eauto.
    rewrite Hj. apply (ci_replied _ _ _ _ I). eapply elem_of_list_lookup_2, Hm.
Qed.
Lemma init_dec ev : (exists ms tx, ev = EMsg (MInitialize ms tx)) \/ forall ms tx, ev <> EMsg (MInitialize ms tx).
Proof. destruct ev as [|m| | | | | | | | | | | |]; try (right; discriminate). destruct m; try (right; discriminate). left. eauto. Qed.
Lemma run_lconf m0 cfg cl0 cl : cl_start cfg cl0 -> plain_run m0 cl0 cl -> exists w, clinv m0 cfg w cl /\ forall j, lconf (cl_node cl j).
Proof.
  intros H0 Hr. induction Hr as [|a c c' Hr (w & I & IH) Ha Hp].
  { exists world0. split; [apply start_clinv, H0|]. intros j. destruct H0 as (_ & _ & H0). destruct (H0 j) as (_ & now & Hf).
    destruct (fresh_facts _ _ _ Hf) as (_ & _ & _ & _ & F5 & F6 & _). intros [Hl|(x & Hx & _)]; congruence. }
  destruct (clinv_step _ _ _ _ _ _ I Ha Hp) as (i0 & w' & Hl & I'). exists w'. split; [exact I'|].
  destruct (act_step _ _ _ _ Ha Hp) as (i & now & ev & n' & outs & He & Hs & ->). intros j. cbn. destruct (decide (j = i)) as [->|Hj]; [|apply IH].
  pose proof (f_ninv _ _ _ _ I' i) as HN'. cbn in HN'. rewrite decide_True in HN' by reflexivity.
  pose proof (event_arrives _ _ _ _ _ _ _ _ I He) as Har.
  unfold plain_act in Hp. rewrite He in Hp. destruct Hp as (P1 & P2 & P3).
  destruct (init_dec ev) as [(ms & tx & ->)|Hni]; [eapply init_lconf; eauto|].
  pose proof (ci_world _ _ _ _ I) as W. pose proof (ci_core _ _ _ _ I i) as C. pose proof (ci_item _ _ _ _ I i) as It. pose proof (ci_cfg _ _ _ _ I) as Hc.
  assert (E1 : ev_ok m0 w (cl_node c i) ev) by (eapply (s_ev_ok m0 (cfg i) i w (stored c) (cl_sent c)); eauto using ci_sent).
  assert (Hf : event_fits (wd_env w) (cl_node c i) ev).
  { eapply (grow_fits m0 (cfg i)); [exact W|exact C|exact Hs|exact E1|]. intros ms tx Hx. destruct (Hni ms tx Hx). }
  assert (Hid : nd_id (cl_node c i) = i) by (pose proof (node_id _ _ _ (f_ninv _ _ _ _ I i)) as Hx; exact Hx).
  destruct (it_cand _ _ _ _ _ _ It) as (h & Hci & _).
  eapply (lconf_step (wd_env w) (cfg i) (wk_env _ _ W)); [apply C|exact Hs|exact Hni|exact Hf| | | | |exact Hci|apply IH].
  - intros v sn tx ->. destruct P1.
  - intros L Hv Hown Hin. destruct E1 as [Hk _]. specialize (Hk _ Hin). destruct Hk as [Hk|[_ Hk]]; [discriminate|]. specialize (Hk eq_refl). cbn in Hk.
    apply (vle_tf L). rewrite <- Hv. apply (c_own' _ _ _ _ _ (nc_core _ _ _ C) L Hown Hk).
  - intros l Hx. rewrite Hid. destruct (ei_el _ _ _ _ (node_ei _ _ _ HN') l Hx) as (X1 & _ & X3 & _). unfold nd_state. rewrite <- X1. exact X3.
  - intros l Hx. rewrite Hid. destruct (ei_cl _ _ _ _ (node_ei _ _ _ HN') l Hx) as (X1 & _ & X3 & _). unfold nd_state. rewrite <- X1. exact X3.
Qed.

Theorem linearizable m0 cfg i tx cl rl ap : read_answered m0 cfg i tx cl rl ap ->
  exists l, en_leader (nd_eng (cl_node cl i)) = Some l /\
    ologid_leb (rs_committed (nd_state (cl_node cl i))) rl = true /\
    (exists x, ld_noop l = Some x /\ lid_leader x = v_leader (ld_vote l) /\ ologid_leb (Some x) rl = true) /\
    (forall j l', en_leader (nd_eng (cl_node cl j)) = Some l' -> vote_le (ld_vote l') (ld_vote l)) /\
    (forall j e, has_committed (cl_node cl j) e -> ologid_leb (Some (e_log_id e)) rl = true).
Proof.
  intros Hra. apply read_linearizable with (m0 := m0) (cfg := cfg) (tx := tx) (ap := ap); [exact Hra|].
  destruct (read_quorum _ _ _ _ _ _ _ Hra) as (l & Hl & _). destruct Hra as (cl0 & before & acts & lst & clr & H0 & Hb & _). apply acts_run in Hb.
  destruct (run_lconf _ _ _ _ H0 Hb) as (_ & _ & Hc). apply (Hc i). left. congruence.
Qed.
