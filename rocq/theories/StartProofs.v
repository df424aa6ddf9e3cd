(** What a node starts with after a crash. *)
From Coq Require Import Bool Lia ZifyBool ZifyNat.
From stdpp Require Import base numbers option gmap relations list.
From Verif Require Import Types TypesProofs LogIdList Membership Progress RaftState ProgressEntry Engine Store RaftCore.
From Verif Require Import EnginePrims NodeSpec NodePrims StoreProofs LogSpec LogProofs LogPropSpec KindProofs NodeLogProofs StepLogProofs EngLogProofs LogStateProofs RoleSpec RoleProofs.
From Verif Require VoteNodeProofs ElectProofs.

Lemma filter_ext_in {A} (P Q : A -> Prop) `{HP : forall x, Decision (P x), HQ : forall x, Decision (Q x)} (l : list A) :
  (forall x, x ∈ l -> P x <-> Q x) -> filter P l = filter Q l.
Proof.
  induction l as [|a l IH]; intros Hl; [reflexivity|]. rewrite !filter_cons.
  assert (Ha : P a <-> Q a) by (apply Hl; left). rewrite IH by (intros x Hx; apply Hl; right; exact Hx).
  destruct (decide (P a)), (decide (Q a)); tauto.
Qed.
Lemma last_rev_head {A} (l : list A) : last (rev l) = head l.
Proof. destruct l as [|a l]; [reflexivity|]. cbn. apply last_snoc. Qed.
(** the effective membership [get_membership] finds *)
Lemma get_membership_eff l sm es : helper_last_memberships l (next_index (sm_applied sm)) = last_two_memberships es ->
  sm_membership sm = mem_of (sm_entries sm) -> ms_effective (helper_get_membership l sm) = mem_of (sm_entries sm ++ es).
Proof.
  intros Hl Hm. unfold helper_get_membership. rewrite Hl. unfold mem_of at 1. rewrite memberships_in_app.
  assert (Q : last (last_two_memberships es) = last (memberships_in es)).
  { unfold last_two_memberships, memberships_in. rewrite !last_rev_head. destruct (memberships_rev _) as [|? [|]]; reflexivity. }
  assert (Q2 : length (last_two_memberships es) <= 2) by (unfold last_two_memberships; rewrite rev_length, take_length; lia).
  rewrite last_app. rewrite <- Q. destruct (last_two_memberships es) as [|a [|b [|? ?]]]; cbn [last ms_effective default]; try reflexivity.
  - rewrite Hm. reflexivity.
  - cbn in Q2. lia.
Qed.

Lemma take_drop_seq x y p m : take x (drop y (seq p m)) = seq (p + y) (x `min` (m - y)).
Proof.
  apply list_eq. intros i. destruct (decide (i < x)) as [Hx|Hx].
  - rewrite lookup_take by exact Hx. rewrite lookup_drop. destruct (decide (y + i < m)) as [Hm|Hm].
    + rewrite !lookup_seq_lt by lia. f_equal. lia.
    + rewrite !lookup_seq_ge by lia. reflexivity.
  - rewrite lookup_take_ge by lia. rewrite lookup_seq_ge by lia. reflexivity.
Qed.
Lemma filter_none {A} (P : A -> Prop) `{HP : forall x, Decision (P x)} (l : list A) : (forall x, x ∈ l -> ~ P x) -> filter P l = [].
Proof.
  induction l as [|a l IH]; intros Hl; [reflexivity|]. rewrite filter_cons_False by (apply Hl; left). apply IH. intros x Hx. apply Hl. right. exact Hx.
Qed.
Lemma max_lt a b : (if ologid_ltb b a then a else b) = ologid_max a b.
Proof.
  unfold ologid_max. destruct (ologid_ltb b a) eqn:H1, (ologid_ltb a b) eqn:H2; try reflexivity.
  - exfalso. revert H1 H2. ord.
  - apply ologid_leb_antisym; revert H1 H2; ord.
Qed.
Lemma start_committed_max d sm : start_committed d sm = ologid_max (sm_applied sm) (dk_committed d).
Proof. apply max_lt. Qed.
Section start.
  Context (E : Env) (cfg : EngineConfig) (HE : env_ok E).
  Notation me := (ec_id cfg).
  Notation H := (ev_hist E).
  Lemma startup_frame now e e' : en_leader e = None -> en_startup now e = Ok e' ->
    rs_eff (en_state e') = rs_eff (en_state e) /\ rs_committed (en_state e') = rs_committed (en_state e) /\
    rs_snap (en_state e') = rs_snap (en_state e) /\ rs_v (en_state e') = rs_v (en_state e) /\
    (en_leader e' = None -> en_out e' = en_out e).
  Proof.
    intros Hl Hs. pose proof (en_startup_prims _ _ _ Hs) as Hp.
    pose proof (prims_field _ _ prim_committed _ _ _ Hp eq_refl) as H1.
    pose proof (prims_field _ _ prim_snap _ _ _ Hp eq_refl) as H2.
    unfold en_startup in Hs. destruct (rs_is_leader _ _) eqn:Hld.
    - unfold vh_update_internal in Hs. rewrite Hld in Hs. apply become_leader_rk in Hs; [|exact Hld].
      unfold rk in Hs. injection Hs as _ -> -> _ Hle _. repeat split; auto. intros Hn. rewrite Hn in Hle. discriminate.
    - injection Hs as <-. repeat split.
  Qed.
  Lemma range_all l c : log_ok H l -> ls_read (Nat.max (next_index (ls_purged l)) c) (next_index (ls_last l)) l =
    filter (fun e => c <= e_index e) (ls_entries l).
  Proof using HE.
    intros Hl. unfold ls_read. apply filter_ext_in. intros x Hx. pose proof Hl as [_ Hc].
    destruct (chain_elem H (proj1 HE) _ _ _ Hc Hx) as (_ & _ & Ha & Hb & _).
    rewrite ls_last_es. lia.
  Qed.
  Lemma start_ids_planned n' : node_inv E me n' -> so_pending (nd_store n') = [] -> en_out (nd_eng n') = [] ->
    rs_last (nd_state n') = ls_last (dk_log (so_disk (nd_store n'))) /\ rs_last_purged (nd_state n') = ls_purged (dk_log (so_disk (nd_store n'))).
  Proof.
    intros In Hp Ho. pose proof (node_ec E me _ In) as C. rewrite (ec_last E _ _ C), (ec_last_purged E _ _ C).
    unfold planned, so_view. rewrite Hp, Ho. auto.
  Qed.
  Lemma restart now k j keep n n' outs : fits_reachable E cfg n -> node_act (Crash now k j keep) n = Ok (n', outs) ->
    act_fits E (Crash now k j keep) n n' ->
    let d := crash_disk k j (nd_store n) in let sm := sm_crash keep (nd_sm n) in
    let c := ologid_max (sm_applied sm) (dk_committed d) in let d' := so_disk (nd_store n') in
    (rs_v (nd_state n') = default vote_default (dk_vote d) /\ stored_vote n' = default vote_default (dk_vote d)) /\
    (rs_committed (nd_state n') = c /\ sm_applied (nd_sm n') = c) /\
    (exists es, sm_entries (nd_sm n') = sm_entries sm ++ es /\ (forall e, e ∈ es -> in_log (dk_log d) e) /\
       map e_index es = seq (next_index (sm_applied sm)) (next_index c - next_index (sm_applied sm))) /\
    (nd_smq n' = [] /\ nd_builds n' = [] /\ nd_notes n' = [] /\ nd_streams n' = [] /\ so_pending (nd_store n') = []) /\
    (d' = d \/ (ologid_ltb (ls_last (dk_log d)) (sm_applied sm) = true /\ d' = mkDisk (dk_vote d) (dk_committed d) (mkLS (sm_applied sm) []))) /\
    (en_leader (nd_eng n') = None -> en_out (nd_eng n') = [] /\ rs_last (nd_state n') = ls_last (dk_log d') /\
                                      rs_last_purged (nd_state n') = ls_purged (dk_log d')) /\
    (rs_snap (nd_state n') = match sm_snapshot (nd_sm n') with Some sn => sn_meta sn | None => sm_default end /\
     (sm_snapshot (nd_sm n') = sm_snapshot sm \/
      (sm_snapshot sm = None /\ exists sn, sm_snapshot (nd_sm n') = Some sn /\ sn_data sn = sm_entries (nd_sm n') /\ sm_last (sn_meta sn) = c))) /\
    rs_eff (nd_state n') = mem_of (sm_entries (nd_sm n') ++ filter (fun e => next_index c <= e_index e) (ls_entries (dk_log d))).
  Proof using HE.
    intros Hr Hs (Hcf & Hown) d sm c d'. pose proof (reach_inv E cfg HE n Hr) as In.
    assert (In' : node_inv E me n').
    { apply (node_act_inv E me HE (Crash now k j keep) n (n', outs) Hs); [split; assumption|apply (node_id E me n In)|exact In]. }
    cbn [node_act] in Hs. rok Hs. injection Hs as -> _. unfold node_restart in Hx. fold d sm in Hx.
    pose proof (crash_disk_ok E me HE k j keep n In) as K. fold d sm in K, Hcf.
    pose proof (VoteNodeProofs.node_start_vinv _ _ _ _ _ Hx) as (_ & Hsv & Hrv).
    unfold node_start in Hx. rok Hx. destruct x as [[s d1] sm2]. rok Hx. injection Hx as <-.
    apply helper_initial_inv in Hx0 as (sm1 & ll & lp & ids & Hx). cbv zeta in Hx.
    assert (Hc : start_committed d sm = c).
    { apply start_committed_max. }
    rewrite Hc in Hx. destruct Hx as (Hre & Hd & Hld & Hsm2 & Hss).
    pose proof Hre as Hre'. rewrite <- Hc in Hre'. destruct (reapply_ok E HE d sm sm1 K Hre') as (M1 & M2 & M3). rewrite Hc in M2. clear Hre'.
    destruct (startup_frame _ (engine_new s (en_cfg (nd_eng n))) _ eq_refl Hx1) as (F1 & F2 & F3 & F4 & F5). cbn [engine_new en_state en_out] in F1, F2, F3, F4, F5.
    assert (E2 : sm_entries sm2 = sm_entries sm1 /\ sm_applied sm2 = sm_applied sm1) by (rewrite Hsm2; repeat case_match; auto).
    destruct E2 as [E2 A2].
    pose proof K as [D1 D2 D3 D4 D5 D6 D7].
    unfold nd_state in *. cbn [nd_eng nd_store so_disk nd_sm nd_smq nd_builds nd_notes nd_streams so_pending] in *.
    split; [split; [exact Hrv|exact Hsv]|].
    split; [split; [rewrite F2, Hss; reflexivity|rewrite A2; exact M2]|].
    split.
    { rewrite E2. destruct (ologid_ltb (sm_applied sm) c) eqn:Hlt.
      - unfold helper_reapply in Hre. destruct (Nat.eqb_spec (length (ls_read (next_index (sm_applied sm)) (next_index c) (dk_log d))) (next_index c - next_index (sm_applied sm))) as [Hlen|]; [|discriminate].
        injection Hre as <-. exists (ls_read (next_index (sm_applied sm)) (next_index c) (dk_log d)).
        assert (Hap : forall es s0, sm_entries (sm_apply es s0) = sm_entries s0 ++ es).
        { induction es as [|y es IH]; intros s0; [symmetry; apply app_nil_r|]. unfold sm_apply in *. cbn. rewrite IH. cbn. rewrite <- app_assoc. reflexivity. }
        split; [apply Hap|]. split.
        + intros y Hy. unfold ls_read in Hy. apply elem_of_list_filter in Hy as [_ Hy]. exact Hy.
        + rewrite <- Hlen. clear - D1 HE Hlen. unfold ls_read in *. destruct D1 as [_ Dc].
          rewrite (filter_chain_range H (proj1 HE) _ _ _ _ Dc) in *.
          set (a := next_index (sm_applied sm)) in *. set (b := next_index c) in *. set (p := next_index (ls_purged (dk_log d))) in *.
          assert (Hseq : map e_index (ls_entries (dk_log d)) = seq p (length (ls_entries (dk_log d)))).
          { apply list_eq. intros i. rewrite list_lookup_fmap. destruct (ls_entries (dk_log d) !! i) as [y|] eqn:Hy; cbn.
            - rewrite (chain_index H (proj1 HE) _ _ _ _ Dc Hy). symmetry. apply lookup_seq. split; [reflexivity|]. eapply lookup_lt_Some. exact Hy.
            - symmetry. apply lookup_seq_ge. apply lookup_ge_None. exact Hy. }
          rewrite take_length, drop_length in *.
          rewrite <- firstn_map, <- skipn_map, Hseq. rewrite take_drop_seq, Hlen.
          destruct (decide (b - a = 0)) as [Hz|Hz]; [rewrite Hz; reflexivity|]. f_equal; lia.
      - destruct Hre as [-> Hca]. exists []. rewrite app_nil_r. split; [reflexivity|]. split; [intros y Hy; apply elem_of_nil in Hy as []|].
        rewrite Hca, Nat.sub_diag. reflexivity. }
    split; [repeat split|].
    split.
    { destruct Hd as [(Hsp & Hd1 & Hl1 & _)|(_ & Hd1 & _)]; [|left; exact Hd1]. right.
      assert (Hc' : exists x, c = Some x) by (clear - Hsp; clearbody c; destruct c as [y|]; [eauto|contradiction]). destruct Hc' as [x0 Hcx]. rewrite Hcx in Hsp, Hl1. unfold start_purges in Hsp.
      assert (Hcc : c = sm_applied sm).
      { unfold c in Hcx |- *. destruct (ologid_max_cases (sm_applied sm) (dk_committed d)) as [Q|Q]; [exact Q|].
        exfalso. rewrite Q in Hcx. rewrite Hcx in D3. apply (pfx_le H (proj1 HE)) in D3. revert D3 Hsp. clear. generalize (ls_last (dk_log d)). ord. }
      rewrite <- Hcc, Hcx. split; [exact Hsp|]. unfold d'. rewrite Hd1. f_equal. rewrite Hl1. unfold ls_purge. f_equal.
      destruct Hcf as [Hcf|(_ & _ & F)].
      { exfalso. rewrite <- Hcc, Hcx in Hcf. apply (pfx_le H (proj1 HE)) in Hcf. revert Hcf Hsp. clear. generalize (ls_last (dk_log d)). ord. }
      rewrite <- Hcc, Hcx in F. cbn in F. apply filter_none. intros y Hy. destruct D1 as [_ Dc].
      destruct (chain_elem H (proj1 HE) _ _ _ Dc Hy) as (_ & _ & _ & Hi & _). rewrite <- ls_last_es in Hi. lia. }
    split.
    { intros Hnl. specialize (F5 Hnl). split; [exact F5|]. destruct (start_ids_planned _ In' eq_refl F5) as [P1 P2]. split; [exact P1|exact P2]. }
    split.
    { split; [rewrite F3, Hss; reflexivity|]. rewrite Hsm2. rewrite <- M3. destruct (sm_snapshot sm1) as [sn|] eqn:Hsn; [left; rewrite Hsn; reflexivity|].
      destruct lp; [|left; rewrite Hsn; reflexivity]. right. split; [reflexivity|]. eexists. split; [reflexivity|]. cbn. auto. }
    rewrite F1, Hss. unfold rs_eff. cbn [rs_mem]. rewrite E2. apply get_membership_eff; [|apply M1].
    unfold helper_last_memberships. rewrite M2. rewrite (range_all _ _ D1). reflexivity.
  Qed.
End start.
