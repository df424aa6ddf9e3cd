(** How a step of a node changes its vote, and runs seen against a growing history. *)
From Coq Require Import Bool Lia ZifyBool ZifyNat.
From stdpp Require Import base numbers option gmap relations list.
From Verif Require Import Types TypesProofs LogIdList Quorum Membership Progress RaftState ProgressEntry Engine Store RaftCore
  EnginePrims NodeSpec NodePrims VoteNodeProofs ElectProofs KindProofs LogSpec LogProofs EngLogProofs WalkProofs NodeLogProofs
  StepLogProofs LogPropSpec RoleSpec RoleProofs LogStateProofs LeadProofs OwnProofs ProtoProofs ClNodeProofs ClLogProofs.
Import NodeSpec.

(** ** A growing history *)

Definition env_le (E E' : Env) : Prop :=
  hist_le (ev_hist E) (ev_hist E') /\ forall L, pfx (ev_hist E') (ev_tip E L) (ev_tip E' L).
Lemma chain_mono H H' p es : hist_le H H' -> chain H p es -> chain H' p es.
Proof. intros Hl. revert p. induction es as [|e r IH]; intros p; cbn; [auto|]. intros [H1 H2]. split; [apply Hl, H1|apply IH, H2]. Qed.
Lemma event_fits_mono E E' n ev : env_le E E' -> event_fits E n ev -> event_fits E' n ev.
Proof.
  intros [Hl Ht]. assert (Htip : forall x L, pfx (ev_hist E) x (ev_tip E L) -> pfx (ev_hist E') x (ev_tip E' L)).
  { intros x L Hx. eapply pfx_trans; [eapply pfx_mono; eauto|apply Ht]. }
  assert (Hlf : forall v, leader_fits E n v -> leader_fits E' n v).
  { intros v (H1 & H2 & H3). split; [exact H1|]. split; [exact H2|]. intros Hv. apply Htip, H3, Hv. }
  destruct ev as [|m| | | | | | | | | | | |]; cbn; auto. destruct m; cbn; auto.
  - intros (H1 & H2 & H3 & H4 & H5). split; [auto|]. split; [eapply chain_mono; eauto|]. split; [eapply pfx_mono; eauto|]. auto.
  - intros (H1 & (H2 & H3 & H4) & H5). split; [auto|]. split; [|auto]. split; [eapply chain_mono; eauto|auto].
Qed.
Lemma own_fits_mono E E' i l cs : env_le E E' -> own_fits E i l cs -> own_fits E' i l cs.
Proof. intros [Hl _] H v es H1 H2. eapply chain_mono; [exact Hl|]. eapply H; eauto. Qed.
Lemma run_fits_mono E E' acts : env_le E E' -> forall n, run_fits E acts n -> run_fits E' acts n.
Proof.
  intros Hle. induction acts as [|a r IH]; intros n; cbn; [auto|]. destruct (node_act a n) as [x|]; [|auto]. intros [H1 H2]. split; [|apply IH, H2].
  destruct a; cbn in *.
  - destruct H1 as [H1 H3]. split; [eapply event_fits_mono; eauto|eapply own_fits_mono; eauto].
  - destruct H1 as [H1 H3]. split; [|eapply own_fits_mono; eauto]. destruct H1 as [H1|H1]; [left; eapply pfx_mono; [apply Hle|exact H1]|right; exact H1].
Qed.
Lemma fits_reachable_mono E E' cfg n : env_le E E' -> fits_reachable E cfg n -> fits_reachable E' cfg n.
Proof. intros Hle (now & n0 & acts & outs & H1 & H2 & H3). exists now, n0, acts, outs. split; [exact H1|]. split; [|exact H3]. eapply run_fits_mono; eauto. Qed.

(** ** Proposals *)

Lemma own_fits_nil E i l cs : proposals i cs = [] -> own_fits E i l cs.
Proof. intros Hp v es Hin Hv. destruct (proposals_none _ _ _ _ Hp Hin). exact Hv. Qed.
Lemma proposals_elem i cs v es : AppendInputEntries v es ∈ cs -> li_node (v_leader v) = i -> (v, es) ∈ proposals i cs.
Proof.
  intros Hin Hv. unfold proposals. apply elem_of_list_omap. exists (AppendInputEntries v es). split; [exact Hin|].
  rewrite (proj2 (Nat.eqb_eq _ _) Hv). reflexivity.
Qed.
Lemma own_fits_one E i l cs v es : proposals i cs = [(v, es)] -> chain (ev_hist E) l es -> own_fits E i l cs.
Proof.
  intros Hp Hc v' es' Hin Hv. pose proof (proposals_elem _ _ _ _ Hin Hv) as He. rewrite Hp in He.
  apply elem_of_list_singleton in He. injection He as -> ->. exact Hc.
Qed.

Lemma vchain_last v cs v' : vchain v cs v' -> v' = v \/ v' ∈ saved_votes cs.
Proof.
  revert v. induction cs as [|c r IH]; intros v; cbn [vchain]; [intros ->; auto|]. intros [_ Hc]. apply IH in Hc as [Hc|Hc].
  - destruct c; cbn [vote_after] in Hc; auto. subst v'. right. left.
  - right. unfold saved_votes. cbn. destruct c; auto. right. exact Hc.
Qed.

Section node.
  Context (E : Env) (cfg : EngineConfig) (HE : env_ok E).
  Notation me := (ec_id cfg).

  Lemma fits_step_reach now ev n n' outs : fits_step E cfg now ev n n' outs -> fits_reachable E cfg n'.
  Proof.
    intros ((now0 & n0 & acts & o & H1 & H2 & H3) & Hs & Hf & Ho). exists now0, n0, (acts ++ [Act now ev]), (o ++ outs). split; [exact H1|].
    assert (Hrun : forall acts n0 o, run_fits E acts n0 -> node_run acts n0 = Ok (n, o) ->
              run_fits E (acts ++ [Act now ev]) n0 /\ node_run (acts ++ [Act now ev]) n0 = Ok (n', o ++ outs)).
    { clear - Hs Hf Ho. induction acts as [|a r IH]; intros n0 o; cbn [app run_fits node_run].
      - intros _ [= -> <-]. cbn [node_act]. rewrite Hs. cbn. rewrite ?app_nil_r. auto.
      - destruct (node_act a n0) as [[x ox]|] eqn:Ha; cbn; [|discriminate]. intros [F1 F2] Hr.
        cbn in Hr |- *. destruct (node_run r x) as [[y oy]|] eqn:Hy; [|discriminate]. cbn in Hr. injection Hr as -> <-.
        destruct (IH x oy F2 Hy) as [I1 I2]. rewrite I2. cbn. rewrite app_assoc. auto. }
    destruct (Hrun _ _ _ H2 H3). auto.
  Qed.

  (** a step that proposes nothing leaves the vote, takes it from a message or stands for election *)
  Lemma vote_quiet now ev n n' outs : fits_reachable E cfg n -> event_fits E n ev -> node_step now ev n = Ok (n', outs) ->
    proposals (nd_id n) (step_produced ev n n') = [] ->
    (isS (en_leader (nd_eng n')) = true -> isS (en_leader (nd_eng n)) = true) ->
    rs_v (nd_state n') = rs_v (nd_state n) \/ rs_v (nd_state n') ∈ carried_votes ev n \/ rs_v (nd_state n') = own_next_vote n.
  Proof using HE.
    intros Hr Hf Hs Hp Hl. destruct (is_run ev) as [->|He]; [left; apply (step_vote _ _ _ _ _ Hs); reflexivity|].
    assert (Hst : fits_step E cfg now ev n n' outs) by (repeat split; auto; apply own_fits_nil, Hp).
    destruct (step_inv E cfg HE _ _ _ _ _ Hst) as [HN HN'].
    pose proof (node_ei E me n HN) as I. pose proof (node_ei E me n' HN') as I'.
    destruct (node_step_srel _ _ _ _ _ He Hs) as [(_ & cs & Ho & Hc & HP & _)|(t & resp & sv & c & c' & Hnt & Hcd & G1 & G2 & G3 & (_ & cs & Ho & Hc & HP & _))].
    - apply vchain_last in Hc as [Hc|Hc]; [left; exact Hc|]. rewrite Forall_forall in HP. destruct (HP _ Hc) as [_ Hsrc]. auto.
    - cbn [en_state set_leader set_cand] in Hc. apply vchain_last in Hc as [Hc|Hc]; [left; exact Hc|]. exfalso.
      rewrite Forall_forall in HP. specialize (HP _ Hc). destruct (ei_cl _ _ _ _ I c Hcd) as (C1 & C2 & C3 & _ & C5).
      assert (HL : rs_v (nd_state n') = rs_v (nd_state n) \/ isS (en_leader (nd_eng n')) = true).
      { unfold note_taken in Hnt. destruct ev; try discriminate. destruct (runnable n) eqn:Hrn; [discriminate|].
        cbn [node_step] in Hs. unfold when_idle in Hs. rewrite Hrn in Hs. destruct (nd_notes n) as [|y r]; [discriminate|]. cbn in Hnt. injection Hnt as ->.
        cbn [handle_note nd_eng nd_set_notes] in Hs. rewrite Hcd in Hs. destruct (vote_matches _ _); [|injection Hs as <- _; left; reflexivity].
        unfold lift in Hs. rok Hs. injection Hs as <- _. right. unfold en_vote_resp in Hx. rewrite Hcd, G1, G2 in Hx.
        rewrite (proj2 (vote_eqb_true _ _) eq_refl) in Hx. cbn [andb] in Hx. rewrite G3 in Hx. cbn in Hx.
        assert (Hcv : cd_vote c' = cd_vote c) by (unfold cand_grant in G3; destruct (vp_update _ _ _ _ _) as [p ok]; destruct ok; [|discriminate]; injection G3 as <- _; reflexivity).
        destruct (establish_out now (set_cand (Some c') (nd_eng n)) x c') as (_ & Hlx & _); [reflexivity|exact C5|rewrite Hcv; exact C1|rewrite Hcv; exact C2|exact Hx|].
        exact Hlx. }
      destruct HL as [HL|HL].
      { unfold nd_state in *. rewrite HL, <- C1 in HP. rewrite <- HP in C2. discriminate C2. }
      apply Hl in HL. rewrite C5 in HL. discriminate.
  Qed.
  Lemma vote_win now ev n n' outs L : fits_reachable E cfg n -> event_fits E n ev -> node_step now ev n = Ok (n', outs) -> ev <> ERun ->
    isS (en_leader (nd_eng n)) = false -> isS (en_leader (nd_eng n')) = true ->
    rs_v (nd_state n) = mkVote L false -> rs_v (nd_state n') = mkVote L true ->
    mkVote L true ∉ carried_votes ev n ->
    exists t resp sv c c', note_taken ev n = Some (NVoteResp t resp sv) /\ en_cand (nd_eng n) = Some c /\
     vr_granted resp = true /\ vr_vote resp = mkVote L false /\ cd_vote c = mkVote L false /\ cand_grant c t = Ok (c', true).
  Proof using HE.
    intros Hr Hf Hs He Hl Hl' Hv Hv' Hnc. pose proof (reach_inv E cfg HE n Hr) as HN. pose proof (node_ei E me n HN) as I.
    destruct (node_step_srel _ _ _ _ _ He Hs) as [(_ & cs & Ho & Hc & HP & HL)|(t & resp & sv & c & c' & Hnt & Hcd & G1 & G2 & G3 & _)].
    - exfalso. apply vchain_last in Hc as [Hc|Hc]; [unfold nd_state in *; rewrite Hv, Hv' in Hc; discriminate|].
      rewrite Forall_forall in HP. destruct (HP _ Hc) as [_ Hsrc]. unfold nd_state in *. rewrite Hv' in Hsrc. destruct Hsrc as [Hsrc|Hsrc]; [contradiction|]. discriminate.
    - destruct (ei_cl _ _ _ _ I c Hcd) as (C1 & C2 & C3 & _ & C5). unfold nd_state in *. exists t, resp, sv, c, c'. repeat split; auto; congruence.
  Qed.
End node.
