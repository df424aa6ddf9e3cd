(** A leader that hands over its leadership does so until the leadership ends (C28). *)
From Coq Require Import Bool Lia ZifyBool ZifyNat.
From stdpp Require Import base numbers option gmap relations list.
From Verif Require Import Types TypesProofs LogIdList Quorum Membership Progress RaftState
  ProgressEntry Engine Store RaftCore EnginePrims NodeSpec NodePrims ElectProofs KindProofs LogSpec LogPropSpec LogStateProofs
  EngLogProofs NodeLogProofs StepLogProofs RoleSpec RoleProofs OwnProofs MemSpec.
Import NodeSpec.

Definition handing (e : Engine) : Prop := exists l, en_leader e = Some l /\ ld_transfer l <> None.
Definition k_transfer (k : Kind) : bool := match k with KLeaderFresh | KEstablish | KFollow => true | _ => false end.
Lemma prims_handing ks e e' : prims ks e e' -> existsb k_transfer ks = false -> handing e -> handing e'.
Proof.
  intros Hp Hk. revert e e' Hp. apply (prims_ind_rel ks (fun e e' => handing e -> handing e')); [auto|auto|].
  intros k a b Hin Hp (l & Hl & Ht).
  assert (Hn : k_transfer k = false).
  { destruct (k_transfer k) eqn:Hc; [|reflexivity]. exfalso. assert (existsb k_transfer ks = true); [|congruence].
    apply existsb_exists. exists k. split; [apply elem_of_list_In; exact Hin|exact Hc]. }
  destruct (prim_transfer k a b l Hp) as (l' & H1 & H2 & _); try (intros ->; discriminate); try assumption. exists l'. auto.
Qed.
Lemma internal_handing now e e' l l' : vh_update_internal now e = Ok e' -> en_leader e = Some l -> ld_transfer l <> None ->
  v_leader (ld_vote l) = v_leader (rs_v (en_state e)) -> en_leader e' = Some l' -> ld_transfer l' <> None.
Proof.
  unfold vh_update_internal. intros H Hl Ht Hv Hl'. destruct (rs_is_leader _ _).
  - unfold vh_become_leader in H. cbv zeta in H. rewrite Hl, Hv in H.
    assert (leader_eqb (v_leader (rs_v (en_state e))) (v_leader (rs_v (en_state e))) = true) as Hr by (by apply leader_eqb_true). rewrite Hr in H.
    injection H as <-. unfold ssh_update in Hl'. cbv zeta in Hl'. destruct (bool_decide _); cbn in Hl'; injection Hl' as <-; exact Ht.
  - destruct (rs_is_leading _ _); injection H as <-; [congruence|]. unfold vh_become_following, ssh_update in Hl'. cbv zeta in Hl'. destruct (bool_decide _); cbn in Hl'; discriminate.
Qed.
Lemma update_vote_handing now v e x l l' : vh_update_vote now v e = Ok x -> en_leader e = Some l -> ld_transfer l <> None ->
  ld_vote l = rs_v (en_state e) -> en_leader x.1 = Some l' -> (vote_geb v (rs_v (en_state e)) = true -> v = rs_v (en_state e)) -> ld_transfer l' <> None.
Proof.
  unfold vh_update_vote. intros H Hl Ht Hv Hl' Hvv. destruct (vote_geb v (rs_v (en_state e))) eqn:Hge; cbn [negb] in H.
  - rewrite (Hvv eq_refl) in *. rok H. injection H as <-. cbn [fst] in Hl'. rewrite vote_gtb_negb, vote_geb_refl in Hx. cbn [negb] in Hx.
    eapply internal_handing; [exact Hx|exact Hl|exact Ht| |exact Hl']. cbn. rewrite Hv. reflexivity.
  - injection H as <-. cbn in Hl'. congruence.
Qed.

(** The receiver's log stays. *)
Lemma transfer_keeps_log now req e e' : core_transfer now req e = Ok e' -> same_log (en_state e) (en_state e').
Proof.
  unfold core_transfer. destruct (vote_eqb _ _); [|intros [= <-]; repeat split]. cbv zeta. destruct (_ =? _); [|intros [= <-]; repeat split].
  set (e1 := upd _ e). assert (H1 : same_log (en_state e) (en_state e1)) by repeat split. intros H.
  assert (H2 : same_log (en_state e1) (en_state e')); [|unfold same_log in *; intuition congruence]. clear H1. clearbody e1. clear e req.
  unfold en_elect in H. cbv zeta in H. rok H. destruct x as [e2 b]. cbn [fst snd] in H. destruct b; [|discriminate]. injection H as <-.
  rewrite ssh_update_eq. unfold vh_update_vote in Hx. cbv zeta in Hx. destruct (negb _); [discriminate|]. rok Hx. injection Hx as <-. cbn [en_state upd set_server].
  set (e3 := if vote_gtb _ _ then _ else _) in Hx0.
  assert (H3 : same_log (en_state e1) (en_state e3)) by (unfold e3; destruct (vote_gtb _ _); [|repeat split]; cbn; rewrite rs_accept_io_eq; repeat split).
  assert (Hv : v_committed (rs_v (en_state e3)) = false).
  { assert (Hg : vote_gtb (vote_new (S (li_term (v_leader (rs_v (en_state e1))))) (en_id e1)) (rs_v (en_state (en_new_candidate now (vote_new (S (li_term (v_leader (rs_v (en_state e1))))) (en_id e1)) e1))) = true).
    { cbn. pose proof (next_vote_gt e1 (en_id e1)) as Hg. exact Hg. }
    unfold e3. rewrite Hg. cbn. rewrite rs_accept_io_v. reflexivity. }
  assert (H4 : same_log (en_state e3) (en_state x)); [|unfold same_log in *; cbn; intuition congruence]. clearbody e3. clear H3 e1.
  unfold vh_update_internal in Hx0. unfold rs_is_leader in Hx0. rewrite Hv, andb_false_r in Hx0. destruct (rs_is_leading _ _); injection Hx0 as <-; [repeat split|].
  unfold vh_become_following. rewrite ssh_update_eq. repeat split.
Qed.

Section transfer.
  Context (E : Env) (cfg : EngineConfig) (HE : env_ok E).
  Notation me := (ec_id cfg).

  Lemma lead_handing now ev n n' outs : fits_step E cfg now ev n n' outs ->
    handing (nd_eng n) -> en_leader (nd_eng n') <> None -> handing (nd_eng n').
  Proof using HE.
    intros Hst Hh Hl'. pose proof (step_inv E cfg HE _ _ _ _ _ Hst) as [In In']. destruct Hst as (Hr & Hs & Hf & _).
    pose proof (node_ei E me _ In) as I. pose proof (node_id E me n In) as Hid.
    destruct Hh as (l & Hld & Ht). destruct (en_leader (nd_eng n')) as [l'|] eqn:Hld'; [|contradiction]. clear Hl'.
    destruct (ei_el _ _ _ _ I l Hld) as (L1 & L2 & L3 & _ & _ & _ & L7). destruct (ei_el _ _ _ _ (node_ei E me _ In') l' Hld') as (L1' & L2' & L3' & _).
    pose proof (node_step_kinds _ _ _ _ Hs) as Hp. cbn [fst] in Hp.
    assert (Hpf : existsb k_transfer (event_kinds ev n) = false -> handing (nd_eng n')).
    { intros Hk. apply (prims_handing _ _ _ Hp Hk). exists l. auto. }
    assert (Hsame : en_leader (nd_eng n') = en_leader (nd_eng n) -> handing (nd_eng n')).
    { intros Heq. exists l. rewrite Heq. auto. }
    assert (Hown : forall v, rs_v (nd_state n') = v -> vote_geb v (rs_v (nd_state n)) = true -> (li_node (v_leader v) = me -> vote_known n v) -> v = rs_v (nd_state n)).
    { intros v Hv Hge Hk. assert (Hm : li_node (v_leader v) = me) by (rewrite <- Hv; unfold nd_state; congruence). destruct (Hk Hm) as [Hle _].
      destruct (vote_gtb v (rs_v (nd_state n))) eqn:Hg; [|].
      - exfalso. unfold vote_le in Hle. rewrite vote_gtb_negb, Hle in Hg. discriminate.
      - destruct (decide (v = rs_v (nd_state n))) as [|Hne]; [assumption|]. exfalso.
        assert (vote_gtb v (rs_v (nd_state n)) = true); [|congruence]. apply vote_gtb_iff. auto. }
    destruct ev as [|m| | | | | | | | | | | |] eqn:Hev; try (apply Hpf; reflexivity).
    - cbn [node_step] in Hs. unfold when_idle in Hs. destruct (runnable n) eqn:Hrn; [injection Hs as <- _; apply Hsame; reflexivity|].
      destruct m; try (apply Hpf; reflexivity); cbn [handle_msg] in Hs; try (apply lift_prims in Hs as (e' & Hs & Hq); injection Hq as -> ->; cbn [nd_eng nd_set_eng] in * ).
      + destruct Hf as ((_ & Hne & _) & _).
        destruct (OwnProofs.append_follow _ _ _ _ _ _ _ _ Hs) as [(w & r & ->)|Hv]; [apply Hsame; reflexivity|]. exfalso. congruence.
      + unfold core_vote in Hs. rok Hs. injection Hs as <-. cbn [push en_leader] in *. unfold en_vote_req in Hx.
        destruct (_ && _); [injection Hx as <-; apply Hsame; reflexivity|]. destruct (negb _); [injection Hx as <-; apply Hsame; reflexivity|].
        rok Hx. injection Hx as <-. cbn [fst] in *. exists l'. split; [exact Hld'|].
        eapply update_vote_handing; [exact Hx0|exact Hld|exact Ht|exact L1|exact Hld'|]. intros Hge.
        destruct (update_vote_v _ _ _ _ Hx0) as (V1 & V2 & V3). apply Hown; [apply V3; congruence|exact Hge|]. cbn in Hf. unfold own_vote_known in Hf. rewrite Hid in Hf. exact Hf.
      + destruct Hf as ((_ & Hne & _) & _).
        destruct (install_follow _ _ _ _ _ _ Hs) as [(w & r & ->)|Hv]; [apply Hsame; reflexivity|]. exfalso. congruence.
      + unfold core_transfer in Hs. destruct (vote_eqb _ _); [|injection Hs as <-; apply Hsame; reflexivity]. cbv zeta in Hs.
        destruct (en_id _ =? _); [|injection Hs as <-; apply Hsame; reflexivity]. exfalso. apply elect_spec in Hs as (Hv & _). rewrite L1', Hv in L2'. discriminate.
      + destruct (initialize_refused _ _ _ _ _ Hs) as (err & -> & _); [|apply Hsame; reflexivity].
        intros (_ & Hv & _). rewrite L1, Hv in L2. discriminate.
      + cbn in Hf. congruence.
    - cbn [event_kinds] in *. cbn [node_step] in Hs. destruct (nd_notes n) as [|x r] eqn:Hnt; [apply Hpf; reflexivity|].
      unfold when_idle in Hs. destruct (runnable n) eqn:Hrn; [injection Hs as <- _; apply Hsame; reflexivity|].
      destruct x as [| | | | |q]; try (apply Hpf; reflexivity).
      + cbn [handle_note nd_set_notes nd_eng] in Hs. destruct (en_cand (nd_eng n)) as [c|] eqn:Hc; [|injection Hs as <- _; apply Hsame; reflexivity].
        destruct (ei_cl _ _ _ _ I c Hc) as (_ & _ & _ & _ & Hln). congruence.
      + cbn [handle_note nd_set_notes nd_eng] in Hs.
        destruct (vote_matches _ _); [|injection Hs as <- _; apply Hsame; reflexivity].
        apply lift_prims in Hs as (e' & Hs & Hq); injection Hq as -> ->. rok Hs. injection Hs as <-. cbn [nd_eng nd_set_eng] in *. exists l'. split; [exact Hld'|].
        eapply update_vote_handing; [exact Hx|exact Hld|exact Ht|exact L1|exact Hld'|]. intros Hge.
        destruct (update_vote_v _ _ _ _ Hx) as (V1 & V2 & V3). apply Hown; [apply V3; congruence|exact Hge|].
        destruct In as (w0 & pcs & wv & D & N). pose proof (n_notes _ _ _ _ _ _ _ N) as Hno. rewrite Hnt in Hno. apply Forall_cons in Hno as [Hno _]. exact Hno.
      + destruct q; apply Hpf; reflexivity.
    - cbn [node_step] in Hs. unfold when_idle in Hs. destruct (runnable n); [injection Hs as <- _; apply Hsame; reflexivity|].
      apply lift_prims in Hs as (e' & Hs & Hq); injection Hq as -> ->. cbn [nd_eng nd_set_eng] in *. unfold handle_tick in Hs. rok Hs.
      assert (x = nd_eng n) as ->.
      { unfold tick_election in Hx. rewrite L7 in Hx. rewrite bool_decide_eq_true_2 in Hx by reflexivity. congruence. }
      rewrite Hld in Hs. set (e2 := if ld_next_heartbeat l <=? now then _ else _) in Hs.
      assert (Q : en_state e2 = en_state (nd_eng n) /\ exists l2, en_leader e2 = Some l2 /\ ld_transfer l2 = ld_transfer l /\ ld_vote l2 = ld_vote l).
      { unfold e2. destruct (_ <=? _); [|eauto]. unfold core_heartbeat. rewrite Hld. destruct enable_hb; [destruct (ld_transfer l) eqn:Htt|]; cbn; split; eauto 6. }
      destruct Q as (Q1 & l2 & Q2 & Q3 & Q4). clearbody e2. exists l'. split; [exact Hld'|].
      destruct (ologid_leb _ _); [|injection Hs as <-; congruence]. unfold en_step_down in Hs. destruct (ologid_leb _ _); [|injection Hs as <-; congruence].
      eapply internal_handing; [exact Hs|exact Q2|congruence| |exact Hld']. rewrite Q1. congruence.
  Qed.
  Lemma leads_on_handing n n' : leads_on E cfg n n' -> handing (nd_eng n) -> handing (nd_eng n').
  Proof using HE. induction 1 as [|n n1 n2 now ev outs Hon IH Hst Hl]; [auto|]. intros Hh. eapply lead_handing; [exact Hst|auto|exact Hl]. Qed.

  (** Meanwhile nothing is proposed, and a tick or a requested heartbeat sends none. *)
  Lemma handing_quiet now ev n n' outs : fits_step E cfg now ev n n' outs -> handing (nd_eng n) ->
    proposals (nd_id n) (step_produced ev n n') = [].
  Proof using HE.
    intros Hst (l & Hl & Ht). pose proof (step_inv E cfg HE _ _ _ _ _ Hst) as [In _]. destruct Hst as (Hr & Hs & Hf & _).
    destruct (ei_el _ _ _ _ (node_ei E me _ In) l Hl) as (L1 & L2 & L3 & _).
    assert (Hw : forall p tx n2 o, core_write p tx n = Ok (n2, o) -> n2 = n).
    { intros p tx n2 o H. unfold core_write in H. rewrite Hl in H. destruct (ld_transfer l); [injection H as <- _; reflexivity|congruence]. }
    assert (Hq : n' = n -> proposals (nd_id n) (step_produced ev n n') = []).
    { intros ->. unfold step_produced. destruct ev; try reflexivity; rewrite <- (app_nil_r (en_out (nd_eng n))) at 2; rewrite drop_app; reflexivity. }
    destruct (own_step E me now ev n n' outs In (reach_RI E cfg HE _ Hr) Hf Hs) as [[Hp _]|[(p & _ & _ & _ & _ & _ & [(_ & _ & Hev)|(Hn & _)])|(ms & tx & _ & _ & _ & _ & Hv & _)]]; [exact Hp| | |].
    - apply Hq. destruct Hev as [(d & tx & -> & _)|(ch & rt & tx & m & -> & _ & Hm)]; cbn [node_step] in Hs; unfold when_idle in Hs;
        (destruct (runnable n); [injection Hs as <- _; reflexivity|]); cbn [handle_msg] in Hs; [eapply Hw; exact Hs|].
      unfold core_change in Hs. rewrite Hm in Hs. eapply Hw. exact Hs.
    - rewrite Hl in Hn. discriminate.
    - exfalso. unfold nd_state in Hv. rewrite L1, Hv in L2. discriminate.
  Qed.
  Lemma handing_no_heartbeat now ev n n' outs : fits_step E cfg now ev n n' outs -> handing (nd_eng n) ->
    (exists hb ee eh, ev = ETick hb ee eh) \/ ev = EMsg MHeartbeat -> step_produced ev n n' = [].
  Proof using HE.
    intros Hst (l & Hl & Ht) Hev. pose proof (step_inv E cfg HE _ _ _ _ _ Hst) as [In _]. destruct Hst as (Hr & Hs & Hf & _).
    destruct (ei_el _ _ _ _ (node_ei E me _ In) l Hl) as (L1 & L2 & L3 & _ & _ & _ & L7).
    assert (Hq : ev <> ERun -> en_out (nd_eng n') = en_out (nd_eng n) -> step_produced ev n n' = []).
    { intros He Ho. rewrite (produced_app ev n n' [] He) by (rewrite app_nil_r; exact Ho). reflexivity. }
    assert (Hhb : core_heartbeat (nd_eng n) = nd_eng n) by (unfold core_heartbeat; rewrite Hl; destruct (ld_transfer l); [reflexivity|congruence]).
    destruct Hev as [(hb & ee & eh & ->)| ->]; apply Hq; try discriminate; cbn [node_step] in Hs; unfold when_idle in Hs;
      (destruct (runnable n); [injection Hs as <- _; reflexivity|]); [|cbn [handle_msg] in Hs; rewrite Hhb in Hs; injection Hs as <- _; reflexivity].
    apply lift_prims in Hs as (e' & Hs & Hq'); injection Hq' as -> ->. cbn [nd_eng nd_set_eng] in *. unfold handle_tick in Hs. rok Hs.
    assert (x = nd_eng n) as ->.
    { unfold tick_election in Hx. rewrite L7 in Hx. rewrite bool_decide_eq_true_2 in Hx by reflexivity. congruence. }
    rewrite Hl, Hhb in Hs. set (e2 := if ld_next_heartbeat l <=? now then _ else _) in Hs.
    assert (Q : en_state e2 = en_state (nd_eng n) /\ en_out e2 = en_out (nd_eng n) /\ exists l2, en_leader e2 = Some l2 /\ ld_vote l2 = ld_vote l).
    { unfold e2. destruct (_ <=? _); [|eauto]. destruct eh; cbn; eauto. }
    destruct Q as (Q1 & Q2 & l2 & Q3 & Q4). clearbody e2. rewrite <- Q2.
    destruct (ologid_leb _ _); [|injection Hs as <-; reflexivity]. unfold en_step_down in Hs. destruct (ologid_leb _ _); [|injection Hs as <-; reflexivity].
    assert (Hssh : forall e, en_out (ssh_update e) = en_out e) by (intros e; unfold ssh_update; cbv zeta; destruct (bool_decide _); reflexivity).
    unfold vh_update_internal in Hs. destruct (rs_is_leader _ _).
    - unfold vh_become_leader in Hs. cbv zeta in Hs. rewrite Q3, Q4, Q1, L1 in Hs.
      assert (leader_eqb (v_leader (rs_v (en_state (nd_eng n)))) (v_leader (rs_v (en_state (nd_eng n)))) = true) as Hrf by (by apply leader_eqb_true). rewrite Hrf in Hs.
      injection Hs as <-. rewrite Hssh. reflexivity.
    - destruct (rs_is_leading _ _); injection Hs as <-; [reflexivity|]. unfold vh_become_following. rewrite Hssh. reflexivity.
  Qed.
  Lemma handing_write now d tx n l to : en_leader (nd_eng n) = Some l -> ld_transfer l = Some to -> runnable n = false ->
    node_step now (EMsg (MWrite d tx)) n = Ok (n, [OClient tx (CForward (fst <$> rs_new_forward (nd_state n) to))]).
  Proof using. intros Hl Ht Hrn. cbn [node_step]. unfold when_idle. rewrite Hrn. cbn [handle_msg]. eapply transferring_write; eassumption. Qed.

  Lemma transfer_lasts n n' : leads_on E cfg n n' -> (exists l to, en_leader (nd_eng n) = Some l /\ ld_transfer l = Some to) ->
    (exists l to, en_leader (nd_eng n') = Some l /\ ld_transfer l = Some to /\
       forall now d tx, runnable n' = false ->
         node_step now (EMsg (MWrite d tx)) n' = Ok (n', [OClient tx (CForward (fst <$> rs_new_forward (nd_state n') to))])) /\
    forall now ev n'' outs, fits_step E cfg now ev n' n'' outs ->
      proposals (nd_id n') (step_produced ev n' n'') = [] /\
      ((exists hb ee eh, ev = ETick hb ee eh) \/ ev = EMsg MHeartbeat -> step_produced ev n' n'' = []).
  Proof using HE.
    intros Hon (l & to & Hl & Ht).
    assert (Hh : handing (nd_eng n')) by (eapply leads_on_handing; [exact Hon|exists l; split; [exact Hl|congruence]]).
    split; [|intros now ev n'' outs Hst; split; [eapply handing_quiet; eassumption|eapply handing_no_heartbeat; eassumption]].
    destruct Hh as (l' & Hl' & Ht'). destruct (ld_transfer l') as [to'|] eqn:Hto; [|contradiction]. exists l', to'. split; [exact Hl'|]. split; [exact Hto|].
    intros now d tx Hrn. eapply handing_write; eassumption.
  Qed.
End transfer.
