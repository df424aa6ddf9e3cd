(** While a node leads, its membership changes only by its own change requests, and only
    after the previous change it made has been committed (C13). *)
From Coq Require Import Bool Lia ZifyBool ZifyNat.
From stdpp Require Import base numbers option gmap relations list.
From Verif Require Import Types TypesProofs LogIdList Quorum Membership Progress RaftState
  ProgressEntry Engine Store RaftCore EnginePrims NodeSpec NodePrims ElectProofs KindProofs LogSpec LogPropSpec LogStateProofs
  EngLogProofs NodeLogProofs StepLogProofs RoleProofs OwnProofs MemSpec.
Import NodeSpec.

(** ** What keeps the memberships *)
Definition k_mem (k : Kind) : bool :=
  match k with KLeadAppend | KFollowAppend | KTruncate | KLeadCommit | KFollowCommit | KInstall | KPop => true | _ => false end.
Lemma prim_mem k e e' : prim k e e' -> k_mem k = false -> rs_mem (en_state e') = rs_mem (en_state e).
Proof.
  intros Hp Hk. destruct Hp; try discriminate; try (cbn; rewrite ?rs_accept_io_eq; reflexivity).
  - rewrite sh_trigger_eq by assumption. reflexivity.
  - rewrite logh_purge_eq. destruct (rs_purge_upto _); [|reflexivity]. destruct (ologid_leb _ _); reflexivity.
Qed.
Definition prims_mem := KindProofs.prims_field _ _ prim_mem.

Lemma lh_append_mem p e e' l : lh_append [p] e = Ok e' -> en_leader e = Some l ->
  rs_mem (en_state e') = match p with
    | PMembership m => ms_append (rs_mem (en_state e)) (mkEM (Some (mkLogId (v_leader (ld_vote l)) (next_index (ld_last l)))) m)
    | _ => rs_mem (en_state e)
    end.
Proof.
  unfold lh_append. intros H Hl. rewrite Hl in H. cbv zeta in H. rok H.
  apply rh_initiate_prims, prims_mem in H; [|reflexivity]. rewrite H. clear H.
  cbn [assign_ids last_membership e_payload e_log_id] in Hx.
  destruct p; try (injection Hx as <-; cbn; rewrite ?rs_accept_io_eq; reflexivity).
  unfold rh_append_membership in Hx. cbv zeta in Hx. rok Hx. rok Hx.
  apply rh_rebuild_progresses_prims, prims_mem in Hx0; [|reflexivity].
  apply rh_rebuild_streams_prims, prims_mem in Hx1; [|reflexivity].
  apply rh_initiate_prims, prims_mem in Hx; [|reflexivity].
  rewrite Hx, Hx1, Hx0. cbn. rewrite ?rs_accept_io_eq. reflexivity.
Qed.
Lemma blank_mem e e' : lh_append [PBlank] e = Ok e' -> rs_mem (en_state e') = rs_mem (en_state e).
Proof.
  intros H. destruct (en_leader e) as [l|] eqn:Hl; [exact (lh_append_mem _ _ _ _ H Hl)|]. unfold lh_append in H. rewrite Hl in H. discriminate.
Qed.
Lemma become_leader_mem now e e' : vh_become_leader now e = Ok e' -> rs_mem (en_state e') = rs_mem (en_state e).
Proof.
  unfold vh_become_leader. cbv zeta. set (fresh := res_bind _ _). intros H.
  assert (Hf : fresh = Ok e' -> rs_mem (en_state e') = rs_mem (en_state e)).
  { subst fresh. intros Hx. rok Hx. apply rh_rebuild_streams_prims, prims_mem in Hx0; [|reflexivity].
    assert (Q : rs_mem (en_state x) = rs_mem (en_state e)).
    { rewrite Hx0, ssh_update_state. cbn. rewrite rs_accept_io_eq. reflexivity. }
    rewrite <- Q. destruct (ologid_ltb _ _); [by apply blank_mem|]. apply rh_initiate_prims, prims_mem in Hx; [exact Hx|reflexivity]. }
  destruct (en_leader e) as [l|]; [|auto]. destruct (leader_eqb _ _); [|auto]. injection H as <-. rewrite ssh_update_state. reflexivity.
Qed.
Lemma internal_mem now e e' : vh_update_internal now e = Ok e' -> rs_mem (en_state e') = rs_mem (en_state e).
Proof.
  unfold vh_update_internal. destruct (rs_is_leader _ _); [apply become_leader_mem|]. destruct (rs_is_leading _ _); intros [= <-]; [reflexivity|].
  unfold vh_become_following. rewrite ssh_update_state. reflexivity.
Qed.
Lemma update_vote_mem now v e x : vh_update_vote now v e = Ok x -> rs_mem (en_state x.1) = rs_mem (en_state e).
Proof.
  unfold vh_update_vote. destruct (negb _); [intros [= <-]; reflexivity|]. intros H. rok H. injection H as <-. cbn [fst].
  rewrite (internal_mem _ _ _ Hx). destruct (vote_gtb _ _); cbn; rewrite ?rs_accept_io_eq; reflexivity.
Qed.
Lemma elect_mem now e e' : en_elect now e = Ok e' -> rs_mem (en_state e') = rs_mem (en_state e).
Proof.
  unfold en_elect. intros H. rok H. apply update_vote_mem in Hx. destruct (x.2); [|discriminate]. injection H as <-.
  rewrite ssh_update_state. cbn. exact Hx.
Qed.
Lemma vote_resp_mem now t r e e' : en_vote_resp now t r e = Ok e' -> rs_mem (en_state e') = rs_mem (en_state e).
Proof.
  unfold en_vote_resp. destruct (en_cand e) as [c|]; [|intros [= <-]; reflexivity]. destruct (_ && _); intros H.
  - rok H. destruct (x.2); [|injection H as <-; reflexivity]. unfold en_establish in H. cbn [en_cand set_cand] in H. unfold eh_establish in H.
    match type of H with context [if ?b then _ else _] => destruct b end; [|injection H as <-; reflexivity]. rok H. rok H.
    apply rh_rebuild_streams_prims, prims_mem in Hx0; [|reflexivity]. apply update_vote_mem in Hx1. rewrite (blank_mem _ _ H). cbn. rewrite rs_accept_io_eq. cbn.
    rewrite Hx1, Hx0. reflexivity.
  - rok H. injection H as <-. apply update_vote_mem in Hx. rewrite Hx. destruct (ologid_ltb _ _); reflexivity.
Qed.
Lemma tick_mem now hb ee eh e e' : handle_tick now hb ee eh e = Ok e' -> rs_mem (en_state e') = rs_mem (en_state e).
Proof.
  unfold handle_tick. intros H. rok H.
  assert (Q : rs_mem (en_state x) = rs_mem (en_state e)).
  { clear H. unfold tick_election in Hx. repeat case_match; try (injection Hx as <-; reflexivity); apply elect_mem in Hx; exact Hx. }
  rewrite <- Q. clear Q Hx.
  match type of H with context [ologid_leb (em_log_id (rs_eff (en_state ?a))) _] => set (e2 := a) in * end.
  assert (Q : rs_mem (en_state e2) = rs_mem (en_state x)).
  { subst e2. destruct (en_leader x) as [l|]; [|reflexivity]. destruct (_ <=? _); [|reflexivity]. cbn. destruct eh; [|reflexivity].
    pose proof (core_heartbeat_prims x) as Hp. apply prims_mem in Hp; [exact Hp|reflexivity]. }
  rewrite <- Q. clearbody e2. destruct (ologid_leb _ _); [|by injection H as <-]. unfold en_step_down in H. destruct (ologid_leb _ _); [|by injection H as <-].
  eapply internal_mem. exact H.
Qed.

(** ** The change at [y] is in flight, or committed *)
Definition flight (y : LogId) (s : RaftState) : Prop :=
  (em_log_id (ms_effective (rs_mem s)) = Some y /\ em_log_id (ms_committed (rs_mem s)) <> Some y) \/ ologid_leb (Some y) (rs_committed s) = true.
Definition k_flight (k : Kind) : bool :=
  match k with KLeadAppend | KFollowAppend | KTruncate | KInstall | KPop => true | _ => false end.
Definition k_com (k : Kind) : bool :=
  match k with KLeadCommit | KFollowCommit | KInstall | KPop => true | _ => false end.
Lemma leb_lt_trans y (a b : option LogId) : ologid_leb (Some y) a = true -> ologid_ltb a b = true -> ologid_leb (Some y) b = true.
Proof. destruct a, b; ord. Qed.
Lemma prim_flight y k e e' : prim k e e' -> k_flight k = false ->
  rs_eff (en_state e') = rs_eff (en_state e) /\ (flight y (en_state e) -> flight y (en_state e')).
Proof.
  intros Hp Hk. 
  assert (Hc : forall c s, ologid_ltb (rs_committed s) (Some c) = true ->
     rs_eff (set_mem (ms_commit (rs_mem s) (Some c)) (set_committed (Some c) s)) = rs_eff s /\
     (flight y s -> flight y (set_mem (ms_commit (rs_mem s) (Some c)) (set_committed (Some c) s)))).
  { intros c s Hlt. split; [apply rs_eff_commit|]. intros [[F1 F2]|F]; [|right; cbn; eapply leb_lt_trans; eassumption].
    unfold flight. cbn. unfold ms_commit. destruct (ologid_leb (em_log_id _) _) eqn:Hl; cbn [ms_effective ms_committed]; [|by left].
    right. rewrite F1 in Hl. exact Hl. }
  destruct (k_mem k) eqn:Hm.
  - destruct Hp; try discriminate; apply Hc; assumption.
  - unfold rs_eff, flight. rewrite (prim_mem _ _ _ Hp Hm). split; [reflexivity|].
    replace (rs_committed (en_state e')) with (rs_committed (en_state e)); [auto|].
    destruct Hp; try discriminate; try (cbn; rewrite ?rs_accept_io_eq; reflexivity).
    + rewrite sh_trigger_eq by assumption. reflexivity.
    + rewrite logh_purge_eq. destruct (rs_purge_upto _); [|reflexivity]. destruct (ologid_leb _ _); reflexivity.
Qed.
Lemma prims_flight y ks e e' : prims ks e e' -> existsb k_flight ks = false ->
  rs_eff (en_state e') = rs_eff (en_state e) /\ (flight y (en_state e) -> flight y (en_state e')).
Proof.
  intros Hp Hk. revert e e' Hp. apply prims_ind_rel; [auto|intros a b c [A1 A2] [B1 B2]; split; [congruence|auto]|].
  intros k a b Hin Hp. apply (prim_flight y _ _ _ Hp). destruct (k_flight k) eqn:Hc; [|reflexivity]. exfalso.
  assert (existsb k_flight ks = true); [|congruence]. apply existsb_exists. exists k. split; [apply elem_of_list_In; exact Hin|exact Hc].
Qed.

Section flight.
  Context (E : Env) (cfg : EngineConfig) (HE : env_ok E).
  Notation me := (ec_id cfg).
  Notation H := (ev_hist E).

  (** A step of a node that leads before and after: the membership stays, or the step is a
      change request that found the membership committed. *)
  Lemma lead_step now ev n n' outs : fits_step E cfg now ev n n' outs ->
    en_leader (nd_eng n) <> None -> en_leader (nd_eng n') <> None ->
    ((ms_effective (rs_mem (nd_state n')) = ms_effective (rs_mem (nd_state n)) /\ forall y, flight y (nd_state n) -> flight y (nd_state n')) \/
     exists ch rt tx m id, ev = EMsg (MChange ch rt tx) /\ ms_change (rs_mem (nd_state n)) ch rt = inl m /\
       rs_mem (nd_state n') = mkMS (ms_effective (rs_mem (nd_state n))) (mkEM (Some id) m) /\ rs_committed (nd_state n') = rs_committed (nd_state n)).
  Proof using HE.
    intros Hst Hl Hl'. pose proof (step_inv E cfg HE _ _ _ _ _ Hst) as [In In']. destruct Hst as (Hr & Hs & Hf & _).
    destruct (en_leader (nd_eng n)) as [l|] eqn:Hld; [|contradiction]. destruct (en_leader (nd_eng n')) as [l'|] eqn:Hld'; [|contradiction]. clear Hl Hl'.
    destruct (ei_el _ _ _ _ (node_ei E me _ In) l Hld) as (L1 & L2 & L3 & _). destruct (ei_el _ _ _ _ (node_ei E me _ In') l' Hld') as (L1' & L2' & L3' & _).
    pose proof (node_step_kinds _ _ _ _ Hs) as Hp. cbn [fst] in Hp.
    assert (Hpf : existsb k_flight (event_kinds ev n) = false -> ms_effective (rs_mem (nd_state n')) = ms_effective (rs_mem (nd_state n)) /\ forall y, flight y (nd_state n) -> flight y (nd_state n')).
    { intros Hk. split; [apply (prims_flight (mkLogId (mkLeaderId 0 0) 0) _ _ _ Hp Hk)|intros y; apply (prims_flight y _ _ _ Hp Hk)]. }
    assert (Hsame : rs_mem (nd_state n') = rs_mem (nd_state n) -> rs_committed (nd_state n') = rs_committed (nd_state n) -> ms_effective (rs_mem (nd_state n')) = ms_effective (rs_mem (nd_state n)) /\ forall y, flight y (nd_state n) -> flight y (nd_state n')).
    { unfold flight. intros -> ->. auto. }
    assert (Hkc : existsb k_changes_committed (event_kinds ev n) = false -> rs_committed (nd_state n') = rs_committed (nd_state n)) by exact (KindProofs.prims_committed _ _ _ Hp).
    destruct ev as [|m| | | | | | | | | | | |] eqn:Hev; try (left; apply Hpf; reflexivity).
    - left. clear Hpf Hkc Hp. cbn [node_step] in Hs. unfold run_one in Hs. destruct (en_out (nd_eng n)) as [|c r] eqn:Ho; [injection Hs as <- _; apply Hsame; reflexivity|].
      destruct (cond_ok _ _); [|injection Hs as <- _; apply Hsame; reflexivity].
      destruct (run_cmd_eng _ _ _ _ Hs) as (io & He & _). cbn [fst] in He. unfold nd_state in *. rewrite He in *. apply Hsame; reflexivity.
    - cbn [node_step] in Hs. unfold when_idle in Hs. destruct (runnable n) eqn:Hrn; [left; injection Hs as <- _; apply Hsame; reflexivity|].
      destruct m; try (left; apply Hpf; reflexivity); cbn [handle_msg] in Hs.
      + (* MAppend *) left. apply lift_prims in Hs as (e' & Hs & Hq); injection Hq as -> ->. destruct Hf as ((_ & Hne & _) & _).
        destruct (OwnProofs.append_follow _ _ _ _ _ _ _ _ Hs) as [(w & r & ->)|Hv]; [apply Hsame; reflexivity|].
        exfalso. rewrite (node_id E me n In) in Hne. unfold nd_state in L1'. cbn [nd_eng nd_set_eng] in L1'. congruence.
      + (* MVote *) left. apply lift_prims in Hs as (e' & Hs & Hq); injection Hq as -> ->. apply Hsame; [|apply Hkc; reflexivity].
        clear - Hs. unfold core_vote in Hs. rok Hs. injection Hs as <-. cbn. unfold en_vote_req in Hx.
        repeat case_match; try (injection Hx as <-; reflexivity); rok Hx; injection Hx as <-; cbn; eapply update_vote_mem; eassumption.
      + (* MSnapshot *) left. apply lift_prims in Hs as (e' & Hs & Hq); injection Hq as -> ->. destruct Hf as ((_ & Hne & _) & _).
        destruct (install_follow _ _ _ _ _ _ Hs) as [(w & r & ->)|Hv]; [apply Hsame; reflexivity|].
        exfalso. rewrite (node_id E me n In) in Hne. unfold nd_state in L1'. cbn [nd_eng nd_set_eng] in L1'. congruence.
      + (* MTransfer *) left. apply lift_prims in Hs as (e' & Hs & Hq); injection Hq as -> ->. apply Hsame; [|apply Hkc; reflexivity].
        clear - Hs. unfold core_transfer in Hs. unfold nd_state. cbn [nd_eng nd_set_eng]. repeat case_match; try (injection Hs as <-; reflexivity); etransitivity; [eapply elect_mem; eassumption|reflexivity].
      + (* MInitialize *) left. apply lift_prims in Hs as (e' & Hs & Hq); injection Hq as -> ->.
        destruct (initialize_refused _ _ _ _ _ Hs) as (err & -> & _); [|apply Hsame; reflexivity].
        intros (_ & Hv & _). unfold nd_state in L1. rewrite L1, Hv in L2. discriminate.
      + (* MWrite *) left. apply Hsame.
        * unfold core_write in Hs. rewrite Hld in Hs. destruct (ld_transfer l); [injection Hs as <- _; reflexivity|]. rok Hs. destruct (rs_last _); [|discriminate].
          injection Hs as <- _. exact (lh_append_mem _ _ _ _ Hx Hld).
        * unfold core_write in Hs. rewrite Hld in Hs. destruct (ld_transfer l); [injection Hs as <- _; reflexivity|]. rok Hs. destruct (rs_last _); [|discriminate].
          injection Hs as <- _. cbn. apply lh_append_prims in Hx; [|cbn; lia]. apply (KindProofs.prims_committed _ _ _ Hx). reflexivity.
      + (* MChange *) unfold core_change in Hs. destruct (ms_change _ ch retain) as [m|err] eqn:Hc; [|left; injection Hs as <- _; apply Hsame; reflexivity].
        unfold core_write in Hs. rewrite Hld in Hs. destruct (ld_transfer l); [left; injection Hs as <- _; apply Hsame; reflexivity|]. rok Hs. destruct (rs_last _); [|discriminate].
        injection Hs as <- _. right. eexists ch, retain, tx, m, _. split; [reflexivity|]. split; [exact Hc|]. split; [exact (lh_append_mem _ _ _ _ Hx Hld)|].
        cbn. apply lh_append_prims in Hx; [|cbn; lia]. apply (KindProofs.prims_committed _ _ _ Hx). reflexivity.
      + (* MElect *) left. apply lift_prims in Hs as (e' & Hs & Hq); injection Hq as -> ->. apply Hsame; [|apply Hkc; reflexivity].
        cbn. destruct (rs_is_voter _ _); [eapply elect_mem; eassumption|injection Hs as <-; reflexivity].
    - cbn [event_kinds] in *. cbn [node_step] in Hs. destruct (nd_notes n) as [|x r] eqn:Hnt; [left; apply Hpf; reflexivity|].
      destruct x as [| | | | |q]; try (left; apply Hpf; reflexivity).
      + left. cbn [handle_note] in Hs. apply Hsame; [|apply Hkc; reflexivity].
        clear - Hs. unfold when_idle in Hs. destruct (runnable n); [injection Hs as <- _; reflexivity|]. cbn [nd_set_notes nd_eng] in Hs. destruct (en_cand (nd_eng n)); [|injection Hs as <- _; reflexivity].
        destruct (vote_matches _ _); [|injection Hs as <- _; reflexivity].
        apply lift_prims in Hs as (e' & Hs & Hq); injection Hq as -> ->. exact (vote_resp_mem _ _ _ _ _ Hs).
      + left. cbn [handle_note] in Hs. apply Hsame; [|apply Hkc; reflexivity].
        clear - Hs. unfold when_idle in Hs. destruct (runnable n); [injection Hs as <- _; reflexivity|]. cbn [nd_set_notes nd_eng] in Hs.
        destruct (vote_matches _ _); [|injection Hs as <- _; reflexivity].
        apply lift_prims in Hs as (e' & Hs & Hq); injection Hq as -> ->. rok Hs. injection Hs as <-. exact (update_vote_mem _ _ _ _ Hx).
      + destruct q; left; apply Hpf; reflexivity.
    - left. cbn [node_step] in Hs. apply Hsame; [|apply Hkc; reflexivity]. clear - Hs.
      unfold when_idle in Hs. destruct (runnable n); [injection Hs as <- _; reflexivity|].
      apply lift_prims in Hs as (e' & Hs & Hq); injection Hq as -> ->. exact (tick_mem _ _ _ _ _ _ Hs).
  Qed.

  Lemma change_ids s ch rt m : ms_change s ch rt = inl m -> em_log_id (ms_effective s) = em_log_id (ms_committed s).
  Proof using. unfold ms_change. destruct (bool_decide _) eqn:Hb; [intros _; by apply bool_decide_eq_true in Hb|discriminate]. Qed.
  Lemma change_committed y s ch rt m : flight y s -> ms_change (rs_mem s) ch rt = inl m -> ologid_leb (Some y) (rs_committed s) = true.
  Proof using. intros [[H1 H2]|Hc] Hm; [|exact Hc]. apply change_ids in Hm. congruence. Qed.
  Lemma lead_flight y now ev n n' outs : fits_step E cfg now ev n n' outs -> en_leader (nd_eng n) <> None -> en_leader (nd_eng n') <> None ->
    flight y (nd_state n) -> flight y (nd_state n').
  Proof using HE.
    intros Hst H1 H2 Hy. destruct (lead_step _ _ _ _ _ Hst H1 H2) as [[_ Hf]|(ch & rt & tx & m & id & _ & Hm & _ & Hc)]; [auto|].
    right. rewrite Hc. exact (change_committed _ _ _ _ _ Hy Hm).
  Qed.
  Lemma leads_on_leader n n' : leads_on E cfg n n' -> en_leader (nd_eng n') <> None.
  Proof using. induction 1; assumption. Qed.
  Lemma leads_on_flight y n n' : leads_on E cfg n n' -> flight y (nd_state n) -> flight y (nd_state n').
  Proof using HE. induction 1 as [|n n1 n2 now ev outs Hon IH Hst Hl]; [auto|]. intros Hy. eapply lead_flight; [exact Hst|eapply leads_on_leader; exact Hon|exact Hl|auto]. Qed.

  Lemma flight_until_committed n1 n2 n3 now ev outs y : leads_on E cfg n1 n2 ->
    mem_id n1 = Some y -> em_log_id (ms_committed (rs_mem (nd_state n1))) <> Some y ->
    fits_step E cfg now ev n2 n3 outs -> en_leader (nd_eng n3) <> None ->
    ms_effective (rs_mem (nd_state n3)) <> ms_effective (rs_mem (nd_state n2)) ->
    ologid_leb (Some y) (rs_committed (nd_state n2)) = true /\ (exists ch rt tx, ev = EMsg (MChange ch rt tx)) /\
    ms_committed (rs_mem (nd_state n3)) = ms_effective (rs_mem (nd_state n2)).
  Proof using HE.
    intros Hon Hy Hc Hst Hl Hne. assert (Hf : flight y (nd_state n2)) by (eapply leads_on_flight; [exact Hon|left; auto]).
    destruct (lead_step _ _ _ _ _ Hst (leads_on_leader _ _ Hon) Hl) as [[Hs _]|(ch & rt & tx & m & id & -> & Hm & -> & _)]; [contradiction|].
    split; [exact (change_committed _ _ _ _ _ Hf Hm)|]. split; [eauto|reflexivity].
  Qed.
  Lemma one_in_flight n0 n1 n2 n3 now ev outs now' ev' outs' y :
    fits_step E cfg now ev n0 n1 outs -> en_leader (nd_eng n0) <> None -> mem_id n1 <> mem_id n0 -> mem_id n1 = Some y ->
    leads_on E cfg n1 n2 -> fits_step E cfg now' ev' n2 n3 outs' -> en_leader (nd_eng n3) <> None ->
    ms_effective (rs_mem (nd_state n3)) <> ms_effective (rs_mem (nd_state n2)) ->
    ologid_leb (Some y) (rs_committed (nd_state n2)) = true.
  Proof using HE.
    intros Hst H0 Hne Hy Hon Hst' Hl Hch.
    assert (H1 : en_leader (nd_eng n1) <> None) by (clear - Hon; induction Hon; auto).
    eapply (flight_until_committed n1 n2 n3); try eassumption.
    destruct (lead_step _ _ _ _ _ Hst H0 H1) as [[Hs _]|(ch & rt & tx & m & id & _ & _ & Hm & _)]; [unfold mem_id in Hne; congruence|].
    unfold mem_id in *. rewrite Hm in *. cbn in *. congruence.
  Qed.
  Lemma refused_in_flight n1 n2 y now ch rt tx : leads_on E cfg n1 n2 ->
    mem_id n1 = Some y -> em_log_id (ms_committed (rs_mem (nd_state n1))) <> Some y ->
    ologid_leb (Some y) (rs_committed (nd_state n2)) = false -> runnable n2 = false ->
    mem_id n2 = Some y /\
    node_step now (EMsg (MChange ch rt tx)) n2 =
      Ok (n2, [OClient tx (CChangeErr (EInProgress (em_log_id (ms_committed (rs_mem (nd_state n2)))) (Some y)))]).
  Proof using HE.
    intros Hon Hy Hc Hle Hrn. assert (Hf : flight y (nd_state n2)) by (eapply leads_on_flight; [exact Hon|left; auto]).
    destruct Hf as [[F1 F2]|F]; [|congruence]. split; [exact F1|]. cbn [node_step]. unfold when_idle. rewrite Hrn. cbn [handle_msg].
    unfold core_change, ms_change. rewrite bool_decide_eq_false_2 by congruence. rewrite F1. reflexivity.
  Qed.
End flight.
