(** Every positive answer a node has sent is supported by its disk, through its steps. *)
From Coq Require Import Bool Lia ZifyBool ZifyNat.
From stdpp Require Import base numbers option gmap relations list.
From Verif Require ElectProofs.
From Verif Require Import Types TypesProofs LogIdList LogIdListProofs Quorum Membership Progress RaftState
  ProgressEntry Engine EnginePrims Store RaftCore NodeSpec NodePrims KindProofs VoteNodeProofs LogSpec LogProofs StoreProofs WalkProofs
  EngLogProofs NodeLogProofs StepLogProofs LogPropSpec LogStateProofs LeadProofs OwnProofs ClNodeProofs ClStepProofs ClientProofs
  DurIoProofs DurProofs DurStepProofs.
Import NodeSpec.

(** ** The last flushed write changes only with a note *)
Notation flu e := (io_flushed (rs_io (en_state e))).
Lemma accept_flu x s : io_flushed (rs_io (rs_accept_io x s)) = io_flushed (rs_io s).
Proof.
  rewrite rs_accept_io_eq. cbn. unfold io_accept. destruct (match io_accepted (rs_io s) with None => _ | Some _ => _ end); reflexivity.
Qed.
Lemma prim_flu k e e' : prim k e e' -> k <> KCursor -> k <> KInstall -> flu e' = flu e.
Proof.
  intros Hp Hk Hi. destruct Hp; try congruence; try reflexivity; try (cbn; rewrite ?accept_flu; reflexivity).
  - rewrite leader_appended_eq. cbn. destruct (last_membership _ _) as [[]|]; cbn; rewrite accept_flu; reflexivity.
  - rewrite fh_do_append_eq. cbn. destruct (last_two_memberships _); reflexivity.
  - rewrite fh_truncate_eq. destruct (rs_get_log_id _ _); [|reflexivity]. cbn.
    repeat match goal with |- context [match ?t with _ => _ end] => destruct t end; reflexivity.
  - rewrite sh_trigger_eq by assumption. reflexivity.
  - rewrite logh_purge_eq. destruct (rs_purge_upto _); [|reflexivity]. destruct (ologid_leb _ _); reflexivity.
Qed.
Lemma prims_flu ks e e' : prims ks e e' -> KCursor ∉ ks -> KInstall ∉ ks -> flu e' = flu e.
Proof.
  intros Hps Hk Hi. revert e e' Hps. apply prims_ind_rel; [auto|congruence|].
  intros k a b Hin Hp. eapply prim_flu; [exact Hp|intros ->; auto|intros ->; auto].
Qed.
Definition no_install (ev : Event) : Prop := match ev with EMsg (MSnapshot _ _ _) => False | _ => True end.
Lemma step_flu now ev n n' outs i : node_step now ev n = Ok (n', outs) -> ev <> ERun -> no_install ev ->
  (forall io m, NSm (SRInstall io m) ∉ nd_notes n) ->
  flu (nd_eng n') = Some i -> flu (nd_eng n) = Some i \/ NLocalIO i ∈ nd_notes n.
Proof.
  intros Hs He Hni Hno Hf. pose proof (node_step_kinds _ _ _ _ Hs) as Hk. cbn [fst] in Hk.
  assert (Hq : KCursor ∉ event_kinds ev n -> KInstall ∉ event_kinds ev n -> flu (nd_eng n) = Some i \/ NLocalIO i ∈ nd_notes n).
  { intros N1 N2. left. rewrite <- (prims_flu _ _ _ Hk N1 N2). exact Hf. }
  destruct ev as [|m| | | | | | | | | | | |]; try congruence; try (apply Hq; cbn; notin).
  - destruct m; try (apply Hq; cbn; notin). contradiction.
  - cbn [node_step] in Hs; unfold when_idle in Hs; destruct (runnable n); [injection Hs as <- _; auto|].
    cbn [event_kinds] in *. destruct (nd_notes n) as [|y r] eqn:Hn; [injection Hs as <- _; auto|].
    destruct y as [| |io| | |[]]; try (apply Hq; notin); clear Hq Hk; cbn [handle_note] in Hs.
    + right. enough (i = io) as -> by left.
      destruct io as [v|v lid]; [injection Hs as <- _; cbn in Hf; congruence|].
      destruct (en_leader _); [|injection Hs as <- _; cbn in Hf; congruence].
      destruct (vote_matches _ _); [|injection Hs as <- _; cbn in Hf; congruence].
      apply lift_prims in Hs as (e & Hee & [= -> _]). cbn [nd_eng nd_set_eng] in Hf. apply rh_update_local_prims in Hee.
      apply prims_flu in Hee; [|notin|notin]. rewrite Hee in Hf. cbn in Hf. congruence.
    + left. rok Hs. injection Hs as <- _. cbn in Hf. apply en_finish_building_prims in Hx. apply prims_flu in Hx; [|notin|notin]. cbn in Hx. congruence.
    + exfalso. eapply Hno. left.
    + left. destruct (apply_results _ _). injection Hs as <- _. exact Hf.
Qed.

(** ** Notes *)
Definition dull_note (x : Note) : Prop := match x with NLocalIO _ | NSm (SRInstall _ _) => False | _ => True end.
Definition notes_from (n n' : Node) : Prop :=
  (forall c, c ∈ nd_smq n' -> c ∈ nd_smq n) /\
  forall x, x ∈ nd_notes n' -> x ∈ nd_notes n \/ dull_note x \/ exists io, io ∈ so_callbacks (nd_store n) /\ x = NLocalIO io.
Lemma step_notes now ev n n' outs : node_step now ev n = Ok (n', outs) -> ev <> ERun -> (forall sn io, SmInstall sn io ∉ nd_smq n) -> notes_from n n'.
Proof.
  intros Hs He1 Hni.
  assert (Hsame : nd_smq n' = nd_smq n -> nd_notes n' = nd_notes n -> notes_from n n') by (intros H1 H2; split; [rewrite H1; auto|rewrite H2; auto]).
  assert (Hadd : forall xs, nd_smq n' = nd_smq n -> nd_notes n' = nd_notes n ++ xs ->
    (forall x, x ∈ xs -> dull_note x \/ exists io, io ∈ so_callbacks (nd_store n) /\ x = NLocalIO io) -> notes_from n n').
  { intros xs H1 H2 H3. split; [rewrite H1; auto|]. rewrite H2. intros x [Hx|Hx]%elem_of_app; [auto|]. right. apply H3. exact Hx. }
  destruct ev; try congruence; cbn [node_step] in Hs; unfold when_idle in Hs.
  - destruct (runnable n); [injection Hs as <- _; auto|]. apply handle_msg_prims in Hs as (_ & H2 & H3). apply Hsame; [apply H2|exact H3].
  - destruct (runnable n); [injection Hs as <- _; auto|]. destruct (nd_notes n) as [|y r] eqn:Hn; [injection Hs as <- _; apply Hsame; congruence|].
    apply handle_note_prims in Hs as (_ & H2 & H3). cbn [fst] in *. split; [replace (nd_smq n') with (nd_smq n) by (symmetry; apply H2); auto|].
    rewrite H3, Hn. cbn. intros x Hx. left. right. exact Hx.
  - destruct (runnable n); [injection Hs as <- _; auto|]. apply lift_prims in Hs as (e & _ & [= -> _]). auto.
  - destruct (runnable n); [injection Hs as <- _; auto|]. destruct (en_leader _); [|injection Hs as <- _; auto].
    apply lift_prims in Hs as (e & _ & [= -> _]). auto.
  - injection Hs as <- _. auto.
  - destruct (so_callbacks _ !! _) as [io|] eqn:Hio; injection Hs as <- _; [|auto]. apply (Hadd [NLocalIO io]); [reflexivity|reflexivity|].
    intros x Hx. apply elem_of_list_singleton in Hx as ->. right. exists io. split; [|reflexivity]. apply elem_of_list_lookup. eauto.
  - rok Hs. injection Hs as <- _. unfold sm_step in Hx. destruct (nd_smq n) as [|[f l| |sn io] r] eqn:Hq.
    + injection Hx as <-. apply Hsame; congruence.
    + destruct (_ =? _); [|discriminate]. injection Hx as <-. split; [rewrite Hq; intros c Hc; right; exact Hc|].
      cbn. intros x Hx. apply elem_of_app in Hx as [Hx|Hx]; [auto|]. apply elem_of_list_singleton in Hx as ->. right. left. exact I.
    + injection Hx as <-. split; [rewrite Hq; intros c Hc; right; exact Hc|]. cbn. auto.
    + exfalso. eapply Hni. left.
  - injection Hs as <- _. unfold build_done in *. destruct (nd_builds n !! _) as [sn|]; [|auto]. apply (Hadd [NSm (SRBuild (sn_meta sn))]); [reflexivity|reflexivity|].
    intros x Hx. apply elem_of_list_singleton in Hx as ->. left. exact I.
  - unfold stream_send in Hs. repeat match type of Hs with context [match ?t with _ => _ end] => destruct t; try discriminate Hs end;
      injection Hs as <- _; apply Hsame; reflexivity.
  - injection Hs as <- _. unfold stream_fail in *. destruct (nd_streams n !! _) as [st|]; [|auto]. destruct (st_wait st) as [w|]; [|auto]. destruct (sw_payload w); [|apply Hsame; reflexivity].
    eapply (Hadd [_]); [reflexivity|reflexivity|]. intros x Hx. apply elem_of_list_singleton in Hx as ->. left. exact I.
  - injection Hs as <- _. unfold stream_snap_reply in *. destruct (nd_streams n !! _) as [st|]; [|auto]. destruct (st_snap st) as [[[m1 m2] m3]|]; [|auto].
    eapply (Hadd [_]); [reflexivity|reflexivity|]. intros x Hx. apply elem_of_list_singleton in Hx as ->. left. exact I.
  - injection Hs as Hs. unfold hb_send in Hs. repeat match type of Hs with context [match ?t with _ => _ end] => destruct t end;
      injection Hs as <- _; apply Hsame; reflexivity.
  - injection Hs as Hs. unfold handle_reply, read_reply, stream_reply, stream_snap_reply in Hs.
    repeat match type of Hs with context [match ?t with _ => _ end] => destruct t end; injection Hs as <- _;
      (split; [auto|]); intros x9 Hin; cbn in Hin; repeat (apply elem_of_app in Hin as [Hin|Hin]); auto;
      apply elem_of_list_singleton in Hin; subst; right; left; exact I.
Qed.

Section durnode.
  Context (E : Env) (me : nat) (HE : env_ok E).
  Notation H := (ev_hist E).
  Notation tip := (ev_tip E).
  Let Hok : hist_ok H := proj1 HE.

  Lemma pcmp_refl v : vote_pcmp v v = PC (Some Eq).
  Proof. unfold vote_pcmp, vote_pcmp_of. destruct v as [[t n] []]; unfold leader_cmp; cbn; rewrite !Nat.compare_refl; reflexivity. Qed.
  Lemma geb_pcmp a b : vote_geb a b = false -> vote_pcmp a b = PC (Some Lt).
  Proof. unfold vote_geb. destruct (vote_pcmp_total a b) as [c ->]. destruct c; congruence. Qed.
  (** a write that is covered covers the earlier ones of its leader *)
  Lemma cov_wait d i y : cov E me d i -> io_ltb i (IOLog (dvote d) y) = false -> v_committed (dvote d) = true -> fgn me (vl d) ->
    pfx H y (tip (vl d)) -> pfx H y (dlast d).
  Proof using HE.
    intros [C1 C2] Hlt Hc Hf Hy. unfold io_ltb, io_cmp in Hlt. cbn [io_vote io_last_log_id] in Hlt.
    destruct i as [w|w z]; cbn [io_vote io_last_log_id] in *.
    - exfalso. assert (Hl : vote_gtb (dvote d) w = true) by (unfold vl in C1; ord).
      assert (Hp : vote_geb w (dvote d) = false) by ord. rewrite (geb_pcmp _ _ Hp) in Hlt. discriminate.
    - destruct (decide (v_leader w = vl d)) as [Hw|Hw].
      + rewrite Hw in C2. destruct (C2 Hf) as (K1 & K2 & K3). destruct (K3 eq_refl) as [K4 K5].
        assert (w = dvote d) as -> by (unfold vl, vote_le in *; ord). rewrite pcmp_refl in Hlt.
        eapply pfx_trans; [|exact K5]. eapply (pfx_of_leb H Hok); [exact Hy|exact K4|].
        assert (Hn : ologid_ltb z y = false) by (unfold ologid_ltb; destruct (ologid_cmp z y); [reflexivity|discriminate|reflexivity]). ord.
      + exfalso. assert (Hp : vote_geb w (dvote d) = false) by (unfold vl in *; ord). rewrite (geb_pcmp _ _ Hp) in Hlt. discriminate.
  Qed.
  Lemma cov_save d v i : cov E me d i -> vote_lt (dvote d) v -> cov E me (wop_apply d (WVote v)) i.
  Proof.
    intros [C1 C2] Hlt. pose proof (vote_lt_leader _ _ Hlt) as Hle.
    change (vl (wop_apply d (WVote v))) with (v_leader v) in *.
    assert (Hv : vl (wop_apply d (WVote v)) = v_leader v) by reflexivity.
    split; [rewrite Hv; unfold vl in C1; ord|]. destruct i as [w|w x]; [exact C2|]. intros Hf. destruct (C2 Hf) as (K1 & K2 & _).
    split; [exact K1|]. change (dvote (wop_apply d (WVote v))) with v. unfold vote_le, vote_lt in *. split; [ord|].
    rewrite Hv. intros Hw. exfalso. ord.
  Qed.
  Lemma cov_new d v : vl d = v_leader v -> dvote d = v -> pfx H None (dlast d) -> cov E me d (io_new v).
  Proof using HE.
    intros Hv Hd Hr. unfold io_new. destruct (v_committed v) eqn:Hc.
    - assert (into_committed v = v) as -> by (unfold into_committed; destruct v; cbn in Hc; subst; reflexivity).
      split; [cbn; rewrite Hv; apply leader_leb_refl|]. intros _. rewrite Hd. split; [exact Hc|]. split; [apply vote_geb_refl|].
      intros _. split; [apply HE|exact Hr].
    - split; [cbn; rewrite Hv; apply leader_leb_refl|exact Hc].
  Qed.

  Context (Rq : nat -> Vote -> option LogId -> Prop).
  Record DI (n : Node) (A : list (option LogId)) (R : list IOId) : Prop := {
    di_R : forall i, i ∈ R -> cov E me (so_disk (nd_store n)) i;
    di_cb : forall i, i ∈ so_callbacks (nd_store n) -> cov E me (so_disk (nd_store n)) i;
    di_fl : forall i, flu (nd_eng n) = Some i -> cov E me (so_disk (nd_store n)) i;
    di_local : forall i, NLocalIO i ∈ nd_notes n -> cov E me (so_disk (nd_store n)) i;
    di_noinst : forall io m, NSm (SRInstall io m) ∉ nd_notes n;
    di_smq : forall sn io, SmInstall sn io ∉ nd_smq n;
    di_pend : pwalk E me (so_disk (nd_store n)) (so_pending (nd_store n));
    di_pa : forall es io, (WAppend es, io) ∈ so_pending (nd_store n) -> eid es ∈ A;
    di_out : dwalk E me Rq (so_view (nd_store n)) A (en_out (nd_eng n));
    di_ai : AI E me (foldl anext A (en_out (nd_eng n))) (nd_eng n);
  }.
  Lemma di_vote n A R : DI n A R -> dvote (so_view (nd_store n)) = dvote (so_disk (nd_store n)).
  Proof. intros K. apply (pwalk_vote E me). apply K. Qed.
  Definition asked (ev : Event) : Prop :=
    match ev with EMsg (MSnapshot _ _ _) => False | EMsg (MAppend v prev es _ tx) => Rq tx v (es_last prev es) | _ => True end.
  Lemma asked_no_install ev : asked ev -> no_install ev.
  Proof. destruct ev as [|m| | | | | | | | | | | |]; try exact (fun _ => Logic.I). destruct m; exact (fun x => match x with _ => Logic.I end) || auto. Qed.

  (** every step but the execution of a command *)
  Lemma step_di now ev n n' outs A R : ev <> ERun -> node_step now ev n = Ok (n', outs) -> event_fits E n ev ->
    own_fits E (nd_id n) (rs_last (nd_state n)) (step_produced ev n n') -> node_inv E me n -> node_inv E me n' -> asked ev ->
    DI n A R -> DI n' A R.
  Proof using HE.
    intros He Hs Hf Hown HN HN' Hask K.
    pose proof (asked_no_install _ Hask) as Hni.
    assert (HD : dwalk E me Rq (so_view (nd_store n')) A (en_out (nd_eng n')) /\ AI E me (foldl anext A (en_out (nd_eng n'))) (nd_eng n')).
    { destruct (step_dur E me HE Rq now ev n n' outs (foldl anext A (en_out (nd_eng n))) He Hs Hf Hown HN HN' Hask (di_ai _ _ _ K)) as [H1 H2].
      pose proof (step_view _ _ _ _ He Hs) as Hv. cbn [fst] in Hv. rewrite Hv.
      assert (Ho : en_out (nd_eng n') = en_out (nd_eng n) ++ step_produced ev n n').
      { pose proof (step_moved E me HE now ev n (n', outs) He Hs Hf Hown HN) as (D' & (_ & _ & cs & Ho & _) & _). cbn [fst] in Ho.
        rewrite (produced_app _ _ _ _ He Ho). exact Ho. }
      rewrite Ho, foldl_app. split; [|exact H2]. apply dwalk_app. split; [apply K|].
      rewrite dapply_fold. exact H1. }
    destruct HD as [HD1 HD2].
    destruct (step_notes _ _ _ _ _ Hs He (di_smq _ _ _ K)) as [Hsq Hno].
    pose proof (fun i => step_flu now ev n n' outs i Hs He Hni (di_noinst _ _ _ K)) as Hflu.
    assert (Hst : store_task ev (nd_store n) (nd_store n')).
    { destruct (node_step_cases _ _ _ _ _ Hs) as [Hx _|c r Hx _ _ _|_ _ _ (Hx & _) _ _|t c y r _ _ _ _ _ Hx _|_ Hx _].
      - left. rewrite Hx. reflexivity.
      - contradiction.
      - left. exact Hx.
      - left. rewrite Hx. reflexivity.
      - exact Hx. }
    assert (Hcb0 : forall i, NLocalIO i ∈ nd_notes n' -> cov E me (so_disk (nd_store n)) i).
    { intros i Hi. destruct (Hno _ Hi) as [Hx|[[]|(io & Hio & [= ->])]]; [apply (di_local _ _ _ K _ Hx)|apply (di_cb _ _ _ K _ Hio)]. }
    assert (Hfl0 : forall i, flu (nd_eng n') = Some i -> cov E me (so_disk (nd_store n)) i).
    { intros i Hi. destruct (Hflu i Hi) as [Hx|Hx]; [apply (di_fl _ _ _ K _ Hx)|apply (di_local _ _ _ K _ Hx)]. }
    assert (Hno0 : forall io m, NSm (SRInstall io m) ∉ nd_notes n').
    { intros io m Hi. destruct (Hno _ Hi) as [Hx|[[]|(io0 & _ & Hx)]]; [apply (di_noinst _ _ _ K _ _ Hx)|discriminate]. }
    assert (Hsq0 : forall sn io, SmInstall sn io ∉ nd_smq n').
    { intros sn io Hi. apply Hsq in Hi. apply (di_smq _ _ _ K _ _ Hi). }
    destruct K as [K1 K2 K3 K4 K5 K6 K7 K8 K9 K10].
    destruct Hst as [Hst|[(k & _ & Hst)|(i & io & _ & Hio & Hst)]].
    - rewrite Hst in *. constructor; rewrite ?Hst; auto.
    - assert (Hc : forall i, cov E me (so_disk (nd_store n)) i -> cov E me (so_disk (nd_store n')) i).
      { intros i Hi. rewrite Hst. cbn [so_flush so_disk]. apply pwalk_cov; [exact HE|apply pwalk_take; exact K7|exact Hi]. }
      constructor; auto.
      + rewrite Hst. cbn [so_flush so_callbacks so_disk]. intros i [Hi|Hi]%elem_of_app.
        * specialize (Hc i (K2 i Hi)). rewrite Hst in Hc. exact Hc.
        * apply pwalk_new; [exact HE|apply pwalk_take; exact K7|exact Hi].
      + rewrite Hst. cbn [so_flush so_disk so_pending]. rewrite <- (take_drop k (so_pending (nd_store n))) in K7. apply pwalk_app in K7 as [_ K7]. exact K7.
      + rewrite Hst. cbn [so_flush so_pending]. intros es io Hin. eapply K8. rewrite <- (take_drop k (so_pending (nd_store n))). apply elem_of_app. right. exact Hin.
    - constructor; auto; rewrite ?Hst; cbn [so_disk so_pending so_callbacks]; auto.
      intros j Hj. apply K2. apply elem_of_list_lookup in Hj as [q Hq]. apply elem_of_list_lookup.
      destruct (decide (q < i)); [rewrite lookup_delete_lt in Hq by lia; eauto|rewrite lookup_delete_ge in Hq by lia; eauto].
  Qed.

  (** ** The execution of a command *)
  Definition eng_pop (n n' : Node) (r : list Command) : Prop :=
    en_out (nd_eng n') = r /\ rs_v (nd_state n') = rs_v (nd_state n) /\
    io_accepted (rs_io (nd_state n')) = io_accepted (rs_io (nd_state n)) /\ flu (nd_eng n') = flu (nd_eng n).
  Lemma pop_ai c r n n' A : en_out (nd_eng n) = c :: r -> eng_pop n n' r -> AI E me (foldl anext A (en_out (nd_eng n))) (nd_eng n) ->
    AI E me (foldl anext (anext A c) (en_out (nd_eng n'))) (nd_eng n').
  Proof.
    intros Ho (E1 & E2 & E3 & _) K. rewrite E1. rewrite Ho in K. cbn [foldl] in K. unfold AI, nd_state in *. rewrite E2, E3. exact K.
  Qed.
  (** nothing is written *)
  Lemma di_quiet c r n n' A R : DI n A R -> en_out (nd_eng n) = c :: r -> cmd_wop c = None -> eng_pop n n' r ->
    nd_store n' = nd_store n ->
    (forall x, x ∈ nd_notes n' -> x ∈ nd_notes n \/ exists i, x = NLocalIO i /\ cov E me (so_disk (nd_store n)) i) ->
    (forall x, x ∈ nd_smq n' -> x ∈ nd_smq n \/ forall sn io, x <> SmInstall sn io) -> anext A c = A -> DI n' A R.
  Proof.
    intros K Ho Hw Hp Hs Hno Hsq HA. pose proof (di_out _ _ _ K) as KO. rewrite Ho in KO. cbn [dwalk] in KO. destruct KO as [_ KO].
    pose proof (pop_ai c r n n' A Ho Hp (di_ai _ _ _ K)) as Hai. rewrite HA in *. unfold dapply in KO. rewrite Hw in KO.
    destruct Hp as (E1 & E2 & E3 & E4). constructor; rewrite ?Hs; try apply K; auto.
    - rewrite E4. apply K.
    - intros i Hi. destruct (Hno _ Hi) as [Hx|(j & [= ->] & Hx)]; [apply (di_local _ _ _ K _ Hx)|exact Hx].
    - intros io m Hi. destruct (Hno _ Hi) as [Hx|(j & Hx & _)]; [apply (di_noinst _ _ _ K _ _ Hx)|discriminate].
    - intros sn io Hi. destruct (Hsq _ Hi) as [Hx|Hx]; [apply (di_smq _ _ _ K _ _ Hx)|eapply Hx; reflexivity].
    - rewrite E1. exact KO.
  Qed.
  (** a write is submitted *)
  Lemma di_submit c r n n' A R op io : DI n A R -> en_out (nd_eng n) = c :: r -> cmd_wop c = Some op -> eng_pop n n' r ->
    nd_store n' = so_submit op io (nd_store n) -> nd_notes n' = nd_notes n -> nd_smq n' = nd_smq n ->
    pok E me (so_view (nd_store n)) (op, io) -> (forall a, a ∈ A -> a ∈ anext A c) -> (forall es, op = WAppend es -> eid es ∈ anext A c) ->
    DI n' (anext A c) R.
  Proof.
    intros K Ho Hw Hp Hs Hno Hsq Hpok HA1 HA2. pose proof (di_out _ _ _ K) as KO. rewrite Ho in KO. cbn [dwalk] in KO. destruct KO as [_ KO].
    pose proof (pop_ai c r n n' A Ho Hp (di_ai _ _ _ K)) as Hai. unfold dapply in KO. rewrite Hw in KO.
    destruct Hp as (E1 & E2 & E3 & E4). constructor; rewrite ?Hs, ?Hno, ?Hsq; cbn [so_submit so_disk so_pending so_callbacks]; try apply K; auto.
    - rewrite E4. apply K.
    - apply pwalk_app. split; [apply K|]. cbn [pwalk]. split; [exact Hpok|exact Logic.I].
    - intros es i [Hi|Hi]%elem_of_app; [apply HA1; eapply (di_pa _ _ _ K); exact Hi|].
      apply elem_of_list_singleton in Hi. injection Hi as <- _. apply HA2. reflexivity.
    - rewrite E1. unfold so_view, so_submit. cbn [so_disk so_pending]. rewrite map_app, foldl_app. exact KO.
  Qed.
  Lemma cond_flushed n y v A R : DI n A R -> cond_ok (Some (IOFlushed (IOLog v y))) (rs_io (nd_state n)) = true ->
    v = dvote (so_view (nd_store n)) -> v_committed v = true -> fgn me (vl (so_view (nd_store n))) ->
    pfx H y (tip (vl (so_view (nd_store n)))) -> pfx H y (dlast (so_disk (nd_store n))).
  Proof using HE.
    intros K Hc Hv Hvc Hf Hy. pose proof (di_vote _ _ _ K) as Hdv. unfold vl in Hf, Hy. rewrite Hdv in *. cbn [cond_ok] in Hc. unfold io_opt_ltb in Hc.
    destruct (io_flushed (rs_io (nd_state n))) as [i|] eqn:Hfl; [|discriminate]. apply negb_true_iff in Hc. subst v.
    eapply cov_wait; [exact (di_fl _ _ _ K i Hfl)|exact Hc|exact Hvc|exact Hf|exact Hy].
  Qed.
  Definition acked (outs : list Out) (R : list IOId) : Prop :=
    forall tx, OReply tx (RAppend ASuccess) ∈ outs -> exists v x, Rq tx v x /\ IOLog v x ∈ R.
  Lemma acked_nil R : acked [] R.
  Proof. intros tx Hin. apply elem_of_nil in Hin as []. Qed.
  Lemma acked_no os R : (forall tx r, OReply tx r ∉ os) -> acked os R.
  Proof. intros Hn tx Hin. exfalso. eapply Hn. exact Hin. Qed.
  Lemma run_di now n n' outs A R : node_step now ERun n = Ok (n', outs) -> node_inv E me n -> DI n A R ->
    exists A' R', DI n' A' R' /\ (forall i, i ∈ R -> i ∈ R') /\ acked outs R'.
  Proof using HE.
    intros Hs HN K. cbn [node_step] in Hs. unfold run_one in Hs. destruct (en_out (nd_eng n)) as [|c r] eqn:Ho.
    { injection Hs as <- <-. exists A, R. split; [exact K|]. split; [auto|apply acked_nil]. }
    destruct (cond_ok _ _) eqn:Hc.
    2:{ injection Hs as <- <-. exists A, R. split; [exact K|]. split; [auto|apply acked_nil]. }
    destruct HN as (w0 & pcs & wv & D & N). pose proof (ninv_view _ _ _ _ _ _ _ N) as Hview. pose proof (ninv_posv _ _ HE _ _ _ _ _ N) as Pv.
    pose proof (n_w2 _ _ _ _ _ _ _ N) as W2. rewrite Ho in W2. cbn [walk] in W2. destruct W2 as [Hw _].
    pose proof (di_out _ _ _ K) as KO. rewrite Ho in KO. cbn [dwalk] in KO. destruct KO as [Kd _].
    pose proof (di_vote _ _ _ K) as Hdv.
    assert (Hq : forall os, cmd_wop c = None -> eng_pop n n' r -> nd_store n' = nd_store n ->
      (forall x, x ∈ nd_notes n' -> x ∈ nd_notes n \/ exists i, x = NLocalIO i /\ cov E me (so_disk (nd_store n)) i) ->
      (forall x, x ∈ nd_smq n' -> x ∈ nd_smq n \/ forall sn io, x <> SmInstall sn io) -> anext A c = A -> (forall tx r, OReply tx r ∉ os) ->
      exists A' R', DI n' A' R' /\ (forall i, i ∈ R -> i ∈ R') /\ acked os R').
    { intros os Q1 Q2 Q3 Q4 Q5 Q6 Q7. exists A, R. split; [eapply di_quiet; eassumption|]. split; [auto|apply acked_no; exact Q7]. }
    assert (Hn0 : forall tx r, OReply tx r ∉ []) by (intros tx r0 Hx; apply elem_of_nil in Hx as []).
    assert (Hns : forall x, x ∈ nd_notes n -> x ∈ nd_notes n \/ exists i, x = NLocalIO i /\ cov E me (so_disk (nd_store n)) i) by auto.
    assert (Hss : forall x, x ∈ nd_smq n -> x ∈ nd_smq n \/ forall sn io, x <> SmInstall sn io) by auto.
    assert (Hsub : forall op io os, cmd_wop c = Some op -> eng_pop n n' r ->
      nd_store n' = so_submit op io (nd_store n) -> nd_notes n' = nd_notes n -> nd_smq n' = nd_smq n ->
      pok E me (so_view (nd_store n)) (op, io) -> (forall a, a ∈ A -> a ∈ anext A c) -> (forall es, op = WAppend es -> eid es ∈ anext A c) ->
      (forall tx r, OReply tx r ∉ os) ->
      exists A' R', DI n' A' R' /\ (forall i, i ∈ R -> i ∈ R') /\ acked os R').
    { intros op io os Q1 Q2 Q3 Q4 Q5 Q6 Q7 Q8 Q9. exists (anext A c), R. split; [eapply di_submit; eassumption|]. split; [auto|apply acked_no; exact Q9]. }
    pose proof (p_log _ _ Pv) as Hlog. rewrite Hview in Hlog.
    destruct c as [wc io|v es|cc|ss lc|c|pv up|t rq|rq|ts|v|rq|u|y| |sn io|wc rr tx]; cbn [run_cmd cmd_condition] in Hs, Hc.
    - injection Hs as <- <-. apply Hq; try reflexivity; try exact Hn0; [repeat split| |exact Hss].
      intros x Hx. cbn in Hx. apply elem_of_app in Hx as [Hx|Hx]; [left; exact Hx|]. apply elem_of_list_singleton in Hx as ->. right. exists io. split; [reflexivity|].
      cbn [wok dok] in *. destruct Hw as (_ & v & x & -> & Hv & Hx). rewrite Hview in *. unfold vl in *. rewrite Hdv in Hv.
      split; [cbn; unfold vl; rewrite Hv; apply leader_leb_refl|]. intros Hf. rewrite Hv in Hf.
      rewrite Hdv in Kd. destruct (Kd Hf) as (x' & [= -> ->] & Hcm & Hxt & HA). split; [exact Hcm|]. split; [apply vote_geb_refl|].
      intros _. split; [exact Hxt|].
      destruct (pwalk_last E me HE _ _ _ (di_pend _ _ _ K) Hx) as [Hd|(es & io & Hin & He)]; [exact Hd|].
      pose proof (di_pa _ _ _ K _ _ Hin) as Ha. destruct HA as [->|(y & -> & Hyt & Hall)]; [apply elem_of_nil in Ha as []|].
      eapply pfx_trans; [exact He|]. eapply pfx_trans; [apply Hall; exact Ha|].
      eapply cond_flushed; [exact K|exact Hc|rewrite Hdv; reflexivity|exact Hcm|unfold vl; rewrite Hdv; exact Hf|unfold vl; rewrite Hdv; exact Hyt].
    - destruct (last es) as [e|] eqn:Hl; [|discriminate]. injection Hs as <- <-.
      eapply (Hsub (WAppend es) (Some (IOLog (into_committed v) (Some (e_log_id e))))); try reflexivity; try exact Hn0; [repeat split| | |].
      + cbn [wok dok] in *. destruct Hw as (_ & Hne & Hch & _ & Hv). rewrite Hview in *. split; [exact Hlog|]. cbn [fst snd]. split; [exact Hne|]. split; [exact Hch|].
        exists (into_committed v). unfold eid. rewrite Hl. split; [reflexivity|]. split; [exact Hv|].
        intros Hf. destruct (Kd Hf) as [K1 K2]. unfold eid in K2. rewrite Hl in K2. auto.
      + intros a Ha. right. exact Ha.
      + intros es' [= <-]. left.
    - injection Hs as <- <-. apply Hq; try reflexivity; try exact Hn0; [repeat split|exact Hns|exact Hss].
    - injection Hs as <- <-. apply Hq; try reflexivity; try exact Hn0; [repeat split|exact Hns|exact Hss].
    - injection Hs as <- <-. eapply (Hsub (WCommitted (Some c)) None); try reflexivity; try exact Hn0; [repeat split|split; [exact Hlog|reflexivity]|auto|discriminate].
    - destruct (rs_get_log_id _ _); [|discriminate]. injection Hs as <- <-. apply Hq; try reflexivity; try exact Hn0; [repeat split|exact Hns|].
      intros x Hx. cbn in Hx. apply elem_of_app in Hx as [Hx|Hx]; [left; exact Hx|]. apply elem_of_list_singleton in Hx as ->. right. discriminate.
    - destruct (stream_index _ _); [|discriminate]. injection Hs as <- <-. apply Hq; try reflexivity; try exact Hn0; [repeat split|exact Hns|exact Hss].
    - destruct (other_voters _ _); [|discriminate]. injection Hs as <- <-. apply Hq; try reflexivity; [repeat split|exact Hns|exact Hss|].
      intros tx r0 Hx. apply elem_of_list_fmap in Hx as (? & Hx & _). discriminate.
    - destruct (en_leader _).
      + destruct (forallb _ _); [|discriminate]. injection Hs as <- <-. apply Hq; try reflexivity; try exact Hn0; [repeat split|exact Hns|exact Hss].
      + destruct (bool_decide _); [|discriminate]. injection Hs as <- <-. apply Hq; try reflexivity; try exact Hn0; [repeat split|exact Hns|exact Hss].
    - injection Hs as <- <-. cbn [wok] in Hw. destruct Hw as [_ Hlt]. rewrite Hview in Hlt. cbn [run_cmd nd_upd_io].
      set (n' := note _ _). set (d' := wop_apply (so_view (nd_store n)) (WVote v)).
      assert (Hd : so_disk (nd_store n') = d').
      { subst n' d'. cbn. rewrite take_ge by lia. rewrite map_app, foldl_app. reflexivity. }
      assert (Hpe : so_pending (nd_store n') = []) by (subst n'; cbn; apply drop_ge; lia).
      assert (Hcv : forall i, cov E me (so_disk (nd_store n)) i -> cov E me d' i).
      { intros i Hi. apply cov_save; [|exact Hlt]. apply pwalk_cov; [exact HE|apply K|exact Hi]. }
      assert (Hno : forall x, x ∈ nd_notes n' -> x ∈ nd_notes n \/ x = NLocalIO (io_new v) \/ exists t q, x = NVoteResp t q v).
      { intros x Hx. subst n'. cbn in Hx. apply elem_of_app in Hx as [Hx|Hx]; [|apply elem_of_list_singleton in Hx as ->; eauto].
        apply elem_of_app in Hx as [Hx|Hx]; [auto|apply elem_of_list_singleton in Hx as ->; auto]. }
      assert (Hpop : eng_pop n n' r) by (repeat split).
      exists [], R. split; [|split; [auto|apply acked_nil]].
      pose proof (di_out _ _ _ K) as KO. rewrite Ho in KO. cbn [dwalk] in KO. destruct KO as [_ KO].
      pose proof (pop_ai (SaveVote v) r n n' A Ho Hpop (di_ai _ _ _ K)) as Hai. destruct Hpop as (E1 & E2 & E3 & E4).
      constructor; rewrite ?Hd, ?Hpe; auto.
      + intros i Hi. apply Hcv. apply (di_R _ _ _ K). exact Hi.
      + intros i Hi. subst n'. cbn in Hi. rewrite take_ge in Hi by lia. apply elem_of_app in Hi as [Hi|Hi]; [apply Hcv; apply (di_cb _ _ _ K); exact Hi|].
        rewrite omap_app in Hi. cbn in Hi. rewrite app_nil_r in Hi. apply cov_save; [|exact Hlt]. apply pwalk_new; [exact HE|apply K|exact Hi].
      + rewrite E4. intros i Hi. apply Hcv. apply (di_fl _ _ _ K). exact Hi.
      + intros i Hi. destruct (Hno _ Hi) as [Hx|[[= ->]|(t & q & [=])]]; [apply Hcv; apply (di_local _ _ _ K); exact Hx|].
        apply cov_new; try reflexivity. apply (log_ok_root H). exact Hlog.
      + intros io m Hi. destruct (Hno _ Hi) as [Hx|[[=]|(t & q & [=])]]. apply (di_noinst _ _ _ K _ _ Hx).
      + intros sn io Hi. apply (di_smq _ _ _ K sn io). exact Hi.
      + intros es io Hi. apply elem_of_nil in Hi as [].
      + rewrite E1. unfold so_view. rewrite Hd, Hpe. cbn [map foldl]. exact KO.
    - destruct (other_voters _ _); [|discriminate]. injection Hs as <- <-. apply Hq; try reflexivity; [repeat split|exact Hns|exact Hss|].
      intros tx r0 Hx. apply elem_of_list_fmap in Hx as (? & Hx & _). discriminate.
    - injection Hs as <- <-. eapply (Hsub (WPurge u) None); try reflexivity; try exact Hn0; [repeat split| |auto|discriminate].
      split; [exact Hlog|]. cbn [fst snd]. split; [reflexivity|]. exact Kd.
    - injection Hs as <- <-. eapply (Hsub (WTruncate y) None); try reflexivity; [repeat split| |auto|discriminate|].
      + split; [exact Hlog|]. cbn [fst snd wok dok] in *. split; [reflexivity|]. destruct Hw as (_ & _ & _ & Hcur). pose proof (p_purged _ _ Pv) as Hpu.
        apply (pfx_idx H Hok) in Hpu. rewrite Hview in Hpu. split; [lia|exact Kd].
      + intros tx r0 Hx. apply elem_of_list_fmap in Hx as (? & Hx & _). discriminate.
    - injection Hs as <- <-. apply Hq; try reflexivity; try exact Hn0; [repeat split|exact Hns|].
      intros x Hx. cbn in Hx. apply elem_of_app in Hx as [Hx|Hx]; [left; exact Hx|]. apply elem_of_list_singleton in Hx as ->. right. discriminate.
    - destruct Kd.
    - injection Hs as <- <-.
      assert (Hdi : DI (nd_set_eng (popped (nd_eng n) r) n) A R).
      { eapply (di_quiet (Respond wc rr tx) r n); try reflexivity; try assumption; [repeat split]. }
      destruct rr as [|[]| |]; try (exists A, R; split; [exact Hdi|]; split; [auto|]; intros tx' Hx; apply elem_of_list_singleton in Hx; discriminate).
      cbn [dok] in Kd. destruct Kd as (x & y & HR & -> & Hcm & Hf). exists A, (IOLog (dvote (so_view (nd_store n))) x :: R). split; [|split].
      + destruct Hdi as [J1 J2 J3 J4 J5 J6 J7 J8 J9 J10]. constructor; auto. intros i Hi. apply elem_of_cons in Hi as [->|Hi]; [|apply J1; exact Hi].
        cbn [nd_store nd_set_eng]. split; [cbn; unfold vl; rewrite Hdv; apply leader_leb_refl|]. intros Hfg. split; [exact Hcm|].
        split; [rewrite Hdv; apply vote_geb_refl|]. intros _. destruct (Hf Hfg) as [Hyt Hxy].
        unfold vl in Hyt |- *. rewrite <- Hdv. split; [eapply pfx_trans; [exact Hxy|exact Hyt]|]. eapply pfx_trans; [exact Hxy|].
        eapply cond_flushed; [exact K|exact Hc|reflexivity|exact Hcm|exact Hfg|exact Hyt].
      + intros i Hi. right. exact Hi.
      + intros tx' Hx. apply elem_of_list_singleton in Hx. injection Hx as ->. eexists _, x. split; [exact HR|left].
  Qed.

  (** ** A start *)
  Lemma start_log now cfg d sm n : disk_ok E d sm -> crash_fits E d sm -> node_start now cfg d sm = Ok n ->
    dk_vote (so_disk (nd_store n)) = dk_vote d /\ so_pending (nd_store n) = [] /\ so_callbacks (nd_store n) = [] /\ nd_notes n = [] /\ nd_smq n = [] /\
    flu (nd_eng n) = Some (io_new (dvote d)) /\ uq (engine_new (nd_state n) cfg) (nd_eng n) /\
    (dk_log (so_disk (nd_store n)) = dk_log d \/
     (dlast (so_disk (nd_store n)) = sm_applied sm /\ next_index (dlast d) <= next_index (sm_applied sm))).
  Proof using HE.
    intros [D1 D2 D3 D4 D5 D6 D7] Hcf Hs. unfold node_start in Hs. rok Hs. destruct x as [[s d1] sm2]. rok Hs. rename x into e. injection Hs as <-.
    apply helper_initial_inv in Hx as (sm1 & ll & lp & ids & Hx). cbv zeta in Hx.
    set (c := start_committed d sm) in *. destruct Hx as (_ & Hd & _ & _ & Hss).
    assert (Hcc : c = sm_applied sm \/ c = dk_committed d).
    { subst c. unfold start_committed. destruct (ologid_ltb (dk_committed d) (sm_applied sm)); auto. }
    clearbody c.
    assert (Hcr : pfx H None (sm_applied sm)) by (rewrite (sm_app _ _ D4); apply chain_pfx; apply D4).
    assert (Hdk : dk_vote d1 = dk_vote d /\
      (dk_log d1 = dk_log d \/ (dlast d1 = sm_applied sm /\ next_index (dlast d) <= next_index (sm_applied sm)))).
    { destruct Hd as [(Hsp & Hd1 & Hl1 & -> & ->)|(Hsp & -> & -> & ->)]; [|split; [reflexivity|left; reflexivity]].
      rewrite Hd1. cbn [dk_vote dk_committed dk_log]. rewrite Hl1. destruct c as [x|] eqn:Hc; [|contradiction].
      unfold start_purges in Hsp. split; [reflexivity|].
      destruct Hcf as [Hcf|(F1 & F2 & F3)].
      + exfalso. assert (Hle : pfx H (Some x) (dlast d)).
        { destruct Hcc as [->| ->]; assumption. }
        apply (pfx_le H Hok) in Hle. revert Hle Hsp. clear. generalize (dlast d). ord.
      + assert (Hca : sm_applied sm = Some x).
        { destruct Hcc as [Hcc|Hcc]; [auto|]. exfalso. rewrite <- Hcc in D3. apply (pfx_le H Hok) in D3.
          revert D3 Hsp. clear. generalize (dlast d). ord. }
        rewrite Hca in *. cbn in F3. destruct (ls_purge_beyond H Hok x (dk_log d) D1 Hcr F3) as [P1 P2].
        right. split; [exact P2|exact F3]. }
    destruct Hdk as [Hv Hl]. cbn [nd_store so_disk so_pending so_callbacks nd_notes nd_smq nd_eng]. split; [exact Hv|]. split; [reflexivity|].
    split; [reflexivity|]. split; [reflexivity|]. split; [reflexivity|]. split; [|split; [|exact Hl]].
    - rewrite (prims_flu _ _ _ (en_startup_prims _ _ _ Hx0)) by notin. cbn [engine_new en_state]. rewrite Hss. reflexivity.
    - assert (Hu : uq (engine_new s cfg) e).
      { unfold en_startup in Hx0. destruct (rs_is_leader _ _); [eapply internal_uq; exact Hx0|]. injection Hx0 as <-. apply uq_same; reflexivity. }
      destruct Hu as [U1 U2]. split; [exact U1|exact U2].
  Qed.
  Lemma start_harmless d n : start_loaded E me d n -> uq (engine_new (nd_state n) (en_cfg (nd_eng n))) (nd_eng n) ->
    forall c, c ∈ en_out (nd_eng n) -> harmless me c.
  Proof.
    intros (e0 & D' & sm1 & Ho & Rn & I0 & Hpe & Hp & _) [U1 (cu & U2 & U3)] c Hc. cbn [engine_new en_out app] in U2.
    pose proof (ei_id _ _ _ _ I0) as Hid. destruct Rn as (Hcfg & _).
    assert (Hid' : en_id (nd_eng n) = me) by (rewrite <- Hid; unfold en_id; rewrite Hcfg; reflexivity).
    destruct (OwnProofs.prims_cmds _ _ _ Hp) as (cs & Hcs & Hk); [notin|]. rewrite Ho in Hcs. cbn [app] in Hcs.
    assert (Hck : c ∈ cs) by (rewrite <- Hcs; exact Hc). destruct (Hk _ Hck) as (k & a & b & Hkin & Hkk).
    assert (Hno : KTruncate ∉ ks_startup /\ KInstall ∉ ks_startup /\ KRespond ∉ ks_startup) by (split; [notin|split; notin]).
    destruct Hno as (N1 & N2 & N3).
    destruct c as [wc io|v es|cc|ss lc|c|pv up|t rq|rq|ts|v|rq|u|y| |sn io|wc r tx]; try exact Logic.I; cbn [harmless cmd_of] in *.
    - intros [Hf _]. apply Hf. rewrite U2 in Hc. specialize (U3 _ Hc). cbn [own_io] in U3. rewrite U3, <- U1. exact Hid'.
    - intros [Hf _]. destruct (prims_appends _ _ _ Hp) as (ca & Hca & Hap); [notin|notin|eapply lcown_of; exact I0|].
      rewrite Ho in Hca. cbn [app] in Hca. rewrite Hca in Hc. apply Hf. rewrite (Hap _ _ Hc). exact Hid.
    - destruct Hkk as [[->| ->] _]; contradiction.
    - subst k. contradiction.
    - subst k. contradiction.
  Qed.
  Lemma start_di now cfg d sm n R : disk_ok E d sm -> crash_fits E d sm -> node_start now cfg d sm = Ok n -> nd_id n = me ->
    own_fits E me (dlast (so_disk (nd_store n))) (en_out (nd_eng n)) ->
    (forall i, i ∈ R -> cov E me d i) ->
    (forall v x, IOLog v x ∈ R -> fgn me (v_leader v) -> v_leader v = vl d -> exists y, pfx H x y /\ pfx H (sm_applied sm) y) ->
    DI n [] R.
  Proof using HE.
    intros Hdo Hcf Hs Hid Hown HR Hcmp. pose proof (start_full E me HE _ _ _ _ _ Hdo Hcf Hs Hid Hown) as [HN Hld].
    pose proof (node_start_vinv _ _ _ _ _ Hs) as (_ & _ & Hrv).
    pose proof (start_log _ _ _ _ _ Hdo Hcf Hs) as (S1 & S2 & S3 & S4 & S5 & S6 & S7 & S8).
    assert (Hcfg : en_cfg (nd_eng n) = cfg).
    { unfold node_start in Hs. rok Hs. destruct x as [[s d1] sm1]. rok Hs. injection Hs as <-. cbn [nd_eng]. apply en_startup_prims in Hx0.
      change cfg with (en_cfg (engine_new s cfg)). revert Hx0. apply (prims_ind_rel ks_startup (fun a b => en_cfg b = en_cfg a)); [reflexivity|congruence|].
      intros k a b _ Hp. eapply ElectProofs.prim_cfg; exact Hp. }
    rewrite <- Hcfg in S7. pose proof (start_harmless _ _ Hld S7) as Hh.
    assert (Hdv : dvote (so_disk (nd_store n)) = dvote d) by (unfold dvote; rewrite S1; reflexivity).
    assert (Hvl : vl (so_disk (nd_store n)) = vl d) by (unfold vl; rewrite Hdv; reflexivity).
    assert (Hc : forall i, i ∈ R -> cov E me (so_disk (nd_store n)) i).
    { intros i Hi. destruct (HR i Hi) as [C1 C2]. split; [rewrite Hvl; exact C1|]. destruct i as [v|v x]; [exact C2|]. intros Hf.
      destruct (C2 Hf) as (K1 & K2 & K3). split; [exact K1|]. rewrite Hdv. split; [exact K2|]. rewrite Hvl. intros Hv. destruct (K3 Hv) as [K4 K5].
      split; [exact K4|]. destruct S8 as [->|[-> S8]]; [exact K5|]. destruct (Hcmp v x Hi Hf Hv) as (y & Y1 & Y2).
      eapply (pfx_of_idx H Hok); [exact Y1|exact Y2|]. apply (pfx_idx H Hok) in K5. lia. }
    destruct Hld as (e0 & D' & sm1 & Ho & Rn & I0 & _). pose proof (ec_pos E HE _ _ (ei_ec _ _ _ _ I0)) as P0.
    destruct Rn as (_ & _ & cs & Hcs & Hw). rewrite Ho in Hcs. cbn [app] in Hcs.
    pose proof (walk_view E me _ _ _ Hw) as HD. cbn [w_d] in HD.
    assert (Hview : so_view (nd_store n) = so_disk (nd_store n)) by (unfold so_view; rewrite S2; reflexivity).
    assert (HDp : D' = planned n) by (unfold planned; rewrite Hview, Hcs; exact HD).
    destruct (harmless_walk E me HE Rq cs _ _ [] P0 Logic.I Hw) as [HW1 HW2]; [intros c Hin; apply Hh; rewrite Hcs; exact Hin|]. cbn [w_d] in HW1, HW2.
    constructor; rewrite ?S2, ?S3, ?S4, ?S5, ?Hview, ?Hcs.
    - exact Hc.
    - intros i Hi. apply elem_of_nil in Hi as [].
    - intros i Hi. rewrite S6 in Hi. injection Hi as <-. apply cov_new; [rewrite Hvl; reflexivity|exact Hdv|].
      apply (log_ok_root H). apply (ec_log _ _ _ (ei_ec _ _ _ _ I0)).
    - intros i Hi. apply elem_of_nil in Hi as [].
    - intros io m Hi. apply elem_of_nil in Hi as [].
    - intros sn io Hi. apply elem_of_nil in Hi as [].
    - exact Logic.I.
    - intros es io Hi. apply elem_of_nil in Hi as [].
    - exact HW1.
    - intros Hf a Ha. exfalso. pose proof (ei_vote _ _ _ _ (node_ei E me n HN)) as Hl. rewrite <- HDp in Hl.
      destruct HW2 as [Hx|[Hx _]]; [unfold vl; rewrite Hl; exact Hf| |]; rewrite Hx in Ha; apply elem_of_nil in Ha as [].
  Qed.
  Lemma di_cur w0 pcs wv D n A R : ninv E me w0 pcs wv D n -> DI n A R -> pfx H (w_cur wv) (dlast (w_d wv)).
  Proof using HE.
    intros N K. pose proof (ninv_posv _ _ HE _ _ _ _ _ N) as Pv. pose proof (p_must _ _ Pv) as Hm. pose proof (ninv_view _ _ _ _ _ _ _ N) as Hview.
    destruct (w_must wv) as [|c|c|x] eqn:Hw; [apply Hm|destruct Hm as (H1 & _ & H2 & _); eapply pfx_trans; eassumption..|].
    destruct Hm as (Hx & _). rewrite Hx. pose proof (n_w2 _ _ _ _ _ _ _ N) as W2. pose proof (di_out _ _ _ K) as KO.
    destruct (en_out (nd_eng n)) as [|c r]; cbn [walk dwalk] in W2, KO; [rewrite <- W2 in Hw; discriminate|].
    destruct W2 as [W2 _], KO as [KO _]. rewrite <- Hview in KO.
    destruct c as [wc io|v es|[cc|]|ss lc|c|pv up|t rq|rq|ts|v|rq|u|y| |sn io|wc rr tx]; cbn [wok] in W2; rewrite ?Hw in W2; try (destruct W2; congruence); try congruence.
    - destruct W2 as [[[=]|[=]] _].
    - destruct rq; [destruct W2|]; congruence.
    - destruct W2 as [[[=] _]|[[= <-] _]]. apply KO.
  Qed.
  Lemma restart_di now k j keep n n' A R : node_restart now k j keep n = Ok n' -> crash_fits E (crash_disk k j (nd_store n)) (sm_crash keep (nd_sm n)) ->
    node_inv E me n -> nd_id n' = me -> own_fits E me (dlast (so_disk (nd_store n'))) (en_out (nd_eng n')) -> DI n A R -> DI n' [] R.
  Proof using HE.
    intros Hs Hcf HN Hid Hown K. unfold node_restart in Hs.
    eapply start_di; [apply (crash_disk_ok E me HE); exact HN|exact Hcf|exact Hs|exact Hid|exact Hown| |].
    - intros i Hi. apply crash_cov; [exact HE|apply K|apply (di_R _ _ _ K); exact Hi].
    - intros v x Hi Hf Hv. pose proof (di_vote _ _ _ K) as Hdv.
      assert (Hcv : dvote (crash_disk k j (nd_store n)) = dvote (so_disk (nd_store n))).
      { unfold dvote. rewrite crash_disk_vote; [reflexivity|]. destruct HN as (w0 & pcs & wv & D & N). apply (n_v _ _ _ _ _ _ _ N). }
      assert (Hcx : cov E me (so_view (nd_store n)) (IOLog v x)) by (apply pwalk_cov; [exact HE|apply K|apply (di_R _ _ _ K); exact Hi]).
      destruct Hcx as [_ C2]. destruct (C2 Hf) as (_ & _ & C3). destruct C3 as [_ C3].
      { cbn [io_vote]. rewrite Hv. unfold vl. rewrite Hcv, Hdv. reflexivity. }
      exists (dlast (so_view (nd_store n))). split; [exact C3|]. destruct HN as (w0 & pcs & wv & D & N).
      destruct (crash_sm_ok E HE keep _ (n_sm _ _ _ _ _ _ _ N)) as (_ & S2 & _). eapply pfx_trans; [exact S2|].
      eapply pfx_trans; [eapply applied_cur; exact N|]. rewrite <- (ninv_view _ _ _ _ _ _ _ N). eapply di_cur; [exact N|exact K].
  Qed.
End durnode.
