(** What a node reports of its state machine and log is true and never goes back. *)
From Coq Require Import Bool Lia ZifyBool ZifyNat.
From stdpp Require Import base numbers option gmap relations list.
From Verif Require Import Types TypesProofs LogIdList Quorum Membership Progress RaftState
  ProgressEntry Engine Store RaftCore EnginePrims NodeSpec NodePrims StoreProofs VoteNodeProofs ElectProofs LeadProofs LogSpec LogProofs
  WalkProofs EngLogProofs NodeLogProofs StepLogProofs LogPropSpec KindProofs LogStateProofs RoleSpec OwnProofs ClientSpec MemProofs ClientProofs Metrics.

(** ** The cursors change only when a completion is handled or a purge is submitted *)
Notation iap e := (io_applied (rs_io (en_state e)), io_purged (rs_io (en_state e))).
Lemma accept_iap x s : (io_applied (rs_io (rs_accept_io x s)), io_purged (rs_io (rs_accept_io x s))) = (io_applied (rs_io s), io_purged (rs_io s)).
Proof.
  rewrite rs_accept_io_eq. cbn. unfold io_accept. destruct (match io_accepted (rs_io s) with None => _ | Some _ => _ end); reflexivity.
Qed.
Lemma fh_do_append_iap lv es e : iap (fh_do_append lv es e) = iap e.
Proof. rewrite fh_do_append_eq. cbn. destruct (last_two_memberships es); reflexivity. Qed.
Lemma fh_truncate_iap i e : iap (fh_truncate i e) = iap e.
Proof.
  rewrite fh_truncate_eq. destruct (rs_get_log_id _ _); [|reflexivity]. cbn.
  repeat match goal with |- context [match ?t with _ => _ end] => destruct t end; reflexivity.
Qed.
Lemma logh_purge_iap e : iap (logh_purge e) = iap e.
Proof. rewrite logh_purge_eq. destruct (rs_purge_upto _); [|reflexivity]. destruct (ologid_leb _ _); reflexivity. Qed.
Lemma install_iap lv sn e : iap (fh_install lv sn e).1 = iap e.
Proof.
  rewrite fh_install_eq. destruct (sm_last _) as [sl|]; [|reflexivity]. destruct (ologid_leb _ _); [reflexivity|].
  destruct (ologid_leb _ _); [reflexivity|]. cbv zeta. rewrite logh_purge_iap. cbn [push upd en_state set_purge_upto rs_io].
  unfold install_state. cbn. rewrite ?accept_iap.
  unfold install_cut. repeat match goal with |- context [match ?t with _ => _ end] => destruct t end; rewrite ?fh_truncate_iap; reflexivity.
Qed.
Lemma prim_iap k e e' : prim k e e' -> k <> KCursor -> iap e' = iap e.
Proof.
  intros Hp Hk. destruct Hp; try congruence; try reflexivity; try (cbn; rewrite ?accept_iap; reflexivity).
  - rewrite leader_appended_eq. cbn. destruct (last_membership _ _) as [[]|]; cbn; rewrite accept_iap; reflexivity.
  - apply fh_do_append_iap.
  - apply fh_truncate_iap.
  - rewrite sh_trigger_eq by assumption. reflexivity.
  - apply logh_purge_iap.
  - apply install_iap.
Qed.
Lemma prims_iap ks e e' : prims ks e e' -> bool_decide (KCursor ∈ ks) = false -> iap e' = iap e.
Proof.
  intros Hps Hk. apply bool_decide_eq_false in Hk. revert e e' Hps. apply prims_ind_rel; [auto|congruence|].
  intros k a b Hin Hp. eapply prim_iap; [exact Hp|]. intros ->. auto.
Qed.

(** ** Completions of the state machine that wait to be handled *)
Definition report (x : Note) : option (option LogId) :=
  match x with NSm (SRApply _ _ la) => Some (Some la) | NSm (SRInstall _ meta) => Some (sm_last meta) | _ => None end.
Definition reports (n : Node) : list (option LogId) := omap report (nd_notes n).

Lemma handle_note_iap now x n y : handle_note now x n = Ok y ->
  iap (nd_eng y.1) = (default (io_applied (rs_io (nd_state n))) (report x), io_purged (rs_io (nd_state n))).
Proof.
  intros Hu. pose proof (handle_note_kinds _ _ _ _ Hu) as Hk.
  destruct x as [t resp sv|v sv|io|ss t r|ss t time|r]; cbn [report default];
    try (apply prims_iap in Hk; [exact Hk|reflexivity]); clear Hk; cbn [handle_note] in Hu; unfold lift in Hu.
  - destruct io as [v|v lid]; [injection Hu as <-; reflexivity|].
    destruct (en_leader _); [|injection Hu as <-; reflexivity]. destruct (vote_matches _ _); [|injection Hu as <-; reflexivity].
    rok Hu. injection Hu as <-. apply rh_update_local_prims in Hx. apply prims_iap in Hx; [|reflexivity]. exact Hx.
  - destruct r as [meta|io meta|since es la].
    + rok Hu. injection Hu as <-. apply en_finish_building_prims in Hx. apply prims_iap in Hx; [|reflexivity]. exact Hx.
    + injection Hu as <-. reflexivity.
    + destruct (apply_results _ _) as [c outs]. injection Hu as <-. reflexivity.
Qed.

(** what a step leaves: reports, state machine's position, purge position *)
Definition still (n n' : Node) : Prop :=
  reports n' = reports n /\ sm_applied (nd_sm n') = sm_applied (nd_sm n) /\ so_view (nd_store n') = so_view (nd_store n).
Lemma step_still now ev n n' outs : node_step now ev n = Ok (n', outs) -> ev <> ERun -> ev <> ESm -> ev <> ENote -> still n n'.
Proof.
  intros Hs He1 He2 He3.
  assert (Hsame : nd_store n' = nd_store n -> nd_sm n' = nd_sm n -> nd_notes n' = nd_notes n -> still n n')
    by (intros H1 H2 H3; unfold still, reports; rewrite H1, H2, H3; auto).
  assert (Hadd : forall xs, nd_store n' = nd_store n -> sm_applied (nd_sm n') = sm_applied (nd_sm n) -> nd_notes n' = nd_notes n ++ xs -> omap report xs = [] -> still n n').
  { intros xs H1 H2 H3 H4. unfold still, reports. rewrite H1, H2, H3, omap_app, H4, app_nil_r. auto. }
  destruct ev; try congruence; cbn [node_step] in Hs; unfold when_idle in Hs.
  - destruct (runnable n); [injection Hs as <- _; auto|]. apply handle_msg_prims in Hs as (_ & H2 & H3). apply Hsame; [apply H2|apply H2|exact H3].
  - destruct (runnable n); [injection Hs as <- _; auto|]. apply lift_prims in Hs as (e & _ & [= -> _]). auto.
  - destruct (runnable n); [injection Hs as <- _; auto|]. destruct (en_leader _); [|injection Hs as <- _; auto].
    apply lift_prims in Hs as (e & _ & [= -> _]). auto.
  - injection Hs as <- _. unfold still. cbn [nd_store nd_set_store nd_sm nd_notes]. split; [reflexivity|]. split; [reflexivity|].
    unfold so_view, so_flush. cbn [so_disk so_pending]. rewrite <- foldl_app, <- map_app, take_drop. reflexivity.
  - destruct (so_callbacks _ !! _) as [io|]; injection Hs as <- _; [|auto]. unfold still, reports. cbn. rewrite omap_app. cbn. rewrite app_nil_r. auto.
  - injection Hs as <- _. unfold build_done in *. destruct (nd_builds n !! _) as [sn|]; [|auto]. apply (Hadd [NSm (SRBuild (sn_meta sn))]); try reflexivity.
    cbn. unfold sm_set_snapshot. match goal with |- context [if ?b then _ else _] => destruct b end; reflexivity.
  - unfold stream_send in Hs. repeat match type of Hs with context [match ?t with _ => _ end] => destruct t; try discriminate Hs end;
      injection Hs as <- _; apply Hsame; reflexivity.
  - injection Hs as <- _. unfold stream_fail in *. destruct (nd_streams n !! _) as [st|]; [|auto]. destruct (st_wait st) as [w|]; [|auto]. destruct (sw_payload w); [|apply Hsame; reflexivity].
    eapply (Hadd [_]); reflexivity.
  - injection Hs as <- _. unfold stream_snap_reply in *. destruct (nd_streams n !! _) as [st|]; [|auto]. destruct (st_snap st) as [[[m1 m2] m3]|]; [|auto].
    eapply (Hadd [_]); reflexivity.
  - injection Hs as Hs. unfold hb_send in Hs. repeat match type of Hs with context [match ?t with _ => _ end] => destruct t end;
      injection Hs as <- _; apply Hsame; reflexivity.
  - injection Hs as Hs. unfold handle_reply, read_reply, stream_reply, stream_snap_reply in Hs.
    repeat match type of Hs with context [match ?t with _ => _ end] => destruct t end; injection Hs as <- _;
      try (apply Hsame; reflexivity); unfold still, reports; cbn; rewrite ?omap_app; cbn; rewrite ?app_nil_r; auto.
Qed.
Lemma step_iap now ev n n' outs : node_step now ev n = Ok (n', outs) -> ev <> ERun -> ev <> ENote -> iap (nd_eng n') = iap (nd_eng n).
Proof.
  intros Hs H1 H2. pose proof (node_step_kinds _ _ _ _ Hs) as Hp. cbn [fst] in Hp.
  destruct ev as [|m| | | | | | | | | | | |]; try congruence; cbn [event_kinds] in Hp; try (eapply prims_iap; [exact Hp|reflexivity]).
  destruct m; (eapply prims_iap; [exact Hp|reflexivity]).
Qed.
Lemma run_still now n n' outs : node_step now ERun n = Ok (n', outs) ->
  reports n' = reports n /\ nd_sm n' = nd_sm n /\ io_applied (rs_io (nd_state n')) = io_applied (rs_io (nd_state n)) /\
  (io_purged (rs_io (nd_state n)) = ls_purged (so_log (nd_store n)) -> io_purged (rs_io (nd_state n')) = ls_purged (so_log (nd_store n'))).
Proof.
  cbn [node_step]. unfold run_one. destruct (en_out (nd_eng n)) as [|c r]; [intros [= <- _]; auto|].
  destruct (cond_ok _ _); [|intros [= <- _]; auto]. intros Hs. pose proof (run_cmd_view _ _ _ _ Hs) as Hv. unfold so_log. cbn [fst] in Hv. rewrite Hv.
  destruct c; cbn [run_cmd] in Hs;
    repeat match type of Hs with context [match ?t with _ => _ end] => destruct t eqn:?; try discriminate Hs end;
    injection Hs as <- _; unfold reports, nd_state; cbn; rewrite ?omap_app; cbn; rewrite ?app_nil_r; auto.
Qed.

Section metrics.
  Context (E : Env) (me : nat) (HE : env_ok E).
  Notation H := (ev_hist E).
  Let Hok : hist_ok H := proj1 HE.

  (** the positions rise from [a] over [l] to [b] *)
  Fixpoint rises (a : option LogId) (l : list (option LogId)) (b : option LogId) : Prop :=
    match l with [] => pfx H a b | x :: r => pfx H a x /\ rises x r b end.
  Lemma rises_snoc l : forall a b c, rises a l b -> pfx H b c -> rises a (l ++ [c]) c.
  Proof.
    induction l as [|x r IH]; intros a b c; cbn.
    - intros H1 H2. split; [eapply pfx_trans; eauto|constructor].
    - intros [H1 H2] H3. split; [exact H1|eapply IH; eauto].
  Qed.
  Lemma rises_pfx l : forall a b, rises a l b -> pfx H a b.
  Proof.
    induction l as [|x r IH]; intros a b; cbn; [auto|]. intros [H1 H2]. eapply pfx_trans; [exact H1|]. apply IH. exact H2.
  Qed.

  Definition AI (n : Node) : Prop :=
    rises (io_applied (rs_io (nd_state n))) (reports n) (sm_applied (nd_sm n)) /\
    io_purged (rs_io (nd_state n)) = ls_purged (so_log (nd_store n)).

  Lemma sm_reports n n' : sm_step n = Ok n' -> node_inv E me n -> nd_store n' = nd_store n /\
    (reports n' = reports n /\ nd_sm n' = nd_sm n \/
     pfx H (sm_applied (nd_sm n)) (sm_applied (nd_sm n')) /\ reports n' = reports n ++ [sm_applied (nd_sm n')]).
  Proof using HE.
    unfold sm_step. intros Hs (w0 & pcs & wv & D & N). pose proof (snap_applied _ _ HE _ _ _ _ _ N) as Hsa.
    pose proof (ninv_view _ _ _ _ _ _ _ N) as Hview. pose proof (ninv_posv _ _ HE _ _ _ _ _ N) as Pv. pose proof (n_smq _ _ _ _ _ _ _ N) as Hw.
    destruct (nd_smq n) as [|[f l| |sn io] r] eqn:Hq.
    - injection Hs as <-. auto.
    - destruct Hw as (Q1 & Q2 & Q3 & Q4).
      assert (Hl : pfx H (Some l) (dlast (w_d wv))) by (apply (n_smlast _ _ _ _ _ _ _ N f l); rewrite Hq; left).
      unfold so_log in Hs. rewrite <- Hview, Q1 in Hs.
      destruct (read_chain E HE (dk_log (w_d wv)) (sm_applied (nd_sm n)) l) as (R1 & R2 & R3).
      { apply Pv. }
      { eapply pfx_trans; [apply (n_purged _ _ _ _ _ _ _ N)|exact Hsa]. }
      { eapply pfx_trans; eauto. }
      { exact Hl. }
      rewrite R3, Nat.eqb_refl in Hs. injection Hs as <-.
      destruct (sm_apply_ok E HE _ _ (n_sm _ _ _ _ _ _ _ N) R1) as (A1 & A2 & A3 & A4). rewrite R2 in A2.
      split; [reflexivity|]. right. unfold reports. cbn [note nd_sm nd_set_notes nd_set_sm nd_set_smq nd_notes].
      split; [exact A4|]. rewrite omap_app, A2. reflexivity.
    - injection Hs as <-. auto.
    - destruct Hw as (Q1 & Q2 & Q3). injection Hs as <-. split; [reflexivity|]. right. unfold reports.
      cbn [note nd_sm nd_set_notes nd_set_sm nd_set_smq nd_notes sm_install sm_applied].
      split; [exact Q2|]. rewrite omap_app. reflexivity.
  Qed.

  (** one step keeps it, and nothing reported goes back *)
  Lemma step_ai now ev n n' outs : node_step now ev n = Ok (n', outs) -> node_inv E me n -> AI n ->
    AI n' /\ pfx H (io_applied (rs_io (nd_state n))) (io_applied (rs_io (nd_state n'))).
  Proof using HE.
    intros Hs HN [A P].
    assert (Hdone : iap (nd_eng n') = iap (nd_eng n) -> still n n' -> AI n' /\ pfx H (io_applied (rs_io (nd_state n))) (io_applied (rs_io (nd_state n')))).
    { intros Hi (R1 & R2 & R3). injection Hi as Hi1 Hi2. unfold AI, nd_state, so_log in *. rewrite Hi1, Hi2, R1, R2, R3. split; [auto|constructor]. }
    assert (Hev : ev = ERun \/ ev = ESm \/ ev = ENote \/ (ev <> ERun /\ ev <> ESm /\ ev <> ENote)) by (destruct ev; auto; right; right; right; repeat split; discriminate).
    destruct Hev as [->|[->|[->|(E1 & E2 & E3)]]].
    - destruct (run_still _ _ _ _ Hs) as (R1 & R2 & R3 & R4). unfold AI. rewrite R1, R2, R3. split; [auto|constructor].
    - pose proof (step_iap _ _ _ _ _ Hs ltac:(discriminate) ltac:(discriminate)) as Hi. injection Hi as Hi1 Hi2.
      cbn [node_step] in Hs. rok Hs. injection Hs as <- _. destruct (sm_reports _ _ Hx HN) as (S1 & S2).
      unfold AI, nd_state, so_log in *. rewrite Hi1, Hi2, S1. split; [|constructor]. split; [|exact P].
      destruct S2 as [(-> & ->)|(S2 & ->)]; [exact A|]. eapply rises_snoc; [exact A|exact S2].
    - cbn [node_step] in Hs. unfold when_idle in Hs.
      destruct (runnable n); [injection Hs as <- _; split; [split; assumption|constructor]|]. destruct (nd_notes n) as [|y r] eqn:Hn; [injection Hs as <- _; split; [split; assumption|constructor]|].
      pose proof (handle_note_iap _ _ _ _ Hs) as Hi. apply handle_note_prims in Hs as (_ & H2 & H3). cbn [fst] in *.
      injection Hi as Hi1 Hi2. unfold AI, reports in *. unfold nd_state in *. rewrite Hi1, Hi2, H3. destruct H2 as (-> & -> & _).
      cbn [nd_notes nd_set_notes nd_eng nd_sm nd_store] in *. rewrite Hn in A. cbn [omap list_omap] in A.
      destruct (report y) as [z|]; cbn [default].
      + destruct A as [A1 A2]. auto.
      + split; [split; [exact A|exact P]|constructor].
    - apply Hdone; [eapply step_iap; eassumption|eapply step_still; eassumption].
  Qed.

  Lemma start_ai now cfg d sm n : node_start now cfg d sm = Ok n ->
    (forall sm1, (if ologid_ltb (sm_applied sm) (start_committed d sm)
     then helper_reapply (next_index (sm_applied sm)) (next_index (start_committed d sm)) (dk_log d) sm = Ok sm1
     else sm1 = sm /\ start_committed d sm = sm_applied sm) -> sm_applied sm1 = start_committed d sm) -> AI n.
  Proof.
    intros Hs Hre. unfold node_start in Hs. rok Hs. destruct x as [[s d1] sm2]. rok Hs. rename x into e. injection Hs as <-.
    apply helper_initial_inv in Hx as (sm3 & ll & lp & ids & Hx). cbv zeta in Hx. destruct Hx as (H1 & H2 & _ & H4 & H5).
    apply Hre in H1. apply en_startup_prims in Hx0. apply prims_iap in Hx0; [|reflexivity]. cbn [engine_new en_state] in Hx0.
    rewrite H5 in Hx0. cbn [rs_io io_state_new io_applied io_purged] in Hx0. injection Hx0 as I1 I2.
    unfold AI, reports, nd_state, so_log, so_view. cbn [nd_eng nd_notes nd_sm nd_store so_disk so_pending omap list_omap rises map foldl].
    rewrite I1, I2. split.
    - replace (sm_applied sm2) with (sm_applied sm3); [rewrite H1; constructor|]. rewrite H4. destruct (sm_snapshot sm3), lp; reflexivity.
    - destruct H2 as [(Hp & Hd & Hl & _ & ->)|(_ & -> & _ & ->)]; [|reflexivity].
      rewrite Hl. unfold start_purges in Hp. destruct (start_committed d sm); [reflexivity|]. destruct Hp; congruence.
  Qed.

  Theorem run_ai now0 cfg n0 acts : forall n outs, node_fresh now0 cfg = Ok n0 -> ec_id cfg = me -> run_fits E acts n0 -> node_run acts n0 = Ok (n, outs) -> AI n.
  Proof using HE.
    induction acts as [|a acts IH] using rev_ind; intros n outs Hfr Hme Hf Hr.
    - cbn in Hr. injection Hr as <- _. eapply start_ai; [exact Hfr|]. cbn. intros sm1 [-> _]. reflexivity.
    - apply node_run_snoc in Hr as (n1 & o1 & o & Hr1 & Ha & _). destruct (run_fits_snoc E _ _ _ Hf _ _ Hr1) as [Hf1 Hfa].
      assert (HN : node_inv E me n1) by (apply (reachable_inv E me HE cfg); [exists now0, n0, acts, o1; auto|exact Hme]).
      specialize (IH n1 o1 Hfr Hme Hf1 Hr1). destruct a as [now ev|now k j keep]; cbn [node_act] in *.
      + eapply step_ai; [exact Ha|exact HN|exact IH].
      + rok Ha. injection Ha as -> _. unfold node_restart in Hx. eapply start_ai; [exact Hx|].
        intros sm1 Hre. apply (reapply_ok E HE _ _ _ (crash_disk_ok E me HE k j keep n1 HN) Hre).
  Qed.
  Lemma reach_ai cfg n : fits_reachable E cfg n -> ec_id cfg = me -> AI n.
  Proof using HE. intros (now & n0 & acts & outs & Hf & Hfit & Hr) Hme. eapply run_ai; eassumption. Qed.

  Theorem metrics_true cfg n : fits_reachable E cfg n -> ec_id cfg = me ->
    ologid_leb (mt_applied (node_metrics n)) (sm_applied (nd_sm n)) = true /\
    ologid_leb (mt_snapshot (node_metrics n)) (snap_last (nd_sm n)) = true /\
    mt_purged (node_metrics n) = ls_purged (so_log (nd_store n)) /\
    ologid_leb (mt_purged (node_metrics n)) (snap_last (nd_sm n)) = true.
  Proof using HE.
    intros Hr Hme. destruct (reach_ai _ _ Hr Hme) as [A P]. pose proof (reachable_inv E me HE cfg n Hr Hme) as HN.
    destruct HN as (w0 & pcs & wv & D & N). cbn [node_metrics mt_applied mt_snapshot mt_purged].
    split; [apply (pfx_le H Hok); eapply rises_pfx; exact A|]. split; [apply (pfx_le H Hok); apply (n_iosnap _ _ _ _ _ _ _ N)|].
    split; [exact P|]. rewrite P. apply (pfx_le H Hok). unfold so_log. rewrite <- (ninv_view _ _ _ _ _ _ _ N). apply (n_purged _ _ _ _ _ _ _ N).
  Qed.
  Theorem wait_applied cfg n i : fits_reachable E cfg n -> ec_id cfg = me -> metric_ge (node_metrics n) (AppliedIndex (Some i)) = true ->
    forall k, k <= i -> exists e, sm_entries (nd_sm n) !! k = Some e /\ e_index e = k.
  Proof using HE.
    intros Hr Hme Hge k Hk. destruct (reach_ai _ _ Hr Hme) as [A _]. pose proof (reachable_inv E me HE cfg n Hr Hme) as HN.
    destruct HN as (w0 & pcs & wv & D & N). destruct (n_sm _ _ _ _ _ _ _ N) as [S1 S2 _ _].
    apply rises_pfx in A. apply (pfx_idx H Hok) in A. cbn [metric_ge node_metrics mt_applied] in Hge.
    destruct (io_applied (rs_io (nd_state n))) as [a|]; [|discriminate]. cbn in Hge, A. apply Nat.leb_le in Hge.
    rewrite S2, (chain_length H Hok _ _ S1) in A. cbn in A.
    destruct (lookup_lt_is_Some_2 (sm_entries (nd_sm n)) k) as [e He]; [lia|]. exists e. split; [exact He|].
    apply (chain_index H Hok _ _ _ _ S1 He).
  Qed.
  Theorem applied_forward now ev n n' outs cfg : fits_step E cfg now ev n n' outs -> ec_id cfg = me ->
    ologid_leb (mt_applied (node_metrics n)) (mt_applied (node_metrics n')) = true.
  Proof using HE.
    intros (Hr & Hs & _) Hme. apply (pfx_le H Hok). eapply step_ai; [exact Hs|apply (reachable_inv E me HE cfg n Hr Hme)|].
    eapply reach_ai; eassumption.
  Qed.
End metrics.
