(** What one step does to the log a node is about to have: the commands it queues are a
    [walk] from the planned disk before to the planned disk after. *)
From Coq Require Import Bool Lia ZifyBool ZifyNat.
From stdpp Require Import base numbers option gmap relations list.
From Verif Require Import Types TypesProofs LogIdList LogIdSpec LogIdListProofs LogIdLoadProofs Quorum Membership Progress RaftState
  ProgressEntry Engine Store RaftCore EnginePrims NodeSpec NodePrims StoreProofs VoteNodeProofs ElectProofs LogSpec LogProofs
  WalkProofs EngLogProofs NodeLogProofs.

Lemma so_flush_view k s : so_view (so_flush k s) = so_view s.
Proof.
  unfold so_view, so_flush. cbn [so_disk so_pending]. rewrite <- foldl_app, <- map_app, take_drop. reflexivity.
Qed.
Lemma so_submit_view op io s : so_view (so_submit op io s) = wop_apply (so_view s) op.
Proof. unfold so_view, so_submit. cbn [so_disk so_pending]. rewrite map_app, foldl_app. reflexivity. Qed.
Lemma run_cmd_view now c n x : run_cmd now c n = Ok x -> so_view (nd_store x.1) = dapply (so_view (nd_store n)) c.
Proof.
  unfold dapply. destruct c; cbn [run_cmd cmd_wop]; intros H;
    repeat match type of H with
    | context [match ?t with _ => _ end] => destruct t eqn:?; try discriminate H
    end;
    injection H as <-; cbn [fst nd_store nd_set_store nd_set_smq nd_set_streams nd_set_hb nd_set_hbw nd_set_clients note nd_set_notes nd_upd_io nd_set_eng];
    try reflexivity; try apply so_submit_view.
  unfold so_save_vote. rewrite so_flush_view. apply so_submit_view.
Qed.
(** a running command changes nothing in the engine but cursors *)
Lemma run_cmd_eng now c n x : run_cmd now c n = Ok x ->
  exists io, nd_eng x.1 = upd (set_io io) (nd_eng n) /\ io_accepted io = io_accepted (rs_io (nd_state n)).
Proof.
  assert (Hid : nd_eng n = upd (set_io (rs_io (nd_state n))) (nd_eng n)).
  { unfold upd, nd_state, set_io. destruct (nd_eng n) as [? [] ? ? ? ?]. reflexivity. }
  destruct c; cbn [run_cmd]; intros H;
    repeat match type of H with
    | context [match ?t with _ => _ end] => destruct t eqn:?; try discriminate H
    end;
    injection H as <-; cbn [fst nd_store nd_set_store nd_set_smq nd_set_streams nd_set_hb nd_set_hbw nd_set_clients note nd_set_notes nd_upd_io nd_set_eng nd_eng];
    first [exists (rs_io (nd_state n)); split; [exact Hid|reflexivity]|eexists; split; [reflexivity|reflexivity]].
Qed.

Lemma is_run ev : ev = ERun \/ ev <> ERun.
Proof. destruct ev; auto; right; discriminate. Qed.

Section step.
  Context (E : Env) (me : nat) (HE : env_ok E).
  Notation H := (ev_hist E).
  Let Hok : hist_ok H := proj1 HE.

  Lemma ninv_planned w0 pcs wv D n : ninv E me w0 pcs wv D n -> D = planned n.
  Proof.
    intros N. pose proof (walk_view E me _ _ _ (n_w2 _ _ _ _ _ _ _ N)) as Hd. cbn [w_d] in Hd.
    rewrite (ninv_view _ _ _ _ _ _ _ N) in Hd. exact Hd.
  Qed.
  Lemma node_ei n : node_inv E me n -> ei E me (planned n) (nd_eng n).
  Proof. intros (w0 & pcs & wv & D & N). rewrite <- (ninv_planned _ _ _ _ _ N). apply N. Qed.
  Lemma node_ec n : node_inv E me n -> ec E (planned n) (nd_state n).
  Proof. intros HN. apply (ei_ec _ _ _ _ (node_ei n HN)). Qed.
  Lemma node_pos n : node_inv E me n -> pos E (mkW (planned n) (rs_committed (nd_state n)) MNone).
  Proof using HE. intros HN. apply (ec_pos E HE). apply node_ec. exact HN. Qed.
  Lemma node_id n : node_inv E me n -> nd_id n = me.
  Proof. intros HN. apply (ei_id _ _ _ _ (node_ei n HN)). Qed.

  Lemma step_moved now ev n x : ev <> ERun -> node_step now ev n = Ok x -> event_fits E n ev ->
    own_fits E (nd_id n) (rs_last (nd_state n)) (step_produced ev n x.1) -> node_inv E me n ->
    moved E me (planned n) (nd_eng n) (nd_eng x.1).
  Proof using HE.
    intros He Hs Hf Hown HN. pose proof (node_ei n HN) as I. pose proof (node_id n HN) as Hid.
    assert (Hsame : nd_eng x.1 = nd_eng n -> moved E me (planned n) (nd_eng n) (nd_eng x.1)).
    { intros ->. apply moved_refl. exact I. }
    destruct HN as (w0 & pcs & wv & D & N). pose proof (ninv_planned _ _ _ _ _ N) as HD. subst D.
    pose proof Hs as Hstep. destruct ev; cbn [node_step] in Hs; unfold when_idle in Hs.
    - congruence.
    - destruct (runnable n); [injection Hs as <-; apply Hsame; reflexivity|].
      eapply msg_moved; [exact HE|exact I| |exact Hs|]; [eapply msg_fits_ok; auto; apply N|].
      eapply own_fits_fits; [exact HE|exact I| |exact Hown]. discriminate.
    - destruct (runnable n) eqn:Hrun; [injection Hs as <-; apply Hsame; reflexivity|]. destruct (nd_notes n) as [|y r] eqn:Hn; [injection Hs as <-; apply Hsame; reflexivity|].
      pose proof (n_notes _ _ _ _ _ _ _ N) as Hno. rewrite Hn in Hno. inversion Hno as [|? ? Hy Hr]; subst.
      eapply (note_moved E _ HE now y (nd_set_notes r n) x (planned n)); [exact I| |exact Hs|apply (own_fits_fits E _ HE n x.1 (planned n) ENote); [exact I|discriminate|exact Hown]].
      pose proof (n_v _ _ _ _ _ _ _ N) as [_ Hch]. apply vchain_le in Hch.
      destruct y as [t resp sv|v sv|[]|ss t []| |[]]; cbn in *; auto.
      * intros Hm. apply Hy. exact Hm.
      * intros Hm. apply Hy. exact Hm.
      * eapply pfx_trans; [exact Hy|]. eapply pfx_trans; [eapply snap_applied; [exact HE|exact N]|].
        eapply pfx_trans; [eapply applied_cur; exact N|eapply cur_committed; [exact HE|exact N]].
    - destruct (runnable n); [injection Hs as <-; apply Hsame; reflexivity|].
      apply lift_prims in Hs as (e & Hee & ->). cbn [fst] in *.
      eapply tick_runs; [exact HE|exact I|exact Hee|]. eapply (own_fits_fits E _ HE n (nd_set_eng e n)); [exact I| |exact Hown]. discriminate.
    - destruct (runnable n); [injection Hs as <-; apply Hsame; reflexivity|]. destruct (en_leader (nd_eng n)); [|injection Hs as <-; apply Hsame; reflexivity].
      apply lift_prims in Hs as (e & Hee & ->). cbn [fst] in *.
      eapply idle_moved; [exact HE|exact I|exact Hee].
    - apply Hsame. injection Hs as <-. reflexivity.
    - apply Hsame. destruct (so_callbacks _ !! i); injection Hs as <-; reflexivity.
    - apply Hsame. rok Hs. injection Hs as <-. apply (sm_step_eng n). assumption.
    - apply Hsame. injection Hs as <-. cbn [fst]. unfold build_done. repeat case_match; reflexivity.
    - apply Hsame. apply (stream_send_eng _ _ _ _ _ _ Hs).
    - apply Hsame. injection Hs as <-. apply stream_fail_eng.
    - apply Hsame. injection Hs as <-. cbn. unfold stream_snap_reply. repeat case_match; reflexivity.
    - apply Hsame. injection Hs as <-. unfold hb_send. repeat case_match; reflexivity.
    - apply Hsame. injection Hs as <-. apply handle_reply_eng.
  Qed.

  Lemma step_view now ev n x : ev <> ERun -> node_step now ev n = Ok x -> so_view (nd_store x.1) = so_view (nd_store n).
  Proof.
    destruct x as [n' outs]. cbn [fst]. intros He Hs.
    destruct (node_step_cases _ _ _ _ _ Hs) as [Hx _|c r Hx _ _ _|_ _ _ (Hx & _) _ _|t c y r _ _ _ _ _ Hx _|_ Hx _].
    - rewrite Hx. reflexivity.
    - contradiction.
    - rewrite Hx. reflexivity.
    - rewrite Hx. reflexivity.
    - destruct Hx as [Hx|[(k & _ & Hx)|(i & io & _ & _ & Hx)]]; rewrite Hx; [reflexivity|apply so_flush_view|reflexivity].
  Qed.
  Theorem step_walk now ev n x : node_step now ev n = Ok x -> event_fits E n ev ->
    own_fits E (nd_id n) (rs_last (nd_state n)) (step_produced ev n x.1) -> node_inv E me n ->
    walk E me (mkW (planned n) (rs_committed (nd_state n)) MNone) (step_produced ev n x.1)
      (mkW (planned x.1) (rs_committed (nd_state x.1)) MNone).
  Proof using HE.
    intros Hs Hf Hown HN. destruct (is_run ev) as [->|He].
    - destruct x as [n' outs]. cbn [fst step_produced walk].
      cbn [node_step] in Hs. unfold run_one in Hs. destruct (en_out (nd_eng n)) as [|c r] eqn:Ho; [injection Hs as <- _; reflexivity|].
      destruct (cond_ok _ _); [|injection Hs as <- _; reflexivity].
      pose proof (run_cmd_view _ _ _ _ Hs) as Hv. destruct (run_cmd_eng _ _ _ _ Hs) as (io & He & _). cbn [fst] in *.
      unfold planned, nd_state. rewrite He, Hv. cbn [nd_store nd_set_eng nd_eng upd en_state set_io rs_committed en_out eng_set_out].
      rewrite Ho. cbn [omap list_omap]. unfold dapply. destruct (cmd_wop c); reflexivity.
    - pose proof (step_view _ _ _ _ He Hs) as Hv.
      destruct (step_moved _ _ _ _ He Hs Hf Hown HN) as (D' & (_ & _ & cs & Ho & Hw) & I').
      assert (Hpr : step_produced ev n x.1 = cs).
      { destruct ev; try congruence; cbn [step_produced]; rewrite Ho, drop_app; reflexivity. }
      assert (HD : D' = planned x.1).
      { pose proof (walk_view E me _ _ _ Hw) as Hd. cbn [w_d] in Hd. rewrite Hd. unfold planned.
        rewrite Ho, Hv, omap_app, foldl_app. reflexivity. }
      rewrite Hpr, <- HD. exact Hw.
  Qed.
  Lemma step_vote_le now ev n x : node_step now ev n = Ok x -> event_fits E n ev ->
    own_fits E (nd_id n) (rs_last (nd_state n)) (step_produced ev n x.1) -> node_inv E me n ->
    vote_le (rs_v (nd_state n)) (rs_v (nd_state x.1)).
  Proof using HE.
    intros Hs Hf Hown HN. destruct (is_run ev) as [->|He].
    - cbn [node_step] in Hs. unfold run_one in Hs. destruct (en_out (nd_eng n)) as [|c r] eqn:Ho; [injection Hs as <-; apply vote_geb_refl|].
      destruct (cond_ok _ _); [|injection Hs as <-; apply vote_geb_refl].
      destruct (run_cmd_eng _ _ _ _ Hs) as (io & He & _). unfold nd_state. rewrite He. apply vote_geb_refl.
    - destruct (step_moved _ _ _ _ He Hs Hf Hown HN) as (D' & (_ & Hle & _) & _). exact Hle.
  Qed.
  Lemma reachable_inv cfg n : fits_reachable E cfg n -> ec_id cfg = me -> node_inv E me n.
  Proof using HE.
    intros (now & n0 & acts & outs & Hf & Hr & Hrun) Hid.
    destruct (fresh_inv E me HE now cfg n0 Hf Hid) as [HN Hid0].
    apply (node_run_inv E me HE acts n0 (n, outs) Hrun Hr Hid0 HN).
  Qed.
End step.
