(** Positions, commits and logs of one node: lemmas behind [PropsLog]. *)
From Coq Require Import Bool Lia ZifyBool ZifyNat.
From stdpp Require Import base numbers option gmap relations list.
From Verif Require Import Types TypesProofs LogIdList LogIdSpec LogIdListProofs Quorum Membership Progress RaftState
  ProgressEntry Engine Store RaftCore EnginePrims NodeSpec NodePrims StoreProofs VoteNodeProofs ElectProofs CommandProofs
  LogSpec LogProofs WalkProofs EngLogProofs NodeLogProofs StepLogProofs KindProofs LogPropSpec.

(** ** Without a history *)

Lemma produced_app ev n n' cs : ev <> ERun -> en_out (nd_eng n') = en_out (nd_eng n) ++ cs -> step_produced ev n n' = cs.
Proof. intros He Ho. destruct ev; try congruence; cbn [step_produced]; rewrite Ho, drop_app; reflexivity. Qed.
Lemma step_planned now ev n n' outs : node_step now ev n = Ok (n', outs) ->
  planned n' = foldl wop_apply (planned n) (omap cmd_wop (step_produced ev n n')).
Proof.
  intros Hs. destruct (is_run ev) as [->|He].
  - cbn [step_produced omap list_omap foldl].
    cbn [node_step] in Hs. unfold run_one in Hs. destruct (en_out (nd_eng n)) as [|c r] eqn:Ho; [injection Hs as <- _; reflexivity|].
    destruct (cond_ok _ _); [|injection Hs as <- _; reflexivity].
    pose proof (run_cmd_view _ _ _ _ Hs) as Hv. destruct (run_cmd_eng _ _ _ _ Hs) as (io & He & _). cbn [fst] in *.
    unfold planned. rewrite He, Hv. cbn [nd_store nd_set_eng nd_eng upd en_state set_io rs_committed en_out popped].
    rewrite Ho. cbn [omap list_omap]. unfold dapply. destruct (cmd_wop c); reflexivity.
  - pose proof (step_view _ _ _ _ He Hs) as Hv. cbn [fst] in Hv.
    pose proof (proj2 (step_queue _ _ _ _ _ Hs) He) as [cs Ho]. rewrite (produced_app _ _ _ _ He Ho).
    unfold planned. rewrite Ho, Hv, omap_app, foldl_app. reflexivity.
Qed.

Ltac notin := let Hin := fresh in intros Hin; apply elem_of_list_In in Hin; cbn in Hin;
  repeat (destruct Hin as [Hin|Hin]; [discriminate|]); exact Hin.
(** truncations stay above the commit position, whatever the messages *)
Lemma step_truncates now ev n n' outs x : node_step now ev n = Ok (n', outs) ->
  TruncateLog x ∈ step_produced ev n n' ->
  is_follow_msg ev = true /\ next_index (rs_committed (nd_state n)) <= lid_index x.
Proof.
  intros Hs Hx. destruct (is_run ev) as [->|He]; [apply elem_of_nil in Hx as []|].
  destruct (is_follow_msg ev) eqn:Hf.
  2:{ exfalso. pose proof (node_step_kinds _ _ _ _ Hs) as Hp. cbn [fst] in Hp.
      destruct (prims_no_trunc _ _ _ Hp) as (cs & Ho & Hcs).
      - destruct ev as [|m| | | | | | | | | | | |]; cbn [event_kinds] in *; try reflexivity.
        + destruct m; try reflexivity; discriminate Hf.
        + destruct (nd_notes n) as [|y r]; [reflexivity|]. destruct y as [| | | | |[]]; reflexivity.
      - destruct ev as [|m| | | | | | | | | | | |]; cbn [event_kinds]; try congruence; try notin.
        + destruct m; notin.
        + destruct (nd_notes n) as [|y r]; [notin|]. destruct y as [| | | | |[]]; notin.
      - rewrite (produced_app _ _ _ _ He Ho) in Hx. apply (Hcs _ Hx). }
  split; [reflexivity|]. destruct ev as [|m| | | | | | | | | | | |]; try discriminate. cbn [node_step] in Hs. unfold when_idle in Hs.
  assert (Hsame : en_out (nd_eng n') = en_out (nd_eng n) -> next_index (rs_committed (nd_state n)) <= lid_index x).
  { intros Ho. exfalso. rewrite (produced_app _ _ _ [] He) in Hx; [apply elem_of_nil in Hx as []|]. rewrite app_nil_r. exact Ho. }
  destruct (runnable n); [injection Hs as <- _; apply Hsame; reflexivity|].
  assert (Hcs : forall cs, en_out (nd_eng n') = en_out (nd_eng n) ++ cs ->
    (forall y, TruncateLog y ∈ cs -> next_index (rs_committed (nd_state n)) <= lid_index y) ->
    next_index (rs_committed (nd_state n)) <= lid_index x).
  { intros cs Ho Hall. apply Hall. rewrite <- (produced_app _ _ _ _ He Ho). exact Hx. }
  rename Hx into Hxx. clear Hsame. destruct m; try discriminate; cbn [handle_msg] in Hs; unfold lift in Hs; rok Hs; injection Hs as <- <-;
    unfold nd_state in *; cbn [nd_eng nd_set_eng] in Hcs; rename Hx into Hx0.
  - unfold core_append in Hx0. rok Hx0. injection Hx0 as <-. pose proof (en_append_entries_prims _ _ _ _ _ _ _ Hx) as Hp.
    destruct (prims_trunc _ _ _ Hp eq_refl) as (c1 & Ho1 & Hc1).
    { notin. }
    destruct x1.2; [|apply (Hcs c1 Ho1 Hc1)].
    destruct (prims_no_trunc _ _ _ (fh_commit_prims committed x1.1) eq_refl) as (c2 & Ho2 & Hc2).
    { notin. }
    apply (Hcs (c1 ++ c2)).
    + unfold en_commit_entries. rewrite Ho2, Ho1, app_assoc. reflexivity.
    + intros y Hy. apply elem_of_app in Hy as [Hy|Hy]; [apply (Hc1 _ Hy)|exfalso; apply (Hc2 _ Hy)].
  - unfold en_install_snapshot, vh_accept_vote in Hx0. rok Hx0. rok Hx. rename Hx1 into Hx2. rename Hx into Hx1. pose proof (vh_update_vote_prims _ _ _ _ Hx2) as Hv.
    destruct (prims_trunc _ _ _ Hv eq_refl) as (c1 & Ho1 & Hc1).
    { notin. }
    pose proof (prims_committed _ _ _ Hv eq_refl) as Hcom.
    destruct x2 as [e1 ok]. cbn [fst snd] in *. destruct ok; injection Hx1 as <-; cbn [fst snd negb] in Hx0.
    + destruct (install_out (fh_vote e1) sn e1) as (c2 & Ho2 & Hc2).
      destruct (fh_install (fh_vote e1) sn e1) as [e2 cond] eqn:Hi. cbn [fst] in *. injection Hx0 as <-.
      eapply (Hcs (c1 ++ c2 ++ [_])).
      * cbn [push en_out]. rewrite Ho2, Ho1, <- !app_assoc. reflexivity.
      * intros y Hy. rewrite !elem_of_app in Hy. destruct Hy as [Hy|[Hy|Hy]]; [apply (Hc1 _ Hy)| |].
        -- apply Hc2 in Hy as [_ Hy]. rewrite Hcom in Hy. exact Hy.
        -- apply elem_of_list_singleton in Hy. discriminate.
    + injection Hx0 as <-. eapply (Hcs (c1 ++ [_])).
      * cbn [push en_out]. rewrite Ho1, <- !app_assoc. reflexivity.
      * intros y Hy. rewrite !elem_of_app in Hy. destruct Hy as [Hy|Hy]; [apply (Hc1 _ Hy)|].
        apply elem_of_list_singleton in Hy. discriminate.
Qed.
(** hence committed entries stay unless purged *)
Lemma keep_committed cs (D : Disk) i x :
  (forall y, TruncateLog y ∈ cs -> i <= lid_index y) -> e_index x < i -> x ∈ ls_entries (dk_log D) ->
  x ∈ ls_entries (dk_log (foldl wop_apply D (omap cmd_wop cs))) \/ exists u, PurgeLog u ∈ cs /\ e_index x <= lid_index u.
Proof.
  revert D. induction cs as [|c r IH]; intros D Ht Hi Hx; [left; exact Hx|].
  assert (Hnext : forall D', x ∈ ls_entries (dk_log D') ->
    x ∈ ls_entries (dk_log (foldl wop_apply D' (omap cmd_wop r))) \/ exists u, PurgeLog u ∈ c :: r /\ e_index x <= lid_index u).
  { intros D' Hx'. destruct (IH D') as [Hl|(u & Hu & Hle)]; auto.
    - intros y Hy. apply Ht. apply elem_of_cons. auto.
    - right. exists u. split; [apply elem_of_cons; auto|exact Hle]. }
  cbn [omap list_omap]. destruct c; cbn [cmd_wop foldl]; try (apply Hnext; exact Hx).
  - apply Hnext. cbn. apply elem_of_app. auto.
  - cbn [omap list_omap foldl]. destruct (decide (e_index x <= lid_index upto)) as [Hle|Hgt].
    + right. exists upto. split; [apply elem_of_cons; auto|exact Hle].
    + apply Hnext. cbn. apply elem_of_list_filter. split; [lia|exact Hx].
  - apply Hnext. cbn. apply elem_of_list_filter. split; [|exact Hx].
    specialize (Ht since ltac:(apply elem_of_cons; auto)). lia.
Qed.
Lemma step_keeps_committed now ev n n' outs x : node_step now ev n = Ok (n', outs) ->
  x ∈ ls_entries (planned_log n) -> e_index x < next_index (rs_committed (nd_state n)) ->
  x ∈ ls_entries (planned_log n') \/ exists u, PurgeLog u ∈ step_produced ev n n' /\ e_index x <= lid_index u.
Proof.
  intros Hs Hx Hi. unfold planned_log. rewrite (step_planned _ _ _ _ _ Hs). eapply keep_committed; [|exact Hi|exact Hx].
  intros y Hy. eapply step_truncates; eauto.
Qed.

(** commits of a leader *)
Definition leads_commit (e e' : Engine) : Prop :=
  rs_v (en_state e') = rs_v (en_state e) /\
  (forall l', en_leader e' = Some l' -> exists l, en_leader e = Some l /\ ld_vote l' = ld_vote l) /\
  (rs_committed (en_state e') = rs_committed (en_state e) \/
   exists l c, en_leader e = Some l /\ rs_committed (en_state e') = Some c /\
     lid_leader c = v_leader (rs_v (en_state e)) /\ ologid_ltb (rs_committed (en_state e)) (Some c) = true).
Lemma prims_leads_commit ks e e' : prims ks e e' -> existsb k_changes_vote ks = false ->
  forallb (fun k => match k with KFollowCommit | KInstall | KEstablish | KLeaderVote | KLeaderFresh => false | _ => true end) ks = true ->
  leads_commit e e'.
Proof.
  intros Hp Hk Hk2. rewrite forallb_forall in Hk2. revert e e' Hp. apply prims_ind_rel.
  - intros e. split; [reflexivity|]. split; [eauto|]. auto.
  - intros a b c (V1 & L1 & C1) (V2 & L2 & C2). split; [congruence|]. split.
    { intros l' Hl'. destruct (L2 l' Hl') as (l2 & Hl2 & Hv2). destruct (L1 l2 Hl2) as (l & Hl & Hv). exists l. split; [exact Hl|congruence]. }
    destruct C2 as [C2|(l2 & c2 & A & B & C & D)].
    + rewrite C2. exact C1.
    + right. destruct (L1 _ A) as (l & Hl & _). exists l, c2. split; [exact Hl|]. split; [exact B|]. split; [congruence|].
      destruct C1 as [C1|(l1 & c1 & A1 & B1 & C1 & D1)]; [congruence|]. rewrite B1 in D.
      generalize dependent (rs_committed (en_state a)). intros o D1. clear -D D1. ord.
  - intros k a b Hin Hp. specialize (Hk2 k ltac:(apply elem_of_list_In; exact Hin)).
    assert (Hkv : k_changes_vote k = false).
    { destruct (k_changes_vote k) eqn:Hc; [|reflexivity]. exfalso.
      assert (existsb k_changes_vote ks = true); [|congruence]. apply existsb_exists. exists k. split; [apply elem_of_list_In; exact Hin|exact Hc]. }
    split; [eapply prim_vote_same; eauto|]. split.
    { destruct (k_changes_leader k) eqn:Hkl; [|intros l' Hl'; rewrite (prim_leader_same _ _ _ Hp Hkl) in Hl'; eauto].
      destruct Hp; try discriminate.
      - intros l2 [= <-]. eauto.
      - intros l2 [= <-]. eauto.
      - intros l2 [= <-]. eauto.
      - rewrite leader_appended_eq. intros l2 [= <-]. eauto. }
    destruct (k_changes_committed k) eqn:Hkc; [|left; eapply prim_committed; eauto].
    destruct Hp; try discriminate. right. exists l, c. split; [assumption|]. split; [reflexivity|]. split; [|assumption].
    unfold is_same_leader in H0. apply leader_eqb_eq in H0. congruence.
Qed.
Lemma step_leads_commit now ev n n' outs : node_step now ev n = Ok (n', outs) -> is_follow_msg ev = false ->
  rs_committed (nd_state n') = rs_committed (nd_state n) \/
  rs_v (nd_state n') = rs_v (nd_state n) /\
  (forall l', en_leader (nd_eng n') = Some l' -> exists l, en_leader (nd_eng n) = Some l /\ ld_vote l' = ld_vote l) /\
  exists l c, en_leader (nd_eng n) = Some l /\ rs_committed (nd_state n') = Some c /\
     lid_leader c = v_leader (rs_v (nd_state n)) /\ ologid_ltb (rs_committed (nd_state n)) (Some c) = true.
Proof.
  intros Hs Hf. pose proof (node_step_kinds _ _ _ _ Hs) as Hp. cbn [fst] in Hp.
  assert (Hlc : leads_commit (nd_eng n) (nd_eng n') \/ rs_committed (nd_state n') = rs_committed (nd_state n)).
  { destruct ev as [|m| | | | | | | | | | | |]; cbn [event_kinds] in *;
      try (right; exact (prims_committed _ _ _ Hp eq_refl)).
    - destruct m; try discriminate Hf; try (right; exact (prims_committed _ _ _ Hp eq_refl)).
    - destruct (nd_notes n) as [|y r]; [right; exact (prims_committed _ _ _ Hp eq_refl)|].
      destruct y as [| | | | |[]]; try (right; exact (prims_committed _ _ _ Hp eq_refl));
      left; eapply prims_leads_commit; eauto. }
  destruct Hlc as [(V & L & [C|C])|C]; auto.
Qed.

(** ** With a history *)

Section fit.
  Context (E : Env) (cfg : EngineConfig) (HE : env_ok E).
  Notation H := (ev_hist E).
  Notation me := (ec_id cfg).
  Let Hok : hist_ok H := proj1 HE.

  Lemma pfx_pos_le a b : pfx H a b -> pos_le a b.
  Proof using HE. intros Hp. split; [apply (pfx_le H Hok); exact Hp|apply (pfx_idx H Hok); exact Hp]. Qed.
  Lemma chain_no_holes l : log_ok H l -> no_holes l.
  Proof using HE.
    intros [_ Hc]. unfold no_holes. apply list_eq. intros i. rewrite list_lookup_fmap.
    destruct (ls_entries l !! i) as [e|] eqn:Hl.
    - cbn. rewrite (chain_index H Hok _ _ _ _ Hc Hl). symmetry. apply lookup_seq. apply lookup_lt_Some in Hl. split; [reflexivity|exact Hl].
    - cbn. symmetry. apply lookup_ge_None. rewrite seq_length. apply lookup_ge_None. exact Hl.
  Qed.
  Lemma reach_inv n : fits_reachable E cfg n -> node_inv E me n.
  Proof using HE. intros Hr. apply (reachable_inv E me HE cfg n Hr eq_refl). Qed.
  Lemma step_inv now ev n n' outs : fits_step E cfg now ev n n' outs -> node_inv E me n /\ node_inv E me n'.
  Proof using HE.
    intros (Hr & Hs & Hf & Hown). pose proof (reach_inv n Hr) as HN. split; [exact HN|].
    apply (node_step_inv E me HE now ev n (n', outs) Hs Hf Hown HN).
  Qed.
  Lemma step_w now ev n n' outs : fits_step E cfg now ev n n' outs ->
    walk E me (mkW (planned n) (rs_committed (nd_state n)) MNone) (step_produced ev n n')
      (mkW (planned n') (rs_committed (nd_state n')) MNone).
  Proof using HE.
    intros (Hr & Hs & Hf & Hown). apply (step_walk E me HE now ev n (n', outs) Hs Hf Hown). apply reach_inv. exact Hr.
  Qed.

  (** C33 *)
  Lemma positions n : fits_reachable E cfg n ->
    let s := nd_state n in
    pos_le (rs_last_purged s) (rs_purge_upto s) /\ pos_le (rs_purge_upto s) (rs_snap_last s) /\
    pos_le (rs_snap_last s) (rs_committed s) /\ pos_le (rs_committed s) (rs_last s).
  Proof using HE.
    intros Hr. cbv zeta. pose proof (node_ec E me n (reach_inv n Hr)) as C.
    rewrite (ec_last_purged E _ _ C), (ec_last E _ _ C). repeat split; apply pfx_pos_le; apply C.
  Qed.
  Lemma log_view n : fits_reachable E cfg n ->
    rs_last_purged (nd_state n) = ls_purged (planned_log n) /\ rs_last (nd_state n) = ls_last (planned_log n) /\
    no_holes (planned_log n) /\ no_holes (dk_log (so_disk (nd_store n))) /\
    forall i x, rs_get_log_id (nd_state n) i = Some x <->
      lid_index x = i /\ (ls_purged (planned_log n) = Some x \/ exists y, y ∈ ls_entries (planned_log n) /\ e_log_id y = x).
  Proof using HE.
    intros Hr. pose proof (reach_inv n Hr) as HN. pose proof (node_ec E me n HN) as C.
    split; [apply (ec_last_purged E _ _ C)|]. split; [apply (ec_last E _ _ C)|].
    split; [apply chain_no_holes; apply C|]. split.
    { destruct HN as (w0 & pcs & wv & D & N). apply chain_no_holes. rewrite <- (n_d0 _ _ _ _ _ _ _ N). apply (n_pos _ _ _ _ _ _ _ N). }
    intros i x. rewrite (ec_get E HE _ _ _ _ C). pose proof (ls_ids_elem H Hok _ x (ec_log E _ _ C)) as Hids.
    assert (Hin : x ∈ ls_ids (dk_log (planned n)) <-> ls_purged (planned_log n) = Some x \/ exists y, y ∈ ls_entries (planned_log n) /\ e_log_id y = x).
    { unfold ls_ids. fold (planned_log n). rewrite elem_of_app. rewrite (elem_of_list_fmap e_log_id (ls_entries (planned_log n)) x).
      destruct (ls_purged (planned_log n)) as [p|]; cbn [option_list].
      - change (option_list (Some p)) with [p]. rewrite elem_of_list_singleton. split; [intros [->|(y & -> & Hy)]; eauto|intros [[= ->]|(y & Hy & <-)]; eauto].
      - change (option_list None) with (@nil LogId). rewrite elem_of_nil. split; [intros [[]|(y & -> & Hy)]; eauto|intros [Hx|(y & Hy & <-)]; [discriminate|eauto]]. }
    rewrite <- Hin, Hids. tauto.
  Qed.
  Lemma step_committed now ev n n' outs : fits_step E cfg now ev n n' outs ->
    pfx H (rs_committed (nd_state n)) (rs_committed (nd_state n')).
  Proof using HE.
    intros Hs. pose proof (step_w _ _ _ _ _ Hs) as Hw. destruct (step_inv _ _ _ _ _ Hs) as [HN _].
    apply (walk_cur E me Hok _ _ _ (node_pos E me HE n HN) Hw).
  Qed.
  Lemma step_purged now ev n n' outs : fits_step E cfg now ev n n' outs ->
    pfx H (rs_last_purged (nd_state n)) (rs_last_purged (nd_state n')).
  Proof using HE.
    intros Hs. pose proof (step_w _ _ _ _ _ Hs) as Hw. destruct (step_inv _ _ _ _ _ Hs) as [HN HN'].
    rewrite (ec_last_purged E _ _ (node_ec E me n HN)), (ec_last_purged E _ _ (node_ec E me n' HN')).
    apply (walk_purged E me HE _ _ _ (node_pos E me HE n HN) Hw).
  Qed.
  Lemma prim_snap_le k e e' : prim k e e' -> ologid_leb (rs_snap_last (en_state e)) (rs_snap_last (en_state e')) = true.
  Proof.
    intros Hp. destruct (k_changes_snap k) eqn:Hk.
    2:{ unfold rs_snap_last. rewrite (prim_snap _ _ _ Hp Hk). apply ologid_leb_refl. }
    destruct Hp; try discriminate.
    - cbn. unfold rs_snap_last in *. cbn. generalize dependent (sm_last (rs_snap (en_state e))). intros o Ho.
      generalize dependent (sm_last meta). intros o' Ho. ord.
    - rewrite fh_install_eq. destruct (sm_last (sn_meta sn)) as [sl|] eqn:Hsl; [|apply ologid_leb_refl].
      destruct (ologid_leb _ (rs_committed _)); [apply ologid_leb_refl|].
      destruct (ologid_leb (Some sl) (rs_snap_last (en_state e))) eqn:Hle; [apply ologid_leb_refl|]. cbv zeta.
      set (e1 := upd (set_snap (sn_meta sn)) e).
      assert (Hcut : rs_snap (en_state (install_cut sl e1)) = sn_meta sn).
      { unfold install_cut. destruct (rs_get_log_id (en_state e1) _) as [loc|]; [|reflexivity].
        destruct (logid_eqb loc sl); [reflexivity|]. rewrite fh_truncate_eq. destruct (rs_get_log_id _ _); [|reflexivity]. cbn. mt; reflexivity. }
      rewrite logh_purge_eq. cbn [upd push en_state set_purge_upto rs_purge_upto].
      unfold install_state.
      assert (Hgoal : ologid_leb (rs_snap_last (en_state e)) (Some sl) = true).
      { generalize dependent (rs_snap_last (en_state e)). intros o Ho. ord. }
      destruct (ologid_leb (Some sl) (rs_last_purged _)); unfold rs_snap_last; cbn; rewrite rs_accept_io_eq; cbn; rewrite Hcut, Hsl; exact Hgoal.
  Qed.
  Lemma step_snap now ev n n' outs : node_step now ev n = Ok (n', outs) ->
    ologid_leb (rs_snap_last (nd_state n)) (rs_snap_last (nd_state n')) = true.
  Proof.
    intros Hs. pose proof (node_step_kinds _ _ _ _ Hs) as Hp. cbn [fst] in Hp. revert Hp. unfold nd_state.
    generalize (nd_eng n), (nd_eng n'). generalize (event_kinds ev n). intros ks. apply prims_ind_rel.
    - intros e. apply ologid_leb_refl.
    - intros a b c. generalize (rs_snap_last (en_state a)), (rs_snap_last (en_state b)), (rs_snap_last (en_state c)). intros x y z H1 H2. ord.
    - intros k a b _ Hp. eapply prim_snap_le. exact Hp.
  Qed.
  Lemma step_snap_idx now ev n n' outs : fits_step E cfg now ev n n' outs ->
    pos_le (rs_snap_last (nd_state n)) (rs_snap_last (nd_state n')).
  Proof using HE.
    intros Hs. destruct (step_inv _ _ _ _ _ Hs) as [HN HN']. pose proof (step_committed _ _ _ _ _ Hs) as Hc.
    apply pfx_pos_le. eapply (pfx_of_leb H Hok).
    - eapply pfx_trans; [apply (node_ec E me n HN)|exact Hc].
    - apply (node_ec E me n' HN').
    - destruct Hs as (_ & Hs & _). eapply step_snap. exact Hs.
  Qed.

  (** the commands of a list of kinds *)
  Lemma prims_cmds ks e e' : prims ks e e' -> KPop ∉ ks ->
    exists cs, en_out e' = en_out e ++ cs /\ forall c, c ∈ cs -> exists k a b, k ∈ ks /\ cmd_of k a b c.
  Proof.
    intros Hp Hpop. revert e e' Hp. apply prims_ind_rel.
    - intros e. exists []. rewrite app_nil_r. split; [reflexivity|]. intros x Hx. apply elem_of_nil in Hx as [].
    - intros a b c (c1 & H1 & H2) (c2 & H3 & H4). exists (c1 ++ c2). rewrite H3, H1, app_assoc. split; [reflexivity|].
      intros x Hx. apply elem_of_app in Hx as [Hx|Hx]; [apply (H2 x Hx)|apply (H4 x Hx)].
    - intros k a b Hin Hp. destruct (prim_pushes _ _ _ Hp) as (cs & Ho & Hcs); [intros ->; contradiction|].
      exists cs. split; [exact Ho|]. intros c Hc. exists k, a, b. auto.
  Qed.
  Lemma log_quiet cs D : (forall c, c ∈ cs -> match c with AppendInputEntries _ _ | TruncateLog _ | PurgeLog _ => False | _ => True end) ->
    dk_log (foldl wop_apply D (omap cmd_wop cs)) = dk_log D.
  Proof.
    revert D. induction cs as [|c r IH]; intros D Hc; [reflexivity|].
    assert (Hr : forall D, dk_log (foldl wop_apply D (omap cmd_wop r)) = dk_log D).
    { intros D'. apply IH. intros x Hx. apply Hc. apply elem_of_cons. auto. }
    specialize (Hc c ltac:(apply elem_of_cons; auto)). cbn [omap list_omap].
    destruct c; cbn [cmd_wop foldl]; try contradiction; rewrite Hr; reflexivity.
  Qed.
  Lemma purge_quiet cs D : (forall u, PurgeLog u ∉ cs) ->
    ls_purged (dk_log (foldl wop_apply D (omap cmd_wop cs))) = ls_purged (dk_log D).
  Proof.
    revert D. induction cs as [|c r IH]; intros D Hc; [reflexivity|].
    assert (Hr : forall D, ls_purged (dk_log (foldl wop_apply D (omap cmd_wop r))) = ls_purged (dk_log D)).
    { intros D'. apply IH. intros u Hu. apply (Hc u). apply elem_of_cons. auto. }
    cbn [omap list_omap]. destruct c; cbn [cmd_wop foldl]; try (rewrite Hr; reflexivity).
    exfalso. apply (Hc upto). apply elem_of_cons. auto.
  Qed.

  Lemma commit_rest lc e : rs_v (en_state (fh_commit lc e)) = rs_v (en_state e) /\ en_leader (fh_commit lc e) = en_leader e /\
    en_cand (fh_commit lc e) = en_cand e /\ io_accepted (rs_io (en_state (fh_commit lc e))) = io_accepted (rs_io (en_state e)).
  Proof.
    unfold fh_commit, rs_update_committed. destruct (ologid_ltb _ _); [|auto].
    destruct (ologid_min _ _) as [c|]; [|auto]. destruct (should_snapshot _ _); [|auto]. unfold sh_trigger. destruct (io_building _); auto.
  Qed.
  Lemma en_append_prims' now v prev entries e x :
    en_append now v prev entries e = Ok x -> prims (ks_append ++ ks_vote) e x.1.
  Proof.
    unfold en_append. intros Hs. rok Hs. pose proof (vh_update_vote_prims _ _ _ _ Hx) as Hv.
    destruct (negb x0.2); [injection Hs as <-; pw Hv|].
    pose proof (fh_ensure_consecutive_prims prev x0.1) as Hc.
    destruct (fh_ensure_consecutive prev x0.1) as [e2 ok]. cbn [fst] in Hc.
    destruct ok; injection Hs as <-; cbn [fst]; (eapply prims_trans; [pw Hv|]).
    - eapply prims_trans; [pw Hc|]. pw fh_append_entries_prims.
    - pw Hc.
  Qed.
  (** append-entries *)
  Lemma append_step now v prev es lc tx n n' outs : fits_step E cfg now (EMsg (MAppend v prev es lc tx)) n n' outs ->
    (rs_committed (nd_state n') = rs_committed (nd_state n) /\ ~ answers_success (EMsg (MAppend v prev es lc tx)) n n' tx) \/
    exists y, following E me (planned n') (nd_eng n') v /\ vote_le (rs_v (nd_state n)) v /\
      io_accepted (rs_io (nd_state n')) = Some (IOLog v y) /\ ologid_leb (es_last prev es) y = true /\
      (rs_committed (nd_state n') = rs_committed (nd_state n) \/
       rs_committed (nd_state n') = ologid_min y lc /\ ologid_ltb (rs_committed (nd_state n)) (ologid_min y lc) = true) /\
      ls_purged (planned_log n') = ls_purged (planned_log n) /\
      pfx H (es_last prev es) (ls_last (planned_log n')) /\
      (planned_log n' = planned_log n \/
       ls_last (planned_log n') = es_last prev es /\ ~ pfx H (es_last prev es) (ls_last (planned_log n))).
  Proof using HE.
    intros Hst. pose proof Hst as (Hr & Hs & Hf & Hown). destruct (step_inv _ _ _ _ _ Hst) as [HN HN'].
    pose proof (node_ei E me n HN) as I. pose proof (node_ei E me n' HN') as I'.
    assert (Hid : nd_id n = me) by (apply (node_id E me n HN)).
    set (ev := EMsg (MAppend v prev es lc tx)) in *. assert (Hev : ev <> ERun) by discriminate.
    pose proof (step_planned _ _ _ _ _ Hs) as Hpl. pose proof (node_step_kinds _ _ _ _ Hs) as Hk. cbn [fst] in Hk.
    destruct (prims_cmds _ _ _ Hk) as (cs0 & Ho0 & Hc0). { cbn. notin. }
    assert (Hpg : ls_purged (planned_log n') = ls_purged (planned_log n)).
    { unfold planned_log. rewrite Hpl. apply purge_quiet. intros u Hu. rewrite (produced_app ev _ _ _ Hev Ho0) in Hu.
      destruct (Hc0 _ Hu) as (k & a & b & Hkin & [Hkk _]). cbn in Hkin. apply elem_of_list_In in Hkin. cbn in Hkin.
      destruct Hkk; subst; repeat (destruct Hkin as [Hkin|Hkin]; [discriminate|]); exact Hkin. }
    unfold ev in Hs at 1. cbn [node_step] in Hs. unfold when_idle in Hs. destruct (runnable n).
    { left. injection Hs as <- _. split; [reflexivity|]. intros [w Hw]. rewrite (produced_app ev n n [] Hev) in Hw by (rewrite app_nil_r; reflexivity).
      apply elem_of_nil in Hw as []. }
    cbn [handle_msg] in Hs. unfold lift in Hs. rok Hs. injection Hs as Hn' _. subst n'.
    unfold core_append in Hx. rok Hx. injection Hx as <-. unfold en_append_entries in Hx0. rok Hx0.
    destruct Hf as ((F1 & F2 & F3) & F4 & F5 & F6 & F7). rewrite Hid in F2.
    destruct x as [e1 r]. cbn [fst snd] in Hx0.
    destruct (append_runs_op E me HE now v prev es _ _ e1 r I F1 F2 F5 F4 F6 F3 Hx) as (D1 & R1 & I1 & C1 & HS).
    pose proof (en_append_prims' _ _ _ _ _ _ Hx) as Hap. cbn [fst] in Hap.
    destruct (prims_cmds _ _ _ Hap) as (cs & Ho & Hcs). { notin. }
    assert (Hnr : forall w rr t, Respond w rr t ∉ cs).
    { intros w rr t Hin. destruct (Hcs _ Hin) as (k & a & b & Hkin & Hkk). cbn in Hkk. subst k. revert Hkin. notin. }
    assert (Hrej : forall rr, rr <> ASuccess -> x0 = (push (Respond None (RAppend rr) tx) e1, false) ->
      (rs_committed (nd_state (nd_set_eng (if x0.2 then en_commit_entries lc x0.1 else x0.1) n)) = rs_committed (nd_state n) /\
       ~ answers_success ev n (nd_set_eng (if x0.2 then en_commit_entries lc x0.1 else x0.1) n) tx)).
    { intros rr Hrr ->. cbn [fst snd]. split; [exact C1|]. intros [w Hw].
      rewrite (produced_app ev _ _ (cs ++ [Respond None (RAppend rr) tx]) Hev) in Hw.
      - apply elem_of_app in Hw as [Hw|Hw]; [apply (Hnr _ _ _ Hw)|]. apply elem_of_list_singleton in Hw. congruence.
      - cbn. rewrite Ho, <- app_assoc. reflexivity. }
    destruct r as [|hv|]; [|left; injection Hx0 as <-; eapply Hrej; [|reflexivity]; discriminate..].
    clear Hrej. destruct HS as (F & L & (y & Ha & Hy) & K). rewrite Ha in Hx0. injection Hx0 as <-. cbn [fst snd] in *. right. exists y.
    set (e2 := push (Respond (Some (IOFlushed (IOLog v y))) (RAppend ASuccess) tx) e1) in *.
    unfold en_commit_entries in *. unfold nd_state. cbn [nd_eng nd_set_eng] in *.
    destruct (commit_rest lc e2) as (V2 & L2 & K2 & A2). change (io_accepted (rs_io (en_state e2))) with (io_accepted (rs_io (en_state e1))) in A2.
    change (rs_v (en_state e2)) with (rs_v (en_state e1)) in V2. change (en_leader e2) with (en_leader e1) in L2. change (en_cand e2) with (en_cand e1) in K2.
    destruct F as [G1 G2 G3 G4 G5 G6 G7].
    assert (Hlog : planned_log (nd_set_eng (fh_commit lc e2) n) = dk_log D1).
    { unfold planned_log. rewrite Hpl. destruct (prims_cmds _ _ _ (fh_commit_prims lc e2)) as (c2 & Ho2 & Hc2). { notin. }
      rewrite (produced_app ev _ _ (cs ++ [Respond (Some (IOFlushed (IOLog v y))) (RAppend ASuccess) tx] ++ c2) Hev).
      2:{ cbn [nd_eng nd_set_eng]. rewrite Ho2. cbn [e2 push en_out]. rewrite Ho, <- !app_assoc. reflexivity. }
      rewrite omap_app, foldl_app. rewrite log_quiet.
      - destruct R1 as (_ & _ & cs' & Ho' & Hw). rewrite Ho in Ho'. apply app_inv_head in Ho' as <-.
        pose proof (walk_view E me _ _ _ Hw) as Hvw. cbn [w_d] in Hvw. rewrite Hvw. reflexivity.
      - intros c Hc. apply elem_of_app in Hc as [Hc|Hc]; [apply elem_of_list_singleton in Hc as ->; exact Logic.I|].
        destruct (Hc2 _ Hc) as (k & a & b & Hkin & Hkk). cbn in Hkin. apply elem_of_list_In in Hkin. cbn in Hkin.
        destruct c; try exact Logic.I; cbn in Hkk; destruct Hkin as [<-|[<-|[]]]; intuition discriminate. }
    assert (Hcom : rs_committed (en_state (fh_commit lc e2)) = rs_committed (en_state (nd_eng n)) \/
       rs_committed (en_state (fh_commit lc e2)) = ologid_min y lc /\ ologid_ltb (rs_committed (en_state (nd_eng n))) (ologid_min y lc) = true).
    { unfold fh_commit. change (io_accepted (rs_io (en_state e2))) with (io_accepted (rs_io (en_state e1))). rewrite Ha. cbn [io_last_log_id].
      unfold rs_update_committed. change (rs_committed (en_state e2)) with (rs_committed (en_state e1)). rewrite C1.
      destruct (ologid_ltb _ _) eqn:Hlt; [|left; exact C1]. destruct (ologid_min y lc) as [c|] eqn:Hm; [|left; exact C1].
      right. split; [|reflexivity]. destruct (should_snapshot _ _); [|reflexivity]. unfold sh_trigger. destruct (io_building _); reflexivity. }
    split.
    { constructor; auto; try congruence. destruct Hcom as [Hcom|[Hcom _]]; rewrite Hcom; [rewrite <- C1; exact G7|].
      pose proof (ei_acc _ _ _ _ G1) as A. unfold acc_ok in A. rewrite Ha in A. destruct A as (_ & _ & A & _). specialize (A G4).
      unfold ologid_min. destruct (ologid_leb y lc); assumption. }
    split. { destruct R1 as (_ & Hv & _). rewrite <- G2. exact Hv. }
    split; [congruence|]. split; [exact Hy|]. split; [exact Hcom|]. split; [exact Hpg|]. rewrite Hlog. split; [exact L|].
    exact K.
  Qed.

  (** ** Installing a snapshot *)
  Lemma vote_foreign_rest now v e x : vh_update_vote now v e = Ok x -> li_node (v_leader v) <> en_id e ->
    rs_mem (en_state x.1) = rs_mem (en_state e) /\ rs_purge_upto (en_state x.1) = rs_purge_upto (en_state e) /\
    rs_purged_next (en_state x.1) = rs_purged_next (en_state e) /\ (x.2 = vote_geb v (rs_v (en_state e))) /\
    (x.2 = false -> x.1 = e).
  Proof.
    unfold vh_update_vote. intros Hu Hf. destruct (vote_geb v (rs_v (en_state e))) eqn:Hge; cbn [negb] in Hu.
    2:{ injection Hu as <-. auto 10. }
    rok Hu. injection Hu as <-. cbn [fst snd]. rename x0 into e2.
    match type of Hx with vh_update_internal now ?a = _ => set (e1 := a) in Hx end.
    assert (H1 : rs_mem (en_state e1) = rs_mem (en_state e) /\ rs_purge_upto (en_state e1) = rs_purge_upto (en_state e) /\
      rs_purged_next (en_state e1) = rs_purged_next (en_state e) /\ en_id e1 = en_id e /\ rs_v (en_state e1) = v).
    { subst e1. destruct (vote_gtb v (rs_v (en_state e))) eqn:Hgt.
      - cbn. rewrite rs_accept_io_eq. cbn. auto.
      - assert (v = rs_v (en_state e)) as -> by ord. auto. }
    clearbody e1. destruct H1 as (A1 & A2 & A3 & A4 & A5). unfold vh_update_internal in Hx.
    assert (Hl : rs_is_leading (en_state e1) (en_id e1) = false).
    { unfold rs_is_leading. rewrite A5. cbn. rewrite A4. apply andb_false_iff. right. apply Nat.eqb_neq. exact Hf. }
    unfold rs_is_leader in Hx. rewrite Hl in Hx. cbn [andb] in Hx. injection Hx as <-.
    unfold vh_become_following. rewrite ssh_update_eq. cbn. rewrite <- A1, <- A2, <- A3. repeat split. discriminate.
  Qed.

  Lemma install_step now v sn tx n n' outs : fits_step E cfg now (EMsg (MSnapshot v sn tx)) n n' outs -> runnable n = false ->
    let s := nd_state n in let s' := nd_state n' in
    (vote_geb v (rs_v s) = false /\ s' = s /\ planned_log n' = planned_log n /\ en_leader (nd_eng n') = en_leader (nd_eng n)) \/
    (vote_geb v (rs_v s) = true /\ rs_v s' = v /\ en_leader (nd_eng n') = None /\
     ((ologid_leb (sm_last (sn_meta sn)) (rs_committed s) = true /\
       rs_committed s' = rs_committed s /\ rs_snap s' = rs_snap s /\ rs_purge_upto s' = rs_purge_upto s /\
       rs_log_ids s' = rs_log_ids s /\ rs_purged_next s' = rs_purged_next s /\
       rs_mem s' = rs_mem s /\ planned_log n' = planned_log n) \/
      exists sl, sm_last (sn_meta sn) = Some sl /\ ologid_leb (Some sl) (rs_committed s) = false /\
        rs_committed s' = Some sl /\ rs_snap s' = sn_meta sn /\ rs_purge_upto s' = Some sl /\ ls_purged (planned_log n') = Some sl /\
        ((pfx H (Some sl) (ls_last (planned_log n)) /\
          ls_entries (planned_log n') = filter (fun e => lid_index sl < e_index e) (ls_entries (planned_log n)) /\
          rs_mem s' = ms_update_committed (rs_mem s) (sm_mem (sn_meta sn))) \/
         (~ pfx H (Some sl) (ls_last (planned_log n)) /\ ls_entries (planned_log n') = [] /\
          exists m, rs_mem s' = ms_update_committed m (sm_mem (sn_meta sn)) /\
            ((m = rs_mem s /\ next_index (ls_last (planned_log n)) <= lid_index sl) \/
             m = ms_truncate (rs_mem s) (next_index (rs_committed s))))))).
  Proof using HE.
    intros Hst Hrun. cbv zeta. pose proof Hst as (Hr & Hs & Hf & Hown). destruct (step_inv _ _ _ _ _ Hst) as [HN HN'].
    pose proof (node_ei E me n HN) as I. assert (Hid : nd_id n = me) by (apply (node_id E me n HN)).
    set (ev := EMsg (MSnapshot v sn tx)) in *. assert (Hev : ev <> ERun) by discriminate.
    pose proof (step_planned _ _ _ _ _ Hs) as Hpl.
    unfold ev in Hs at 1. cbn [node_step] in Hs. unfold when_idle in Hs. rewrite Hrun in Hs. cbn [handle_msg] in Hs.
    unfold lift in Hs. rok Hs. injection Hs as Hn' _. subst n'. unfold nd_state. cbn [nd_eng nd_set_eng] in *.
    unfold en_install_snapshot, vh_accept_vote in Hx. rok Hx. rok Hx0.
    destruct Hf as ((F1 & F2 & F3) & F4 & F5). rewrite Hid in F2.
    destruct (update_vote_foreign E me HE now v _ _ x1 I F2 Hx1) as (D1 & (R1 & I1 & L1 & _ & Hco & Hli & Hsn) & Hok1).
    assert (Hfe : li_node (v_leader v) <> en_id (nd_eng n)) by (rewrite (ei_id _ _ _ _ I); exact F2).
    destruct (vote_foreign_rest _ _ _ _ Hx1 Hfe) as (Hm & Hpu & Hpn & Hb & Hb0).
    destruct x1 as [e1 ok]. cbn [fst snd] in *. destruct ok; injection Hx0 as <-; cbn [fst snd negb] in Hx.
    2:{ left. rewrite (Hb0 eq_refl) in Hx. injection Hx as <-. split; [symmetry; exact Hb|]. split; [reflexivity|]. split; [|reflexivity].
        unfold planned_log. rewrite Hpl. apply log_quiet. intros c Hc.
        erewrite (produced_app ev) in Hc; [|exact Hev|cbn; reflexivity]. apply elem_of_list_singleton in Hc as ->. exact Logic.I. }
    right. split; [symmetry; exact Hb|]. destruct (Hok1 eq_refl) as (V1 & Hge & Hl1 & Hc1). clear Hok1 Hb0 Hb.
    assert (Hv : fh_vote e1 = v).
    { unfold fh_vote. rewrite V1. destruct v; cbn in F1; subst; reflexivity. }
    rewrite Hv in Hx. destruct (install_eng v sn e1) as (J1 & _ & J3).
    destruct (fh_install v sn e1) as [e2 cond] eqn:Hi. cbn [fst] in *. injection Hx as <-. cbn [push en_state en_leader en_out] in *.
    split; [unfold rs_v in *; rewrite J3; exact V1|]. split; [congruence|].
    pose proof (f_equal fst Hi) as He2. cbn [fst] in He2. rewrite fh_install_eq in He2.
    (* the commands *)
    destruct R1 as (_ & _ & cs1 & Ho1 & Hw1). pose proof (walk_view E me _ _ _ Hw1) as Hvw1. cbn [w_d] in Hvw1.
    destruct (ologid_leb (sm_last (sn_meta sn)) (rs_committed (en_state (nd_eng n)))) eqn:Hle.
    { left. split; [reflexivity|]. assert (e2 = e1) as ->.
      { rewrite <- Hco in Hle. destruct (sm_last (sn_meta sn)); [rewrite Hle in He2|]; congruence. }
      rewrite Hco, Hsn, Hpu, Hli, Hpn, Hm. repeat (split; [reflexivity|]).
      unfold planned_log. rewrite Hpl, <- L1. erewrite (produced_app ev); [|exact Hev|cbn; rewrite Ho1, <- app_assoc; reflexivity].
      rewrite omap_app, foldl_app, <- Hvw1. apply log_quiet. intros c Hc. apply elem_of_list_singleton in Hc as ->. exact Logic.I. }
    right. destruct (sm_last (sn_meta sn)) as [sl|] eqn:Hsl; [|rewrite ologid_leb_N in Hle; discriminate].
    exists sl. split; [reflexivity|]. split; [exact Hle|].
    pose proof I1 as [C1 _ _ _ _ _]. pose proof (F3 Hge) as Hct.
    assert (Hc : pfx H (rs_committed (en_state (nd_eng n))) (Some sl)).
    { eapply pfx_of_leb; [exact Hok|exact Hct|exact F5|]. clear - Hle. generalize dependent (rs_committed (en_state (nd_eng n))). intros o Ho. destruct o; ord. }
    assert (Hn : rs_committed (en_state (nd_eng n)) <> Some sl).
    { intros Hq. rewrite Hq in Hle. clear - Hle. ord. }
    pose proof (pfx_lt_idx H Hok _ _ Hc Hn) as Hidx. cbn [next_index] in Hidx.
    assert (Hle2 : ologid_leb (Some sl) (rs_snap_last (en_state e1)) = false).
    { pose proof (pfx_le H Hok _ _ (ec_com _ _ _ C1)) as Hq. rewrite Hco in Hq. clear - Hq Hle.
      generalize dependent (rs_snap_last (en_state e1)). generalize dependent (rs_committed (en_state (nd_eng n))). intros a Ha b Hb.
      destruct a, b; ord. }
    rewrite Hco, Hle, Hle2 in He2. cbv zeta in He2.
    set (e0 := upd (set_snap (sn_meta sn)) e1) in *.
    (* the cut *)
    pose proof (node_ec E me n HN) as C0. pose proof (ec_log _ _ _ C0) as Hlog0. change (dk_log (planned n)) with (planned_log n) in Hlog0.
    assert (Hroot : pfx H None (Some sl)) by (eapply pfx_rooted; [|exact F5]; apply HE).
    assert (Hpc : pfx H (ls_purged (planned_log n)) (rs_committed (en_state (nd_eng n)))) by apply (ec_purged_com _ _ _ C0).
    pose proof (pfx_idx H Hok _ _ Hpc) as Hpi.
    assert (Hcl : pfx H (rs_committed (en_state (nd_eng n))) (ls_last (planned_log n))) by apply (ec_last' _ _ _ C0).
    pose proof (pfx_idx H Hok _ _ Hcl) as Hcli.
    assert (Hcut : exists cs, en_out (install_cut sl e0) = en_out e1 ++ cs /\
       rs_committed (en_state (install_cut sl e0)) = rs_committed (en_state (nd_eng n)) /\
       ((pfx H (Some sl) (ls_last (planned_log n)) /\ cs = [] /\ install_cut sl e0 = e0) \/
        (~ pfx H (Some sl) (ls_last (planned_log n)) /\
         ((cs = [] /\ next_index (ls_last (planned_log n)) <= lid_index sl /\ install_cut sl e0 = e0) \/
          exists x, cs = [TruncateLog x] /\ lid_index x = next_index (rs_committed (en_state (nd_eng n))) /\
            rs_mem (en_state (install_cut sl e0)) = ms_truncate (rs_mem (en_state (nd_eng n))) (next_index (rs_committed (en_state (nd_eng n)))))))).
    { unfold install_cut. destruct (rs_get_log_id (en_state e0) (lid_index sl)) as [x|] eqn:Hg.
      - change (rs_get_log_id (en_state e1) (lid_index sl) = Some x) in Hg. apply (ec_get E HE _ _ _ _ C1) in Hg as (G1 & G2 & G3). rewrite L1 in G1.
        change (dk_log (planned n)) with (planned_log n) in G1.
        destruct (logid_eqb x sl) eqn:Hq.
        + apply logid_eqb_true in Hq as ->. exists []. rewrite app_nil_r. split; [reflexivity|]. split; [exact Hco|]. left. auto.
        + assert (Hnp : ~ pfx H (Some sl) (ls_last (planned_log n))).
          { intros Hp. assert (Some x = Some sl) as [= ->]. { apply (pfx_same_idx H Hok _ _ _ G1 Hp). cbn. lia. }
            rewrite (proj2 (logid_eqb_true sl sl) eq_refl) in Hq. discriminate. }
          rewrite fh_truncate_eq. change (rs_committed (en_state e0)) with (rs_committed (en_state e1)). rewrite Hco.
          destruct (rs_get_log_id (en_state e0) (next_index (rs_committed (en_state (nd_eng n))))) as [y|] eqn:Hgy.
          * exists [TruncateLog y]. split; [reflexivity|]. split.
            { cbn [push upd en_state]. destruct (onat_leb _ _); exact Hco. }
            right. split; [exact Hnp|]. right. exists y. split; [reflexivity|].
            change (rs_get_log_id (en_state e1) (next_index (rs_committed (en_state (nd_eng n)))) = Some y) in Hgy.
            apply (ec_get E HE _ _ _ _ C1) in Hgy as (_ & _ & G4). split; [exact G4|].
            rewrite <- Hm. cbn [push upd en_state]. unfold ms_truncate, rs_eff. change (rs_mem (set_log_ids ?a ?b)) with (rs_mem b).
            change (rs_mem (en_state e0)) with (rs_mem (en_state e1)). destruct (onat_leb _ _) eqn:Hob; cbn; rewrite ?Hob; reflexivity.
          * exfalso. change (rs_get_log_id (en_state e1) (next_index (rs_committed (en_state (nd_eng n)))) = None) in Hgy.
            apply (ec_get_none E HE _ _ _ C1) in Hgy. rewrite L1 in Hgy. change (dk_log (planned n)) with (planned_log n) in Hgy.
            apply (pfx_idx H Hok) in G1. cbn [next_index] in G1. lia.
      - exists []. rewrite app_nil_r. split; [reflexivity|]. split; [exact Hco|]. right.
        change (rs_get_log_id (en_state e1) (lid_index sl) = None) in Hg. apply (ec_get_none E HE _ _ _ C1) in Hg. rewrite L1 in Hg.
        change (dk_log (planned n)) with (planned_log n) in Hg. assert (Hlt : next_index (ls_last (planned_log n)) <= lid_index sl) by lia.
        split; [|auto]. intros Hp. apply (pfx_idx H Hok) in Hp. cbn [next_index] in Hp. lia. }
    destruct Hcut as (cs2 & Ho2 & Hcc2 & Hcut).
    assert (Hmem : exists m, rs_mem (en_state (install_cut sl e0)) = m /\ (install_cut sl e0 = e0 -> m = rs_mem (en_state (nd_eng n)))).
    { eexists. split; [reflexivity|]. intros ->. exact Hm. }
    assert (F1' : following E me D1 e1 v).
    { constructor; auto. rewrite Hco. exact Hct. }
    assert (Hsn0 : rs_snap (en_state (install_cut sl e0)) = sn_meta sn /\ rs_last_purged (en_state (install_cut sl e0)) = ls_purged (planned_log n)).
    { assert (Hc' : pfx H (rs_committed (en_state e1)) (Some sl)) by (rewrite Hco; exact Hc).
      assert (Hn2 : rs_committed (en_state e1) <> Some sl) by (rewrite Hco; exact Hn).
      destruct (install_cut_runs E me HE sl D1 e1 v F1' F5 Hc' Hn2) as (D2 & (_ & _ & cs & Ho & Hw) & CC & _).
      unfold e0. rewrite install_cut_snap. split; [reflexivity|].
      change (rs_last_purged (en_state (install_cut sl e1)) = ls_purged (planned_log n)).
      rewrite (ec_last_purged E _ _ CC). pose proof (walk_view E me _ _ _ Hw) as Hd. cbn [w_d] in Hd. rewrite Hd, purge_quiet; [rewrite L1; reflexivity|].
      unfold e0 in Ho2. rewrite install_cut_snap in Ho2. cbn [upd en_out] in Ho2. rewrite Ho in Ho2. apply app_inv_head in Ho2 as ->.
      intros u Hu. destruct Hcut as [(_ & -> & _)|(_ & [[-> _]|(y & -> & _)])]; [apply elem_of_nil in Hu as []..|].
      apply elem_of_list_singleton in Hu. discriminate. }
    destruct Hsn0 as [Hsn0 Hlp]. destruct Hmem as (m & Hmem & Hmem').
    set (ec0 := install_cut sl e0) in *. clearbody ec0.
    rewrite logh_purge_eq in He2. cbn [push upd en_state rs_purge_upto set_purge_upto] in He2.
    match type of He2 with context [rs_last_purged ?s] => replace (rs_last_purged s) with (ls_purged (planned_log n)) in He2 end.
    2:{ rewrite <- Hlp. unfold install_state. rewrite rs_accept_io_eq. reflexivity. }
    assert (Hpur : ologid_leb (Some sl) (ls_purged (planned_log n)) = false).
    { pose proof (pfx_le H Hok _ _ Hpc) as Hq. clear - Hq Hle.
      generalize dependent (ls_purged (planned_log n)). generalize dependent (rs_committed (en_state (nd_eng n))). intros a Ha b Hb. destruct a, b; ord. }
    rewrite Hpur in He2.
    assert (Ho3 : en_out e2 = en_out (nd_eng n) ++ cs1 ++ cs2 ++ [InstallSnapshot sn (IOLog v (Some sl)); PurgeLog sl]).
    { rewrite <- He2. cbn [push upd en_out]. rewrite Ho2, Ho1. rewrite <- !app_assoc. reflexivity. }
    assert (Hst2 : rs_committed (en_state e2) = Some sl /\ rs_snap (en_state e2) = sn_meta sn /\ rs_purge_upto (en_state e2) = Some sl /\
      rs_mem (en_state e2) = ms_update_committed m (sm_mem (sn_meta sn))).
    { rewrite <- He2. cbn. unfold install_state. rewrite rs_accept_io_eq. cbn. rewrite Hmem. auto. }
    destruct Hst2 as (T1 & T2 & T3 & T4). split; [exact T1|]. split; [exact T2|]. split; [exact T3|].
    assert (Hplan : planned_log (nd_set_eng (push (Respond cond (RSnapshot (rs_v (en_state e2))) tx) e2) n) =
      ls_purge sl (dk_log (foldl wop_apply D1 (omap cmd_wop cs2)))).
    { unfold planned_log. rewrite Hpl. erewrite (produced_app ev).
      2: exact Hev.
      2: { cbn [nd_set_eng nd_eng push en_out]. rewrite Ho3, <- !app_assoc. reflexivity. }
      rewrite !omap_app, !foldl_app, <- Hvw1. reflexivity. }
    rewrite Hplan. split; [reflexivity|].
    destruct Hcut as [(P & -> & Hq)|(P & Hq)]; [left|right]; (split; [exact P|]).
    - split; [|rewrite T4; f_equal; apply Hmem'; exact Hq]. cbn. rewrite L1. reflexivity.
    - split; [|exists m; split; [exact T4|]; destruct Hq as [(_ & Hlt & Hq)|(y & _ & _ & Hq)]; [left; split; [apply Hmem'; exact Hq|exact Hlt]|right; rewrite <- Hmem; exact Hq]].
      destruct Hq as [(-> & Hlt & _)|(y & -> & Hy & _)]; cbn [omap list_omap cmd_wop foldl wop_apply dk_log].
      + rewrite L1. change (dk_log (planned n)) with (planned_log n). rewrite (ls_purge_eq H Hok _ _ Hlog0). cbn [ls_entries].
        apply drop_ge. destruct Hlog0 as [_ Hch]. pose proof (chain_length H Hok _ _ Hch) as Hcl2. rewrite ls_last_es in Hlt. lia.
      + rewrite L1. change (dk_log (planned n)) with (planned_log n). unfold ls_purge, ls_truncate. cbn [ls_entries].
        rewrite list_filter_filter. induction (ls_entries (planned_log n)) as [|z r IHr]; [reflexivity|]. rewrite filter_cons_False; [exact IHr|lia].
  Qed.

  (** ** The log after an append *)
  Lemma append_prev now v prev es D e e1 : ei E me D e -> li_node (v_leader v) <> me ->
    (vote_le (rs_v (en_state e)) v -> pfx H (rs_committed (en_state e)) (ev_tip E (v_leader v))) ->
    pfx H None prev -> pfx H prev (ev_tip E (v_leader v)) -> en_append now v prev es e = Ok (e1, ASuccess) -> pfx H prev (ls_last (dk_log D)).
  Proof using HE.
    intros I Hf Hcm Hroot Ht Hu. unfold en_append in Hu. rok Hu.
    destruct (update_vote_foreign E me HE now v D e x I Hf Hx) as (D1 & (_ & I1 & L1 & _ & Hco & _) & Hok1).
    destruct x as [e0 ok]. cbn [fst snd] in *. destruct ok; cbn [negb] in Hu; [|discriminate].
    destruct (Hok1 eq_refl) as (_ & Hge & _). destruct prev as [p|].
    - unfold fh_ensure_consecutive in Hu. destruct (rs_has_log_id (en_state e0) p) eqn:Hh; [|discriminate].
      rewrite <- L1. eapply (has_id E HE D1 _ p (ev_tip E (v_leader v))); [apply I1|exact Ht| |exact Hh]. rewrite Hco. apply Hcm. exact Hge.
    - apply (log_ok_root H). rewrite <- L1. apply (ec_log _ _ _ (ei_ec _ _ _ _ I1)).
  Qed.

  Lemma split_at l t es : log_ok H l -> forall p, chain H p es -> pfx H (es_last p es) t -> pfx H (ls_purged l) t -> pfx H p (ls_last l) ->
    exists k, k <= length es /\ pfx H (es_last p (take k es)) (ls_last l) /\
      (k = length es \/ exists e, es !! k = Some e /\ next_index (ls_purged l) <= e_index e /\
        ~ (exists x, x ∈ ls_entries l /\ e_log_id x = e_log_id e)).
  Proof using HE.
    intros Hl. induction es as [|e r IH]; intros p Hc Ht Hpt Hp.
    - exists 0. split; [reflexivity|]. split; [exact Hp|]. left. reflexivity.
    - pose proof Hc as [He Hr]. rewrite es_last_cons in Ht.
      assert (Het : pfx H (Some (e_log_id e)) t) by (eapply pfx_trans; [apply chain_pfx; exact Hr|exact Ht]).
      assert (Hd : pfx H (Some (e_log_id e)) (ls_last l) \/ next_index (ls_purged l) <= e_index e /\ ~ (exists x, x ∈ ls_entries l /\ e_log_id x = e_log_id e)).
      { destruct (decide (e_index e < next_index (ls_purged l))) as [Hlt|Hge].
        - left. eapply pfx_trans; [|apply (log_ok_pfx H); exact Hl]. eapply (pfx_of_idx H Hok); [exact Het|exact Hpt|]. cbn. unfold e_index in Hlt. lia.
        - destruct (existsb (fun x => logid_eqb (e_log_id x) (e_log_id e)) (ls_entries l)) eqn:Hb.
          + left. apply existsb_exists in Hb as (x & Hx & Hq). apply logid_eqb_true in Hq. rewrite <- Hq.
            apply elem_of_list_In in Hx. destruct Hl as [_ Hch]. apply (chain_elem H Hok _ _ _ Hch Hx).
          + right. split; [lia|]. intros (x & Hx & Hq). apply not_true_iff_false in Hb. apply Hb. apply existsb_exists. exists x.
            split; [apply elem_of_list_In; exact Hx|]. apply logid_eqb_true. exact Hq. }
      destruct Hd as [Hd|[Hi Hd]].
      + destruct (IH _ Hr Ht Hpt Hd) as (k & Hk & Hkp & Hrest). exists (S k). cbn [length take]. rewrite es_last_cons. split; [lia|].
        split; [exact Hkp|]. destruct Hrest as [->|Hrest]; [left; reflexivity|right; exact Hrest].
      + exists 0. split; [lia|]. split; [exact Hp|]. right. exists e. auto.
  Qed.

  Lemma append_log now v prev es lc tx n n' outs : fits_step E cfg now (EMsg (MAppend v prev es lc tx)) n n' outs ->
    answers_success (EMsg (MAppend v prev es lc tx)) n n' tx ->
    let l := planned_log n in let l' := planned_log n' in
    ls_purged l' = ls_purged l /\ pfx H prev (ls_last l) /\ pfx H (es_last prev es) (ls_last l') /\
    exists k, k <= length es /\
      (forall e, e ∈ take k es -> e ∈ ls_entries l \/ e_index e < next_index (ls_purged l)) /\
      ((k = length es /\ ls_entries l' = ls_entries l) \/
       exists e, es !! k = Some e /\ next_index (ls_purged l) <= e_index e /\
         ~ (exists x, x ∈ ls_entries l /\ e_log_id x = e_log_id e) /\
         ls_entries l' = filter (fun x => e_index x < e_index e) (ls_entries l) ++ drop k es).
  Proof using HE.
    intros Hst Hans. cbv zeta. destruct (append_step _ _ _ _ _ _ _ _ _ Hst) as [[_ Hno]|Hy]; [contradiction|].
    destruct Hy as (y & F & Hge & _ & _ & _ & Hpg & Hes & Hcase).
    pose proof Hst as (Hr & Hs & Hf & Hown). destruct (step_inv _ _ _ _ _ Hst) as [HN HN'].
    pose proof (node_ei E me n HN) as I. assert (Hid : nd_id n = me) by (apply (node_id E me n HN)).
    destruct Hf as ((F1 & F2 & F3) & F4 & F5 & F6 & F7). rewrite Hid in F2.
    assert (Hpt : pfx H prev (ev_tip E (v_leader v))) by (eapply pfx_trans; [apply chain_pfx; exact F4|exact F6]).
    assert (Hprev : pfx H prev (ls_last (planned_log n))).
    { assert (Hev : EMsg (MAppend v prev es lc tx) <> ERun) by discriminate.
      cbn [node_step] in Hs. unfold when_idle in Hs. destruct (runnable n).
      { injection Hs as <- _. destruct Hans as [w Hw]. rewrite (produced_app _ n n [] Hev) in Hw by (rewrite app_nil_r; reflexivity).
        apply elem_of_nil in Hw as []. }
      cbn [handle_msg] in Hs. unfold lift in Hs. rok Hs. injection Hs as Hn' _. subst n'.
      unfold core_append in Hx. rok Hx. injection Hx as <-. unfold en_append_entries in Hx0. rok Hx0. destruct x as [e1 r]. cbn [fst snd] in Hx0.
      destruct (prims_cmds _ _ _ (en_append_prims' _ _ _ _ _ _ Hx)) as (cs & Ho & Hcs). { notin. } cbn [fst] in Ho.
      assert (Hnr : forall w rr t, Respond w rr t ∉ cs).
      { intros w rr t Hin. destruct (Hcs _ Hin) as (k & a & b & Hkin & Hkk). cbn in Hkk. subst k. revert Hkin. notin. }
      destruct r as [|hv|]; [apply (append_prev _ _ _ _ _ _ _ I F2 F3 F5 Hpt Hx)|exfalso..];
        injection Hx0 as <-; destruct Hans as [w Hw]; cbn [fst snd] in Hw;
        (erewrite (produced_app _ n _ (cs ++ [_]) Hev) in Hw; [|cbn; rewrite Ho, <- app_assoc; reflexivity]);
        (apply elem_of_app in Hw as [Hw|Hw]; [apply (Hnr _ _ _ Hw)|]; apply elem_of_list_singleton in Hw; discriminate). }
    split; [exact Hpg|]. split; [exact Hprev|]. split; [exact Hes|].
    pose proof (ec_log _ _ _ (node_ec E me n HN)) as Hl. change (dk_log (planned n)) with (planned_log n) in Hl.
    pose proof (ec_log _ _ _ (node_ec E me n' HN')) as Hl'. change (dk_log (planned n')) with (planned_log n') in Hl'.
    assert (Hput : pfx H (ls_purged (planned_log n)) (ev_tip E (v_leader v))).
    { eapply pfx_trans; [apply (ec_purged_com _ _ _ (node_ec E me n HN))|]. apply F3. exact Hge. }
    assert (Hsame : forall k, pfx H (es_last prev (take k es)) (ls_last (planned_log n)) ->
      forall e, e ∈ take k es -> e ∈ ls_entries (planned_log n) \/ e_index e < next_index (ls_purged (planned_log n))).
    { intros k Hk e He. destruct (decide (e_index e < next_index (ls_purged (planned_log n)))) as [?|Hi]; [right; assumption|left].
      pose proof (chain_elem H Hok _ _ _ (chain_take H _ _ k F4) He) as (Q1 & _ & _ & _ & q & Q2).
      destruct Hl as [_ Hch]. destruct (chain_in H Hok _ _ (e_log_id e) Hch) as (x & Hx & Hxe).
      { eapply pfx_trans; [exact Q1|]. rewrite <- ls_last_es. exact Hk. }
      { unfold e_index in Hi. lia. }
      apply elem_of_list_lookup_2 in Hx. destruct (chain_elem H Hok _ _ _ Hch Hx) as (_ & _ & _ & _ & q' & Q3). rewrite Hxe, Q2 in Q3.
      injection Q3 as _ Q3. destruct e as [ei0 ep0], x as [xi xp]. cbn in *. subst. exact Hx. }
    destruct Hcase as [Heq|[Hlast Hnp]].
    - exists (length es). split; [lia|]. split.
      + apply Hsame. rewrite take_ge by lia. rewrite <- Heq. exact Hes.
      + left. split; [reflexivity|]. rewrite Heq. reflexivity.
    - destruct (split_at _ (ev_tip E (v_leader v)) es Hl prev F4 F6 Hput Hprev) as (k & Hk & Hkp & Hrest).
      exists k. split; [exact Hk|]. split; [apply Hsame; exact Hkp|]. right.
      destruct Hrest as [->|(e & He & Hie & Hni)]; [exfalso; apply Hnp; rewrite take_ge in Hkp by lia; exact Hkp|].
      exists e. split; [exact He|]. split; [exact Hie|]. split; [exact Hni|].
      pose proof (chain_index H Hok _ _ _ _ F4 He) as Hidx. destruct Hl as [Hl0 Hch]. destruct Hl' as [_ Hch']. rewrite Hpg in Hch'.
      rewrite (filter_chain_lt H Hok _ _ _ Hch). set (m := e_index e - next_index (ls_purged (planned_log n))).
      assert (Hmid : es_last (ls_purged (planned_log n)) (take m (ls_entries (planned_log n))) = es_last prev (take k es)).
      { apply (pfx_same_idx H Hok _ _ (ls_last (planned_log n))).
        - rewrite ls_last_es. rewrite <- (take_drop m (ls_entries (planned_log n))) at 2. rewrite es_last_app. apply chain_pfx.
          rewrite <- (take_drop m (ls_entries (planned_log n))) in Hch. apply chain_app in Hch. apply Hch.
        - exact Hkp.
        - rewrite (chain_length H Hok _ _ (chain_take H _ _ m Hch)), (chain_length H Hok _ _ (chain_take H _ _ k F4)).
          rewrite !take_length. pose proof (pfx_idx H Hok _ _ Hkp) as Hb. rewrite (chain_length H Hok _ _ (chain_take H _ _ k F4)), take_length in Hb.
          rewrite ls_last_es, (chain_length H Hok _ _ Hch) in Hb. lia. }
      apply (chain_unique H Hok (ls_purged (planned_log n))).
      + exact Hch'.
      + apply chain_app. split; [apply chain_take; exact Hch|]. rewrite Hmid.
        rewrite <- (take_drop k es) in F4. apply chain_app in F4. apply F4.
      + rewrite es_last_app, Hmid, <- es_last_app, take_drop, <- Hpg, <- ls_last_es. exact Hlast.
  Qed.

  (** ** Purging *)
  Ltac nopurge := exists []; rewrite app_nil_r; split; [reflexivity|]; let Hnp := fresh in intros ? Hnp; apply elem_of_nil in Hnp as [].
  Definition ks_match : list Kind := [KProgress; KMatch; KLeadCommit; KBuild].
  Lemma update_matching_kinds node lid e e' : rh_update_matching node lid e = Ok e' -> prims ks_match e e'.
  Proof.
    unfold rh_update_matching. destruct (en_leader e) as [l|] eqn:Hl; [|discriminate].
    destruct (vp_get (ld_progress l) node) as [pe|]; [|discriminate]. intros Hu. rok Hu. injection Hu as <-.
    match goal with |- prims _ _ (rh_try_commit _ (set_leader (Some ?l1) _)) =>
      change (vp_granted _) with (vp_granted (ld_progress l1)); eapply prims_trans with (b := set_leader (Some l1) e) end.
    - eapply prims_one'; [eapply pr_match with (t := node) (x := lid); [exact Hl|reflexivity..|]|reflexivity].
      destruct (vp_update_vals ologid_leb pe_matching (ld_progress l) node (fun _ => x)) as [H1 H2].
      assert (Hm : pe_matching x = lid).
      { unfold pe_update_matching in Hx. rok Hx. injection Hx as <-. reflexivity. }
      split.
      + intros p Hp. apply H1 in Hp as [Hp|(v & _ & ->)]; [left; exact Hp|]. right. right. rewrite Hm. apply elem_of_list_here.
      + destruct H2 as [H2|(i & H2)]; [left; exact H2|]. right. right. exists i. apply elem_of_app. right. exact H2.
    - pw rh_try_commit_prims. reflexivity.
  Qed.
  Lemma set_entry_kinds target f e e' : (forall pe pe1, f pe = Ok pe1 -> pe_matching pe1 = pe_matching pe) ->
    rh_set_entry target f e = Ok e' -> prims ks_match e e'.
  Proof.
    intros Hf. unfold rh_set_entry. destruct (en_leader e) as [l|] eqn:Hl; [|discriminate].
    destruct (vp_get (ld_progress l) target) as [pe|] eqn:Hg; [|discriminate]. intros Hu. rok Hu. injection Hu as <-.
    pone pr_progress; [exact Hl|reflexivity..|]. eapply matched_vp_set; [exact Hg|]. apply Hf. exact Hx.
  Qed.
  Lemma update_local_kinds upto e e' : rh_update_local upto e = Ok e' -> prims ks_match e e'.
  Proof.
    unfold rh_update_local. destruct upto as [u|]; [|intros [= <-]; apply prims_refl].
    destruct (en_leader e) as [l|] eqn:Hl; [|discriminate].
    destruct (vp_get (ld_progress l) (en_id e)) as [pe|] eqn:Hg; [|intros [= <-]; apply prims_refl].
    destruct (ologid_leb _ _); [intros [= <-]; apply prims_refl|]. intros Hu.
    eapply prims_trans; [|eapply update_matching_kinds; exact Hu].
    pone pr_progress; [exact Hl|reflexivity..|]. eapply matched_vp_set; [exact Hg|reflexivity].
  Qed.
  Lemma no_purge ks e e' : prims ks e e' -> KPop ∉ ks -> KPurge ∉ ks -> KInstall ∉ ks ->
    exists cs, en_out e' = en_out e ++ cs /\ forall u, PurgeLog u ∉ cs.
  Proof.
    intros Hp H1 H2 H3. destruct (prims_cmds _ _ _ Hp H1) as (cs & Ho & Hcs). exists cs. split; [exact Ho|].
    intros u Hu. destruct (Hcs _ Hu) as (k & a & b & Hk & [[->| ->] _]); contradiction.
  Qed.
  (** no range being sent reaches into what is purged *)
  Lemma try_purge_out e e' : en_try_purge e = Ok e' ->
    exists cs, en_out e' = en_out e ++ cs /\ forall u, PurgeLog u ∈ cs -> not_sending u e' /\ rs_purge_upto (en_state e') = Some u /\
      rs_purge_upto (en_state e') = rs_purge_upto (en_state e).
  Proof.
    assert (Hpg : forall e0, (forall l u, en_leader e0 = Some l -> rs_purge_upto (en_state e0) = Some u ->
        existsb (fun x => pe_is_log_range_inflight x.2 u) (vp_vec (ld_progress l)) = false) ->
      exists cs, en_out (logh_purge e0) = en_out e0 ++ cs /\ forall u, PurgeLog u ∈ cs -> not_sending u (logh_purge e0) /\
        rs_purge_upto (en_state (logh_purge e0)) = Some u /\ rs_purge_upto (en_state (logh_purge e0)) = rs_purge_upto (en_state e0)).
    { intros e0 Hn. rewrite logh_purge_eq. destruct (rs_purge_upto (en_state e0)) as [u0|] eqn:Hu0; [|nopurge].
      destruct (ologid_leb _ _); [nopurge|]. cbn [push upd en_out en_state].
      exists [PurgeLog u0]. split; [reflexivity|]. intros u Hu. apply elem_of_list_singleton in Hu as [= ->].
      split; [|split; [exact Hu0|rewrite <- Hu0; reflexivity]].
      intros l x Hl Hx. specialize (Hn l u0 Hl eq_refl). apply not_true_iff_false in Hn. apply not_true_iff_false. intros Hb. apply Hn.
      apply existsb_exists. exists x. split; [apply elem_of_list_In; exact Hx|exact Hb]. }
    unfold en_try_purge, rh_try_purge. destruct (en_leader e) as [l|] eqn:Hl.
    - destruct (ologid_leb _ _); [intros [= <-]; nopurge|].
      destruct (rs_purge_upto (en_state e)) as [u0|] eqn:Hu0; [|intros [= <-]; nopurge].
      destruct (existsb _ _) eqn:Hex; intros [= <-]; [nopurge|].
      rewrite <- Hu0. apply Hpg. intros l' u Hl' Hu. rewrite Hl in Hl'. injection Hl' as <-. rewrite Hu0 in Hu. injection Hu as <-. exact Hex.
    - intros [= <-]. apply Hpg. intros l' u Hl'. congruence.
  Qed.

  Lemma step_purge_msg now ev n n' outs u : node_step now ev n = Ok (n', outs) -> PurgeLog u ∈ step_produced ev n n' ->
    (exists v sn tx, ev = EMsg (MSnapshot v sn tx)) \/ not_sending u (nd_eng n') /\ rs_purge_upto (nd_state n') = Some u.
  Proof.
    intros Hs Hu. destruct (is_run ev) as [->|Hev]; [cbn in Hu; apply elem_of_nil in Hu as []|].
    pose proof (node_step_kinds _ _ _ _ Hs) as Hk. cbn [fst] in Hk.
    assert (Hno : forall ks, prims ks (nd_eng n) (nd_eng n') -> KPop ∉ ks -> KPurge ∉ ks -> KInstall ∉ ks -> False).
    { intros ks Hp H1 H2 H3. destruct (no_purge ks _ _ Hp H1 H2 H3) as (cs & Ho & Hcs). rewrite (produced_app _ _ _ _ Hev Ho) in Hu. apply (Hcs _ Hu). }
    assert (Hend : forall e0 e1, nd_eng n' = e1 -> en_try_purge e0 = Ok e1 -> (exists cs, en_out e0 = en_out (nd_eng n) ++ cs /\ forall u, PurgeLog u ∉ cs) ->
      not_sending u (nd_eng n') /\ rs_purge_upto (nd_state n') = Some u).
    { unfold nd_state. intros e0 e1 He1 Ht (c0 & Ho0 & Hc0). destruct (try_purge_out _ _ Ht) as (c1 & Ho1 & Hc1).
      rewrite (produced_app _ _ n' (c0 ++ c1) Hev) in Hu by (rewrite He1, Ho1, Ho0, app_assoc; reflexivity).
      rewrite He1. apply elem_of_app in Hu as [Hu|Hu]; [destruct (Hc0 _ Hu)|]. destruct (Hc1 _ Hu) as (Q1 & Q2 & _). auto. }
    assert (Hrefl : n' = n -> False).
    { intros ->. rewrite (produced_app _ n n [] Hev) in Hu by (rewrite app_nil_r; reflexivity). apply elem_of_nil in Hu as []. }
    destruct ev as [|m| |hb ee eh| |k|i| |i|i lim rid|i|i|t|tag r]; cbn [event_kinds] in Hk;
      try (exfalso; apply (Hno _ Hk); notin; fail).
    - congruence.
    - destruct m; cbn [msg_kinds] in Hk; try (exfalso; apply (Hno _ Hk); notin; fail); [left; eauto|].
      right. cbn [node_step] in Hs. unfold when_idle in Hs. destruct (runnable n); [injection Hs as Hs _; destruct (Hrefl (eq_sym Hs))|].
      cbn [handle_msg] in Hs. unfold lift in Hs. rok Hs. injection Hs as Hs _. unfold en_trigger_purge in Hx.
      assert (Hsame : x = nd_eng n -> False).
      { intros ->. subst n'. rewrite (produced_app _ n _ [] Hev) in Hu by (rewrite app_nil_r; reflexivity). apply elem_of_nil in Hu as []. }
      destruct (rs_snap_last (en_state (nd_eng n))) as [sl|]; [|injection Hx as Hx; destruct (Hsame (eq_sym Hx))].
      destruct (_ <? _); [injection Hx as Hx; destruct (Hsame (eq_sym Hx))|].
      destruct (rs_get_log_id _ _) as [lid|]; [|discriminate]. eapply Hend; [|exact Hx|].
      + subst n'. reflexivity.
      + nopurge.
    - right. destruct (nd_notes n) as [|y r] eqn:Hn; [exfalso; apply (Hno _ Hk); notin|].
      cbn [node_step] in Hs. unfold when_idle in Hs. destruct (runnable n); [injection Hs as Hs _; destruct (Hrefl (eq_sym Hs))|].
      rewrite Hn in Hs. destruct y as [t rp sv|v sv|io|ss t rr|ss t time|[meta|io meta|since es la]]; cbn [note_kinds] in Hk;
        try (exfalso; apply (Hno _ Hk); notin; fail); cbn [handle_note] in Hs.
      + exfalso. destruct io as [v|v lid]; [injection Hs as Hs _; apply (Hno [KCursor]); [subst n'; change (nd_eng n) with (nd_eng (nd_set_notes r n)); cursor|notin..]|].
        destruct (en_leader _); [|injection Hs as Hs _; apply (Hno [KCursor]); [subst n'; change (nd_eng n) with (nd_eng (nd_set_notes r n)); cursor|notin..]].
        destruct (vote_matches _ _); [|injection Hs as Hs _; apply (Hno [KCursor]); [subst n'; change (nd_eng n) with (nd_eng (nd_set_notes r n)); cursor|notin..]].
        unfold lift in Hs. rok Hs. injection Hs as Hs _. subst n'. apply update_local_kinds in Hx.
        apply (Hno (KCursor :: ks_match)); [|notin..]. cbn [nd_eng nd_set_eng]. eapply prims_trans; [|pk Hx]. change (nd_eng n) with (nd_eng (nd_set_notes r n)). cursor.
      + change (nd_eng (nd_set_notes r n)) with (nd_eng n) in Hs. destruct (session_matches ss (nd_eng n)).
        2:{ injection Hs as Hs _. exfalso. subst n'. apply (Hno []); [apply prims_refl|notin..]. }
        unfold lift in Hs. rok Hs. injection Hs as Hs _. unfold rh_update_progress in Hx. rok Hx.
        assert (Hm : prims ks_match (nd_eng n) x0).
        { destruct rr; [eapply update_matching_kinds; exact Hx0|eapply set_entry_kinds; [|exact Hx0]..].
          - intros pe pe1 H1. unfold pe_update_conflicting in H1. rok H1. injection H1 as <-. reflexivity.
          - intros pe pe1 [= <-]. reflexivity. }
        assert (Ht : en_try_purge x0 = Ok x).
        { unfold en_try_purge. destruct (en_leader x0) eqn:Hl0; [exact Hx|]. unfold rh_try_purge in Hx. rewrite Hl0 in Hx. discriminate. }
        eapply Hend; [|exact Ht|apply (no_purge ks_match); [exact Hm|notin..]]. subst n'. reflexivity.
      + exfalso. change (nd_eng (nd_set_notes r n)) with (nd_eng n) in Hs. destruct (session_matches ss (nd_eng n)).
        2:{ injection Hs as Hs _. subst n'. apply (Hno []); [apply prims_refl|notin..]. }
        unfold lift in Hs. rok Hs. injection Hs as Hs _. subst n'. unfold rh_update_clock in Hx.
        destruct (en_leader (nd_eng n)) as [l|] eqn:Hl; [|discriminate].
        destruct (vp_increase_to _ _ _ _ _ _) as [c ok]. destruct ok; [|discriminate]. injection Hx as <-.
        apply (Hno [KProgress]); [|notin..]. cbn. pone pr_progress; [exact Hl|reflexivity..|]. apply progress_ok_same; reflexivity.
      + rok Hs. injection Hs as Hs _. change (nd_eng (nd_set_notes r n)) with (nd_eng n) in Hx. unfold en_finish_building in Hx.
        destruct (sh_update _ _) as [e2 ok] eqn:Hsh.
        assert (Ho2 : en_out e2 = en_out (nd_eng n)).
        { unfold sh_update in Hsh. destruct (ologid_leb _ _); injection Hsh as <- _; reflexivity. }
        destruct ok.
        * assert (He' : nd_eng n' = upd (fun s => set_io (io_set_snapshot (sm_last meta) (rs_io s)) s) x) by (subst n'; reflexivity).
          destruct (try_purge_out _ _ Hx) as (c1 & Ho1 & Hc1).
          assert (Hsch : en_out (logh_schedule e2) = en_out e2) by (unfold logh_schedule; destruct (logh_calc_purge_upto e2); reflexivity).
          rewrite (produced_app _ _ n' c1 Hev) in Hu.
          2:{ rewrite He'. cbn. rewrite Ho1, Hsch, Ho2. reflexivity. }
          destruct (Hc1 _ Hu) as (Q1 & Q2 & _). unfold nd_state. rewrite He'. split; [exact Q1|exact Q2].
        * exfalso. injection Hx as <-. rewrite (produced_app _ _ n' [] Hev) in Hu; [apply elem_of_nil in Hu as []|].
          subst n'. cbn. rewrite app_nil_r. exact Ho2.
  Qed.

  Lemma purge_inflight now ev n n' outs u : fits_step E cfg now ev n n' outs -> PurgeLog u ∈ step_produced ev n n' ->
    not_sending u (nd_eng n') /\ pos_le (Some u) (rs_last_purged (nd_state n')) /\ pos_le (Some u) (rs_snap_last (nd_state n')).
  Proof using HE.
    intros Hst Hu. pose proof Hst as (_ & Hs & _ & _).
    destruct (step_inv _ _ _ _ _ Hst) as [HN HN']. pose proof (step_w _ _ _ _ _ Hst) as Hw.
    pose proof (node_ec E me n' HN') as C.
    assert (Hle : pfx H (Some u) (rs_last_purged (nd_state n'))).
    { rewrite (ec_last_purged E _ _ C). apply elem_of_list_split in Hu as (a & b & Hp). rewrite Hp in Hw.
      destruct (walk_pos_mid E me Hok _ _ _ _ (node_pos E me HE n HN) Hw) as (m & Pm & _ & W2). cbn [walk] in W2. destruct W2 as [W2 W3].
      apply (walk_purged E me HE _ _ _) in W3; [exact W3|]. eapply wok_pos; eauto. }
    split.
    2:{ split; apply pfx_pos_le; [exact Hle|]. eapply pfx_trans; [exact Hle|]. rewrite (ec_last_purged E _ _ C).
        eapply pfx_trans; [apply (ec_plan _ _ _ C)|apply (ec_snap _ _ _ C)]. }
    destruct (step_purge_msg _ _ _ _ _ _ Hs Hu) as [(v & sn & tx & ->)|[Q1 Q2]]; [|exact Q1].
    destruct (runnable n) eqn:Hr.
    { exfalso. cbn [node_step] in Hs. unfold when_idle in Hs. rewrite Hr in Hs. injection Hs as <- _.
      rewrite (produced_app (EMsg (MSnapshot v sn tx)) n n []) in Hu by (discriminate || rewrite app_nil_r; reflexivity). apply elem_of_nil in Hu as []. }
    destruct (install_step _ _ _ _ _ _ _ Hst Hr) as [(Hge & He & Hl & _)|(_ & _ & Hl & _)]; [|intros l x Hl'; congruence].
    exfalso. pose proof Hst as (_ & _ & ((F1 & F2 & F3) & F4 & F5) & _).
    cbn [node_step] in Hs. unfold when_idle in Hs. rewrite Hr in Hs. cbn [handle_msg] in Hs. unfold lift in Hs. rok Hs. injection Hs as Hn' _. subst n'.
    unfold en_install_snapshot, vh_accept_vote in Hx. rok Hx. rok Hx0.
    assert (Hfe : li_node (v_leader v) <> en_id (nd_eng n)) by exact F2.
    destruct (vote_foreign_rest _ _ _ _ Hx1 Hfe) as (_ & _ & _ & Hb & Hb0). unfold nd_state in Hge. rewrite Hge in Hb.
    destruct x1 as [e1 ok]. cbn [fst snd] in *. subst ok. injection Hx0 as <-. cbn [fst snd negb] in Hx.
    rewrite (Hb0 eq_refl) in Hx. injection Hx as <-. erewrite (produced_app (EMsg (MSnapshot v sn tx))) in Hu; [|discriminate|cbn; reflexivity].
    apply elem_of_list_singleton in Hu. discriminate.
  Qed.

  (** the plan *)
  Definition k_plans (k : Kind) : bool := match k with KPurgePlan | KInstall => true | _ => false end.
  Lemma prim_plan k e e' : prim k e e' -> k_plans k = false -> rs_purge_upto (en_state e') = rs_purge_upto (en_state e).
  Proof.
    intros Hp Hk. destruct Hp; try discriminate; try (cbn; rewrite ?rs_accept_io_eq; cbn; reflexivity).
    - rewrite leader_appended_eq. cbn. destruct (last_membership _ _) as [[]|]; cbn; rewrite ?rs_accept_io_eq; reflexivity.
    - rewrite fh_do_append_eq. cbn. destruct (last_two_memberships _); reflexivity.
    - rewrite fh_truncate_eq. destruct (rs_get_log_id _ _); [|reflexivity]. cbn. mt; reflexivity.
    - rewrite sh_trigger_eq by assumption. reflexivity.
    - rewrite logh_purge_eq. destruct (rs_purge_upto (en_state e)) eqn:Hu; [|exact Hu]. destruct (ologid_leb _ _); exact Hu.
  Qed.
  Lemma try_purge_plan e e' : en_try_purge e = Ok e' -> rs_purge_upto (en_state e') = rs_purge_upto (en_state e) /\ rs_snap (en_state e') = rs_snap (en_state e).
  Proof.
    intros Hp%en_try_purge_prims. split.
    - apply (prims_field (fun e => rs_purge_upto (en_state e)) k_plans prim_plan _ _ _ Hp). reflexivity.
    - apply (prims_field (fun e => rs_snap (en_state e)) k_changes_snap prim_snap _ _ _ Hp). reflexivity.
  Qed.
  (** what makes a node plan to purge: an installed snapshot, a request of the
      application, or the policy after a snapshot was built *)
  Lemma step_plan now ev n n' outs : node_step now ev n = Ok (n', outs) ->
    rs_purge_upto (nd_state n') = rs_purge_upto (nd_state n) \/
    (exists v sn tx, ev = EMsg (MSnapshot v sn tx)) \/
    (exists i x, ev = EMsg (MPurge i) /\ rs_purge_upto (nd_state n') = Some x /\ lid_index x <= i) \/
    (exists x, ev = ENote /\ rs_purge_upto (nd_state n') = Some x /\
       S (lid_index x) + ec_max_keep (en_cfg (nd_eng n)) = next_index (rs_snap_last (nd_state n')) /\
       next_index (rs_last_purged (nd_state n)) + ec_purge_batch (en_cfg (nd_eng n)) <= S (lid_index x)).
  Proof.
    intros Hs. pose proof (node_step_kinds _ _ _ _ Hs) as Hk. cbn [fst] in Hk.
    assert (Hno : existsb k_plans (event_kinds ev n) = false -> rs_purge_upto (nd_state n') = rs_purge_upto (nd_state n)).
    { intros Hb. apply (prims_field (fun e => rs_purge_upto (en_state e)) k_plans prim_plan _ _ _ Hk Hb). }
    destruct ev as [|m| |hb ee eh| |k|i| |i|i lim rid|i|i|t|tag r]; cbn [event_kinds] in *; try (left; apply Hno; reflexivity).
    - destruct m; cbn [msg_kinds] in *; try (left; apply Hno; reflexivity); [right; left; eauto|].
      cbn [node_step] in Hs. unfold when_idle in Hs. destruct (runnable n); [injection Hs as Hs _; left; subst n'; reflexivity|].
      cbn [handle_msg] in Hs. unfold lift in Hs. rok Hs. injection Hs as Hs _. unfold en_trigger_purge in Hx. subst n'. unfold nd_state. cbn [nd_eng nd_set_eng].
      destruct (rs_snap_last (en_state (nd_eng n))) as [sl|]; [|injection Hx as <-; left; reflexivity].
      destruct (_ <? _); [injection Hx as <-; left; reflexivity|].
      destruct (rs_get_log_id _ _) as [lid|] eqn:Hg; [|discriminate]. apply try_purge_plan in Hx as [Hx _]. cbn in Hx.
      right. right. left. eexists _, lid. split; [reflexivity|]. split; [exact Hx|]. apply lil_get_index in Hg. destruct (lid_index sl <? _) eqn:Hc in Hg; lia.
    - destruct (nd_notes n) as [|y r] eqn:Hn; [left; apply Hno; reflexivity|].
      destruct y as [t rp sv|v sv|io|ss t rr|ss t time|[meta|io meta|since es la]]; cbn [note_kinds] in *; try (left; apply Hno; reflexivity).
      cbn [node_step] in Hs. unfold when_idle in Hs. destruct (runnable n); [injection Hs as Hs _; left; subst n'; reflexivity|].
      rewrite Hn in Hs. cbn [handle_note] in Hs. rok Hs. injection Hs as Hs _. subst n'. unfold nd_state.
      change (nd_eng (nd_set_notes r n)) with (nd_eng n) in Hx. unfold en_finish_building in Hx.
      destruct (sh_update _ _) as [e2 ok] eqn:Hsh. cbn [nd_upd_io nd_set_eng nd_eng nd_set_notes upd en_state].
      assert (H2 : rs_purge_upto (en_state e2) = rs_purge_upto (en_state (nd_eng n)) /\ rs_last_purged (en_state e2) = rs_last_purged (en_state (nd_eng n)) /\
        en_cfg e2 = en_cfg (nd_eng n)).
      { unfold sh_update in Hsh. destruct (ologid_leb _ _); injection Hsh as <- _; auto. }
      destruct H2 as (P1 & P2 & P3). destruct ok; [|injection Hx as <-; left; exact P1].
      apply try_purge_plan in Hx as [Hx Hx']. unfold logh_schedule in Hx, Hx'.
      destruct (logh_calc_purge_upto e2) as [x0|] eqn:Hc; [|left; cbn; rewrite Hx; exact P1].
      right. right. right. exists x0. split; [reflexivity|]. split; [exact Hx|]. cbn in Hx'. unfold rs_snap_last. cbn. rewrite Hx'.
      unfold logh_calc_purge_upto in Hc. destruct (_ <? _) eqn:Hlt in Hc; [discriminate|]. destruct (_ =? 0) eqn:Hz in Hc; [discriminate|].
      apply lil_get_index in Hc. rewrite P2, P3 in Hlt. unfold rs_snap_last in *. rewrite P3 in Hc, Hz. lia.
  Qed.

  (** ** The state machine *)
  Lemma sm_apply_entries es : forall sm, sm_entries (sm_apply es sm) = sm_entries sm ++ es.
  Proof.
    induction es as [|e r IH]; intros sm; [rewrite app_nil_r; reflexivity|]. cbn [sm_apply foldl]. change (foldl sm_apply_one (sm_apply_one sm e) r) with (sm_apply r (sm_apply_one sm e)).
    rewrite IH. cbn. rewrite <- app_assoc. reflexivity.
  Qed.
  Lemma step_sm now ev n n' outs : node_step now ev n = Ok (n', outs) -> ev <> ESm ->
    sm_entries (nd_sm n') = sm_entries (nd_sm n) /\ sm_applied (nd_sm n') = sm_applied (nd_sm n).
  Proof.
    intros Hs Hev.
    assert (Hsame : nd_sm n' = nd_sm n -> sm_entries (nd_sm n') = sm_entries (nd_sm n) /\ sm_applied (nd_sm n') = sm_applied (nd_sm n)).
    { intros ->. auto. }
    destruct ev; try congruence; cbn [node_step] in Hs; unfold when_idle in Hs.
    - apply Hsame. unfold run_one in Hs. destruct (en_out (nd_eng n)) as [|c r]; [injection Hs as <- _; reflexivity|].
      destruct (cond_ok _ _); [|injection Hs as <- _; reflexivity]. unfold run_cmd in Hs.
      destruct c; repeat match type of Hs with context [match ?t with _ => _ end] => destruct t; try discriminate Hs end;
        try (injection Hs as <- _; reflexivity); rok Hs; injection Hs as <- _; reflexivity.
    - destruct (runnable n); [injection Hs as <- _; auto|]. apply handle_msg_prims in Hs as (_ & H2 & _). apply Hsame. apply H2.
    - destruct (runnable n); [injection Hs as <- _; auto|]. destruct (nd_notes n); [injection Hs as <- _; auto|].
      apply handle_note_prims in Hs as (_ & H2 & _). apply Hsame. destruct H2 as (_ & H2 & _). exact H2.
    - destruct (runnable n); [injection Hs as <- _; auto|]. apply lift_prims in Hs as (e & _ & [= -> _]). auto.
    - destruct (runnable n); [injection Hs as <- _; auto|]. destruct (en_leader _); [|injection Hs as <- _; auto].
      apply lift_prims in Hs as (e & _ & [= -> _]). auto.
    - injection Hs as <- _. auto.
    - destruct (so_callbacks _ !! _); injection Hs as <- _; auto.
    - injection Hs as <- _. unfold build_done. destruct (nd_builds n !! _); [|auto]. cbn. unfold sm_set_snapshot.
      match goal with |- context [if ?b then _ else _] => destruct b end; auto.
    - apply Hsame. unfold stream_send in Hs. repeat match type of Hs with context [match ?t with _ => _ end] => destruct t; try discriminate Hs end;
        injection Hs as <- _; reflexivity.
    - apply Hsame. injection Hs as <- _. unfold stream_fail. mt; reflexivity.
    - apply Hsame. injection Hs as <- _. unfold stream_snap_reply. mt; reflexivity.
    - apply Hsame. injection Hs as Hs. unfold hb_send in Hs. repeat match type of Hs with context [match ?t with _ => _ end] => destruct t end;
        injection Hs as <- _; reflexivity.
    - apply Hsame. injection Hs as Hs. unfold handle_reply, read_reply, stream_reply, stream_snap_reply in Hs.
      repeat match type of Hs with context [match ?t with _ => _ end] => destruct t end; injection Hs as <- _; reflexivity.
  Qed.
  Lemma node_sm n : node_inv E me n -> sm_ok E (nd_sm n).
  Proof. intros (w0 & pcs & wv & D & N). apply (n_sm _ _ _ _ _ _ _ N). Qed.
  Lemma node_applied n : node_inv E me n -> pfx H (sm_applied (nd_sm n)) (rs_committed (nd_state n)).
  Proof using HE.
    intros (w0 & pcs & wv & D & N). eapply pfx_trans; [apply (applied_cur E me _ _ _ _ _ N)|apply (cur_committed E me HE _ _ _ _ _ N)].
  Qed.
  Lemma smwalk_in_order a q b : smwalk E a q b -> sm_in_order a q b.
  Proof using HE.
    revert a. induction q as [|c r IH]; intros a; cbn [smwalk sm_in_order]; [auto|]. destruct c as [f l| |sn io].
    - intros (Q1 & Q2 & Q3 & Q4). split; [exact Q1|]. split; [apply pfx_pos_le; exact Q3|]. apply IH. exact Q4.
    - apply IH.
    - intros (Q1 & Q2 & Q3). split; [apply pfx_pos_le; exact Q2|]. split.
      + destruct Q1 as (Hc & Hl & _). unfold snap_entries_ok. split.
        * apply list_eq. intros i. rewrite list_lookup_fmap. destruct (sn_data sn !! i) as [e|] eqn:He; cbn.
          -- rewrite (chain_index H Hok _ _ _ _ Hc He). symmetry. apply lookup_seq. apply lookup_lt_Some in He. cbn. auto.
          -- symmetry. apply lookup_ge_None. rewrite seq_length. apply lookup_ge_None. exact He.
        * rewrite Hl. reflexivity.
      + apply IH. exact Q3.
  Qed.
  Lemma sm_queue_order n : fits_reachable E cfg n ->
    exists to, sm_in_order (sm_applied (nd_sm n)) (nd_smq n) to /\ pos_le to (rs_committed (nd_state n)).
  Proof using HE.
    intros Hr. destruct (reach_inv n Hr) as (w0 & pcs & wv & D & N). exists (w_cur wv). split.
    - apply smwalk_in_order. apply (n_smq _ _ _ _ _ _ _ N).
    - apply pfx_pos_le. apply (cur_committed E me HE _ _ _ _ _ N).
  Qed.
  Lemma sm_state n : fits_reachable E cfg n ->
    map e_index (sm_entries (nd_sm n)) = seq 0 (length (sm_entries (nd_sm n))) /\
    sm_applied (nd_sm n) = es_last None (sm_entries (nd_sm n)) /\
    pos_le (sm_applied (nd_sm n)) (rs_committed (nd_state n)).
  Proof using HE.
    intros Hr. pose proof (reach_inv n Hr) as HN. pose proof (node_sm n HN) as [S1 S2 _ _]. split.
    - pose proof (chain_no_holes (mkLS None (sm_entries (nd_sm n)))) as Hh. apply Hh. split; [constructor|exact S1].
    - split; [exact S2|]. apply pfx_pos_le. apply node_applied. exact HN.
  Qed.
  Lemma sm_grows now ev n n' outs : fits_step E cfg now ev n n' outs ->
    exists es, sm_entries (nd_sm n') = sm_entries (nd_sm n) ++ es /\
      (es <> [] -> ev = ESm /\ ((exists f l r, nd_smq n = SmApply f l :: r /\ nd_smq n' = r /\
         forall e, e ∈ es -> e ∈ ls_entries (so_log (nd_store n)) /\ lid_index f <= e_index e <= lid_index l) \/
        (exists sn io r, nd_smq n = SmInstall sn io :: r /\ nd_smq n' = r /\ sm_entries (nd_sm n') = sn_data sn))).
  Proof using HE.
    intros Hst. pose proof Hst as (Hr & Hs & Hf & Hown). destruct (step_inv _ _ _ _ _ Hst) as [HN HN'].
    assert (Hd : ev = ESm \/ ev <> ESm) by (destruct ev; (left; reflexivity) || (right; discriminate)).
    destruct Hd as [->|Hev].
    2:{ exists []. rewrite app_nil_r. split; [apply (step_sm _ _ _ _ _ Hs Hev)|]. congruence. }
    cbn [node_step] in Hs. rok Hs. injection Hs as -> _.
    destruct (node_sm n HN) as [S1 S2 _ _]. destruct (node_sm n' HN') as [S1' S2' _ _].
    unfold sm_step in Hx. destruct (nd_smq n) as [|c r] eqn:Hq.
    { injection Hx as <-. exists []. rewrite app_nil_r. split; [reflexivity|congruence]. }
    destruct HN as (w0 & pcs & wv & D & N). pose proof (n_smq _ _ _ _ _ _ _ N) as Hw. rewrite Hq in Hw.
    destruct c as [f l| |sn io].
    - destruct (_ =? _) eqn:Hb in Hx; [|discriminate]. injection Hx as <-. cbn [note nd_set_sm nd_sm nd_set_notes nd_smq nd_set_smq] in *.
      rewrite sm_apply_entries. eexists. split; [reflexivity|]. intros _. split; [reflexivity|]. left. exists f, l, r. split; [reflexivity|]. split; [reflexivity|].
      intros e He. unfold ls_read in He. apply elem_of_list_filter in He as [He1 He2]. split; [exact He2|lia].
    - injection Hx as <-. exists []. rewrite app_nil_r. split; [reflexivity|congruence].
    - injection Hx as <-. cbn [note nd_set_sm nd_sm nd_set_notes nd_smq nd_set_smq] in *. cbn [sm_install sm_entries sm_applied] in *.
      destruct Hw as (_ & Hw & _). rewrite S2 in Hw. rewrite S2' in Hw.
      destruct (chain_prefix H Hok _ _ _ S1 S1' Hw) as [es Hes]. exists es. split; [exact Hes|]. intros _. split; [reflexivity|]. right.
      exists sn, io, r. auto.
  Qed.

  (** ** Corollaries *)
  Lemma leader_own n l : fits_reachable E cfg n -> en_leader (nd_eng n) = Some l ->
    ld_vote l = rs_v (nd_state n) /\ v_committed (rs_v (nd_state n)) = true /\ li_node (v_leader (rs_v (nd_state n))) = me.
  Proof.
    intros Hr Hl. pose proof (reach_inv n Hr) as In. pose proof (node_ei E me _ In) as I1.
    destruct (ei_el _ _ _ _ I1 l Hl) as (E1 & E2 & E3 & _). unfold nd_state. rewrite <- E1. auto.
  Qed.
  Lemma runnable_msg now m n n' outs : node_step now (EMsg m) n = Ok (n', outs) -> runnable n = true -> n' = n /\ outs = [].
  Proof. intros Hs Hr. cbn [node_step] in Hs. unfold when_idle in Hs. rewrite Hr in Hs. injection Hs as <- <-. auto. Qed.
  (** a node that leads after the step *)
  Lemma leader_commit now ev n n' outs l' : fits_step E cfg now ev n n' outs -> en_leader (nd_eng n') = Some l' ->
    rs_committed (nd_state n') = rs_committed (nd_state n) \/
    exists l c, en_leader (nd_eng n) = Some l /\ ld_vote l = ld_vote l' /\ rs_committed (nd_state n') = Some c /\
      lid_leader c = v_leader (ld_vote l') /\ li_node (lid_leader c) = me /\
      ologid_ltb (rs_committed (nd_state n)) (Some c) = true.
  Proof.
    intros Hf Hl'. destruct (is_follow_msg ev) eqn:Hfm.
    - destruct ev as [|m| | | | | | | | | | | | ]; try discriminate. destruct m as [v prev es lc tx| |v sn tx| | | | | | | | | | ]; try discriminate; left.
      + destruct (append_step _ _ _ _ _ _ _ _ _ Hf) as [[Hc _]|(y & Hfo & _)]; [exact Hc|].
        rewrite (fo_leader _ _ _ _ _ Hfo) in Hl'. discriminate.
      + destruct (runnable n) eqn:Hr.
        * destruct (runnable_msg _ _ _ _ _ (proj1 (proj2 Hf)) Hr) as [-> _]. reflexivity.
        * destruct (install_step _ _ _ _ _ _ _ Hf Hr) as [(_ & -> & _)|(_ & _ & Hln & _)]; [reflexivity|congruence].
    - destruct Hf as (Hr & Hs & _). destruct (step_leads_commit _ _ _ _ _ Hs Hfm) as [Hc|(Hv & Hll & l & c & Hl & Hc & Hlc & Hlt)]; [auto|right].
      destruct (Hll _ Hl') as (l2 & Hl2 & Hv2). replace l2 with l in * by congruence.
      destruct (leader_own n l Hr Hl) as (O1 & O2 & O3). exists l, c. rewrite Hv2, O1, Hlc. auto 10.
  Qed.
  (** a node that does not lead before the step *)
  Lemma follower_commit now ev n n' outs : fits_step E cfg now ev n n' outs -> en_leader (nd_eng n) = None ->
    rs_committed (nd_state n') = rs_committed (nd_state n) \/
    (exists v prev es lc tx y, ev = EMsg (MAppend v prev es lc tx) /\ rs_v (nd_state n') = v /\
       ologid_ltb (rs_committed (nd_state n)) (rs_committed (nd_state n')) = true /\
       rs_committed (nd_state n') = ologid_min y lc /\
       io_accepted (rs_io (nd_state n')) = Some (IOLog v y) /\ pfx H y (ls_last (planned_log n')) /\ pfx H y (ev_tip E (v_leader v))) \/
    (exists v sn tx, ev = EMsg (MSnapshot v sn tx) /\ rs_v (nd_state n') = v /\
       ologid_ltb (rs_committed (nd_state n)) (rs_committed (nd_state n')) = true /\
       rs_committed (nd_state n') = sm_last (sn_meta sn)).
  Proof.
    intros Hf Hl. destruct (is_follow_msg ev) eqn:Hfm.
    - destruct ev as [|m| | | | | | | | | | | | ]; try discriminate. destruct m as [v prev es lc tx| |v sn tx| | | | | | | | | | ]; try discriminate.
      + destruct (append_step _ _ _ _ _ _ _ _ _ Hf) as [[Hc _]|(y & Hfo & _ & Hio & _ & [Hc|[Hc Hlt]] & _)]; [auto|auto|]. right; left.
        exists v, prev, es, lc, tx, y. split; [reflexivity|]. split; [apply (fo_v _ _ _ _ _ Hfo)|]. split; [rewrite Hc; exact Hlt|]. split; [exact Hc|]. split; [exact Hio|].
        pose proof (ei_acc _ _ _ _ (fo_ei _ _ _ _ _ Hfo)) as A. unfold acc_ok, nd_state in *. rewrite Hio in A. destruct A as (A1 & A2 & A3 & A4).
        split; [apply A4; rewrite (fo_v _ _ _ _ _ Hfo); reflexivity|]. apply A3. apply (fo_for _ _ _ _ _ Hfo).
      + destruct (runnable n) eqn:Hr.
        * destruct (runnable_msg _ _ _ _ _ (proj1 (proj2 Hf)) Hr) as [-> _]. auto.
        * destruct (install_step _ _ _ _ _ _ _ Hf Hr) as [(_ & -> & _)|(_ & Hv & _ & [(_ & Hc & _)|(sl & Hsl & Hlb & Hc & _)])]; [auto|auto|]. right; right.
          exists v, sn, tx. split; [reflexivity|]. split; [exact Hv|]. rewrite Hc, Hsl. split; [|reflexivity]. rewrite ologid_ltb_negb, Hlb. reflexivity.
    - destruct Hf as (Hr & Hs & _). destruct (step_leads_commit _ _ _ _ _ Hs Hfm) as [Hc|(_ & _ & l & c & Hl' & _)]; [auto|congruence].
  Qed.
  (** a committed entry goes only if a snapshot covers it *)
  Lemma keeps_or_snapshot now ev n n' outs x : fits_step E cfg now ev n n' outs ->
    x ∈ ls_entries (planned_log n) -> e_index x < next_index (rs_committed (nd_state n)) ->
    x ∈ ls_entries (planned_log n') \/
    e_index x < next_index (rs_last_purged (nd_state n')) /\ e_index x < next_index (rs_snap_last (nd_state n')).
  Proof.
    intros Hf Hx Hi. destruct (step_keeps_committed _ _ _ _ _ x (proj1 (proj2 Hf)) Hx Hi) as [|(u & Hu & Hxu)]; [auto|right].
    destruct (purge_inflight _ _ _ _ _ _ Hf Hu) as (_ & [_ P1] & [_ P2]). cbn [next_index] in P1, P2. lia.
  Qed.
  (** what an accepted append leaves in the log *)
  Lemma append_holds now v prev es lc tx n n' outs : fits_step E cfg now (EMsg (MAppend v prev es lc tx)) n n' outs ->
    answers_success (EMsg (MAppend v prev es lc tx)) n n' tx ->
    holds_pos (planned_log n) prev /\ holds_pos (planned_log n') prev /\
    (forall e, e ∈ es -> e ∈ ls_entries (planned_log n') \/ e_index e < next_index (ls_purged (planned_log n'))) /\
    ls_purged (planned_log n') = ls_purged (planned_log n) /\
    (forall x, x ∈ ls_entries (planned_log n) -> e_index x < next_index prev -> x ∈ ls_entries (planned_log n')) /\
    exists k, k <= length es /\
      (forall e, e ∈ take k es -> e ∈ ls_entries (planned_log n) \/ e_index e < next_index (ls_purged (planned_log n))) /\
      ((k = length es /\ ls_entries (planned_log n') = ls_entries (planned_log n)) \/
       exists e, es !! k = Some e /\ next_index (ls_purged (planned_log n)) <= e_index e /\
         ~ (exists x, x ∈ ls_entries (planned_log n) /\ e_log_id x = e_log_id e) /\
         ls_entries (planned_log n') = filter (fun x => e_index x < e_index e) (ls_entries (planned_log n)) ++ drop k es).
  Proof.
    intros Hf Ha. destruct (append_log _ _ _ _ _ _ _ _ _ Hf Ha) as (Hp & Hpl & Hel & k & Hk & Hin & Hcase).
    destruct (step_inv _ _ _ _ _ Hf) as [I1 I2].
    pose proof (ec_log _ _ _ (ei_ec _ _ _ _ (node_ei E me _ I1))) as L1. pose proof (ec_log _ _ _ (ei_ec _ _ _ _ (node_ei E me _ I2))) as L2.
    fold (planned_log n) in L1. fold (planned_log n') in L2.
    assert (Hch : chain H prev es) by (destruct Hf as (_ & _ & (_ & Hc & _) & _); exact Hc).
    assert (Hold : forall l p, log_ok H l -> pfx H p (ls_last l) -> holds_pos l p).
    { intros l [x|] Hl Hx; [|exact Logic.I]. cbn [holds_pos]. pose proof (log_ok_pfx H _ Hl) as Hpu.
      destruct (le_lt_dec (next_index (ls_purged l)) (lid_index x)) as [Hi|Hi].
      - right. right. destruct (chain_in H Hok _ _ x (proj2 Hl)) as (e & He & Hid); [rewrite <- ls_last_es; exact Hx|exact Hi|].
        exists e. split; [eapply elem_of_list_lookup_2; exact He|exact Hid].
      - destruct (pfx_linear H _ _ _ Hx Hpu) as [Hxy|Hxy].
        + destruct (decide (S (lid_index x) < next_index (ls_purged l))) as [Hlt|Hlt]; [right; left; exact Hlt|left].
          symmetry. apply (pfx_eq_idx H Hok _ _ Hxy). cbn [next_index]. lia.
        + left. apply (pfx_eq_idx H Hok _ _ Hxy). cbn [next_index]. lia. }
    split; [apply Hold; assumption|].
    split; [apply Hold; [exact L2|]; eapply pfx_trans; [apply chain_pfx; exact Hch|exact Hel]|].
    split.
    { intros e He. rewrite Hp. destruct Hcase as [[-> Hs]|(e0 & He0 & Hpi & _ & Hs)].
      - rewrite Hs. apply Hin. rewrite take_ge by lia. exact He.
      - rewrite <- (take_drop k es) in He. apply elem_of_app in He as [He|He].
        + destruct (Hin e He) as [H1|H1]; [left|right; exact H1]. rewrite Hs. apply elem_of_app. left. apply elem_of_list_filter. split; [|exact H1].
          apply elem_of_list_lookup in He as [i Hi]. pose proof Hi as Hi2. apply lookup_take_Some in Hi as [Hi Hik].
          rewrite (chain_index H Hok _ _ _ _ Hch Hi), (chain_index H Hok _ _ _ _ Hch He0). lia.
        + left. rewrite Hs. apply elem_of_app. right. exact He. }
    split; [exact Hp|]. split.
    { intros x Hx Hi. destruct Hcase as [[_ Hs]|(e0 & He0 & _ & _ & Hs)]; rewrite Hs; [exact Hx|].
      apply elem_of_app. left. apply elem_of_list_filter. split; [|exact Hx]. rewrite (chain_index H Hok _ _ _ _ Hch He0). lia. }
    exists k. auto.
  Qed.
  (** the membership after an install *)
  Lemma update_committed_ge m c : ologid_leb (em_log_id c) (em_log_id (ms_committed (ms_update_committed m c))) = true /\
    next_index (em_log_id c) <= next_index (em_log_id (ms_effective (ms_update_committed m c))).
  Proof.
    unfold ms_update_committed; cbn [ms_committed ms_effective]. split.
    - destruct (ologid_ltb _ _) eqn:Hl; [apply ologid_leb_refl|]. rewrite ologid_ltb_negb in Hl. apply negb_false_iff in Hl. exact Hl.
    - destruct (onat_leb _ _) eqn:Hl; [lia|]. clear - Hl. destruct (em_log_id (ms_effective m)) as [a|], (em_log_id c) as [b|]; cbn in *; try discriminate; [rewrite onat_leb_SS in Hl|..]; lia.
  Qed.
  Lemma positions_grow now ev n n' outs : fits_step E cfg now ev n n' outs ->
    pfx H (rs_committed (nd_state n)) (rs_committed (nd_state n')) /\
    pos_le (rs_committed (nd_state n)) (rs_committed (nd_state n')) /\
    pos_le (rs_last_purged (nd_state n)) (rs_last_purged (nd_state n')) /\
    pos_le (rs_snap_last (nd_state n)) (rs_snap_last (nd_state n')).
  Proof.
    intros Hf. pose proof (step_committed _ _ _ _ _ Hf) as H1. split; [exact H1|]. split; [apply pfx_pos_le; exact H1|].
    split; [apply pfx_pos_le; eapply step_purged; exact Hf|eapply step_snap_idx; exact Hf].
  Qed.
  (** the snapshot's position is in the log *)
  Lemma install_spec now v sn tx n n' outs : fits_step E cfg now (EMsg (MSnapshot v sn tx)) n n' outs -> runnable n = false ->
    let s := nd_state n in let s' := nd_state n' in
    (vote_geb v (rs_v s) = false /\ s' = s /\ planned_log n' = planned_log n /\ en_leader (nd_eng n') = en_leader (nd_eng n)) \/
    (vote_geb v (rs_v s) = true /\ rs_v s' = v /\ en_leader (nd_eng n') = None /\
     ((ologid_leb (sm_last (sn_meta sn)) (rs_committed s) = true /\
       rs_committed s' = rs_committed s /\ rs_snap s' = rs_snap s /\ rs_purge_upto s' = rs_purge_upto s /\
       rs_last_purged s' = rs_last_purged s /\ rs_mem s' = rs_mem s /\ planned_log n' = planned_log n) \/
      exists sl, sm_last (sn_meta sn) = Some sl /\ ologid_ltb (rs_committed s) (Some sl) = true /\
        rs_committed s' = Some sl /\ rs_snap s' = sn_meta sn /\ rs_purge_upto s' = Some sl /\ rs_last_purged s' = Some sl /\
        ls_purged (planned_log n') = Some sl /\
        ls_entries (planned_log n') =
          (if bool_decide (sl ∈ map e_log_id (ls_entries (planned_log n)))
           then filter (fun e => lid_index sl < e_index e) (ls_entries (planned_log n)) else []) /\
        ologid_leb (em_log_id (sm_mem (sn_meta sn))) (em_log_id (ms_committed (rs_mem s'))) = true /\
        next_index (em_log_id (sm_mem (sn_meta sn))) <= next_index (em_log_id (ms_effective (rs_mem s'))))).
  Proof.
    intros Hf Hr. cbn zeta. destruct (step_inv _ _ _ _ _ Hf) as [I1 I2].
    pose proof (ec_log _ _ _ (ei_ec _ _ _ _ (node_ei E me _ I1))) as L1. fold (planned_log n) in L1.
    pose proof (ei_ec _ _ _ _ (node_ei E me _ I1)) as C1. pose proof (ei_ec _ _ _ _ (node_ei E me _ I2)) as C2.
    destruct (install_step _ _ _ _ _ _ _ Hf Hr) as [Hx|(Hv & Hv' & Hln & Hc)]; [left; exact Hx|right].
    split; [exact Hv|]. split; [exact Hv'|]. split; [exact Hln|].
    destruct Hc as [(H1 & H2 & H3 & H4 & H5 & H6 & H7 & H8)|(sl & H1 & H2 & H3 & H4 & H5 & H6 & H7)]; [left|right].
    - repeat split; auto. unfold nd_state in *. rewrite (ec_last_purged E _ _ C1), (ec_last_purged E _ _ C2).
      change (dk_log (planned n')) with (planned_log n'). rewrite H8. reflexivity.
    - exists sl. split; [exact H1|]. split; [rewrite ologid_ltb_negb, H2; reflexivity|]. split; [exact H3|]. split; [exact H4|]. split; [exact H5|].
      split; [unfold nd_state; rewrite (ec_last_purged E _ _ C2); exact H6|]. split; [exact H6|].
      assert (Hm : exists m, rs_mem (nd_state n') = ms_update_committed m (sm_mem (sn_meta sn))) by (destruct H7 as [(_ & _ & ->)|(_ & _ & m & -> & _)]; eauto).
      split; [|destruct Hm as [m ->]; apply update_committed_ge].
      assert (Hpc : next_index (ls_purged (planned_log n)) <= lid_index sl).
      { (* the purge position is committed, the snapshot is above *)
        destruct (le_lt_dec (next_index (ls_purged (planned_log n))) (lid_index sl)) as [|Hlt]; [assumption|exfalso].
        pose proof (ec_purged_com E _ _ C1) as P1. pose proof (step_committed _ _ _ _ _ Hf) as P2. rewrite H3 in P2. unfold nd_state in *.
        assert (P3 : pfx H (ls_purged (planned_log n)) (Some sl)) by (eapply pfx_trans; eauto).
        assert (P4 : ls_purged (planned_log n) = Some sl) by (apply (pfx_eq_idx H Hok _ _ P3); cbn [next_index]; lia).
        change (dk_log (planned n)) with (planned_log n) in P1.
        rewrite P4 in P1. apply (pfx_pos_le _ _) in P1. destruct P1 as [P1 _]. congruence. }
      destruct H7 as [(Ha & Hb & _)|(Ha & Hb & _)]; rewrite Hb.
      + rewrite bool_decide_true; [reflexivity|]. destruct (chain_in H Hok _ _ sl (proj2 L1)) as (e & He & Hid); [rewrite <- ls_last_es; exact Ha|exact Hpc|].
        apply elem_of_list_fmap. exists e. split; [auto|eapply elem_of_list_lookup_2; exact He].
      + rewrite bool_decide_false; [reflexivity|]. intros (e & Hid & He)%elem_of_list_fmap. apply Ha. rewrite Hid, ls_last_es.
        apply (chain_elem H Hok _ _ e (proj2 L1) He).
  Qed.
End fit.
