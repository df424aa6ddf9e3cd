(** Which steps queue an [UpdateIOProgress] or accept a new write: except for
    append-entries and install-snapshot requests, only those of this node as a leader. *)
From Coq Require Import Bool Lia ZifyBool ZifyNat.
From stdpp Require Import base numbers option gmap relations list.
From Verif Require Import Types TypesProofs LogIdList LogIdListProofs Membership Progress RaftState
  ProgressEntry Engine EnginePrims Store RaftCore NodeSpec NodePrims KindProofs VoteNodeProofs LogSpec LogPropSpec LogStateProofs.

Definition own_io (id : nat) (c : Command) : Prop :=
  match c with UpdateIOProgress _ io => li_node (v_leader (io_vote io)) = id | _ => True end.
Definition uq (e e' : Engine) : Prop :=
  en_id e' = en_id e /\ exists cs, en_out e' = en_out e ++ cs /\ forall c, c ∈ cs -> own_io (en_id e) c.
Lemma uq_refl e : uq e e.
Proof. split; [reflexivity|]. exists []. rewrite app_nil_r. split; [reflexivity|]. intros c Hc. apply elem_of_nil in Hc as []. Qed.
Lemma uq_trans a b c : uq a b -> uq b c -> uq a c.
Proof.
  intros [I1 (c1 & H1 & H2)] [I2 (c2 & H3 & H4)]. split; [congruence|]. exists (c1 ++ c2). rewrite H3, H1, app_assoc. split; [reflexivity|].
  intros x Hx. apply elem_of_app in Hx as [Hx|Hx]; [apply (H2 x Hx)|]. rewrite <- I1. apply (H4 x Hx).
Qed.
Lemma prim_id k e e' : prim k e e' -> en_id e' = en_id e.
Proof.
  intros Hp. destruct Hp; try reflexivity.
  - rewrite leader_appended_eq. reflexivity.
  - rewrite fh_do_append_eq. reflexivity.
  - rewrite fh_truncate_eq. destruct (rs_get_log_id _ _); reflexivity.
  - rewrite sh_trigger_eq by assumption. reflexivity.
  - rewrite logh_purge_eq. destruct (rs_purge_upto _); [|reflexivity]. destruct (ologid_leb _ _); reflexivity.
  - rewrite fh_install_eq. destruct (sm_last _) as [sl|]; [|reflexivity]. destruct (ologid_leb _ _); [reflexivity|].
    destruct (ologid_leb _ _); [reflexivity|]. cbv zeta.
    assert (Hc : forall e0, en_id (install_cut sl e0) = en_id e0).
    { intros e0. unfold install_cut. destruct (rs_get_log_id _ _); [|reflexivity]. destruct (logid_eqb _ _); [reflexivity|].
      rewrite fh_truncate_eq. destruct (rs_get_log_id _ _); reflexivity. }
    rewrite logh_purge_eq. destruct (rs_purge_upto _) as [u|]; [destruct (ologid_leb (Some u) _)|]; apply (Hc (upd (set_snap (sn_meta sn)) e)).
Qed.
Lemma uq_prims ks e e' : prims ks e e' -> KPop ∉ ks -> KUpdIO ∉ ks -> uq e e'.
Proof.
  intros Hp Hk Hu. revert e e' Hp. apply prims_ind_rel; [apply uq_refl|apply uq_trans|].
  intros k a b Hin Hp. split; [eapply prim_id; exact Hp|].
  destruct (prim_pushes _ _ _ Hp) as (cs & Ho & Hcs); [intros ->; contradiction|]. exists cs. split; [exact Ho|].
  intros c Hc. specialize (Hcs c Hc). destruct c; try exact I. cbn in Hcs. subst k. contradiction.
Qed.
Ltac uqp L := eapply uq_prims; [eapply L; eassumption|notin|notin].

Lemma uq_one e e' c : en_id e' = en_id e -> en_out e' = en_out e ++ [c] -> own_io (en_id e) c -> uq e e'.
Proof. intros Hi Ho Hc. split; [exact Hi|]. exists [c]. split; [exact Ho|]. intros x Hx. apply elem_of_list_singleton in Hx as ->. exact Hc. Qed.
Lemma uq_same e e' : en_id e' = en_id e -> en_out e' = en_out e -> uq e e'.
Proof. intros Hi Ho. split; [exact Hi|]. exists []. rewrite app_nil_r. split; [exact Ho|]. intros x Hx. apply elem_of_nil in Hx as []. Qed.

Lemma is_leader_id s id : rs_is_leader s id = true -> li_node (v_leader (rs_v s)) = id.
Proof. unfold rs_is_leader, rs_is_leading, voted_for. intros Hl. apply andb_true_iff in Hl as [Hl _]. apply andb_true_iff in Hl as [_ Hl].
  apply Nat.eqb_eq in Hl. exact Hl. Qed.
Lemma ssh_uq e : uq e (ssh_update e).
Proof. eapply uq_prims; [apply (prims_server [KServer]); reflexivity|notin|notin]. Qed.
Lemma become_leader_uq now e e' : rs_is_leader (en_state e) (en_id e) = true -> vh_become_leader now e = Ok e' -> uq e e'.
Proof.
  intros Hl. apply is_leader_id in Hl. unfold vh_become_leader. set (fresh := res_bind _ _).
  assert (Hfresh : fresh = Ok e' -> uq e e').
  { subst fresh. intros Hf. rok Hf.
    match type of Hx with rh_rebuild_streams (ssh_update ?a) = _ => set (e3 := a) in * end.
    assert (H3 : uq e e3).
    { eapply uq_one; [reflexivity|reflexivity|]. cbn. exact Hl. }
    eapply uq_trans; [exact H3|]. eapply uq_trans; [apply ssh_uq|]. eapply uq_trans; [uqp rh_rebuild_streams_prims|].
    destruct (ologid_ltb _ _) in Hf.
    - eapply uq_prims; [eapply lh_append_prims; [|exact Hf]; cbn; lia|notin|notin].
    - uqp rh_initiate_prims. }
  destruct (en_leader e) as [l|]; [|exact Hfresh]. destruct (leader_eqb _ _); [|exact Hfresh].
  intros [= <-]. eapply uq_trans; [|apply ssh_uq]. apply uq_same; reflexivity.
Qed.
Lemma internal_uq now e e' : vh_update_internal now e = Ok e' -> uq e e'.
Proof.
  unfold vh_update_internal. destruct (rs_is_leader _ _) eqn:Hl; [apply become_leader_uq; exact Hl|].
  destruct (rs_is_leading _ _); intros [= <-]; [apply uq_refl|]. unfold vh_become_following.
  eapply uq_trans; [|apply ssh_uq]. apply uq_same; reflexivity.
Qed.
Lemma update_vote_uq now v e x : vh_update_vote now v e = Ok x -> uq e x.1.
Proof.
  unfold vh_update_vote. destruct (negb _); [intros [= <-]; apply uq_refl|]. intros Hu. rok Hu. injection Hu as <-. cbn [fst].
  eapply uq_trans; [|eapply internal_uq; exact Hx]. destruct (vote_gtb _ _).
  - eapply uq_one; [reflexivity|reflexivity|exact I].
  - apply uq_same; reflexivity.
Qed.
Lemma elect_uq now e e' : en_elect now e = Ok e' -> uq e e'.
Proof.
  unfold en_elect. intros Hu. rok Hu. destruct x.2; [|discriminate]. injection Hu as <-.
  eapply uq_trans; [apply (uq_same e (en_new_candidate now (vote_new (S (li_term (v_leader (rs_v (en_state e))))) (en_id e)) e)); reflexivity|].
  eapply uq_trans; [eapply update_vote_uq; exact Hx|]. eapply uq_trans; [|apply ssh_uq].
  eapply uq_one; [reflexivity|reflexivity|exact I].
Qed.
Lemma initialize_uq now m e x : en_initialize now m e = Ok x -> uq e x.1.
Proof.
  unfold en_initialize. destruct (rs_is_initialized _); [intros [= <-]; apply uq_refl|].
  destruct (negb _); [intros [= <-]; apply uq_refl|]. intros Hu. rok Hu. injection Hu as <-. cbn [fst].
  eapply uq_trans; [|eapply elect_uq; exact Hx]. rewrite fh_do_append_eq. eapply uq_one; [reflexivity|reflexivity|exact I].
Qed.
Lemma establish_uq now e e' : en_establish now e = Ok e' -> uq e e'.
Proof.
  unfold en_establish. destruct (en_cand e) as [c|]; [|discriminate]. unfold eh_establish.
  destruct (match en_leader (set_cand None e) with Some _ => _ | None => _ end).
  2:{ intros [= <-]. apply uq_same; reflexivity. }
  intros Hu. rok Hu. rok Hu.
  eapply uq_trans; [apply (uq_same e (set_leader (Some (cand_into_leader now c)) (set_cand None e))); reflexivity|].
  eapply uq_trans; [uqp rh_rebuild_streams_prims|]. eapply uq_trans; [eapply update_vote_uq; exact Hx0|].
  match type of Hu with lh_append _ ?a = _ => eapply uq_trans; [apply (uq_same x0.1 a); reflexivity|] end.
  eapply uq_prims; [eapply lh_append_prims; [|exact Hu]; cbn; lia|notin|notin].
Qed.
Lemma vote_resp_uq now t r e e' : en_vote_resp now t r e = Ok e' -> uq e e'.
Proof.
  unfold en_vote_resp. destruct (en_cand e) as [c|]; [|intros [= <-]; apply uq_refl]. destruct (_ && _).
  - intros Hu. rok Hu. destruct x.2.
    + eapply uq_trans; [apply (uq_same e (set_cand (Some x.1) e)); reflexivity|]. eapply establish_uq. exact Hu.
    + injection Hu as <-. apply uq_same; reflexivity.
  - intros Hu. rok Hu. injection Hu as <-. eapply uq_trans; [|eapply update_vote_uq; exact Hx].
    destruct (ologid_ltb _ _); apply uq_same; reflexivity.
Qed.
Lemma tick_uq now hb ee eh e e' : handle_tick now hb ee eh e = Ok e' -> uq e e'.
Proof.
  unfold handle_tick. intros Hu. rok Hu.
  assert (H1 : uq e x).
  { unfold tick_election in Hx. destruct (bool_decide _); [injection Hx as <-; apply uq_refl|].
    destruct (negb _); [injection Hx as <-; apply uq_refl|]. destruct (negb _); [injection Hx as <-; apply uq_refl|].
    destruct (_ || _); [|injection Hx as <-; apply uq_refl].
    eapply uq_trans; [apply (uq_same e (set_greater false e)); reflexivity|]. eapply elect_uq. exact Hx. }
  eapply uq_trans; [exact H1|].
  set (e2 := match en_leader x with Some _ => _ | None => _ end) in Hu.
  assert (H2 : uq x e2).
  { subst e2. destruct (en_leader x); [|apply uq_refl]. destruct (_ <=? _); [|apply uq_refl].
    eapply uq_trans with (b := if eh then core_heartbeat x else x); [|apply uq_same; reflexivity].
    destruct eh; [|apply uq_refl]. uqp core_heartbeat_prims. }
  eapply uq_trans; [exact H2|]. clearbody e2. destruct (ologid_leb _ _); [|injection Hu as <-; apply uq_refl].
  unfold en_step_down in Hu. destruct (ologid_leb _ _); [|injection Hu as <-; apply uq_refl]. eapply internal_uq. exact Hu.
Qed.

Lemma msg_uq now m n x : handle_msg now m n = Ok x -> is_follow_msg (EMsg m) = false -> uq (nd_eng n) (nd_eng x.1).
Proof.
  intros Hu Hf. pose proof (handle_msg_kinds _ _ _ _ Hu) as Hk.
  destruct m; try discriminate; try (eapply uq_prims; [exact Hk|cbn; notin|cbn; notin]; fail);
    cbn [handle_msg] in Hu; unfold lift in Hu; rok Hu; injection Hu as <-; cbn [fst nd_eng nd_set_eng]; clear Hk; rename Hx into Hu.
  - unfold core_vote in Hu. rok Hu. injection Hu as <-. apply uq_trans with (b := x.1); [|eapply uq_one; [reflexivity|reflexivity|exact I]].
    unfold en_vote_req in Hx. destruct (_ && _); [injection Hx as <-; apply uq_refl|]. destruct (negb _); [injection Hx as <-; apply uq_refl|].
    rok Hx. injection Hx as <-. eapply update_vote_uq. exact Hx0.
  - unfold core_transfer in Hu. destruct (vote_eqb _ _); [|injection Hu as <-; apply uq_refl].
    match type of Hu with (if _ then en_elect _ ?a else _) = _ => eapply uq_trans; [apply (uq_same (nd_eng n) a); reflexivity|] end.
    destruct (_ =? _); [eapply elect_uq; exact Hu|injection Hu as <-; apply uq_refl].
  - unfold core_initialize in Hu. rok Hu. injection Hu as <-. eapply uq_trans; [eapply initialize_uq; exact Hx|].
    eapply uq_one; [reflexivity|reflexivity|exact I].
  - destruct (rs_is_voter _ _); [eapply elect_uq; exact Hu|injection Hu as <-; apply uq_refl].
Qed.
Lemma note_uq now y n x : handle_note now y n = Ok x -> uq (nd_eng n) (nd_eng x.1).
Proof.
  intros Hu. pose proof (handle_note_kinds _ _ _ _ Hu) as Hk.
  destruct y as [t resp sv|v sv|io|ss t r|ss t time|r]; try (eapply uq_prims; [exact Hk|cbn; notin|cbn; notin]; fail);
    cbn [handle_note] in Hu; unfold lift in Hu; clear Hk.
  - destruct (en_cand (nd_eng n)) as [c|]; [|injection Hu as <-; apply uq_refl]. destruct (vote_matches _ _); [|injection Hu as <-; apply uq_refl].
    rok Hu. injection Hu as <-. eapply vote_resp_uq. exact Hx.
  - destruct (vote_matches _ _); [|injection Hu as <-; apply uq_refl]. rok Hu. injection Hu as <-. rok Hx. injection Hx as <-.
    eapply update_vote_uq. exact Hx0.
  - destruct r; cbn [note_kinds] in *; [|injection Hu as <-; apply uq_same; reflexivity|].
    + rok Hu. injection Hu as <-. cbn [fst]. eapply uq_trans; [uqp en_finish_building_prims|]. apply uq_same; reflexivity.
    + destruct (apply_results _ _) as [c outs]. injection Hu as <-. apply uq_same; reflexivity.
Qed.
Theorem step_uq now ev n x : ev <> ERun -> node_step now ev n = Ok x -> is_follow_msg ev = false -> uq (nd_eng n) (nd_eng x.1).
Proof.
  intros He Hs Hf. destruct ev as [|m| |hb ee eh| | | | | | | | | |]; try congruence;
    try (eapply uq_prims; [eapply (node_step_kinds _ _ _ _ Hs)|cbn; notin|cbn; notin]; fail);
    cbn [node_step] in Hs; unfold when_idle in Hs; destruct (runnable n); try (injection Hs as <-; apply uq_refl).
  - eapply msg_uq; [exact Hs|exact Hf].
  - destruct (nd_notes n) as [|y r]; [injection Hs as <-; apply uq_refl|]. apply (note_uq _ _ _ _ Hs).
  - apply lift_prims in Hs as (e & Hee & ->). eapply tick_uq. exact Hee.
Qed.

(** ** The accepted write *)
Definition acc_rel (e e' : Engine) : Prop :=
  vote_le (rs_v (en_state e)) (rs_v (en_state e')) /\
  (rs_v (en_state e') = rs_v (en_state e) -> li_node (v_leader (rs_v (en_state e))) <> en_id e -> en_leader e = None ->
   io_accepted (rs_io (en_state e')) = io_accepted (rs_io (en_state e)) /\ en_leader e' = None /\ en_id e' = en_id e).
Lemma acc_refl e : acc_rel e e.
Proof. split; [apply vote_geb_refl|auto]. Qed.
Lemma acc_trans a b c : acc_rel a b -> acc_rel b c -> acc_rel a c.
Proof.
  intros [V1 A1] [V2 A2]. split; [eapply vote_geb_trans; eassumption|]. intros Hv Hf Hl.
  assert (Hb : rs_v (en_state b) = rs_v (en_state a)).
  { apply vote_geb_antisym; [exact V1|]. rewrite <- Hv. exact V2. }
  destruct (A1 Hb Hf Hl) as (K1 & K2 & K3). destruct (A2 ltac:(congruence) ltac:(congruence) K2) as (K4 & K5 & K6).
  repeat split; congruence.
Qed.
Lemma prim_acc k e e' : prim k e e' -> k <> KAccept -> k <> KInstall -> k <> KEstablish -> k <> KInitVote -> k <> KPop -> acc_rel e e'.
Proof.
  intros Hp H1 H2 H3 H4 H5. split.
  { destruct (prim_vrel _ _ _ Hp H4 H5) as (cs & _ & Hc). eapply vchain_le. exact Hc. }
  intros Hv Hf Hl. destruct Hp; try congruence; try (split; [reflexivity|split; [exact Hl|reflexivity]]; fail);
    try (cbn [set_leader en_leader en_state] in *; congruence).
  - exfalso. revert Hv. unfold push, upd. cbn [en_state]. rewrite rs_accept_io_v. intros Hv. change (v = rs_v (en_state e)) in Hv. subst v.
    rewrite vote_gtb_negb in H. rewrite vote_geb_refl in H. discriminate.
  - exfalso. apply Hf. apply is_leader_id. assumption.
  - split; [reflexivity|]. split; [reflexivity|reflexivity].
  - rewrite fh_do_append_eq. cbn. destruct (last_two_memberships entries); auto.
  - rewrite fh_truncate_eq. destruct (rs_get_log_id _ _); cbn; auto. destruct (onat_leb _ _); cbn; auto.
  - rewrite sh_trigger_eq by assumption. auto.
  - rewrite logh_purge_eq. destruct (rs_purge_upto _); [|auto]. destruct (ologid_leb _ _); auto.
  - cbn. repeat split; auto. apply H.
Qed.
Lemma prims_acc ks e e' : prims ks e e' -> KAccept ∉ ks -> KInstall ∉ ks -> KEstablish ∉ ks -> KInitVote ∉ ks -> KPop ∉ ks -> acc_rel e e'.
Proof.
  intros Hp H1 H2 H3 H4 H5. revert e e' Hp. apply prims_ind_rel; [apply acc_refl|apply acc_trans|].
  intros k a b Hin Hp. apply (prim_acc _ _ _ Hp); intros ->; contradiction.
Qed.
