(** Node steps in terms of the engine primitives. *)
From Coq Require Import Bool Lia ZifyBool ZifyNat.
From stdpp Require Import base numbers option gmap relations list.
From Verif Require Import Types TypesProofs LogIdList Quorum Membership Progress RaftState ProgressEntry
  Engine EnginePrims Store RaftCore NodeSpec.

(** everything but taking a command, the first vote of [initialize], and counting votes *)
Definition ks_handler : list Kind :=
  [KVote; KTouch; KLease; KServer; KProgress; KMatch; KLeadAccept; KLeaderVote; KLeaderFresh; KTransfer;
   KFollow; KCandNew; KAskVote; KCandDrop; KGreater; KAccept; KUpdIO; KSend; KRespond; KLeadAppend;
   KFollowAppend; KTruncate; KLeadCommit; KFollowCommit; KBuild; KSnapshot; KPurgePlan; KPurge; KInstall; KCursor].

Definition ks_full : list Kind := KCandGrant :: KEstablish :: ks_handler.

(** a grant is counted for candidate [c] *)
Definition grant_counted (now t : nat) (c : Candidate) (e e' : Engine) : Prop :=
  exists c' ok, cand_grant c t = Ok (c', ok) /\
    ((ok = false /\ e' = set_cand (Some c') e) \/
     (ok = true /\ (exists l, en_leader e = Some l /\ vote_gtb (cd_vote c) (ld_vote l) = false) /\
      e' = set_cand None e) \/
     (ok = true /\ (forall l, en_leader e = Some l -> vote_gtb (cd_vote c) (ld_vote l) = true) /\
      prims (KAccept :: ks_vote) (set_leader (Some (cand_into_leader now c')) (set_cand None e)) e')).

(** the vote update of an election *)
Definition vote_stored (now : nat) (v : Vote) (e : Engine) : Engine :=
  push (SaveVote v)
    (upd (rs_accept_io (io_new v))
       (upd (fun s => set_vote (leased_update now (if v_committed v then ec_leader_lease (en_cfg e) else 0)
                                  v (rs_vote s)) s) e)).
(** the start of a successful [initialize] *)
Definition init_entry (m : Membership) : Entry := mkEntry (mkLogId (mkLeaderId 0 0) 0) (PMembership m).
Definition initialized (now : nat) (m : Membership) (e : Engine) : Engine :=
  let e1 := upd (fun s => set_vote (leased_update now 0 (into_committed vote_default) (rs_vote s)) s) e in
  fh_do_append (into_committed vote_default) [init_entry m] e1.
Definition handled (e e' : Engine) : Prop :=
  prims ks_handler e e' \/
  exists now m, rs_is_initialized (en_state e) = false /\ m_is_voter m (en_id e) = true /\
    prims ks_handler (vote_stored now (vote_new 1 (en_id e)) (en_new_candidate now (vote_new 1 (en_id e)) (initialized now m e))) e'.

Ltac pk H := eapply prims_weak; [|eapply H]; [reflexivity|..].

Lemma nd_upd_io_prims ks f n :
  bool_decide (KCursor ∈ ks) = true ->
  (forall io, io_accepted (f io) = io_accepted io /\ io_building (f io) = io_building io) ->
  prims ks (nd_eng n) (nd_eng (nd_upd_io f n)).
Proof. intros Hk Hf. eapply prims_one; [exact Hk|]. apply (pr_cursor f). exact Hf. Qed.

Lemma core_vote_prims now req tx e e' : core_vote now req tx e = Ok e' -> prims ks_handler e e'.
Proof.
  unfold core_vote. intros H. rok H. injection H as <-.
  eapply prims_trans; [pk en_vote_req_prims; exact Hx|].
  pone pr_respond. cbn [resp_ok]. split; [reflexivity|].
  unfold en_vote_req in Hx. destruct (_ && _); [injection Hx as <-; reflexivity|].
  destruct (negb _); [injection Hx as <-; reflexivity|]. rok Hx. injection Hx as <-. reflexivity.
Qed.

Lemma core_append_prims now v prev es c tx e e' :
  core_append now v prev es c tx e = Ok e' -> prims ks_handler e e'.
Proof.
  unfold core_append. intros H. rok H. injection H as <-.
  eapply prims_trans; [pk en_append_entries_prims; exact Hx|].
  destruct x.2; [|apply prims_refl]. pk fh_commit_prims.
Qed.

Lemma initialized_vote now m e : rs_v (en_state (initialized now m e)) = into_committed vote_default.
Proof.
  unfold initialized, fh_do_append, push, fh_append_membership. cbn [en_state].
  change (last_two_memberships [init_entry m]) with [mkEM (Some (mkLogId (mkLeaderId 0 0) 0)) m].
  cbv beta iota. rewrite ssh_update_state. reflexivity.
Qed.
Lemma initialized_id now m e : en_id (initialized now m e) = en_id e.
Proof.
  unfold initialized, fh_do_append, push, fh_append_membership. cbn [en_state].
  change (last_two_memberships [init_entry m]) with [mkEM (Some (mkLogId (mkLeaderId 0 0) 0)) m].
  cbv beta iota. unfold ssh_update. destruct (bool_decide _); reflexivity.
Qed.
Lemma init_vote_gt now m e :
  vote_gtb (vote_new 1 (en_id e)) (rs_v (en_state (en_new_candidate now (vote_new 1 (en_id e)) (initialized now m e)))) = true.
Proof. cbn [en_new_candidate set_cand en_state]. rewrite initialized_vote. unfold vote_gtb. reflexivity. Qed.

Lemma en_elect_split now e e' :
  en_elect now e = Ok e' ->
  let v := vote_new (S (li_term (v_leader (rs_v (en_state e))))) (en_id e) in
  prims (KAskVote :: ks_internal) (vote_stored now v (en_new_candidate now v e)) e'.
Proof.
  unfold en_elect. intros H. cbv zeta in H |- *.
  set (v := vote_new (S (li_term (v_leader (rs_v (en_state e))))) (en_id e)) in *. rok H. destruct x as [e1 b]. cbn [snd] in H. destruct b; [|discriminate].
  injection H as <-. cbn [fst]. pose proof (en_elect_update _ _ _ Hx) as [Hev Hel]. cbn [fst] in Hev, Hel.
  assert (Hgt : vote_gtb v (rs_v (en_state e)) = true).
  { subst v. destruct (rs_v (en_state e)) as [[t n0] c]. apply vote_gtb_true. cbn. lia. }
  unfold vh_update_vote in Hx.
  change (rs_v (en_state (en_new_candidate now v e))) with (rs_v (en_state e)) in Hx.
  rewrite (vote_gtb_geb _ _ Hgt), Hgt in Hx. cbn [negb] in Hx. rok Hx. injection Hx as <-.
  eapply prims_trans; [pk vh_update_internal_prims; exact Hx0|].
  eapply prims_trans; [|apply prims_server; reflexivity]. pone pr_send_vote; symmetry; assumption.
Qed.

Lemma core_initialize_handled now ms tx e e' : core_initialize now ms tx e = Ok e' -> handled e e'.
Proof.
  unfold core_initialize. intros H. rok H. injection H as <-.
  set (m := mkMembership [dom ms] ms) in *.
  unfold en_initialize in Hx. destruct (rs_is_initialized (en_state e)) eqn:Hi;
    [injection Hx as <-; left; pone pr_respond; exact I|].
  destruct (m_is_voter m (en_id e)) eqn:Hm; cbn [negb] in Hx; [|injection Hx as <-; left; pone pr_respond; exact I].
  rok Hx. injection Hx as <-. right. exists now, m. split; [exact Hi|]. split; [exact Hm|].
  change (en_elect now (initialized now m e) = Ok x0) in Hx0.
  apply en_elect_split in Hx0. cbv zeta in Hx0. rewrite initialized_vote, initialized_id in Hx0.
  eapply prims_trans; [pk Hx0|]. pone pr_respond. exact I.
Qed.

Lemma handled_prims e e' : prims ks_handler e e' -> handled e e'.
Proof. intros H. left. exact H. Qed.
Lemma handled_all e e' : handled e e' -> prims ks_all e e'.
Proof.
  intros [H|(now & m & Hi & Hm & H)]; [pk H|].
  eapply prims_trans; [|pk H].
  eapply prims_trans; [eapply prims_one'; [apply (pr_init_vote now); exact Hi|reflexivity]|].
  eapply prims_trans.
  { eapply prims_one'; [apply (pr_follow_append (into_committed vote_default) [init_entry m]); [discriminate|]|reflexivity].
    right. change (rs_last (en_state e) = None). unfold rs_is_initialized in Hi.
    destruct (rs_last (en_state e)); [discriminate|reflexivity]. }
  fold (initialized now m e). eapply prims_trans.
  { eapply prims_one'; [apply (pr_cand_new now)|reflexivity]. }
  rewrite initialized_vote, initialized_id.
  change (vote_new (S (li_term (v_leader (into_committed vote_default)))) (en_id e)) with (vote_new 1 (en_id e)).
  eapply prims_one'; [apply pr_vote; apply init_vote_gt|reflexivity].
Qed.

Lemma core_transfer_prims now req e e' : core_transfer now req e = Ok e' -> prims ks_handler e e'.
Proof.
  unfold core_transfer. destruct (vote_eqb _ _); [|intros [= <-]; apply prims_refl].
  destruct (en_id e =? _).
  - intros H. eapply prims_trans; [pone pr_lease|]. pk en_elect_prims. exact H.
  - intros [= <-]. pone pr_lease.
Qed.

Lemma core_heartbeat_prims e : prims [KSend] e (core_heartbeat e).
Proof.
  unfold core_heartbeat. destruct (en_leader e) as [l|] eqn:Hl; [|apply prims_refl].
  destruct (ld_transfer l); [apply prims_refl|]. apply prims_push_send; [reflexivity|].
  exists l. split; [exact Hl|]. split; reflexivity.
Qed.

(** what a handler leaves alone *)
Definition same_rest (n n' : Node) : Prop :=
  nd_store n' = nd_store n /\ nd_sm n' = nd_sm n /\ nd_smq n' = nd_smq n /\ nd_builds n' = nd_builds n /\
  nd_streams n' = nd_streams n /\ nd_hb n' = nd_hb n /\ nd_hbw n' = nd_hbw n.
Lemma same_rest_refl n : same_rest n n.
Proof. repeat split. Qed.

Lemma core_write_prims p tx n x :
  core_write p tx n = Ok x ->
  prims ks_lead_append (nd_eng n) (nd_eng x.1) /\ same_rest n x.1 /\ nd_notes x.1 = nd_notes n.
Proof.
  unfold core_write. destruct (en_leader (nd_eng n)) as [l|].
  - destruct (ld_transfer l).
    + intros [= <-]. repeat split. apply prims_refl.
    + intros H. rok H. destruct (rs_last (en_state x0)); [|discriminate]. injection H as <-.
      repeat split. cbn. eapply lh_append_prims; [|exact Hx]; cbn; lia.
  - intros [= <-]. repeat split. apply prims_refl.
Qed.

Lemma handle_msg_prims now m n x :
  handle_msg now m n = Ok x ->
  handled (nd_eng n) (nd_eng x.1) /\ same_rest n x.1 /\ nd_notes x.1 = nd_notes n.
Proof.
  assert (Hh : forall e e', prims ks_handler e e' -> handled e e') by (intros; left; assumption).
  destruct m; cbn [handle_msg]; unfold lift; intros H.
  - rok H. injection H as <-. repeat split. cbn. apply Hh. eapply core_append_prims. exact Hx.
  - rok H. injection H as <-. repeat split. cbn. apply Hh. eapply core_vote_prims. exact Hx.
  - rok H. injection H as <-. repeat split. cbn. apply Hh. pk en_install_snapshot_prims. exact Hx.
  - rok H. injection H as <-. repeat split. cbn. apply Hh. eapply core_transfer_prims. exact Hx.
  - rok H. injection H as <-. repeat split. cbn. eapply core_initialize_handled. exact Hx.
  - apply core_write_prims in H as (H1 & H2). split; [apply Hh; pk H1|exact H2].
  - unfold core_change in H. destruct (ms_change _ _ _).
    + apply core_write_prims in H as (H1 & H2). split; [apply Hh; pk H1|exact H2].
    + injection H as <-. repeat split. apply Hh, prims_refl.
  - unfold core_read in H. destruct (en_leader (nd_eng n)) as [l|].
    + destruct (joint_is_quorum _ _).
      * injection H as <-. repeat split. apply Hh, prims_refl.
      * destruct (forallb _ _); [|discriminate]. injection H as <-. repeat split. apply Hh, prims_refl.
    + injection H as <-. repeat split. apply Hh, prims_refl.
  - rok H. injection H as <-. repeat split. cbn. apply Hh. destruct (rs_is_voter _ _).
    + pk en_elect_prims. exact Hx.
    + injection Hx as <-. apply prims_refl.
  - cbn in H. injection H as <-. repeat split. cbn. apply Hh. pk core_heartbeat_prims.
  - cbn in H. injection H as <-. repeat split. cbn. apply Hh. apply sh_trigger_prims. reflexivity.
  - rok H. injection H as <-. repeat split. cbn. apply Hh. pk en_trigger_purge_prims. exact Hx.
  - cbn in H. injection H as <-. repeat split. cbn. apply Hh. pk en_trigger_transfer_prims.
Qed.

Ltac cursor := apply nd_upd_io_prims; [reflexivity|intros []; repeat split].

Lemma cand_grant_vote c t c' ok : cand_grant c t = Ok (c', ok) -> cd_vote c' = cd_vote c.
Proof.
  unfold cand_grant. destruct (vp_update _ _ _ _ _) as [p b]. destruct b; [|discriminate].
  intros [= <- <-]. reflexivity.
Qed.

Lemma en_vote_resp_grant now t resp c e e' :
  en_cand e = Some c -> vr_granted resp = true -> vr_vote resp = cd_vote c ->
  en_vote_resp now t resp e = Ok e' -> grant_counted now t c e e'.
Proof.
  unfold en_vote_resp. intros -> -> ->. assert (Hr : vote_eqb (cd_vote c) (cd_vote c) = true) by (apply vote_eqb_true; reflexivity).
  rewrite Hr. cbn [andb]. clear Hr. intros H. rok H. destruct x as [c' ok]. cbn [fst snd] in H.
  pose proof (cand_grant_vote _ _ _ _ Hx) as Hv.
  exists c', ok. split; [exact Hx|]. destruct ok; [right|left; split; [reflexivity|]; injection H as <-; reflexivity].
  unfold en_establish in H. cbn [en_cand set_cand] in H. unfold eh_establish in H. cbn [en_leader set_cand] in H.
  destruct (en_leader e) as [l|] eqn:Hl.
  - destruct (vote_gtb (cd_vote c') (ld_vote l)) eqn:Hgt; rewrite Hv in Hgt.
    + right. split; [reflexivity|]. split; [intros l0 [= <-]; exact Hgt|].
      rok H. rok H.
      eapply prims_trans; [pk rh_rebuild_streams_prims; exact Hx0|].
      eapply prims_trans; [pk vh_update_vote_prims; exact Hx1|].
      eapply prims_trans; [pone pr_accept|]. pk lh_append_prims; [|exact H]; cbn; lia.
    + left. split; [reflexivity|]. split; [exists l; auto|]. injection H as <-. reflexivity.
  - right. split; [reflexivity|]. split; [discriminate|].
    rok H. rok H.
    eapply prims_trans; [pk rh_rebuild_streams_prims; exact Hx0|].
    eapply prims_trans; [pk vh_update_vote_prims; exact Hx1|].
    eapply prims_trans; [pone pr_accept|]. pk lh_append_prims; [|exact H]; cbn; lia.
Qed.

Lemma en_vote_resp_reject now t resp c e e' :
  en_cand e = Some c -> ~ (vr_granted resp = true /\ vr_vote resp = cd_vote c) ->
  en_vote_resp now t resp e = Ok e' -> prims ks_handler e e'.
Proof.
  unfold en_vote_resp. intros -> Hn.
  destruct (vr_granted resp && vote_eqb (vr_vote resp) (cd_vote c)) eqn:Hg.
  { exfalso. apply Hn. apply andb_true_iff in Hg as [H1 H2]. apply vote_eqb_true in H2. auto. }
  intros H. rok H. injection H as <-.
  eapply prims_trans; [|pk vh_update_vote_prims; exact Hx].
  destruct (ologid_ltb _ _); [pone pr_greater|apply prims_refl].
Qed.

(** a note that grants this node's candidate its vote *)
Definition is_grant (x : Note) (e : Engine) (t : nat) (c : Candidate) : Prop :=
  exists resp sv, x = NVoteResp t resp sv /\ en_cand e = Some c /\ vote_matches sv e = true /\
    vr_granted resp = true /\ vr_vote resp = cd_vote c.

Lemma handle_note_prims now x n y :
  handle_note now x n = Ok y ->
  (prims ks_handler (nd_eng n) (nd_eng y.1) \/
   exists t c, is_grant x (nd_eng n) t c /\ grant_counted now t c (nd_eng n) (nd_eng y.1) /\
     y = (nd_set_eng (nd_eng y.1) n, [])) /\ same_rest n y.1 /\ nd_notes y.1 = nd_notes n.
Proof.
  destruct x as [t resp sv|v sv|io|ss t r|ss t time|r]; cbn [handle_note]; unfold lift; intros H.
  - destruct (en_cand (nd_eng n)) as [c|] eqn:Hc; [destruct (vote_matches _ _) eqn:Hm|].
    + rok H. injection H as <-. repeat split. cbn [fst nd_set_eng nd_eng].
      destruct (decide (vr_granted resp = true /\ vr_vote resp = cd_vote c)) as [[Hg Hv]|Hn].
      * right. exists t, c. repeat split; [exists resp, sv; auto|]. eapply en_vote_resp_grant; eassumption.
      * left. eapply en_vote_resp_reject; eassumption.
    + injection H as <-. repeat split. left. apply prims_refl.
    + injection H as <-. repeat split. left. apply prims_refl.
  - destruct (vote_matches _ _).
    + rok H. rok Hx. injection Hx as <-. injection H as <-. repeat split. left. cbn. pk vh_update_vote_prims. exact Hx0.
    + injection H as <-. repeat split. left. apply prims_refl.
  - destruct io as [v|v lid].
    + injection H as <-. repeat split. left. cursor.
    + destruct (en_leader _).
      * destruct (vote_matches _ _).
        -- rok H. injection H as <-. repeat split. left. cbn [fst nd_set_eng nd_eng].
           eapply prims_trans; [|pk rh_update_local_prims; exact Hx]. cursor.
        -- injection H as <-. repeat split. left. cursor.
      * injection H as <-. repeat split. left. cursor.
  - destruct (session_matches _ _).
    + rok H. injection H as <-. repeat split. left. cbn. pk rh_update_progress_prims. exact Hx.
    + injection H as <-. repeat split. left. apply prims_refl.
  - destruct (session_matches _ _).
    + rok H. injection H as <-. repeat split. left. cbn. pk rh_update_clock_prims. exact Hx.
    + injection H as <-. repeat split. left. apply prims_refl.
  - destruct r as [meta|io meta|since es la].
    + rok H. injection H as <-. repeat split. left. cbn [fst].
      eapply prims_trans; [pk en_finish_building_prims; exact Hx|].
      change x with (nd_eng (nd_set_eng x n)) at 1. cursor.
    + injection H as <-. repeat split. left. cbn [fst]. cursor.
    + destruct (apply_results _ _) as [c outs]. injection H as <-. repeat split. left. cbn [fst nd_set_clients nd_eng]. cursor.
Qed.

Lemma set_progress_prims ks l e t :
  bool_decide (KProgress ∈ ks) = true ->
  en_leader e = Some l -> prims ks e (set_leader (Some (ld_set_heartbeat t l)) e).
Proof. intros Hk Hl. eapply prims_one; [exact Hk|]. eapply pr_progress; [exact Hl|reflexivity..|]. apply progress_ok_same; reflexivity. Qed.

Lemma tick_election_prims now en e e' : tick_election now en e = Ok e' -> prims ks_handler e e'.
Proof.
  unfold tick_election. case_bool_decide; [intros [= <-]; apply prims_refl|].
  destruct (negb _); [intros [= <-]; apply prims_refl|].
  destruct (negb _); [intros [= <-]; apply prims_refl|].
  destruct (_ || _); [|intros [= <-]; apply prims_refl].
  intros H'. eapply prims_trans; [pone pr_greater|]. pk en_elect_prims. exact H'.
Qed.

Lemma core_heartbeat_leader e : en_leader (core_heartbeat e) = en_leader e.
Proof.
  unfold core_heartbeat. destruct (en_leader e) as [l|] eqn:Hl; [|exact Hl].
  destruct (ld_transfer l); [exact Hl|exact Hl].
Qed.

Lemma handle_tick_prims now hb ee eh e e' : handle_tick now hb ee eh e = Ok e' -> prims ks_handler e e'.
Proof.
  unfold handle_tick. intros H. rok H.
  eapply prims_trans; [eapply tick_election_prims; exact Hx|].
  set (e2 := match en_leader x with Some _ => _ | None => _ end) in H.
  assert (Hp : prims ks_handler x e2).
  { subst e2. destruct (en_leader x) as [l|] eqn:Hl; [|apply prims_refl].
    destruct (ld_next_heartbeat l <=? now); [|apply prims_refl].
    destruct eh.
    - eapply prims_trans; [pk core_heartbeat_prims|]. apply set_progress_prims; [reflexivity|].
      rewrite core_heartbeat_leader. exact Hl.
    - apply set_progress_prims; [reflexivity|exact Hl]. }
  eapply prims_trans; [exact Hp|].
  destruct (ologid_leb _ _) in H.
  - pk en_step_down_prims. exact H.
  - injection H as <-. apply prims_refl.
Qed.

(** the engine after taking a command *)
Definition popped (e : Engine) (r : list Command) : Engine :=
  mkEngine (en_cfg e) (en_state e) (en_seen_greater e) (en_leader e) (en_cand e) r.

Lemma run_cmd_prims now c n x :
  run_cmd now c n = Ok x -> prims [KCursor] (nd_eng n) (nd_eng x.1).
Proof.
  destruct c; cbn [run_cmd]; intros H;
    repeat match type of H with
    | context [match ?t with _ => _ end] => destruct t eqn:?; try discriminate H
    end;
    injection H as <-; cbn [fst nd_eng nd_set_store nd_set_smq nd_set_streams nd_set_hb nd_set_hbw nd_set_clients note nd_set_notes];
    try apply prims_refl; try cursor;
    match goal with |- prims _ _ (nd_eng (nd_upd_io ?f ?m)) =>
      change (nd_eng n) with (nd_eng m); cursor end.
Qed.

Lemma run_one_prims now n x :
  run_one now n = Ok x -> prims [KPop; KCursor] (nd_eng n) (nd_eng x.1).
Proof.
  unfold run_one. destruct (en_out (nd_eng n)) as [|c r] eqn:Ho; [intros [= <-]; apply prims_refl|].
  destruct (cond_ok _ _); [|intros [= <-]; apply prims_refl].
  intros H. apply run_cmd_prims in H. eapply prims_trans; [|pk H].
  pone pr_pop. exact Ho.
Qed.

(** no output answers a request of another node *)
Definition no_reply (outs : list Out) : Prop :=
  Forall (fun o => match o with OReply _ _ => False | _ => True end) outs.
Lemma no_reply_map {A} (f : A -> Out) l :
  (forall x, match f x with OReply _ _ => False | _ => True end) -> no_reply (map f l).
Proof. intros H. apply Forall_map. apply Forall_forall. intros x _. apply H. Qed.
Lemma no_reply_nil : no_reply [].
Proof. constructor. Qed.
Lemma core_write_outs p tx n x : core_write p tx n = Ok x -> no_reply x.2.
Proof.
  unfold core_write. intros H.
  repeat match type of H with
  | context [match ?t with _ => _ end] => destruct t eqn:?; try discriminate H
  end; try rok H;
  repeat match type of H with
  | context [match ?t with _ => _ end] => destruct t eqn:?; try discriminate H
  end; injection H as <-; repeat constructor.
Qed.
Lemma handle_msg_outs now m n x : handle_msg now m n = Ok x -> no_reply x.2.
Proof.
  destruct m; cbn [handle_msg]; unfold lift; intros H;
    try (rok H; injection H as <-; constructor; fail); try (injection H as <-; constructor; fail).
  - apply core_write_outs in H. exact H.
  - unfold core_change in H. destruct (ms_change _ _ _); [apply core_write_outs in H; exact H|].
    injection H as <-. repeat constructor.
  - unfold core_read in H. destruct (en_leader _); [|injection H as <-; repeat constructor].
    destruct (joint_is_quorum _ _); [injection H as <-; repeat constructor|].
    destruct (forallb _ _); [|discriminate]. injection H as <-. apply no_reply_map. intros; exact I.
Qed.
Lemma apply_results_outs es c : no_reply (apply_results es c).2.
Proof.
  revert c. induction es as [|e r IH]; intros c; cbn [apply_results]; [constructor|].
  destruct (c !! e_index e).
  - specialize (IH (delete (e_index e) c)). destruct (apply_results r _). cbn in *. constructor; [exact I|exact IH].
  - specialize (IH c). destruct (apply_results r _). exact IH.
Qed.
Lemma handle_note_outs now x n y : handle_note now x n = Ok y -> no_reply y.2.
Proof.
  destruct x as [t resp sv|v sv|io|ss t r|ss t time|r]; cbn [handle_note]; unfold lift; intros H;
  repeat match type of H with
  | context [match ?t with _ => _ end] => destruct t eqn:?; try discriminate H
  end; try rok H; try (injection H as <-; constructor; fail).
  injection H as <-. pose proof (apply_results_outs entries (nd_clients (nd_upd_io (io_set_applied (Some last_applied)) n))) as Ho.
  rewrite Heqp in Ho. exact Ho.
Qed.
Lemma handle_reply_outs tag r n : no_reply (handle_reply tag r n).2.
Proof.
  unfold handle_reply, read_reply.
  repeat match goal with |- context [match ?t with _ => _ end] => destruct t; try constructor end; repeat constructor.
Qed.
Lemma hb_send_outs t n : no_reply (hb_send t n).2.
Proof.
  unfold hb_send. repeat match goal with |- context [match ?t with _ => _ end] => destruct t; try constructor end; repeat constructor.
Qed.
Lemma stream_send_outs now limit rid i n x : stream_send now limit rid i n = Ok x -> no_reply x.2.
Proof.
  unfold stream_send. intros H.
  repeat match type of H with
  | context [match ?t with _ => _ end] => destruct t eqn:?; try discriminate H
  end; injection H as <-; repeat constructor.
Qed.

(** what the other tasks do to the store *)
Definition store_task (ev : Event) (s s' : Store) : Prop :=
  s' = s \/ (exists k, ev = EFlush k /\ s' = so_flush k s) \/
  (exists i io, ev = ECallback i /\ so_callbacks s !! i = Some io /\
     s' = mkStore (so_disk s) (so_pending s) (delete i (so_callbacks s))).

(** The kinds of node steps. *)
Inductive step_case (now : nat) (ev : Event) (n : Node) (n' : Node) (outs : list Out) : Prop :=
| sc_same : n' = n -> outs = [] -> step_case now ev n n' outs
| sc_run c r :
    ev = ERun -> en_out (nd_eng n) = c :: r ->
    cond_ok (cmd_condition c) (rs_io (nd_state n)) = true ->
    run_cmd now c (nd_set_eng (popped (nd_eng n) r) n) = Ok (n', outs) ->
    step_case now ev n n' outs
| sc_handle :
    ev <> ERun -> runnable n = false ->
    handled (nd_eng n) (nd_eng n') -> same_rest n n' ->
    (nd_notes n' = nd_notes n \/ exists x, nd_notes n = x :: nd_notes n') ->
    no_reply outs ->
    step_case now ev n n' outs
| sc_grant t c x r :
    ev = ENote -> runnable n = false -> nd_notes n = x :: r ->
    is_grant x (nd_eng n) t c -> grant_counted now t c (nd_eng n) (nd_eng n') ->
    n' = nd_set_eng (nd_eng n') (nd_set_notes r n) -> outs = [] ->
    step_case now ev n n' outs
| sc_other :
    nd_eng n' = nd_eng n -> store_task ev (nd_store n) (nd_store n') -> no_reply outs ->
    step_case now ev n n' outs.

Lemma lift_prims n x y :
  lift n x = Ok y -> exists e, x = Ok e /\ y = (nd_set_eng e n, []).
Proof. unfold lift. intros H. rok H. injection H as <-. eauto. Qed.

Ltac eng_store := intros H;
  repeat match type of H with
  | context [match ?t with _ => _ end] => destruct t eqn:?; try discriminate H
  end; injection H as <-; split; reflexivity.
Lemma stream_send_eng now limit rid i n x :
  stream_send now limit rid i n = Ok x -> nd_eng x.1 = nd_eng n /\ nd_store x.1 = nd_store n.
Proof. unfold stream_send. eng_store. Qed.
Lemma sm_step_eng n n' : sm_step n = Ok n' -> nd_eng n' = nd_eng n /\ nd_store n' = nd_store n.
Proof. unfold sm_step. eng_store. Qed.
Ltac eng_store2 := repeat match goal with |- context [match ?t with _ => _ end] => destruct t; try (split; reflexivity) end; split; reflexivity.
Lemma handle_reply_eng tag r n :
  nd_eng (handle_reply tag r n).1 = nd_eng n /\ nd_store (handle_reply tag r n).1 = nd_store n.
Proof. unfold handle_reply, read_reply, stream_reply, stream_snap_reply. eng_store2. Qed.
Lemma stream_fail_eng i n : nd_eng (stream_fail i n) = nd_eng n /\ nd_store (stream_fail i n) = nd_store n.
Proof. unfold stream_fail. eng_store2. Qed.
Lemma stream_snap_reply_eng i r n :
  nd_eng (stream_snap_reply i r n) = nd_eng n /\ nd_store (stream_snap_reply i r n) = nd_store n.
Proof. unfold stream_snap_reply. eng_store2. Qed.
Lemma build_done_eng i n : nd_eng (build_done i n) = nd_eng n /\ nd_store (build_done i n) = nd_store n.
Proof. unfold build_done. destruct (nd_builds n !! i); split; reflexivity. Qed.
Lemma hb_send_eng t n : nd_eng (hb_send t n).1 = nd_eng n /\ nd_store (hb_send t n).1 = nd_store n.
Proof. unfold hb_send. eng_store2. Qed.

Lemma node_step_cases now ev n n' outs :
  node_step now ev n = Ok (n', outs) -> step_case now ev n n' outs.
Proof.
  destruct ev; cbn [node_step]; unfold when_idle; intros H.
  - unfold run_one in H. destruct (en_out (nd_eng n)) as [|c r] eqn:Ho;
      [injection H as <- <-; apply sc_same; reflexivity|].
    destruct (cond_ok _ _) eqn:Hc; [|injection H as <- <-; apply sc_same; reflexivity].
    eapply sc_run; eauto.
  - destruct (runnable n) eqn:Hr; [injection H as <- <-; apply sc_same; reflexivity|].
    pose proof (handle_msg_outs _ _ _ _ H) as Ho.
    apply handle_msg_prims in H as (H1 & H2 & H3). cbn in *. apply sc_handle; try discriminate; auto.
  - destruct (runnable n) eqn:Hr; [injection H as <- <-; apply sc_same; reflexivity|].
    destruct (nd_notes n) as [|x r] eqn:Hn; [injection H as <- <-; apply sc_same; reflexivity|].
    pose proof (handle_note_outs _ _ _ _ H) as Ho.
    apply handle_note_prims in H as (H1 & H2 & H3). cbn [fst] in *. destruct H1 as [H1%handled_prims|(t & c & Hg & H1 & Hy)].
    + apply sc_handle; try discriminate; auto. right. exists x. rewrite Hn, H3. reflexivity.
    + injection Hy as Hy1 Hy2. eapply sc_grant; eauto.
  - destruct (runnable n) eqn:Hr; [injection H as <- <-; apply sc_same; reflexivity|].
    apply lift_prims in H as (e & He & [= -> ->]). apply handle_tick_prims, handled_prims in He.
    apply sc_handle; try discriminate; auto using no_reply_nil. repeat split.
  - destruct (runnable n) eqn:Hr; [injection H as <- <-; apply sc_same; reflexivity|].
    destruct (en_leader (nd_eng n)); [|injection H as <- <-; apply sc_same; reflexivity].
    apply lift_prims in H as (e & He & [= -> ->]). apply rh_initiate_prims in He.
    apply sc_handle; try discriminate; auto using no_reply_nil; [left; pk He|repeat split].
  - injection H as <- <-. apply sc_other; [reflexivity| |constructor]. right. left. exists k. split; reflexivity.
  - destruct (so_callbacks (nd_store n) !! i) as [io|] eqn:Hi; injection H as <- <-; [|apply sc_same; reflexivity].
    apply sc_other; [reflexivity| |constructor]. right. right. exists i, io. repeat split. exact Hi.
  - rok H. injection H as <- <-. apply sm_step_eng in Hx as [He Hs]. apply sc_other; [exact He|left; exact Hs|constructor].
  - injection H as <- <-. destruct (build_done_eng i n) as [He Hs]. apply sc_other; [exact He|left; exact Hs|constructor].
  - pose proof (stream_send_outs _ _ _ _ _ _ H) as Ho. apply stream_send_eng in H as [He Hs].
    apply sc_other; [exact He|left; exact Hs|exact Ho].
  - injection H as <- <-. destruct (stream_fail_eng i n) as [He Hs]. apply sc_other; [exact He|left; exact Hs|constructor].
  - injection H as <- <-. destruct (stream_snap_reply_eng i None n) as [He Hs]. apply sc_other; [exact He|left; exact Hs|constructor].
  - injection H as H. pose proof (hb_send_eng t n) as [He Hs]. pose proof (hb_send_outs t n) as Ho. rewrite H in *.
    apply sc_other; [exact He|left; exact Hs|exact Ho].
  - injection H as H. pose proof (handle_reply_eng tag r n) as [He Hs]. pose proof (handle_reply_outs tag r n) as Ho. rewrite H in *.
    apply sc_other; [exact He|left; exact Hs|exact Ho].
Qed.

Lemma grant_counted_prims now t c e e' :
  en_cand e = Some c -> grant_counted now t c e e' -> prims ks_full e e'.
Proof.
  intros Hc (c' & ok & Hg & H).
  destruct H as [[-> ->]|[(-> & _ & ->)|(-> & Hl & H)]].
  - pone pr_cand_grant; eassumption.
  - pone pr_cand_drop.
  - eapply prims_trans; [pone pr_cand_grant; eassumption|].
    eapply prims_trans; [|pk H].
    eapply prims_one'; [apply (pr_establish now c' (set_cand (Some c') e))|reflexivity]; [reflexivity| |].
    + apply cand_grant_granted in Hg. exact Hg.
    + rewrite (cand_grant_vote _ _ _ _ Hg). exact Hl.
Qed.

Lemma node_step_prims now ev n n' outs :
  node_step now ev n = Ok (n', outs) -> prims ks_all (nd_eng n) (nd_eng n').
Proof.
  intros H. apply node_step_cases in H as [->|c r _ Ho _ H|_ _ H|t c x r _ _ _ (? & ? & _ & Hc & _) H|He].
  - apply prims_refl.
  - apply run_cmd_prims in H. cbn [fst] in H. eapply prims_trans; [|pk H]. pone pr_pop. exact Ho.
  - apply handled_all. assumption.
  - pk grant_counted_prims; eassumption.
  - rewrite He. apply prims_refl.
Qed.
