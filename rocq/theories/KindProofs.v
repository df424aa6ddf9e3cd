(** Which kinds of primitive changes each event can make, and which parts of the engine
    each kind can change. *)
From Coq Require Import Bool Lia ZifyBool ZifyNat.
From stdpp Require Import base numbers option gmap relations list.
From Verif Require Import Types TypesProofs LogIdList Quorum Membership Progress RaftState
  ProgressEntry Engine Store RaftCore EnginePrims NodeSpec NodePrims ElectProofs.

Definition msg_kinds (m : Msg) : list Kind :=
  match m with
  | MAppend _ _ _ _ _ => ks_commit_follow ++ ks_append_entries
  | MVote _ _ => KRespond :: ks_vote
  | MSnapshot _ _ _ => ks_install
  | MTransfer _ => KLease :: ks_elect
  | MInitialize _ _ => KRespond :: ks_init
  | MWrite _ _ | MChange _ _ _ => ks_lead_append
  | MRead _ => []
  | MElect => ks_elect
  | MHeartbeat => [KSend]
  | MTriggerSnapshot => [KBuild]
  | MPurge _ => ks_trigger_purge
  | MTriggerTransfer _ => ks_trigger_transfer
  end.
Definition note_kinds (x : Note) : list Kind :=
  match x with
  | NVoteResp _ _ _ => ks_vote_resp
  | NHigherVote _ _ => ks_vote
  | NLocalIO _ => KCursor :: ks_progress
  | NReplProgress _ _ _ | NHeartbeat _ _ _ => ks_progress
  | NSm (SRBuild _) => KCursor :: ks_finish
  | NSm _ => [KCursor]
  end.
Definition ks_tick : list Kind := KGreater :: KProgress :: KSend :: ks_elect.
Definition event_kinds (ev : Event) (n : Node) : list Kind :=
  match ev with
  | ERun => [KPop; KCursor]
  | EMsg m => msg_kinds m
  | ENote => match nd_notes n with x :: _ => note_kinds x | [] => [] end
  | ETick _ _ _ => ks_tick
  | EIdle => ks_repl
  | _ => []
  end.

Lemma handle_msg_kinds now m n x : handle_msg now m n = Ok x -> prims (msg_kinds m) (nd_eng n) (nd_eng x.1).
Proof.
  destruct m; cbn [handle_msg msg_kinds]; unfold lift; intros H.
  - rok H. injection H as <-. cbn. unfold core_append in Hx. rok Hx. injection Hx as <-.
    eapply prims_trans; [pk en_append_entries_prims; exact Hx0|]. destruct x.2; [|apply prims_refl]. pk fh_commit_prims.
  - rok H. injection H as <-. cbn. unfold core_vote in Hx. rok Hx. injection Hx as <-.
    eapply prims_trans; [pk en_vote_req_prims; exact Hx0|].
    pone pr_respond. cbn [resp_ok]. split; [reflexivity|].
    unfold en_vote_req in Hx0. destruct (_ && _); [injection Hx0 as <-; reflexivity|].
    destruct (negb _); [injection Hx0 as <-; reflexivity|]. rok Hx0. injection Hx0 as <-. reflexivity.
  - rok H. injection H as <-. cbn. eapply en_install_snapshot_prims. exact Hx.
  - rok H. injection H as <-. cbn. unfold core_transfer in Hx. destruct (vote_eqb _ _); [|injection Hx as <-; apply prims_refl].
    destruct (en_id _ =? _).
    + eapply prims_trans; [pone pr_lease|]. pk en_elect_prims. exact Hx.
    + injection Hx as <-. pone pr_lease.
  - rok H. injection H as <-. cbn. unfold core_initialize in Hx. rok Hx. injection Hx as <-.
    eapply prims_trans; [pk en_initialize_prims; exact Hx0|]. pone pr_respond. exact I.
  - apply core_write_prims in H as [H _]. exact H.
  - unfold core_change in H. destruct (ms_change _ _ _).
    + apply core_write_prims in H as [H _]. exact H.
    + injection H as <-. apply prims_refl.
  - unfold core_read in H. destruct (en_leader (nd_eng n)) as [l|].
    + destruct (joint_is_quorum _ _).
      * injection H as <-. apply prims_refl.
      * destruct (forallb _ _); [|discriminate]. injection H as <-. apply prims_refl.
    + injection H as <-. apply prims_refl.
  - rok H. injection H as <-. cbn. destruct (rs_is_voter _ _).
    + eapply en_elect_prims. exact Hx.
    + injection Hx as <-. apply prims_refl.
  - cbn in H. injection H as <-. cbn. apply core_heartbeat_prims.
  - cbn in H. injection H as <-. cbn. apply sh_trigger_prims. reflexivity.
  - rok H. injection H as <-. cbn. eapply en_trigger_purge_prims. exact Hx.
  - cbn in H. injection H as <-. cbn. apply en_trigger_transfer_prims.
Qed.
Lemma handle_note_kinds now x n y : handle_note now x n = Ok y -> prims (note_kinds x) (nd_eng n) (nd_eng y.1).
Proof.
  destruct x as [t resp sv|v sv|io|ss t r|ss t time|r]; cbn [handle_note note_kinds]; unfold lift; intros H.
  - destruct (en_cand (nd_eng n)) as [c|] eqn:Hc; [destruct (vote_matches _ _) eqn:Hm|].
    + rok H. injection H as <-. cbn. eapply en_vote_resp_prims. exact Hx.
    + injection H as <-. apply prims_refl.
    + injection H as <-. apply prims_refl.
  - destruct (vote_matches _ _).
    + rok H. rok Hx. injection Hx as <-. injection H as <-. cbn. eapply vh_update_vote_prims. exact Hx0.
    + injection H as <-. apply prims_refl.
  - destruct io as [v|v lid].
    + injection H as <-. cursor.
    + destruct (en_leader _).
      * destruct (vote_matches _ _).
        -- rok H. injection H as <-. cbn [fst nd_set_eng nd_eng].
           eapply prims_trans; [|pk rh_update_local_prims; exact Hx]. cursor.
        -- injection H as <-. cursor.
      * injection H as <-. cursor.
  - destruct (session_matches _ _).
    + rok H. injection H as <-. cbn. eapply rh_update_progress_prims. exact Hx.
    + injection H as <-. apply prims_refl.
  - destruct (session_matches _ _).
    + rok H. injection H as <-. cbn. eapply rh_update_clock_prims. exact Hx.
    + injection H as <-. apply prims_refl.
  - destruct r as [meta|io meta|since es la].
    + rok H. injection H as <-. cbn [fst].
      eapply prims_trans; [pk en_finish_building_prims; exact Hx|].
      change x with (nd_eng (nd_set_eng x n)) at 1. cursor.
    + injection H as <-. cbn [fst]. cursor.
    + destruct (apply_results _ _) as [c outs]. injection H as <-. cbn [fst nd_set_clients nd_eng]. cursor.
Qed.
Lemma handle_tick_kinds now hb ee eh e e' : handle_tick now hb ee eh e = Ok e' -> prims ks_tick e e'.
Proof.
  unfold handle_tick. intros H. rok H.
  assert (H1 : prims ks_tick e x).
  { unfold tick_election in Hx. case_bool_decide; [injection Hx as <-; apply prims_refl|].
    destruct (negb _); [injection Hx as <-; apply prims_refl|].
    destruct (negb _); [injection Hx as <-; apply prims_refl|].
    destruct (_ || _); [|injection Hx as <-; apply prims_refl].
    eapply prims_trans; [pone pr_greater|]. pk en_elect_prims. exact Hx. }
  eapply prims_trans; [exact H1|].
  set (e2 := match en_leader x with Some _ => _ | None => _ end) in H.
  assert (Hp : prims ks_tick x e2).
  { subst e2. destruct (en_leader x) as [l|] eqn:Hl; [|apply prims_refl].
    destruct (ld_next_heartbeat l <=? now); [|apply prims_refl].
    destruct eh.
    - eapply prims_trans; [pk core_heartbeat_prims|]. apply set_progress_prims; [reflexivity|].
      rewrite core_heartbeat_leader. exact Hl.
    - apply set_progress_prims; [reflexivity|exact Hl]. }
  eapply prims_trans; [exact Hp|].
  destruct (ologid_leb _ _) in H.
  - pk en_step_down_prims. exact H.
  - injection H as <-. apply prims_refl.
Qed.
Lemma node_step_kinds now ev n x : node_step now ev n = Ok x -> prims (event_kinds ev n) (nd_eng n) (nd_eng x.1).
Proof.
  intros Hs. assert (Hsame : nd_eng x.1 = nd_eng n -> prims (event_kinds ev n) (nd_eng n) (nd_eng x.1)) by (intros ->; apply prims_refl).
  destruct ev; cbn [node_step event_kinds] in *; unfold when_idle in Hs.
  - unfold run_one in Hs. destruct (en_out (nd_eng n)) as [|c r] eqn:Ho; [injection Hs as <-; apply prims_refl|].
    destruct (cond_ok _ _); [|injection Hs as <-; apply prims_refl].
    apply run_cmd_prims in Hs. eapply prims_trans; [|pk Hs]. pone pr_pop. exact Ho.
  - destruct (runnable n); [injection Hs as <-; apply Hsame; reflexivity|]. eapply handle_msg_kinds. exact Hs.
  - destruct (runnable n); [injection Hs as <-; apply Hsame; reflexivity|].
    destruct (nd_notes n) as [|y r]; [injection Hs as <-; apply Hsame; reflexivity|].
    apply handle_note_kinds in Hs. exact Hs.
  - destruct (runnable n); [injection Hs as <-; apply Hsame; reflexivity|].
    apply lift_prims in Hs as (e & He & ->). cbn. eapply handle_tick_kinds. exact He.
  - destruct (runnable n); [injection Hs as <-; apply Hsame; reflexivity|].
    destruct (en_leader (nd_eng n)); [|injection Hs as <-; apply Hsame; reflexivity].
    apply lift_prims in Hs as (e & He & ->). cbn. eapply rh_initiate_prims. exact He.
  - apply Hsame. injection Hs as <-. reflexivity.
  - apply Hsame. destruct (so_callbacks _ !! i); injection Hs as <-; reflexivity.
  - apply Hsame. rok Hs. injection Hs as <-. apply (sm_step_eng n). assumption.
  - apply Hsame. injection Hs as <-. cbn [fst]. unfold build_done. repeat case_match; reflexivity.
  - apply Hsame. apply (stream_send_eng _ _ _ _ _ _ Hs).
  - apply Hsame. injection Hs as <-. apply stream_fail_eng.
  - apply Hsame. injection Hs as <-. cbn. unfold stream_snap_reply. repeat case_match; reflexivity.
  - apply Hsame. injection Hs as <-. unfold hb_send. repeat case_match; reflexivity.
  - apply Hsame. injection Hs as <-. apply handle_reply_eng.
Qed.

(** ** What each kind leaves alone *)

Definition k_changes_log (k : Kind) : bool :=
  match k with KLeadAppend | KFollowAppend | KTruncate | KPurge | KInstall => true | _ => false end.
Definition k_changes_committed (k : Kind) : bool :=
  match k with KLeadCommit | KFollowCommit | KInstall => true | _ => false end.
Definition k_changes_mem (k : Kind) : bool :=
  match k with KLeadAppend | KFollowAppend | KTruncate | KLeadCommit | KFollowCommit | KInstall => true | _ => false end.
Definition k_changes_snap (k : Kind) : bool := match k with KSnapshot | KInstall => true | _ => false end.
Definition k_changes_vote (k : Kind) : bool := match k with KVote | KInitVote => true | _ => false end.
Definition k_changes_leader (k : Kind) : bool :=
  match k with KProgress | KMatch | KLeaderVote | KLeaderFresh | KEstablish | KTransfer | KFollow | KLeadAppend => true | _ => false end.

Ltac mt := repeat match goal with |- context [match ?t with _ => _ end] => destruct t end.
Ltac prim_shapes :=
  rewrite ?leader_appended_eq, ?fh_do_append_eq, ?fh_truncate_eq, ?logh_purge_eq.
Ltac acc := rewrite ?rs_accept_io_eq.

Lemma install_eng lv sn e : en_leader (fh_install lv sn e).1 = en_leader e /\ en_cand (fh_install lv sn e).1 = en_cand e /\
  rs_vote (en_state (fh_install lv sn e).1) = rs_vote (en_state e).
Proof.
  rewrite fh_install_eq. destruct (sm_last _) as [sl|]; [|auto]. destruct (ologid_leb _ _); [auto|].
  destruct (ologid_leb _ _); [auto|]. cbv zeta.
  set (e1 := upd (set_snap (sn_meta sn)) e).
  assert (Hcut : en_leader (install_cut sl e1) = en_leader e /\ en_cand (install_cut sl e1) = en_cand e /\
    rs_vote (en_state (install_cut sl e1)) = rs_vote (en_state e)).
  { unfold install_cut. destruct (rs_get_log_id (en_state e1) _) as [loc|]; [|auto].
    destruct (logid_eqb loc sl); [auto|]. rewrite fh_truncate_eq. destruct (rs_get_log_id _ _); [|auto]. cbn. mt; auto. }
  destruct Hcut as (Hc1 & Hc2 & Hc3). rewrite logh_purge_eq. cbn [upd push en_state set_purge_upto rs_purge_upto].
  unfold install_state. destruct (ologid_leb _ _); cbn; acc; cbn; auto.
Qed.
Lemma prim_committed k e e' : prim k e e' -> k_changes_committed k = false -> rs_committed (en_state e') = rs_committed (en_state e).
Proof.
  intros Hp Hk. destruct Hp; try discriminate; try (cbn; acc; cbn; reflexivity).
  - rewrite leader_appended_eq. cbn. destruct (last_membership _ _) as [[]|]; acc; reflexivity.
  - rewrite fh_do_append_eq. cbn. destruct (last_two_memberships _); reflexivity.
  - rewrite fh_truncate_eq. destruct (rs_get_log_id _ _); [|reflexivity]. cbn. mt; reflexivity.
  - rewrite sh_trigger_eq by assumption. reflexivity.
  - rewrite logh_purge_eq. destruct (rs_purge_upto _); [|reflexivity]. destruct (ologid_leb _ _); reflexivity.
Qed.
Lemma prim_log k e e' : prim k e e' -> k_changes_log k = false ->
  rs_log_ids (en_state e') = rs_log_ids (en_state e) /\ rs_purged_next (en_state e') = rs_purged_next (en_state e).
Proof.
  intros Hp Hk. destruct Hp; try discriminate; try (cbn; acc; cbn; auto; fail).
  rewrite sh_trigger_eq by assumption. auto.
Qed.
Lemma prim_mem k e e' : prim k e e' -> k_changes_mem k = false -> rs_mem (en_state e') = rs_mem (en_state e).
Proof.
  intros Hp Hk. destruct Hp; try discriminate; try (cbn; acc; cbn; reflexivity).
  - rewrite sh_trigger_eq by assumption. reflexivity.
  - rewrite logh_purge_eq. destruct (rs_purge_upto _); [|reflexivity]. destruct (ologid_leb _ _); reflexivity.
Qed.
Lemma prim_snap k e e' : prim k e e' -> k_changes_snap k = false -> rs_snap (en_state e') = rs_snap (en_state e).
Proof.
  intros Hp Hk. destruct Hp; try discriminate; try (cbn; acc; cbn; reflexivity).
  - rewrite leader_appended_eq. cbn. destruct (last_membership _ _) as [[]|]; acc; reflexivity.
  - rewrite fh_do_append_eq. cbn. destruct (last_two_memberships _); reflexivity.
  - rewrite fh_truncate_eq. destruct (rs_get_log_id _ _); [|reflexivity]. cbn. mt; reflexivity.
  - rewrite sh_trigger_eq by assumption. reflexivity.
  - rewrite logh_purge_eq. destruct (rs_purge_upto _); [|reflexivity]. destruct (ologid_leb _ _); reflexivity.
Qed.
Lemma prim_vote_same k e e' : prim k e e' -> k_changes_vote k = false -> rs_v (en_state e') = rs_v (en_state e).
Proof.
  intros Hp Hk. destruct Hp; try discriminate; try (cbn; acc; cbn; reflexivity).
  - rewrite leader_appended_eq. cbn. destruct (last_membership _ _) as [[]|]; acc; reflexivity.
  - rewrite fh_do_append_eq. cbn. destruct (last_two_memberships _); reflexivity.
  - rewrite fh_truncate_eq. destruct (rs_get_log_id _ _); [|reflexivity]. cbn. mt; reflexivity.
  - rewrite sh_trigger_eq by assumption. reflexivity.
  - rewrite logh_purge_eq. destruct (rs_purge_upto _); [|reflexivity]. destruct (ologid_leb _ _); reflexivity.
  - unfold rs_v. f_equal. apply install_eng.
Qed.
Lemma prim_leader_same k e e' : prim k e e' -> k_changes_leader k = false -> en_leader e' = en_leader e.
Proof.
  intros Hp Hk. destruct Hp; try discriminate; try (cbn; acc; cbn; reflexivity).
  - rewrite fh_do_append_eq. reflexivity.
  - rewrite fh_truncate_eq. destruct (rs_get_log_id _ _); reflexivity.
  - rewrite sh_trigger_eq by assumption. reflexivity.
  - rewrite logh_purge_eq. destruct (rs_purge_upto _); [|reflexivity]. destruct (ologid_leb _ _); reflexivity.
  - apply install_eng.
Qed.
(** closures *)
Lemma prims_field {A} (f : Engine -> A) (ch : Kind -> bool) :
  (forall k e e', prim k e e' -> ch k = false -> f e' = f e) ->
  forall ks e e', prims ks e e' -> existsb ch ks = false -> f e' = f e.
Proof.
  intros Hf ks e e' Hp Hk. revert e e' Hp. apply prims_ind_rel; [reflexivity|congruence|].
  intros k a b Hin Hp. eapply Hf; [exact Hp|]. destruct (ch k) eqn:Hc; [|reflexivity]. exfalso.
  assert (existsb ch ks = true); [|congruence]. apply existsb_exists. exists k. split; [apply elem_of_list_In; exact Hin|exact Hc].
Qed.
Definition prims_committed := prims_field _ _ prim_committed.
Definition prims_snap := prims_field _ _ prim_snap.
Definition prims_vote_same := prims_field _ _ prim_vote_same.
Definition prims_mem := prims_field _ _ prim_mem.

(** ** The commands each kind queues *)

Definition cmd_of (k : Kind) (e e' : Engine) (c : Command) : Prop :=
  match c with
  | TruncateLog x => (k = KTruncate \/ k = KInstall) /\ next_index (rs_committed (en_state e)) <= lid_index x
  | PurgeLog x => (k = KPurge \/ k = KInstall) /\ rs_purge_upto (en_state e') = Some x
  | CmdApply prev upto =>
      (k = KLeadCommit \/ k = KFollowCommit) /\ prev = rs_committed (en_state e) /\ rs_committed (en_state e') = Some upto
  | SaveCommitted upto | ReplicateCommitted (Some upto) =>
      (k = KLeadCommit \/ k = KFollowCommit) /\ rs_committed (en_state e') = Some upto
  | AppendInputEntries _ _ => k = KLeadAppend \/ k = KFollowAppend
  | InstallSnapshot _ _ => k = KInstall
  | SaveVote _ => k = KVote
  | SendVote _ => k = KAskVote
  | Respond _ _ _ => k = KRespond
  | BuildSnapshot => k = KBuild
  | UpdateIOProgress _ _ => k = KUpdIO
  | _ => True
  end.
Lemma lil_get_index l i x : lil_get l i = Some x -> lid_index x = i.
Proof.
  unfold lil_get. intros Hg. repeat case_match; try discriminate; simplify_eq; cbn; auto; lia.
Qed.
Lemma fh_truncate_out since e : exists cs, en_out (fh_truncate since e) = en_out e ++ cs /\
  forall c, c ∈ cs -> exists x, c = TruncateLog x /\ lid_index x = since.
Proof.
  rewrite fh_truncate_eq. destruct (rs_get_log_id (en_state e) since) as [x|] eqn:Hg.
  - exists [TruncateLog x]. split; [reflexivity|]. intros c Hc. apply elem_of_list_singleton in Hc as ->.
    exists x. split; [reflexivity|]. apply lil_get_index in Hg. exact Hg.
  - exists []. rewrite app_nil_r. split; [reflexivity|]. intros c Hc. apply elem_of_nil in Hc as [].
Qed.
Lemma forall_nil_app {A} (P : A -> Prop) (l l' : list A) : l' = l -> exists cs, l' = l ++ cs /\ forall c, c ∈ cs -> P c.
Proof. intros ->. exists []. rewrite app_nil_r. split; [reflexivity|]. intros c Hc. apply elem_of_nil in Hc as []. Qed.
Lemma forall_one_app {A} (P : A -> Prop) (l : list A) c0 : P c0 -> exists cs, l ++ [c0] = l ++ cs /\ forall c, c ∈ cs -> P c.
Proof. intros Hp. exists [c0]. split; [reflexivity|]. intros c Hc. apply elem_of_list_singleton in Hc as ->. exact Hp. Qed.
Lemma install_out lv sn e : exists cs, en_out (fh_install lv sn e).1 = en_out e ++ cs /\
  forall c, c ∈ cs -> cmd_of KInstall e (fh_install lv sn e).1 c.
Proof.
  rewrite fh_install_eq. destruct (sm_last _) as [sl|]; [|apply forall_nil_app; reflexivity]. destruct (ologid_leb _ _); [apply forall_nil_app; reflexivity|].
  destruct (ologid_leb _ _); [apply forall_nil_app; reflexivity|]. cbv zeta.
  set (e1 := upd (set_snap (sn_meta sn)) e).
  assert (Hcut : exists cs, en_out (install_cut sl e1) = en_out e ++ cs /\
    forall c, c ∈ cs -> exists x, c = TruncateLog x /\ lid_index x = next_index (rs_committed (en_state e))).
  { unfold install_cut. destruct (rs_get_log_id (en_state e1) _) as [loc|]; [|apply forall_nil_app; reflexivity].
    destruct (logid_eqb loc sl); [apply forall_nil_app; reflexivity|]. apply (fh_truncate_out _ e1). }
  destruct Hcut as (cs & Ho & Hcs). rewrite logh_purge_eq. cbn [upd push en_state set_purge_upto rs_purge_upto].
  destruct (ologid_leb _ _); cbn [upd push en_state en_out].
  - exists (cs ++ [InstallSnapshot sn (IOLog lv (Some sl))]). rewrite Ho, app_assoc. split; [reflexivity|].
    intros c Hc. apply elem_of_app in Hc as [Hc|Hc].
    + destruct (Hcs c Hc) as (x & -> & Hx). cbn. split; [auto|lia].
    + apply elem_of_list_singleton in Hc as ->. reflexivity.
  - exists (cs ++ [InstallSnapshot sn (IOLog lv (Some sl)); PurgeLog sl]). rewrite Ho, <- !app_assoc. split; [reflexivity|].
    intros c Hc. apply elem_of_app in Hc as [Hc|Hc].
    + destruct (Hcs c Hc) as (x & -> & Hx). cbn. split; [auto|lia].
    + apply elem_of_cons in Hc as [->|Hc]; [reflexivity|]. apply elem_of_list_singleton in Hc as ->. cbn. auto.
Qed.
Lemma prim_pushes k e e' : prim k e e' -> k <> KPop ->
  exists cs, en_out e' = en_out e ++ cs /\ forall c, c ∈ cs -> cmd_of k e e' c.
Proof.
  intros Hp Hk. destruct Hp; try (apply forall_nil_app; reflexivity);
    try (cbn; apply forall_one_app; cbn; auto; fail).
  - exists cs. split; [reflexivity|]. intros c Hc. rewrite forallb_forall in H.
    specialize (H c ltac:(apply elem_of_list_In; exact Hc)). destruct c; try discriminate; exact I.
  - rewrite leader_appended_eq. cbn. apply forall_one_app. cbn. auto.
  - rewrite fh_do_append_eq. cbn. apply forall_one_app. cbn. auto.
  - destruct (fh_truncate_out since e) as (cs & Ho & Hcs). exists cs. split; [exact Ho|].
    intros c Hc. destruct (Hcs c Hc) as (x & -> & Hx). cbn. split; [auto|lia].
  - exists [ReplicateCommitted (Some c); SaveCommitted c; CmdApply (rs_committed (en_state e)) c]. split; [reflexivity|].
    intros x Hx. rewrite !elem_of_cons in Hx. destruct Hx as [->|[->|[->|Hx]]]; cbn; auto. apply elem_of_nil in Hx as [].
  - exists [SaveCommitted c; CmdApply (rs_committed (en_state e)) c]. split; [reflexivity|].
    intros x Hx. rewrite !elem_of_cons in Hx. destruct Hx as [->|[->|Hx]]; cbn; auto. apply elem_of_nil in Hx as [].
  - rewrite sh_trigger_eq by assumption. cbn. apply forall_one_app. cbn. auto.
  - rewrite logh_purge_eq. destruct (rs_purge_upto (en_state e)) eqn:Hu; [|apply forall_nil_app; reflexivity].
    destruct (ologid_leb _ _); [apply forall_nil_app; reflexivity|]. cbn. apply forall_one_app. cbn. auto.
  - apply install_out.
  - congruence.
Qed.

Definition k_truncates (k : Kind) : bool := match k with KTruncate | KInstall => true | _ => false end.
(** no truncation at or below the commit position, as long as that does not move *)
Lemma prims_no_trunc ks e e' : prims ks e e' -> existsb k_truncates ks = false -> KPop ∉ ks ->
  exists cs, en_out e' = en_out e ++ cs /\ forall x, TruncateLog x ∉ cs.
Proof.
  intros Hp Hk Hpop. revert e e' Hp. apply prims_ind_rel.
  - intros e. exists []. rewrite app_nil_r. split; [reflexivity|]. intros x Hx. apply elem_of_nil in Hx as [].
  - intros a b c (c1 & H1 & H2) (c2 & H3 & H4). exists (c1 ++ c2). rewrite H3, H1, app_assoc. split; [reflexivity|].
    intros x Hx. apply elem_of_app in Hx as [Hx|Hx]; [apply (H2 x Hx)|apply (H4 x Hx)].
  - intros k a b Hin Hp. destruct (prim_pushes _ _ _ Hp) as (cs & Ho & Hcs); [intros ->; contradiction|].
    exists cs. split; [exact Ho|]. intros x Hx. destruct (Hcs _ Hx) as [Hkk _].
    assert (existsb k_truncates ks = true); [|congruence]. apply existsb_exists. exists k.
    split; [apply elem_of_list_In; exact Hin|]. destruct Hkk as [-> | ->]; reflexivity.
Qed.
Lemma prims_trunc ks e e' : prims ks e e' -> existsb k_changes_committed ks = false -> KPop ∉ ks ->
  exists cs, en_out e' = en_out e ++ cs /\
    forall x, TruncateLog x ∈ cs -> next_index (rs_committed (en_state e)) <= lid_index x.
Proof.
  intros Hp Hk Hpop.
  enough (Hen : rs_committed (en_state e') = rs_committed (en_state e) /\ exists cs, en_out e' = en_out e ++ cs /\
    forall x, TruncateLog x ∈ cs -> next_index (rs_committed (en_state e)) <= lid_index x) by apply Hen.
  revert e e' Hp. apply prims_ind_rel.
  - intros e. split; [reflexivity|]. exists []. rewrite app_nil_r. split; [reflexivity|]. intros x Hx. apply elem_of_nil in Hx as [].
  - intros a b c (Hc1 & c1 & H1 & H2) (Hc2 & c2 & H3 & H4). split; [congruence|]. exists (c1 ++ c2).
    rewrite H3, H1, app_assoc. split; [reflexivity|]. rewrite Hc1 in H4.
    intros x Hx. apply elem_of_app in Hx as [Hx|Hx]; [apply (H2 x Hx)|apply (H4 x Hx)].
  - intros k a b Hin Hp. split.
    + eapply prim_committed; [exact Hp|]. destruct (k_changes_committed k) eqn:Hc; [|reflexivity]. exfalso.
      assert (existsb k_changes_committed ks = true); [|congruence]. apply existsb_exists. exists k.
      split; [apply elem_of_list_In; exact Hin|exact Hc].
    + destruct (prim_pushes _ _ _ Hp) as (cs & Ho & Hcs); [intros ->; contradiction|].
      exists cs. split; [exact Ho|]. intros x Hx. apply (Hcs _ Hx).
Qed.
