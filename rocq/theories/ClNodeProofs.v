(** What a step of one node does to the parts of its state that the cluster invariant
    speaks about: recorded matches, vote requests, appended entries, responses, notes,
    streams, heartbeats and sent requests. *)
From Coq Require Import Bool Lia ZifyBool ZifyNat.
From stdpp Require Import base numbers option gmap relations list.
From Verif Require Import Types TypesProofs LogIdList Quorum Membership Progress RaftState
  ProgressEntry Engine Store RaftCore EnginePrims NodeSpec NodePrims VoteNodeProofs ElectProofs KindProofs
  LogSpec LogProofs EngLogProofs WalkProofs NodeLogProofs StepLogProofs LogPropSpec RoleSpec LogStateProofs LeadProofs OwnProofs.
Import NodeSpec.

(** ** Matching positions a leader records *)

Definition mto (X : list (nat * option LogId)) (e e' : Engine) : Prop :=
  forall l', en_leader e' = Some l' -> forall p, p ∈ matched l' ->
    p.2 = None \/ p ∈ X \/
    exists l, en_leader e = Some l /\ v_leader (ld_vote l) = v_leader (ld_vote l') /\ p ∈ matched l.
Lemma mto_refl X e : mto X e e.
Proof. intros l' Hl p Hp. right. right. eauto. Qed.
Lemma mto_trans X a b c : mto X a b -> mto X b c -> mto X a c.
Proof.
  intros H1 H2 l' Hl p Hp. destruct (H2 l' Hl p Hp) as [H|[H|(l & Hb & Hv & Hm)]]; [auto|auto|].
  destruct (H1 l Hb p Hm) as [H|[H|(l0 & Ha & Hv0 & Hm0)]]; [auto|auto|]. right. right. exists l0. split; [exact Ha|]. split; [congruence|exact Hm0].
Qed.
Lemma mto_weak X Y a b : (forall p, p ∈ X -> p ∈ Y) -> mto X a b -> mto Y a b.
Proof. intros H H1 l' Hl p Hp. destruct (H1 l' Hl p Hp) as [H0|[H0|H0]]; auto. Qed.
Lemma leader_new_matched now v qs ls ids p : p ∈ matched (leader_new now v qs ls ids) -> p.2 = None.
Proof.
  unfold matched, leader_new. cbn [ld_progress vp_new vp_vec]. intros Hp. apply elem_of_list_fmap in Hp as (x & -> & Hx).
  apply elem_of_app in Hx as [Hx|Hx]; apply elem_of_list_fmap in Hx as (y & -> & _); reflexivity.
Qed.
Lemma mto_same X e e' : en_leader e' = en_leader e -> mto X e e'.
Proof. intros He l' Hl p Hp. right. right. exists l'. split; [congruence|auto]. Qed.
Lemma prim_mto k e e' : prim k e e' -> k <> KMatch -> mto [] e e'.
Proof.
  intros Hp Hk. destruct Hp; try congruence; try (apply mto_same; reflexivity).
  - intros x Hx p Hp. injection Hx as <-. destruct H4 as [Hm _]. apply Hm in Hp as [Hp|[Hp|Hp]]; [|auto|apply elem_of_nil in Hp as []].
    right. right. exists l. split; [assumption|]. split; [congruence|assumption].
  - intros x Hx p Hp. injection Hx as <-. right. right. exists l. split; [assumption|]. split; [exact H0|exact Hp].
  - intros x Hx p Hp. injection Hx as <-. left. eapply leader_new_matched. exact Hp.
  - intros x Hx p Hp. injection Hx as <-. left. eapply leader_new_matched. exact Hp.
  - intros x Hx p Hp. injection Hx as <-. right. right. exists l. split; [assumption|]. split; [reflexivity|exact Hp].
  - intros x Hx. discriminate Hx.
  - intros x Hx p Hp. rewrite leader_appended_eq in Hx. cbn in Hx. injection Hx as <-. right. right. exists l. split; [assumption|]. split; [reflexivity|exact Hp].
  - apply mto_same. apply fh_do_append_rest.
  - apply mto_same. apply fh_truncate_rest.
  - apply mto_same. apply sh_trigger_rest.
  - apply mto_same. apply logh_purge_rest.
  - apply mto_same. apply fh_install_rest.
Qed.
Lemma prims_mto ks e e' : prims ks e e' -> KMatch ∉ ks -> mto [] e e'.
Proof.
  intros Hp Hk. revert e e' Hp. apply prims_ind_rel; [apply mto_refl|apply mto_trans|].
  intros k a b Hin Hp. eapply prim_mto; [exact Hp|]. intros ->. contradiction.
Qed.
Lemma update_matching_mto t m e e' : rh_update_matching t m e = Ok e' -> mto [(t, m)] e e'.
Proof.
  unfold rh_update_matching. destruct (en_leader e) as [l|] eqn:Hl; [|discriminate].
  destruct (vp_get (ld_progress l) t) as [pe|]; [|discriminate]. intros H. rok H. injection H as <-.
  match goal with |- mto _ _ (rh_try_commit _ (set_leader (Some ?l1) _)) =>
    change (vp_granted _) with (vp_granted (ld_progress l1)); eapply mto_trans with (b := set_leader (Some l1) e) end.
  - intros y Hy p Hp. injection Hy as <-.
    destruct (vp_update_vals ologid_leb pe_matching (ld_progress l) t (fun _ => x)) as [H1 _].
    assert (Hm : pe_matching x = m).
    { unfold pe_update_matching in Hx. rok Hx. injection Hx as <-. reflexivity. }
    apply H1 in Hp as [Hp|(v & _ & ->)]; [right; right; exists l; auto|]. right. left. rewrite Hm. apply elem_of_list_here.
  - eapply mto_weak; [|eapply prims_mto; [apply rh_try_commit_prims; reflexivity|notin]]. intros q Hq. apply elem_of_nil in Hq as [].
Qed.
Lemma set_entry_mto t f e e' : (forall pe pe1, f pe = Ok pe1 -> pe_matching pe1 = pe_matching pe) ->
  rh_set_entry t f e = Ok e' -> mto [] e e'.
Proof.
  intros Hf. unfold rh_set_entry. destruct (en_leader e) as [l|] eqn:Hl; [|discriminate].
  destruct (vp_get (ld_progress l) t) as [pe|] eqn:Hg; [|discriminate]. intros Hu. rok Hu. injection Hu as <-.
  apply (prims_mto [KProgress]); [|notin]. pone pr_progress; [exact Hl|reflexivity..|]. eapply matched_vp_set; [exact Hg|]. apply Hf. exact Hx.
Qed.
Lemma try_purge_mto e e' : rh_try_purge e = Ok e' -> mto [] e e'.
Proof.
  unfold rh_try_purge. destruct (en_leader e) as [l|] eqn:Hl; [|discriminate].
  destruct (ologid_leb _ _); [intros [= <-]; apply mto_refl|].
  destruct (rs_purge_upto (en_state e)) as [u|] eqn:Hu; [|intros [= <-]; apply mto_refl].
  destruct (existsb _ _) eqn:Hex; intros [= <-]; [apply mto_refl|]. apply mto_same. apply logh_purge_rest.
Qed.
Lemma update_progress_mto t r e e' : rh_update_progress t r e = Ok e' ->
  mto (match r with RRMatching m => [(t, m)] | _ => [] end) e e'.
Proof.
  unfold rh_update_progress. intros H. rok H. eapply mto_trans.
  2:{ eapply mto_weak; [|eapply try_purge_mto; exact H]. intros q Hq. apply elem_of_nil in Hq as []. }
  destruct r.
  - eapply update_matching_mto. exact Hx.
  - eapply set_entry_mto; [|exact Hx]. intros pe pe1 H1. unfold pe_update_conflicting in H1. rok H1. injection H1 as <-. reflexivity.
  - eapply set_entry_mto; [|exact Hx]. intros pe pe1 [= <-]. reflexivity.
Qed.
Lemma update_local_mto u e e' : rh_update_local u e = Ok e' -> mto [(en_id e, u)] e e'.
Proof.
  unfold rh_update_local. destruct u as [u|]; [|intros [= <-]; apply mto_refl].
  destruct (en_leader e) as [l|] eqn:Hl; [|discriminate].
  destruct (vp_get (ld_progress l) (en_id e)) as [pe|] eqn:Hg; [|intros [= <-]; apply mto_refl].
  destruct (ologid_leb _ _); [intros [= <-]; apply mto_refl|]. intros Hu.
  eapply mto_trans; [|eapply update_matching_mto; exact Hu].
  eapply mto_weak; [|apply (prims_mto [KProgress]); [|notin]].
  - intros q Hq. apply elem_of_nil in Hq as [].
  - pone pr_progress; [exact Hl|reflexivity..|]. eapply matched_vp_set; [exact Hg|reflexivity].
Qed.
(** what one step adds to the recorded matches: positions of the node itself, and the one
    of the reply it takes, sent under the leader's own vote *)
Lemma step_matched now ev n n' outs : node_step now ev n = Ok (n', outs) ->
  (forall c, en_cand (nd_eng n) = Some c -> en_leader (nd_eng n) = None) ->
  exists X, mto X (nd_eng n) (nd_eng n') /\ forall t m, (t, m) ∈ X ->
    t = nd_id n \/ exists ss l, ev = ENote /\ head (nd_notes n) = Some (NReplProgress ss t (RRMatching m)) /\
      en_leader (nd_eng n) = Some l /\ ss_vote ss = ld_vote l.
Proof.
  intros Hs Hcl. assert (Hk : KMatch ∉ event_kinds ev n -> exists X, mto X (nd_eng n) (nd_eng n') /\ forall t m, (t, m) ∈ X ->
    t = nd_id n \/ exists ss l, ev = ENote /\ head (nd_notes n) = Some (NReplProgress ss t (RRMatching m)) /\
      en_leader (nd_eng n) = Some l /\ ss_vote ss = ld_vote l).
  { intros Hk. exists []. split; [eapply prims_mto; [eapply (node_step_kinds _ _ _ _ Hs)|exact Hk]|]. intros t m Hin. apply elem_of_nil in Hin as []. }
  destruct ev; try (apply Hk; notin).
  - destruct m; apply Hk; notin.
  - cbn [node_step] in Hs. unfold when_idle in Hs. destruct (runnable n).
    { injection Hs as <- <-. exists []. split; [apply mto_refl|]. intros t m Hin. apply elem_of_nil in Hin as []. }
    destruct (nd_notes n) as [|x r] eqn:Hn.
    { injection Hs as <- <-. exists []. split; [apply mto_refl|]. intros t m Hin. apply elem_of_nil in Hin as []. }
    assert (Hk2 : KMatch ∉ note_kinds x -> exists X, mto X (nd_eng n) (nd_eng n') /\ forall t m, (t, m) ∈ X ->
      t = nd_id n \/ exists ss l, ENote = ENote /\ head (x :: r) = Some (NReplProgress ss t (RRMatching m)) /\
      en_leader (nd_eng n) = Some l /\ ss_vote ss = ld_vote l).
    { intros H. apply Hk. cbn [event_kinds]. rewrite ?Hn. exact H. }
    destruct x as [t resp sv|v sv|io|ss t rr|ss t time|sr]; try (apply Hk2; notin).
    + clear Hk Hk2. cbn [handle_note] in Hs.
      assert (Hn1 : mto [] (nd_eng n) (nd_eng (nd_upd_io (io_set_flushed io) (nd_set_notes r n)))) by (apply mto_same; reflexivity).
      destruct io as [v|v lid].
      { injection Hs as <- <-. exists []. split; [exact Hn1|]. intros t m Hin. apply elem_of_nil in Hin as []. }
      destruct (en_leader (nd_eng (nd_upd_io _ _))) eqn:Hle in Hs.
      2:{ injection Hs as <- <-. exists []. split; [exact Hn1|]. intros t m Hin. apply elem_of_nil in Hin as []. }
      destruct (vote_matches _ _).
      2:{ injection Hs as <- <-. exists []. split; [exact Hn1|]. intros t m Hin. apply elem_of_nil in Hin as []. }
      apply lift_prims in Hs as (e' & Hs & Hp). injection Hp as -> ->. apply update_local_mto in Hs. eexists. split.
      * eapply mto_trans; [eapply mto_weak; [|exact Hn1]|exact Hs]. intros q Hq. apply elem_of_nil in Hq as [].
      * intros t m Hin. apply elem_of_list_singleton in Hin. injection Hin as -> ->. left. reflexivity.
    + clear Hk Hk2. cbn [handle_note] in Hs. change (nd_eng (nd_set_notes r n)) with (nd_eng n) in Hs. destruct (session_matches ss (nd_eng n)) eqn:Hm.
      2:{ injection Hs as <- <-. exists []. split; [apply mto_refl|]. intros t0 m Hin. apply elem_of_nil in Hin as []. }
      apply lift_prims in Hs as (e' & Hs & Hp). injection Hp as -> ->.
      assert (Hl : exists l, en_leader (nd_eng n) = Some l).
      { unfold rh_update_progress in Hs. rok Hs. destruct (en_leader (nd_eng n)) eqn:Hle; [eauto|]. exfalso.
        destruct rr; unfold rh_update_matching, rh_set_entry in Hx; rewrite Hle in Hx; discriminate. }
      apply update_progress_mto in Hs. eexists. split; [exact Hs|]. intros t0 m Hin.
      destruct rr; [|apply elem_of_nil in Hin as []..]. apply elem_of_list_singleton in Hin. injection Hin as -> ->.
      right. destruct Hl as (l' & Hl). exists ss, l'. split; [reflexivity|]. split; [reflexivity|]. split; [exact Hl|].
      unfold session_matches, vote_matches in Hm. apply andb_true_iff in Hm as [Hm _].
      destruct (v_committed _); [rewrite Hl in Hm; apply vote_eqb_true; exact Hm|].
      destruct (en_cand (nd_eng n)) as [c|]; [|discriminate]. rewrite (Hcl c eq_refl) in Hl. discriminate.
    + clear Hk Hk2. cbn [handle_note] in Hs. change (nd_eng (nd_set_notes r n)) with (nd_eng n) in Hs. destruct (session_matches ss (nd_eng n)).
      2:{ injection Hs as <- <-. exists []. split; [apply mto_refl|]. intros t0 m Hin. apply elem_of_nil in Hin as []. }
      apply lift_prims in Hs as (e' & Hs & Hp). injection Hp as -> ->. unfold rh_update_clock in Hs.
      destruct (en_leader (nd_eng n)) as [l'|] eqn:Hl; [|discriminate].
      destruct (vp_increase_to _ _ _ _ _ _) as [c ok]. destruct ok; [|discriminate]. injection Hs as <-.
      exists []. split; [|intros t0 m Hin; apply elem_of_nil in Hin as []].
      apply (prims_mto [KProgress]); [|notin]. pone pr_progress; [exact Hl|reflexivity..|]. apply progress_ok_same; reflexivity.
    + apply Hk2. destruct sr; notin.
Qed.

(** ** Elections *)

Lemma elect_shape now e e' : en_elect now e = Ok e' ->
  let v := vote_new (S (li_term (v_leader (rs_v (en_state e))))) (en_id e) in
  en_out e' = en_out e ++ [SaveVote v; SendVote (mkVoteReq v (rs_last (en_state e)))] /\
  rs_v (en_state e') = v /\ rs_log_ids (en_state e') = rs_log_ids (en_state e) /\
  rs_mem (en_state e') = rs_mem (en_state e) /\ rs_committed (en_state e') = rs_committed (en_state e).
Proof.
  cbv zeta. unfold en_elect. cbv zeta. set (v := vote_new (S (li_term (v_leader (rs_v (en_state e))))) (en_id e)). intros H. rok H.
  destruct x as [e1 b]. cbn [fst snd] in H. destruct b; [|discriminate]. injection H as <-.
  assert (Hgt : vote_gtb v (rs_v (en_state e)) = true).
  { subst v. destruct (rs_v (en_state e)) as [[t n0] c]. apply vote_gtb_true. cbn. lia. }
  unfold vh_update_vote in Hx.
  change (rs_v (en_state (en_new_candidate now v e))) with (rs_v (en_state e)) in Hx.
  rewrite (vote_gtb_geb _ _ Hgt), Hgt in Hx. cbn [negb] in Hx. rok Hx. injection Hx as <-.
  unfold vh_update_internal in Hx0.
  assert (Hnl : forall a, rs_v (en_state a) = v -> rs_is_leader (en_state a) (en_id a) = false).
  { intros a Ha. unfold rs_is_leader. rewrite Ha. apply andb_false_iff. right. reflexivity. }
  rewrite Hnl in Hx0 by (cbn; rewrite rs_accept_io_eq; reflexivity).
  rewrite ssh_update_eq.
  destruct (rs_is_leading _ _); injection Hx0 as <-; unfold vh_become_following; rewrite ?ssh_update_eq; cbn; rewrite ?rs_accept_io_eq, <- ?app_assoc; cbn; auto.
Qed.
Definition no_ask (cs : list Command) : Prop := forall req, SendVote req ∉ cs.
Lemma prims_no_ask ks e e' : prims ks e e' -> KPop ∉ ks -> KAskVote ∉ ks ->
  exists cs, en_out e' = en_out e ++ cs /\ no_ask cs.
Proof.
  intros Hp H1 H2. destruct (prims_cmds _ _ _ Hp H1) as (cs & Ho & Hcs). exists cs. split; [exact Ho|].
  intros u Hu. destruct (Hcs _ Hu) as (k & a & b & Hk & Hc). cbn in Hc. subst k. contradiction.
Qed.
(** a vote request is queued with the node's new vote and its last log id, and leaves that vote and the log in place *)
Definition asks (e e' : Engine) : Prop :=
  exists cs, en_out e' = en_out e ++ cs /\ (no_ask cs \/
    forall req, SendVote req ∈ cs -> vq_vote req = rs_v (en_state e') /\ vq_last req = rs_last (en_state e') /\
      vq_vote req = vote_new (S (li_term (v_leader (rs_v (en_state e))))) (en_id e)).
Lemma elect_asks now e e' : en_elect now e = Ok e' -> asks e e'.
Proof.
  intros H. apply elect_shape in H as (Ho & Hv & Hl & _). eexists. split; [exact Ho|]. right. intros req Hin.
  apply elem_of_cons in Hin as [Hin|Hin]; [discriminate|]. apply elem_of_list_singleton in Hin. injection Hin as ->.
  cbn. unfold rs_last. rewrite Hl, Hv. auto.
Qed.
Lemma step_down_quiet now e e' : v_committed (rs_v (en_state e)) = false -> en_step_down now e = Ok e' ->
  en_out e' = en_out e /\ rs_v (en_state e') = rs_v (en_state e) /\ rs_log_ids (en_state e') = rs_log_ids (en_state e) /\
  rs_mem (en_state e') = rs_mem (en_state e).
Proof.
  intros Hv. unfold en_step_down. destruct (ologid_leb _ _); [|intros [= <-]; auto]. unfold vh_update_internal.
  assert (rs_is_leader (en_state e) (en_id e) = false) as ->.
  { unfold rs_is_leader. rewrite Hv. apply andb_false_r. }
  destruct (rs_is_leading _ _); intros [= <-]; [auto|]. unfold vh_become_following. rewrite ssh_update_eq. auto.
Qed.
Lemma tick_elected now hb ee eh e e' : handle_tick now hb ee eh e = Ok e' ->
  asks e e' /\ (rs_mem (en_state e') = rs_mem (en_state e) \/ en_cand e' = en_cand e \/ en_cand e' = None).
Proof.
  unfold handle_tick. intros H. rok H.
  set (e2 := match en_leader x with Some _ => _ | None => _ end) in H.
  assert (Q : en_state e2 = en_state x /\ prims [KSend; KProgress] x e2).
  { unfold e2. destruct (en_leader x) as [l|] eqn:Hl2; [|split; [reflexivity|apply prims_refl]].
    destruct (_ <=? _); [|split; [reflexivity|apply prims_refl]].
    split.
    - destruct eh; [unfold core_heartbeat; rewrite Hl2; destruct (ld_transfer l)|]; reflexivity.
    - destruct eh.
      + eapply prims_trans; [pk core_heartbeat_prims|]. apply set_progress_prims; [reflexivity|].
        rewrite core_heartbeat_leader. exact Hl2.
      + apply set_progress_prims; [reflexivity|exact Hl2]. }
  destruct Q as [Q1 Q2]. destruct (prims_no_ask _ _ _ Q2) as (c2 & Ho2 & Hc2); [notin|notin|].
  assert (H3 : prims ks_internal e2 e').
  { destruct (ologid_leb _ _) in H; [apply en_step_down_prims in H; exact H|injection H as <-; apply prims_refl]. }
  destruct (prims_no_ask _ _ _ H3) as (c3 & Ho3 & Hc3); [notin|notin|].
  apply tick_election_spec in Hx as [(_ & He)|(_ & ->)].
  - apply elect_shape in He as (Ho & Hv & Hl & Hm & _).
    change (rs_v (en_state (set_greater false e))) with (rs_v (en_state e)) in *. change (en_id (set_greater false e)) with (en_id e) in *.
    cbn [set_greater en_out en_state] in Ho, Hl, Hm, Hv.
    assert (Hd : en_out e' = en_out e2 /\ rs_v (en_state e') = rs_v (en_state e2) /\ rs_log_ids (en_state e') = rs_log_ids (en_state e2) /\ rs_mem (en_state e') = rs_mem (en_state e2)).
    { destruct (ologid_leb _ _) in H; [|injection H as <-; auto]. eapply step_down_quiet; [|exact H]. rewrite Q1, Hv. reflexivity. }
    destruct Hd as (D1 & D2 & D3 & D4). split; [|left; rewrite D4, Q1; exact Hm].
    eexists. rewrite D1, Ho2, Ho, <- app_assoc. split; [reflexivity|]. right. intros req Hin.
    apply elem_of_app in Hin as [Hin|Hin]; [|apply Hc2 in Hin as []].
    apply elem_of_cons in Hin as [Hin|Hin]; [discriminate|]. apply elem_of_list_singleton in Hin. injection Hin as ->. cbn.
    unfold rs_last. rewrite D2, D3, Q1, Hv, Hl. auto.
  - split.
    + exists (c2 ++ c3). rewrite Ho3, Ho2, app_assoc. split; [reflexivity|]. left. intros req Hin. apply elem_of_app in Hin as [Hin|Hin]; [apply (Hc2 _ Hin)|apply (Hc3 _ Hin)].
    + right. assert (Hp : prims (KSend :: ks_internal) e e') by (eapply prims_trans; [pk Q2|pk H3]).
      apply prims_nocand in Hp as [_ Hp]; [exact Hp|reflexivity].
Qed.
Lemma init_asks now ms tx e e' : core_initialize now ms tx e = Ok e' ->
  asks e e' /\ (forall c, en_cand e' = Some c -> en_cand e = Some c \/ cd_qs c = [dom ms]).
Proof.
  intros H. destruct (decide (rs_last (en_state e) = None /\ rs_v (en_state e) = vote_default /\ en_id e ∈ dom ms)) as [(H1 & H2 & H3)|Hn].
  - destruct (initialize_ok _ _ _ _ _ H1 H2 H3 H) as (Ho & Hv & Hl & _ & _ & (c & Hc & _ & Hq) & _). split.
    + eexists. split; [exact Ho|]. right. intros req Hin.
      repeat (apply elem_of_cons in Hin as [Hin|Hin]; [try discriminate|]); [|apply elem_of_nil in Hin as []].
      injection Hin as ->. cbn [vq_vote vq_last]. rewrite Hv, Hl, H2. auto.
    + intros c0 Hc0. right. congruence.
  - destruct (initialize_refused _ _ _ _ _ H Hn) as (err & -> & _). split; [|auto].
    eexists. split; [reflexivity|]. left. intros req Hin. apply elem_of_list_singleton in Hin. discriminate.
Qed.
Lemma step_asks now ev n n' outs : node_step now ev n = Ok (n', outs) ->
  forall req, SendVote req ∈ step_produced ev n n' ->
    vq_vote req = rs_v (nd_state n') /\ vq_last req = rs_last (nd_state n') /\
    vq_vote req = own_next_vote n.
Proof.
  intros Hs. destruct (is_run ev) as [->|He]; [intros req Hin; apply elem_of_nil in Hin as []|].
  assert (Ha : asks (nd_eng n) (nd_eng n') -> forall req, SendVote req ∈ step_produced ev n n' ->
    vq_vote req = rs_v (nd_state n') /\ vq_last req = rs_last (nd_state n') /\ vq_vote req = own_next_vote n).
  { intros (cs & Ho & Hc) req Hin. rewrite (produced_app _ _ _ _ He Ho) in Hin. destruct Hc as [Hc|Hc]; [apply Hc in Hin as []|]. apply Hc. exact Hin. }
  assert (Hk : KAskVote ∉ event_kinds ev n -> KPop ∉ event_kinds ev n -> asks (nd_eng n) (nd_eng n')).
  { intros H1 H2. destruct (prims_no_ask _ _ _ (node_step_kinds _ _ _ _ Hs) H2 H1) as (cs & Ho & Hc). exists cs. auto. }
  apply Ha. clear Ha.
  destruct ev as [|m| | | | | | | | | | | |]; try congruence; try (apply Hk; notin).
  - assert (Hidle : asks (nd_eng n) (nd_eng n)) by (exists []; rewrite app_nil_r; split; [reflexivity|]; left; intros req Hin; apply elem_of_nil in Hin as []).
    cbn [node_step] in Hs. unfold when_idle in Hs. destruct (runnable n); [injection Hs as <- <-; exact Hidle|].
    destruct m; try (apply Hk; notin); clear Hk; cbn [handle_msg] in Hs; apply lift_prims in Hs as (e' & Hs & Hp); injection Hp as -> ->; cbn [nd_eng nd_set_eng].
    + unfold core_transfer in Hs. destruct (vote_eqb _ _); [|injection Hs as <-; exact Hidle].
      destruct (_ =? _); [|injection Hs as <-; exact Hidle]. apply elect_asks in Hs as (cs & Ho & Hc). exists cs. split; [exact Ho|exact Hc].
    + apply init_asks in Hs as [Hs _]. exact Hs.
    + destruct (rs_is_voter _ _); [|injection Hs as <-; exact Hidle]. eapply elect_asks. exact Hs.
  - apply Hk; cbn [event_kinds]; destruct (nd_notes n) as [|x r]; try notin; destruct x as [| | | | |[]]; notin.
  - apply tick_event in Hs as [H1 H2]. destruct (runnable n).
    + rewrite H1 by reflexivity. exists []. rewrite app_nil_r. split; [reflexivity|]. left. intros req Hin. apply elem_of_nil in Hin as [].
    + eapply tick_elected. apply H2. reflexivity.
Qed.
(** a candidate keeps the voter groups it started with *)
Definition cqrel (V : list (gset nat)) (e e' : Engine) : Prop :=
  forall c', en_cand e' = Some c' -> (exists c, en_cand e = Some c /\ cd_qs c' = cd_qs c) \/ cd_qs c' = V \/ cd_qs c' = m_configs (em_mem (rs_eff (en_state e))).
Lemma prims_cqrel ks V e e' : prims ks e e' -> KCandNew ∉ ks -> cqrel V e e'.
Proof.
  intros Hp Hk. assert (H : forall c', en_cand e' = Some c' -> exists c, en_cand e = Some c /\ cd_qs c' = cd_qs c).
  { revert e e' Hp. apply (prims_ind_rel ks (fun e e' => forall c', en_cand e' = Some c' -> exists c, en_cand e = Some c /\ cd_qs c' = cd_qs c)).
    - eauto.
    - intros a b c H1 H2 c' Hc. destruct (H2 c' Hc) as (c1 & Hb & ->). destruct (H1 c1 Hb) as (c0 & Ha & ->). eauto.
    - intros k a b Hin Hp c' Hc. destruct Hp; try contradiction; try (cbn in Hc; eauto; fail); try discriminate Hc.
      + injection Hc as <-. exists c. split; [assumption|].
        match goal with Hg : cand_grant _ _ = Ok _ |- _ => unfold cand_grant in Hg; revert Hg end.
        match goal with |- context [vp_update ?a ?b ?c ?d ?e] => destruct (vp_update a b c d e) as [p0 ok0] end.
        destruct ok0; [|discriminate]. intros [= <- _]. reflexivity.
      + exists c'. split; [|reflexivity]. rewrite <- Hc. symmetry. apply leader_appended_rest.
      + exists c'. split; [|reflexivity]. rewrite <- Hc. symmetry. apply fh_do_append_rest.
      + exists c'. split; [|reflexivity]. rewrite <- Hc. symmetry. apply fh_truncate_rest.
      + exists c'. split; [|reflexivity]. rewrite <- Hc. symmetry. apply sh_trigger_rest.
      + exists c'. split; [|reflexivity]. rewrite <- Hc. symmetry. apply logh_purge_rest.
      + exists c'. split; [|reflexivity]. rewrite <- Hc. symmetry. apply fh_install_rest. }
  intros c' Hc. left. apply H. exact Hc.
Qed.

Lemma cqrel_elect now V e e' : en_elect now e = Ok e' -> cqrel V e e'.
Proof. intros H c' Hc. destruct (elect_candidate _ _ _ H c' Hc) as (_ & Hq & _). auto. Qed.
Lemma step_cands now ev n n' outs : node_step now ev n = Ok (n', outs) ->
  cqrel (match ev with EMsg (MInitialize ms _) => [dom ms] | _ => [] end) (nd_eng n) (nd_eng n').
Proof.
  intros Hs. assert (Hk : forall V, KCandNew ∉ event_kinds ev n -> cqrel V (nd_eng n) (nd_eng n')).
  { intros V H1. eapply prims_cqrel; [apply (node_step_kinds _ _ _ _ Hs)|exact H1]. }
  assert (Hi : forall V, cqrel V (nd_eng n) (nd_eng n)) by (intros V c Hc; left; eauto).
  destruct ev as [|m| | | | | | | | | | | |]; try (apply Hk; notin).
  - cbn [node_step] in Hs. unfold when_idle in Hs. destruct (runnable n); [injection Hs as <- <-; apply Hi|].
    destruct m; try (apply Hk; notin); clear Hk; cbn [handle_msg] in Hs; apply lift_prims in Hs as (e' & Hs & Hp); injection Hp as -> ->; cbn [nd_eng nd_set_eng].
    + unfold core_transfer in Hs. destruct (vote_eqb _ _); [|injection Hs as <-; apply Hi].
      destruct (_ =? _); [|injection Hs as <-; apply Hi]. apply (cqrel_elect _ []) in Hs. exact Hs.
    + apply init_asks in Hs as [_ Hs]. intros c' Hc. destruct (Hs c' Hc); [left; eauto|auto].
    + destruct (rs_is_voter _ _); [|injection Hs as <-; apply Hi]. eapply cqrel_elect. exact Hs.
  - apply Hk; cbn [event_kinds]; destruct (nd_notes n) as [|x r]; try notin; destruct x as [| | | | |[]]; notin.
  - apply tick_event in Hs as [H1 H2]. destruct (runnable n); [rewrite H1 by reflexivity; apply Hi|]. specialize (H2 eq_refl).
    unfold handle_tick in H2. rok H2.
    set (e2 := match en_leader x with Some _ => _ | None => _ end) in H2.
    assert (Hp : prims (KSend :: ks_internal) x e2).
    { subst e2. destruct (en_leader x) as [l|] eqn:Hl; [|apply prims_refl].
      destruct (ld_next_heartbeat l <=? now); [|apply prims_refl].
      destruct enable_hb.
      - eapply prims_trans; [pk core_heartbeat_prims|]. apply set_progress_prims; [reflexivity|].
        rewrite core_heartbeat_leader. exact Hl.
      - apply set_progress_prims; [reflexivity|exact Hl]. }
    assert (Hq : prims (KSend :: ks_internal) x (nd_eng n')).
    { eapply prims_trans; [exact Hp|]. destruct (ologid_leb _ _) in H2; [pk en_step_down_prims; exact H2|injection H2 as <-; apply prims_refl]. }
    apply prims_nocand in Hq as [_ Hq]; [|reflexivity]. intros c' Hc. destruct Hq as [Hq|Hq]; [|congruence]. rewrite Hq in Hc.
    apply tick_election_spec in Hx as [(_ & He)|(_ & ->)]; [|left; eauto].
    apply (cqrel_elect _ []) in He. exact (He c' Hc).
Qed.

(** ** The log of a node *)

Definition lcown (e : Engine) : Prop :=
  cown e /\ forall l, en_leader e = Some l -> li_node (v_leader (ld_vote l)) = en_id e.
Lemma prim_lcown k e e' : prim k e e' -> lcown e -> lcown e'.
Proof.
  intros Hp [Hc Hl]. split.
  { eapply prims_cown; [|exact Hc]. eapply (prims_one [k]); [|exact Hp]. apply bool_decide_eq_true. set_solver. }
  pose proof (prim_cfg _ _ _ Hp) as Hcfg. intros l Hl'. unfold en_id. rewrite Hcfg. fold (en_id e).
  assert (Hq : forall a b, en_leader a = en_leader b -> en_leader a = Some l -> en_leader b = Some l) by (intros a b Hab; rewrite Hab; auto).
  destruct Hp; try (apply Hl; exact Hl');
    try (destruct (fh_do_append_rest lv entries e) as (_ & Hr & _); exact (Hl _ (Hq _ _ Hr Hl')));
    try (destruct (fh_truncate_rest since e) as (_ & Hr & _); exact (Hl _ (Hq _ _ Hr Hl')));
    try (destruct (sh_trigger_rest e) as (_ & Hr & _); exact (Hl _ (Hq _ _ Hr Hl')));
    try (destruct (logh_purge_rest e) as (_ & Hr & _); exact (Hl _ (Hq _ _ Hr Hl')));
    try (match type of Hl' with en_leader (fh_install ?a ?b ?c).1 = _ => destruct (fh_install_rest a b c) as (_ & Hr & _); exact (Hl _ (Hq _ _ Hr Hl')) end);
    cbn in Hl'; try discriminate Hl'; try (injection Hl' as <-).
  - rewrite H0. auto.
  - rewrite H0. auto.
  - cbn. unfold rs_is_leader, rs_is_leading, voted_for in H1. rewrite !andb_true_iff in H1. lia.
  - cbn. unfold rs_is_leader, rs_is_leading, voted_for in H. rewrite !andb_true_iff in H. lia.
  - cbn. apply Hc. assumption.
  - cbn. auto.
  - destruct (leader_appended_rest ps l0 e) as (_ & _ & _ & _ & l1 & H1 & H2 & _). cbn in H1. rewrite H1 in Hl'. injection Hl' as <-. rewrite H2. auto.
Qed.
(** without the appends of a follower, what is appended is the node's own *)
Lemma prims_appends ks e e' : prims ks e e' -> KPop ∉ ks -> KFollowAppend ∉ ks -> lcown e ->
  exists cs, en_out e' = en_out e ++ cs /\ forall v es, AppendInputEntries v es ∈ cs -> li_node (v_leader v) = en_id e.
Proof.
  intros Hp H1 H2 Hl.
  assert (H : lcown e' /\ en_id e' = en_id e /\ exists cs, en_out e' = en_out e ++ cs /\ forall v es, AppendInputEntries v es ∈ cs -> li_node (v_leader v) = en_id e); [|apply H].
  revert e e' Hp Hl. apply (prims_ind_rel ks (fun e e' => lcown e -> lcown e' /\ en_id e' = en_id e /\ exists cs, en_out e' = en_out e ++ cs /\ forall v es, AppendInputEntries v es ∈ cs -> li_node (v_leader v) = en_id e)).
  - intros e Hl. split; [exact Hl|]. split; [reflexivity|]. exists []. rewrite app_nil_r. split; [reflexivity|]. intros v es Hin. apply elem_of_nil in Hin as [].
  - intros a b c Ha Hb Hl. destruct (Ha Hl) as (L1 & I1 & c1 & O1 & P1). destruct (Hb L1) as (L2 & I2 & c2 & O2 & P2).
    split; [exact L2|]. split; [congruence|]. exists (c1 ++ c2). rewrite O2, O1, app_assoc. split; [reflexivity|].
    intros v es Hin. apply elem_of_app in Hin as [Hin|Hin]; [eauto|]. rewrite <- I1. eauto.
  - intros k a b Hin Hp Hl. split; [eapply prim_lcown; eauto|]. split; [unfold en_id; rewrite (prim_cfg _ _ _ Hp); reflexivity|].
    destruct (prim_pushes _ _ _ Hp) as (cs & Ho & Hcs); [intros ->; contradiction|]. exists cs. split; [exact Ho|].
    intros v es Hv. pose proof (Hcs _ Hv) as Hk. cbn in Hk. destruct Hk as [->| ->]; [|contradiction].
    inversion Hp as [| | | | | | | | | | | | | | | | | | | | | |ps l a0 Hla Hps Ha0 Hb| | | | | | | | | | | | |]; subst.
    rewrite leader_appended_eq in Ho. cbn in Ho. apply app_inv_head in Ho as <-. apply elem_of_list_singleton in Hv. injection Hv as -> ->.
    cbn. apply Hl. exact Hla.
Qed.
