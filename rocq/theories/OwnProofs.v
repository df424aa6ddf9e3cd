(** What a node proposes itself in each step; initialization. *)
From Coq Require Import Bool Lia ZifyBool ZifyNat.
From stdpp Require Import base numbers option gmap relations list.
From Verif Require Import Types TypesProofs LogIdList Membership Progress RaftState ProgressEntry Engine Store RaftCore.
From Verif Require Import EnginePrims NodeSpec NodePrims LogSpec LogPropSpec KindProofs NodeLogProofs StepLogProofs EngLogProofs LogStateProofs RoleSpec RoleProofs.
From Verif Require VoteNodeProofs ElectProofs.

Lemma proposals_app id a b : proposals id (a ++ b) = proposals id a ++ proposals id b.
Proof. unfold proposals. apply omap_app. Qed.
(** nothing own is queued between [e] and [e'] *)
Definition noown (id : nat) (e e' : Engine) : Prop :=
  exists cs, en_out e' = en_out e ++ cs /\ proposals id cs = [] /\ (isS (en_leader e') = true -> isS (en_leader e) = true).
Lemma noown_refl id e : noown id e e.
Proof. exists []. rewrite app_nil_r. auto. Qed.
Lemma noown_eq id e e' : (en_out e', en_leader e') = (en_out e, en_leader e) -> noown id e e'.
Proof. intros [= H1 H2]. exists []. rewrite app_nil_r, H2. auto. Qed.
Lemma noown_trans id a b c : noown id a b -> noown id b c -> noown id a c.
Proof.
  intros (c1 & H1 & P1 & Q1) (c2 & H2 & P2 & Q2). exists (c1 ++ c2). rewrite H2, H1, app_assoc, proposals_app, P1, P2. auto.
Qed.
Lemma proposals_none id cs : (forall v es, AppendInputEntries v es ∈ cs -> li_node (v_leader v) <> id) -> proposals id cs = [].
Proof.
  intros H. induction cs as [|c r IH]; [reflexivity|]. assert (IH' : proposals id r = []) by (apply IH; intros v es Hin; apply (H v es); right; exact Hin).
  destruct c; cbn; try exact IH'. destruct (_ =? id) eqn:Hi; [|exact IH']. exfalso. apply (H committed_vote entries); [left|]. apply Nat.eqb_eq. exact Hi.
Qed.
Definition k_appends (k : Kind) : bool := match k with KLeadAppend | KFollowAppend | KPop | KLeaderFresh | KEstablish => true | _ => false end.
Lemma quiet_noown id ks e e' : prims ks e e' -> existsb k_appends ks = false -> noown id e e'.
Proof.
  intros Hp Hk. revert e e' Hp. apply prims_ind_rel; [apply noown_refl|intros a b c; apply noown_trans|].
  intros k a b Hin Hp. assert (Hc : k_appends k = false).
  { destruct (k_appends k) eqn:Hc; [|reflexivity]. exfalso. assert (existsb k_appends ks = true); [|congruence].
    apply existsb_exists. exists k. split; [apply elem_of_list_In; exact Hin|exact Hc]. }
  destruct (prim_pushes _ _ _ Hp) as (cs & Ho & Hcs); [intros ->; discriminate|].
  exists cs. split; [exact Ho|]. split; [apply proposals_none; intros v es Hx; apply Hcs in Hx; cbn in Hx; destruct Hx as [->| ->]; discriminate|].
  destruct (k_changes_leader k) eqn:Hkl; [|rewrite (prim_leader_same _ _ _ Hp Hkl); auto].
  destruct Hp; try discriminate; cbn; try (intros _; match goal with H : en_leader _ = Some _ |- _ => rewrite H end; reflexivity).
Qed.
(** [update_vote] with a vote that is not a new own one queues at most the vote *)
Lemma update_internal_out now e e' : (rs_is_leader (en_state e) (en_id e) = true -> exists l, en_leader e = Some l /\ v_leader (ld_vote l) = v_leader (rs_v (en_state e))) ->
  vh_update_internal now e = Ok e' -> en_out e' = en_out e /\ (isS (en_leader e') = true -> isS (en_leader e) = true).
Proof.
  intros Hl. unfold vh_update_internal. destruct (rs_is_leader _ _).
  - destruct (Hl eq_refl) as (l & Hld & Hv). unfold vh_become_leader. rewrite Hld, Hv.
    assert (Q : leader_eqb (v_leader (rs_v (en_state e))) (v_leader (rs_v (en_state e))) = true) by (apply leader_eqb_eq; reflexivity).
    rewrite Q. intros [= <-]. rewrite ssh_update_eq. split; [reflexivity|]. intros _. reflexivity.
  - destruct (rs_is_leading _ _); intros [= <-]; [auto|]. unfold vh_become_following. rewrite ssh_update_eq. split; [reflexivity|discriminate].
Qed.
Definition led (e : Engine) : Prop :=
  rs_is_leader (en_state e) (en_id e) = true -> exists l, en_leader e = Some l /\ v_leader (ld_vote l) = v_leader (rs_v (en_state e)).
Lemma update_vote_out now v e x : led e -> vh_update_vote now v e = Ok x ->
  (li_node (v_leader v) = en_id e -> vote_gtb v (rs_v (en_state e)) = true ->
   v_committed v = false \/ exists l, en_leader e = Some l /\ v_leader (ld_vote l) = v_leader v) -> noown (en_id e) e x.1.
Proof.
  intros Hl. unfold vh_update_vote. destruct (negb _); [intros [= <-] _; apply noown_refl|]. cbv zeta. intros H Hown. rok H. injection H as <-. cbn [fst].
  destruct (vote_gtb v (rs_v (en_state e))) eqn:Hgt.
  - apply update_internal_out in Hx.
    + destruct Hx as [Hx Hq]. exists [SaveVote v]. rewrite Hx. auto.
    + cbn. acc. cbn. unfold rs_is_leader, rs_is_leading, voted_for, en_id in *. cbn. intros Q. apply andb_true_iff in Q as [Q Qc]. apply andb_true_iff in Q as [_ Q]. apply Nat.eqb_eq in Q.
      destruct (Hown Q eq_refl) as [Hc|Hc]; [unfold rs_v in Qc; cbn in Qc; congruence|exact Hc].
  - apply update_internal_out in Hx; [|exact Hl]. destruct Hx as [Hx Hq]. exists []. rewrite Hx, app_nil_r. auto.
Qed.
Lemma lil_append_last keys x : last (lil_append keys x) = Some x.
Proof.
  unfold lil_append. destruct (Nat.eqb_spec (length keys) 0); [reflexivity|]. destruct (_ =? 1); [apply last_snoc|].
  destruct (keys !! _); [|apply last_snoc]. destruct (keys !! _); [|apply last_snoc]. destruct (leader_eqb _ _); [|apply last_snoc].
  rewrite last_lookup, insert_length. replace (pred (length keys)) with (length keys - 1) by lia. apply list_lookup_insert. lia.
Qed.
Lemma assign_ids_nil_inv L i ps : assign_ids L i ps = [] -> ps = [].
Proof. destruct ps; [reflexivity|discriminate]. Qed.
(** what a leader's append queues *)
Lemma lh_append_out p e e' l : en_leader e = Some l -> lh_append [p] e = Ok e' ->
  rs_last (en_state e') = Some (mkLogId (v_leader (ld_vote l)) (next_index (ld_last l))) /\
  exists cs, en_out e' = en_out e ++ AppendInputEntries (ld_vote l) (assign_ids (v_leader (ld_vote l)) (next_index (ld_last l)) [p]) :: cs /\
    (forall id, proposals id cs = []).
Proof.
  intros Hl. unfold lh_append. rewrite Hl. cbv zeta. intros H. rok H.
  assert (Hlast : forall ks a b, prims ks a b -> existsb k_changes_log ks = false -> rs_last (en_state b) = rs_last (en_state a)).
  { intros ks a b Hp Hk. unfold rs_last. f_equal. revert Hp Hk. apply (prims_field (fun e => rs_log_ids (en_state e)) k_changes_log).
    intros k a0 b0 Hp Hk. apply (prim_log _ _ _ Hp Hk). }
  assert (Q : forall id, noown id x e') by (intros id; eapply quiet_noown; [eapply rh_initiate_prims; exact H|reflexivity]).
  match type of Hx with context [rh_append_membership _ _ ?e3] => set (e3' := e3) in * end.
  assert (Q2 : forall id, noown id e3' x).
  { intros id. destruct (last_membership _ _) as [[lid m]|]; [|injection Hx as <-; apply noown_refl].
    unfold rh_append_membership in Hx. cbv zeta in Hx. rok Hx. rok Hx.
    eapply noown_trans; [|eapply quiet_noown; [eapply rh_initiate_prims; exact Hx|reflexivity]].
    eapply noown_trans; [|eapply quiet_noown; [eapply rh_rebuild_streams_prims; exact Hx1|reflexivity]].
    eapply noown_trans; [|eapply quiet_noown; [eapply rh_rebuild_progresses_prims; exact Hx0|reflexivity]].
    apply noown_eq. reflexivity. }
  assert (Q3 : forall id, noown id e3' e') by (intros id; eapply noown_trans; [apply Q2|apply Q]).
  split.
  { rewrite (Hlast _ _ _ (rh_initiate_prims _ _ H) eq_refl).
    assert (Hx3 : rs_last (en_state x) = rs_last (en_state e3')).
    { destruct (last_membership _ _) as [[lid m]|]; [|injection Hx as <-; reflexivity].
      unfold rh_append_membership in Hx. cbv zeta in Hx. rok Hx. rok Hx.
      rewrite (Hlast _ _ _ (rh_initiate_prims _ _ Hx) eq_refl), (Hlast _ _ _ (rh_rebuild_streams_prims _ _ Hx1) eq_refl), (Hlast _ _ _ (rh_rebuild_progresses_prims _ _ Hx0) eq_refl). reflexivity. }
    rewrite Hx3. unfold e3'. cbn. acc. unfold rs_last, lil_last. cbn. unfold lil_extend_same. cbn.
    replace (logid_eqb _ _) with true by (symmetry; apply logid_eqb_true; reflexivity). apply lil_append_last. }
  destruct (Q3 0) as (cs & Ho & _ & _). exists cs. rewrite Ho. unfold e3'. cbn [push en_out upd set_leader ld_set_last ld_vote].
  rewrite <- app_assoc. split; [reflexivity|]. intros id. destruct (Q3 id) as (cs' & Ho' & Hp & _). rewrite Ho in Ho'. apply app_inv_head in Ho' as <-. exact Hp.
Qed.
Lemma fh_append_out lv prev es e : exists cs, en_out (fh_append_entries lv prev es e) = en_out e ++ cs /\
  forall v x, AppendInputEntries v x ∈ cs -> v = lv.
Proof.
  unfold fh_append_entries. cbv zeta. destruct (drop _ es) as [|y r].
  - destruct (some_io_leb _ _); [exists []; rewrite app_nil_r; split; [reflexivity|intros v x Hx; apply elem_of_nil in Hx as []]|].
    eexists. split; [reflexivity|]. intros v x Hx. apply elem_of_list_singleton in Hx. discriminate.
  - destruct (fh_truncate_out (e_index y) (upd (rs_accept_io (IOLog lv (ologid_max prev (e_log_id <$> last es)))) e)) as (cs & Ho & Hcs).
    exists (cs ++ [AppendInputEntries lv (y :: r)]). rewrite fh_do_append_eq. cbn [en_out push]. cbn [en_out upd] in Ho.
    split.
    + rewrite app_assoc. cbn in *. rewrite <- Ho. reflexivity.
    + intros v x Hx. apply elem_of_app in Hx as [Hx|Hx]; [apply Hcs in Hx as (? & ? & _); discriminate|].
      apply elem_of_list_singleton in Hx. congruence.
Qed.
Lemma core_append_out now v prev es c tx e e' : led e -> li_node (v_leader v) <> en_id e ->
  core_append now v prev es c tx e = Ok e' -> noown (en_id e) e e'.
Proof.
  intros Hl Hne. unfold core_append. intros H. rok H. injection H as <-. unfold en_append_entries, en_append in Hx. rok Hx. rok Hx0.
  assert (N1 : noown (en_id e) e x1.1) by (eapply update_vote_out; [exact Hl|exact Hx1|congruence]).
  assert (N2 : noown (en_id e) x1.1 x0.1).
  { destruct (x1.2) eqn:Hb; cbn [negb] in Hx0; [|injection Hx0 as <-; apply noown_refl].
    pose proof (fh_ensure_consecutive_prims prev x1.1) as Pe. apply (quiet_noown (en_id e)) in Pe; [|reflexivity].
    destruct (fh_ensure_consecutive prev x1.1) as [e2 []]; injection Hx0 as <-; cbn [fst] in *; [|exact Pe].
    eapply noown_trans; [exact Pe|]. destruct (fh_append_out (fh_vote x1.1) prev es e2) as (cs & Ho & Hcs). exists cs. split; [exact Ho|]. split.
    - apply proposals_none. intros w y Hy. apply Hcs in Hy as ->. unfold fh_vote. cbn. destruct (update_vote_v' _ _ _ _ Hx1 Hb) as [-> _]. exact Hne.
    - pose proof (fh_append_entries_prims (fh_vote x1.1) prev es e2) as Pa. rewrite (prims_field _ _ prim_leader_same _ _ _ Pa eq_refl). auto. }
  assert (N3 : noown (en_id e) x0.1 x.1).
  { destruct x0 as [e1 r]. cbn [fst snd] in *. destruct r; [destruct (io_accepted _); [|discriminate]| |]; injection Hx as <-; eexists; (split; [reflexivity|split; [reflexivity|auto]]). }
  assert (N4 : noown (en_id e) x.1 (if x.2 then en_commit_entries c x.1 else x.1)).
  { destruct (x.2); [|apply noown_refl]. eapply quiet_noown; [apply fh_commit_prims|reflexivity]. }
  eapply noown_trans; [exact N1|]. eapply noown_trans; [exact N2|]. eapply noown_trans; eassumption.
Qed.
Lemma install_out' now v sn tx e e' : led e -> li_node (v_leader v) <> en_id e ->
  en_install_snapshot now v sn tx e = Ok e' -> noown (en_id e) e e'.
Proof.
  intros Hl Hne. unfold en_install_snapshot, vh_accept_vote. intros H. rok H. rok Hx.
  eapply noown_trans; [eapply update_vote_out; [exact Hl|exact Hx0|congruence]|].
  eapply (quiet_noown _ [KInstall; KRespond]); [|reflexivity]. destruct x0 as [e1 ok]. cbn [fst snd] in *.
  destruct ok; injection Hx as <-; cbn [fst snd negb] in H.
  - destruct (fh_install (fh_vote e1) sn e1) as [e2 cond] eqn:Hi. injection H as <-.
    eapply prims_trans; [|pone pr_respond; reflexivity].
    pose proof (pr_install (fh_vote e1) sn e1) as Hp. rewrite Hi in Hp. eapply prims_one'; [exact Hp|reflexivity].
  - injection H as <-. pone pr_respond; reflexivity.
Qed.
Lemma elect_out now e e' : led e -> en_elect now e = Ok e' -> noown (en_id e) e e'.
Proof.
  intros Hl. unfold en_elect. cbv zeta. intros H. rok H. destruct (x.2); [|discriminate]. injection H as <-.
  eapply noown_trans; [eapply (update_vote_out _ _ (en_new_candidate now _ e)); [exact Hl|exact Hx|left; reflexivity]|].
  exists [SendVote (mkVoteReq (vote_new (S (li_term (v_leader (rs_v (en_state e))))) (en_id e)) (rs_last (en_state e)))].
  rewrite ssh_update_eq. auto.
Qed.
Lemma tick_out now hb ee eh e e' : led e -> handle_tick now hb ee eh e = Ok e' ->
  (forall x, tick_election now ee e = Ok x -> led x) -> noown (en_id e) e e'.
Proof.
  intros Hl. unfold handle_tick. intros H Hx'. rok H. specialize (Hx' _ eq_refl).
  assert (N1 : noown (en_id e) e x).
  { apply ElectProofs.tick_election_spec in Hx as [(_ & Hx)|(_ & ->)]; [|apply noown_refl].
    apply (elect_out now (set_greater false e)); [exact Hl|exact Hx]. }
  eapply noown_trans; [exact N1|].
  set (e2 := match en_leader x with Some _ => _ | None => _ end) in H.
  assert (N2 : noown (en_id e) x e2).
  { unfold e2. destruct (en_leader x) as [l|] eqn:Hl2; [|apply noown_refl]. destruct (_ <=? _); [|apply noown_refl].
    destruct eh; unfold core_heartbeat; rewrite ?Hl2; try destruct (ld_transfer l);
      try (exists []; rewrite app_nil_r, ?Hl2; split; [reflexivity|split; [reflexivity|auto]]).
    eexists. split; [reflexivity|]. split; [reflexivity|]. rewrite Hl2. auto. }
  eapply noown_trans; [exact N2|]. destruct (ologid_leb _ _); [|injection H as <-; apply noown_refl].
  unfold en_step_down in H. destruct (ologid_leb _ _); [|injection H as <-; apply noown_refl].
  apply update_internal_out in H; [destruct H as [H Hq]; exists []; rewrite app_nil_r; auto|].
  assert (Q : en_state e2 = en_state x /\ en_id e2 = en_id x /\ (forall l, en_leader x = Some l -> exists l2, en_leader e2 = Some l2 /\ ld_vote l2 = ld_vote l)).
  { unfold e2. destruct (en_leader x) as [l|] eqn:Hl2; [|rewrite Hl2; repeat split; discriminate]. destruct (_ <=? _); [|rewrite Hl2; repeat split; eauto].
    destruct eh; cbn; unfold core_heartbeat; rewrite ?Hl2; try destruct (ld_transfer l); cbn; repeat split; intros l0 [= <-]; eexists; (split; [reflexivity|reflexivity]). }
  destruct Q as (Q1 & Q2 & Q3). rewrite Q1, Q2. intros Hld. destruct (Hx' Hld) as (l & Hl3 & Hl4). destruct (Q3 l Hl3) as (l2 & Hl5 & Hl6).
  exists l2. split; [exact Hl5|congruence].
Qed.
Lemma establish_out now e e' c : en_cand e = Some c -> en_leader e = None -> cd_vote c = rs_v (en_state e) ->
  v_committed (cd_vote c) = false -> en_establish now e = Ok e' ->
  let v := into_committed (rs_v (en_state e)) in
  rs_v (en_state e') = v /\ isS (en_leader e') = true /\ en_cfg e' = en_cfg e /\
  rs_last (en_state e') = Some (mkLogId (v_leader v) (next_index (cd_last c))) /\
  exists a b, en_out e' = en_out e ++ a ++ AppendInputEntries v (assign_ids (v_leader v) (next_index (cd_last c)) [PBlank]) :: b /\
    forall id, proposals id a = [] /\ proposals id b = [].
Proof.
  intros Hc Hl Hv Hcm He v. unfold en_establish in He. rewrite Hc in He. cbv zeta in He. unfold eh_establish in He.
  cbn [set_cand en_leader] in He. rewrite Hl in He. rok He. rok He.
  unfold rh_rebuild_streams in Hx. cbn [set_leader en_leader] in Hx. injection Hx as Hx.
  assert (Hlv : ld_vote (cand_into_leader now c) = v) by (unfold v; rewrite <- Hv; reflexivity).
  assert (Hll : ld_last (cand_into_leader now c) = cd_last c) by (cbn; destruct (cd_last c); reflexivity).
  set (l0 := cand_into_leader now c) in *. clearbody l0.
  assert (Hst : en_state x = en_state e) by (rewrite <- Hx; reflexivity).
  assert (Hcf : en_cfg x = en_cfg e) by (rewrite <- Hx; reflexivity).
  assert (Hlx : exists l1, en_leader x = Some l1 /\ ld_vote l1 = v /\ ld_last l1 = cd_last c).
  { rewrite <- Hx. cbn. eexists. split; [reflexivity|]. cbn. auto. }
  assert (Hox : exists r, en_out x = en_out e ++ [RebuildReplicationStreams r]) by (rewrite <- Hx; cbn; eauto).
  clear Hx. destruct Hlx as (l1 & Hl1 & Hlv1 & Hll1). destruct Hox as (r & Hox).
  assert (Hgt : vote_gtb v (rs_v (en_state e)) = true).
  { unfold v. rewrite <- Hv in *. clear - Hcm. destruct (cd_vote c) as [L k]. cbn in Hcm. subst k. ord. }
  unfold vh_update_vote in Hx0. rewrite Hlv, Hst, (vote_gtb_geb _ _ Hgt), Hgt in Hx0. cbn [negb] in Hx0. rok Hx0. injection Hx0 as <-.
  unfold vh_update_internal in Hx. cbn [fst] in He.
  set (ev := push _ _) in Hx.
  assert (Hv3 : rs_v (en_state ev) = v) by (subst ev; cbn; acc; cbn; reflexivity).
  assert (Hl3 : en_leader ev = Some l1) by exact Hl1.
  assert (Ho3 : en_out ev = en_out e ++ [RebuildReplicationStreams r; SaveVote v]).
  { subst ev. cbn. acc. cbn. rewrite Hox, <- app_assoc. reflexivity. }
  assert (Hcf3 : en_cfg ev = en_cfg e) by (subst ev; cbn; acc; cbn; exact Hcf).
  clearbody ev.
  destruct (rs_is_leader (en_state ev) (en_id ev)) eqn:Hlead.
  2:{ exfalso. unfold rs_is_leader in Hlead. rewrite Hv3 in Hlead. cbn [v into_committed v_committed] in Hlead.
      rewrite andb_true_r in Hlead. rewrite Hlead in Hx. injection Hx as <-.
      unfold vh_become_following, lh_append in He. rewrite ssh_update_eq in He. discriminate He. }
  unfold vh_become_leader in Hx. rewrite Hl3, Hlv1, Hv3 in Hx.
  replace (leader_eqb _ _) with true in Hx by (symmetry; apply leader_eqb_eq; reflexivity). injection Hx as <-. rewrite ssh_update_eq in He.
  match type of He with lh_append _ ?t = _ => set (e4 := t) in He end.
  assert (Hv4 : rs_v (en_state e4) = v) by (subst e4; cbn; acc; cbn; exact Hv3).
  assert (Ho4 : en_out e4 = en_out ev) by (subst e4; cbn; acc; cbn; reflexivity).
  assert (Hcf4 : en_cfg e4 = en_cfg ev) by (subst e4; cbn; acc; cbn; reflexivity).
  assert (Hl4 : en_leader e4 = Some (ld_set_vote (into_committed v) l1)) by (subst e4; cbn; acc; cbn; reflexivity).
  clearbody e4. destruct (lh_append_out _ _ _ _ Hl4 He) as (Hla & cs & Ho & Hp). apply lh_append_one in He as (H1 & H2 & H3 & H4 & H5 & H6 & _).
  split; [congruence|]. split; [exact H5|]. split; [congruence|]. split; [rewrite Hla; cbn; rewrite Hll1; reflexivity|].
  exists [RebuildReplicationStreams r; SaveVote v], cs. split; [|intros id; split; [reflexivity|apply Hp]].
  rewrite Ho, Ho4, Ho3. cbn [ld_vote ld_set_vote ld_last]. rewrite <- app_assoc. cbn. rewrite Hll1. reflexivity.
Qed.
Definition lid0 : LogId := mkLogId (mkLeaderId 0 0) 0.
Lemma elect_first now ms e2 x v1 : v1 = vote_new 1 (en_id e2) -> rs_v (en_state e2) = into_committed vote_default ->
  rs_last (en_state e2) = Some lid0 -> rs_eff (en_state e2) = mkEM (Some lid0) (mkMembership [dom ms] ms) ->
  m_contains (mkMembership [dom ms] ms) (en_id e2) = true -> en_elect now e2 = Ok x ->
  en_out x = en_out e2 ++ [SaveVote v1; SendVote (mkVoteReq v1 (Some lid0))] /\
  rs_v (en_state x) = v1 /\ rs_last (en_state x) = Some lid0 /\ rs_eff (en_state x) = rs_eff (en_state e2) /\
  rs_server (en_state x) = SCandidate /\
  (exists c, en_cand x = Some c /\ cd_vote c = v1 /\ cd_qs c = [dom ms]) /\ en_leader x = en_leader e2 /\
  rs_committed (en_state x) = rs_committed (en_state e2) /\ rs_snap (en_state x) = rs_snap (en_state e2) /\ rs_purge_upto (en_state x) = rs_purge_upto (en_state e2).
Proof.
  intros Hv1 Hv2 Hl2 He2 Hk H. unfold en_elect in H. cbv zeta in H. rewrite Hv2 in H. cbn [into_committed v_leader vote_default li_term] in H.
  rewrite <- Hv1, Hl2 in H. rok H. destruct (x0.2) eqn:Hb; [|discriminate]. injection H as <-.
  assert (Hg : vote_gtb v1 (into_committed vote_default) = true) by (rewrite Hv1; generalize (en_id e2); clear; intros i; cbn; ord).
  assert (Hn1 : li_node (v_leader v1) = en_id e2 /\ v_committed v1 = false) by (rewrite Hv1; split; reflexivity).
  clear Hv1. destruct Hn1 as [Hn1 Hc1].
  unfold vh_update_vote in Hx. unfold en_new_candidate in Hx. cbn [en_state set_cand] in Hx. rewrite Hv2 in Hx.
  rewrite (vote_gtb_geb _ _ Hg), Hg in Hx. cbn [negb] in Hx. rok Hx. injection Hx as <-. cbn [fst].
  unfold vh_update_internal in Hx0.
  match type of Hx0 with (if rs_is_leader (en_state ?t) _ then _ else _) = _ => remember t as e3 eqn:He3' in Hx0 end.
  assert (Hv3 : rs_v (en_state e3) = v1) by (rewrite He3'; cbn; acc; cbn; reflexivity).
  assert (H3 : en_id e3 = en_id e2 /\ en_leader e3 = en_leader e2 /\ rs_committed (en_state e3) = rs_committed (en_state e2) /\
                rs_snap (en_state e3) = rs_snap (en_state e2) /\ rs_purge_upto (en_state e3) = rs_purge_upto (en_state e2) /\
                rs_eff (en_state e3) = rs_eff (en_state e2) /\ rs_last (en_state e3) = rs_last (en_state e2) /\ en_out e3 = en_out e2 ++ [SaveVote v1] /\
                exists c, en_cand e3 = Some c /\ cd_vote c = v1 /\ cd_qs c = [dom ms]).
  { rewrite He3'. cbn. acc. cbn. repeat (split; [reflexivity|]). eexists. split; [reflexivity|]. split; [reflexivity|]. cbn. rewrite He2. reflexivity. }
  clear He3'. destruct H3 as (Hid3 & Hle3 & Hc3 & Hs3 & Hp3 & He3 & Hl3 & Ho3 & Hcd3).
  assert (Hlg : rs_is_leading (en_state e3) (en_id e3) = true).
  { unfold rs_is_leading. rewrite He3, He2, Hid3, Hv3. cbn [em_mem]. rewrite Hk. unfold voted_for. rewrite Hn1. cbn. apply Nat.eqb_refl. }
  assert (Hld : rs_is_leader (en_state e3) (en_id e3) = false) by (unfold rs_is_leader; rewrite Hlg, Hv3, Hc1; reflexivity).
  rewrite Hld, Hlg in Hx0. injection Hx0 as <-.
  assert (Hca : rs_calc_server (en_state e3) (en_id e3) = SCandidate) by (unfold rs_calc_server; rewrite Hld, Hlg; reflexivity).
  rewrite ssh_update_eq. cbn [push en_out upd en_state en_cand en_leader].
  replace (rs_calc_server _ _) with SCandidate by (symmetry; exact Hca).
  assert (Q : forall t, rs_v (set_server t (en_state e3)) = rs_v (en_state e3) /\ rs_last (set_server t (en_state e3)) = rs_last (en_state e3) /\
     rs_eff (set_server t (en_state e3)) = rs_eff (en_state e3) /\ rs_server (set_server t (en_state e3)) = t /\ rs_committed (set_server t (en_state e3)) = rs_committed (en_state e3) /\
     rs_snap (set_server t (en_state e3)) = rs_snap (en_state e3) /\ rs_purge_upto (set_server t (en_state e3)) = rs_purge_upto (en_state e3)) by (intros t; repeat split).
  destruct (Q SCandidate) as (-> & -> & -> & -> & -> & -> & ->). rewrite Ho3, <- app_assoc. split; [reflexivity|].
  split; [exact Hv3|]. split; [congruence|]. split; [exact He3|]. split; [reflexivity|]. split; [exact Hcd3|]. auto.
Qed.
Lemma initialize_ok now ms tx e e' : let m := mkMembership [dom ms] ms in let v1 := vote_new 1 (en_id e) in
  rs_last (en_state e) = None -> rs_v (en_state e) = vote_default -> en_id e ∈ dom ms ->
  core_initialize now ms tx e = Ok e' ->
  en_out e' = en_out e ++ [AppendInputEntries (into_committed vote_default) [init_entry m]; SaveVote v1;
                           SendVote (mkVoteReq v1 (Some lid0)); Respond (Some (LogFlushed (Some lid0))) (RInitialize None) tx] /\
  rs_v (en_state e') = v1 /\ rs_last (en_state e') = Some lid0 /\ rs_eff (en_state e') = mkEM (Some lid0) m /\
  rs_server (en_state e') = SCandidate /\
  (exists c, en_cand e' = Some c /\ cd_vote c = v1 /\ cd_qs c = [dom ms]) /\ en_leader e' = en_leader e /\
  rs_committed (en_state e') = rs_committed (en_state e) /\ rs_snap (en_state e') = rs_snap (en_state e) /\ rs_purge_upto (en_state e') = rs_purge_upto (en_state e).
Proof.
  cbv zeta. intros Hl Hv Hid. unfold core_initialize, en_initialize.
  assert (Hi : rs_is_initialized (en_state e) = false) by (unfold rs_is_initialized; rewrite Hl, Hv; reflexivity).
  assert (Hm : m_is_voter (mkMembership [dom ms] ms) (en_id e) = true) by (unfold m_is_voter; cbn; apply orb_true_iff; left; apply bool_decide_eq_true; exact Hid).
  assert (Hk : m_contains (mkMembership [dom ms] ms) (en_id e) = true) by (unfold m_contains; cbn; apply elem_of_dom in Hid as [? ->]; reflexivity).
  rewrite Hi, Hm. cbn [negb]. intros H. rok H. injection H as <-. rok Hx. injection Hx as <-. cbn [fst snd].
  match type of Hx0 with en_elect _ ?t = _ => remember t as e2 eqn:He2' in Hx0 end.
  assert (Hll : rs_log_ids (en_state e) = []).
  { unfold rs_last, lil_last in Hl. apply last_None. exact Hl. }
  assert (Hv2 : rs_v (en_state e2) = into_committed vote_default) by (rewrite He2', fh_do_append_eq; reflexivity).
  assert (Ho2 : en_out e2 = en_out e ++ [AppendInputEntries (into_committed vote_default) [init_entry (mkMembership [dom ms] ms)]]) by (rewrite He2', fh_do_append_eq; reflexivity).
  assert (Hl2 : rs_last (en_state e2) = Some lid0).
  { rewrite He2', fh_do_append_eq. cbn. unfold rs_last. cbn. unfold lil_extend. rewrite Hll. reflexivity. }
  assert (He2 : rs_eff (en_state e2) = mkEM (Some lid0) (mkMembership [dom ms] ms)) by (rewrite He2', fh_do_append_eq; reflexivity).
  assert (Hr2 : en_id e2 = en_id e /\ en_leader e2 = en_leader e /\ rs_committed (en_state e2) = rs_committed (en_state e) /\
                rs_snap (en_state e2) = rs_snap (en_state e) /\ rs_purge_upto (en_state e2) = rs_purge_upto (en_state e)).
  { rewrite He2', fh_do_append_eq. cbn. auto. }
  clear He2'. destruct Hr2 as (Hid2 & Hle2 & Hc2 & Hs2 & Hp2). rewrite <- Hid2 in *.
  destruct (elect_first _ _ _ _ _ eq_refl Hv2 Hl2 He2 Hk Hx0) as (A1 & A2 & A3 & A4 & A5 & A6 & A7 & A8 & A9 & A10).
  cbn [push en_out en_state en_cand en_leader]. rewrite A1, Ho2, A2, A3, A4, A5, A7, A8, A9, A10, <- !app_assoc. repeat (split; [assumption || reflexivity|]). assumption.
Qed.
Lemma initialize_refused now ms tx e e' :
  core_initialize now ms tx e = Ok e' -> ~ (rs_last (en_state e) = None /\ rs_v (en_state e) = vote_default /\ en_id e ∈ dom ms) ->
  exists err, e' = push (Respond None (RInitialize (Some err)) tx) e /\
    (err = NotAllowed (rs_last (en_state e)) (rs_v (en_state e)) /\ (rs_last (en_state e) <> None \/ rs_v (en_state e) <> vote_default) \/
     err = NotInMembers /\ rs_last (en_state e) = None /\ rs_v (en_state e) = vote_default /\ en_id e ∉ dom ms).
Proof.
  unfold core_initialize, en_initialize. intros H Hn. rok H. injection H as <-. destruct (rs_is_initialized (en_state e)) eqn:Hi.
  - injection Hx as <-. eexists. split; [reflexivity|]. left. split; [reflexivity|]. unfold rs_is_initialized in Hi.
    destruct (rs_last (en_state e)) as [|]; [left; discriminate|right]. intros Hv. rewrite Hv in Hi. discriminate.
  - destruct (negb _) eqn:Hv.
    + injection Hx as <-. eexists. split; [reflexivity|]. right. split; [reflexivity|]. unfold rs_is_initialized in Hi.
      destruct (rs_last (en_state e)); [discriminate|]. apply negb_false_iff, vote_eqb_true in Hi. split; [reflexivity|]. split; [exact Hi|].
      intros Hin. unfold m_is_voter in Hv. cbn in Hv. rewrite bool_decide_eq_true_2 in Hv by exact Hin. discriminate.
    + exfalso. apply Hn. unfold rs_is_initialized in Hi.
      destruct (rs_last (en_state e)); [discriminate|]. apply negb_false_iff, vote_eqb_true in Hi. split; [reflexivity|]. split; [exact Hi|].
      apply negb_false_iff in Hv. unfold m_is_voter in Hv. cbn in Hv. apply orb_true_iff in Hv as [Hv|Hv]; [|discriminate]. apply bool_decide_eq_true in Hv. exact Hv.
Qed.
Lemma led_of E me D e : ei E me D e -> RI e -> led e.
Proof.
  intros I (Hr & _) Hl. specialize (Hr Hl). destruct (en_leader e) as [l|] eqn:Hle; [|discriminate].
  exists l. split; [reflexivity|]. destruct (ei_el _ _ _ _ I l Hle) as (-> & _). reflexivity.
Qed.

(** What a node proposes in a step: nothing; or, as the leader, one entry after its last
    one, for a client's write or as the blank entry of a just won election; or the first
    entry of all, by [initialize] (which counts as an own proposal only for node 0). *)
Definition own_case (ev : Event) (n n' : Node) (ps : list (Vote * list Entry)) : Prop :=
  (ps = [] /\ (isS (en_leader (nd_eng n')) = true -> isS (en_leader (nd_eng n)) = true)) \/
  (exists p, ps = [(rs_v (nd_state n'), assign_ids (v_leader (rs_v (nd_state n'))) (next_index (rs_last (nd_state n))) [p])] /\
     rs_last (nd_state n') = Some (mkLogId (v_leader (rs_v (nd_state n'))) (next_index (rs_last (nd_state n)))) /\
     isS (en_leader (nd_eng n')) = true /\ li_node (v_leader (rs_v (nd_state n'))) = nd_id n /\ v_committed (rs_v (nd_state n')) = true /\
     ((isS (en_leader (nd_eng n)) = true /\ rs_v (nd_state n') = rs_v (nd_state n) /\
       ((exists d tx, ev = EMsg (MWrite d tx) /\ p = PNormal d) \/
        (exists ch rt tx m, ev = EMsg (MChange ch rt tx) /\ p = PMembership m /\ ms_change (rs_mem (nd_state n)) ch rt = inl m))) \/
      (isS (en_leader (nd_eng n)) = false /\ p = PBlank /\ ev = ENote /\
       rs_v (nd_state n) = mkVote (v_leader (rs_v (nd_state n'))) false))) \/
  (exists ms tx, ev = EMsg (MInitialize ms tx) /\ nd_id n = 0 /\ nd_id n ∈ dom ms /\ rs_last (nd_state n) = None /\ rs_v (nd_state n) = vote_default /\
     ps = [(into_committed vote_default, [init_entry (mkMembership [dom ms] ms)])]).
Lemma own_case_none ev n n' : noown (nd_id n) (nd_eng n) (nd_eng n') ->
  own_case ev n n' (proposals (nd_id n) (step_produced ev n n')).
Proof.
  intros (cs & Ho & Hp & Hl). left. split; [|exact Hl]. unfold step_produced. rewrite Ho, drop_app. destruct ev; try exact Hp. reflexivity.
Qed.
Lemma own_case_same ev n n' : nd_eng n' = nd_eng n -> own_case ev n n' (proposals (nd_id n) (step_produced ev n n')).
Proof. intros He. apply own_case_none, noown_eq. rewrite He. reflexivity. Qed.

Section own.
  Context (E : Env) (me : nat).
  Lemma write_own p tx n x D : ei E me D (nd_eng n) -> core_write p tx n = Ok x ->
    nd_eng x.1 = nd_eng n \/
    (exists cs, en_out (nd_eng x.1) = en_out (nd_eng n) ++ AppendInputEntries (rs_v (nd_state n)) (assign_ids (v_leader (rs_v (nd_state n))) (next_index (rs_last (nd_state n))) [p]) :: cs /\
      rs_last (nd_state x.1) = Some (mkLogId (v_leader (rs_v (nd_state n))) (next_index (rs_last (nd_state n)))) /\
      (forall id, proposals id cs = []) /\ rs_v (nd_state x.1) = rs_v (nd_state n) /\ isS (en_leader (nd_eng n)) = true /\ isS (en_leader (nd_eng x.1)) = true /\
      li_node (v_leader (rs_v (nd_state n))) = me /\ v_committed (rs_v (nd_state n)) = true).
  Proof.
    intros I. unfold core_write. destruct (en_leader (nd_eng n)) as [l|] eqn:Hl; [|intros [= <-]; left; reflexivity].
    destruct (ld_transfer l); [intros [= <-]; left; reflexivity|]. intros H. rok H. destruct (rs_last _); [|discriminate]. injection H as <-.
    right. destruct (lh_append_out _ _ _ _ Hl Hx) as (Hla & cs & Ho & Hp). apply lh_append_one in Hx as (_ & Hv & _ & H4 & H5 & _).
    destruct (ei_el _ _ _ _ I l Hl) as (L1 & L2 & L3 & L4 & _). exists cs. unfold nd_state. cbn [fst nd_eng nd_set_clients nd_set_eng].
    rewrite Hla, Ho, L1, L4, <- (ec_last E D _ (ei_ec _ _ _ _ I)). rewrite L1 in L2, L3. repeat split; auto.
  Qed.
  Lemma prop_one id v es a b : li_node (v_leader v) = id -> proposals id a = [] -> proposals id b = [] ->
    proposals id (a ++ AppendInputEntries v es :: b) = [(v, es)].
  Proof. intros Hid Ha Hb. rewrite proposals_app, Ha. cbn. rewrite Hid, Nat.eqb_refl. fold (proposals id b). rewrite Hb. reflexivity. Qed.
  Lemma own_stored n : node_inv E me n -> vote_le (stored_vote n) (rs_v (nd_state n)).
  Proof. intros (w0 & pcs & wv & D & N). destruct (n_v _ _ _ _ _ _ _ N) as (_ & Hv). eapply VoteNodeProofs.vchain_le. exact Hv. Qed.
  Lemma note_own now x r n y : node_inv E me n -> RI (nd_eng n) -> nd_notes n = x :: r ->
    handle_note now x (nd_set_notes r n) = Ok y -> own_case ENote n y.1 (proposals (nd_id n) (step_produced ENote n y.1)).
  Proof.
    intros In HR Hn H. pose proof (node_ei E me _ In) as I. pose proof (ei_id _ _ _ _ I) as Hid. fold (nd_id n) in Hid.
    pose proof (led_of _ _ _ _ I HR) as Hled. pose proof (ec_last E _ _ (ei_ec _ _ _ _ I)) as Hlast.
    assert (Hni : match x with NVoteResp _ resp _ => li_node (v_leader (vr_vote resp)) = nd_id n -> vote_le (vr_vote resp) (rs_v (nd_state n))
                  | NHigherVote v _ => li_node (v_leader v) = nd_id n -> vote_le v (rs_v (nd_state n)) | _ => True end).
    { rewrite Hid. pose proof (own_stored n In) as Hle. destruct In as (w0 & pcs & wv & D & N). pose proof (n_notes _ _ _ _ _ _ _ N) as HN. rewrite Hn in HN. apply Forall_cons_1 in HN as [HN _].
      destruct x; cbn in HN; try exact Logic.I; intros Ho; (apply HN; exact Ho). }
    destruct x; cbn [handle_note] in H; cbn [nd_eng nd_set_notes] in H.
    - destruct (en_cand (nd_eng n)) as [c|] eqn:Hc; [|injection H as <-; apply own_case_same; reflexivity].
      destruct (vote_matches _ _); [|injection H as <-; apply own_case_same; reflexivity].
      apply lift_prims in H as (e' & H & ->). cbn [fst nd_set_eng nd_eng].
      unfold en_vote_resp in H. rewrite Hc in H. destruct (_ && _).
      + rok H. cbv zeta in H. destruct x as [c' []]; cbn [fst snd] in H.
        * destruct (ei_cl _ _ _ _ I c Hc) as (C1 & C2 & C3 & C4 & C5).
          assert (Hc' : cd_vote c' = cd_vote c /\ cd_last c' = cd_last c).
          { unfold cand_grant in Hx. destruct (vp_update _ _ _ _ _) as [p []]; [injection Hx as <- _|discriminate]. auto. }
          destruct Hc' as [V' L'].
          destruct (establish_out now (set_cand (Some c') (nd_eng n)) e' c' eq_refl C5) as (V & S & Cf & Hla & a & b & Ho & Hp).
          { rewrite V'. exact C1. } { rewrite V'. exact C2. } { exact H. }
          cbn [set_cand en_state en_out] in V, Ho, Hla. right. left. exists PBlank. unfold step_produced, nd_state. cbn [nd_eng nd_set_eng nd_set_notes].
          rewrite Hla, Ho, drop_app, V. fold (nd_state n). rewrite L', C4, <- Hlast. fold (nd_state n).
          assert (Ho' : li_node (v_leader (into_committed (rs_v (nd_state n)))) = nd_id n) by (cbn; unfold nd_state; rewrite <- C1, Hid; exact C3).
          split; [apply prop_one; [exact Ho'|apply Hp|apply Hp]|]. split; [reflexivity|]. split; [exact S|]. split; [exact Ho'|]. split; [reflexivity|].
          right. split; [rewrite C5; reflexivity|]. split; [reflexivity|]. split; [reflexivity|].
          unfold nd_state in *. rewrite C1 in C2. destruct (rs_v _) as [L k]. cbn in *. congruence.
        * injection H as <-. apply own_case_none, noown_eq. reflexivity.
      + cbv zeta in H. rok H. injection H as <-. apply own_case_none. cbn [nd_eng nd_set_eng].
        assert (Q : forall b, let e1 := (if b : bool then set_greater true (nd_eng n) else nd_eng n) in led e1 /\ noown (nd_id n) (nd_eng n) e1 /\ rs_v (en_state e1) = rs_v (nd_state n) /\ en_id e1 = nd_id n).
        { intros []; repeat split; try exact Hled; apply noown_eq; reflexivity. }
        specialize (Q (ologid_ltb (rs_last (en_state (nd_eng n))) (vr_last resp))). cbv zeta in Q.
        set (e1 := if ologid_ltb _ _ then _ else _) in *. clearbody e1. destruct Q as (Q1 & Q2 & Q3 & Q4).
        eapply noown_trans; [exact Q2|]. rewrite <- Q4. eapply update_vote_out; [exact Q1|exact Hx|].
        rewrite Q3, Q4. intros Ho Hg. exfalso. specialize (Hni Ho). revert Hni Hg. clear. unfold vote_le. generalize (vr_vote resp) (rs_v (nd_state n)). ord.
    - destruct (vote_matches _ _); [|injection H as <-; apply own_case_same; reflexivity]. apply lift_prims in H as (e' & H & ->). rok H. injection H as <-.
      apply own_case_none. cbn [nd_eng nd_set_eng]. unfold nd_id. eapply update_vote_out; [exact Hled|exact Hx|].
      intros Ho Hg. exfalso. specialize (Hni Ho). revert Hni Hg. clear. unfold nd_state, vote_le. generalize higher (rs_v (en_state (nd_eng n))). ord.
    - match goal with |- own_case _ _ (?y.1) _ => idtac end. apply own_case_none.
      destruct io as [|v lid]; [injection H as <-; apply noown_eq; reflexivity|].
      match type of H with context [nd_upd_io ?f ?m] => set (n1 := nd_upd_io f m) in * end.
      assert (H1 : noown (nd_id n) (nd_eng n) (nd_eng n1)) by (apply noown_eq; reflexivity).
      destruct (en_leader (nd_eng n1)); [|injection H as <-; exact H1]. destruct (vote_matches _ _); [|injection H as <-; exact H1].
      apply lift_prims in H as (e' & H & ->). eapply noown_trans; [exact H1|]. eapply quiet_noown; [eapply rh_update_local_prims; exact H|reflexivity].
    - destruct (session_matches _ _); [|injection H as <-; apply own_case_same; reflexivity]. apply lift_prims in H as (e' & H & ->).
      apply own_case_none. eapply quiet_noown; [eapply rh_update_progress_prims; exact H|reflexivity].
    - destruct (session_matches _ _); [|injection H as <-; apply own_case_same; reflexivity]. apply lift_prims in H as (e' & H & ->).
      apply own_case_none. eapply quiet_noown; [eapply rh_update_clock_prims; exact H|reflexivity].
    - apply own_case_none. destruct r0.
      + rok H. injection H as <-. eapply noown_trans; [eapply quiet_noown; [eapply en_finish_building_prims; exact Hx|reflexivity]|]. apply noown_eq. reflexivity.
      + injection H as <-. apply noown_eq. reflexivity.
      + destruct (apply_results _ _). injection H as <-. apply noown_eq. reflexivity.
  Qed.
  Lemma msg_own now m n x : node_inv E me n -> RI (nd_eng n) -> msg_fits E n m -> handle_msg now m n = Ok x ->
    own_case (EMsg m) n x.1 (proposals (nd_id n) (step_produced (EMsg m) n x.1)).
  Proof.
    intros In HR Hf H. pose proof (node_ei E me _ In) as I. pose proof (ei_id _ _ _ _ I) as Hid. fold (nd_id n) in Hid.
    pose proof (led_of _ _ _ _ I HR) as Hled. pose proof (ec_last E _ _ (ei_ec _ _ _ _ I)) as Hlast.
    assert (Hw : forall p tx, core_write p tx n = Ok x -> ((exists d tx, m = MWrite d tx /\ p = PNormal d) \/
        (exists ch rt tx m0, m = MChange ch rt tx /\ p = PMembership m0 /\ ms_change (rs_mem (nd_state n)) ch rt = inl m0)) ->
        own_case (EMsg m) n x.1 (proposals (nd_id n) (step_produced (EMsg m) n x.1))).
    { intros p tx Hw Hm. destruct (write_own _ _ _ _ _ I Hw) as [He|(cs & Ho & Hla & Hp & Hv & Hl & Hl' & Hn & Hc)]; [apply own_case_same; exact He|].
      right. left. exists p. unfold step_produced. rewrite Ho, drop_app, Hv. rewrite <- Hid in Hn.
      split; [apply (prop_one _ _ _ []); [exact Hn|reflexivity|apply Hp]|]. split; [exact Hla|]. split; [exact Hl'|]. split; [exact Hn|]. split; [exact Hc|].
      left. split; [exact Hl|]. split; [reflexivity|]. destruct Hm as [(d & t & -> & ->)|(ch & rt & t & m0 & -> & -> & Hm)]; [left|right]; eauto 10. }
    destruct m; cbn [handle_msg] in H; cbn [msg_fits] in Hf;
      try (apply lift_prims in H as (e' & H & ->); cbn [fst]).
    - destruct Hf as ((_ & Hne & _) & _). apply own_case_none. eapply core_append_out; eassumption.
    - unfold core_vote in H. rok H. injection H as <-. apply own_case_none. cbn [nd_eng nd_set_eng].
      eapply (noown_trans _ _ x.1); [|eexists; split; [reflexivity|split; [reflexivity|auto]]].
      unfold en_vote_req in Hx. destruct (_ && _); [injection Hx as <-; apply noown_refl|]. destruct (negb _); [injection Hx as <-; apply noown_refl|].
      rok Hx. injection Hx as <-. cbn [fst]. unfold nd_id. eapply update_vote_out; [exact Hled|exact Hx0|].
      intros Ho Hg. exfalso. assert (Hle : vote_le (vq_vote req) (rs_v (nd_state n))) by (apply Hf; exact Ho).
      revert Hle Hg. clear. unfold nd_state, vote_le. generalize (vq_vote req) (rs_v (en_state (nd_eng n))). ord.
    - destruct Hf as ((_ & Hne & _) & _). apply own_case_none. eapply install_out'; eassumption.
    - apply own_case_none. cbn [nd_eng nd_set_eng]. unfold core_transfer in H. destruct (vote_eqb _ _); [|injection H as <-; apply noown_refl]. cbv zeta in H.
      destruct (en_id _ =? _); [|injection H as <-; apply noown_eq; reflexivity].
      set (e1 := upd _ _) in H. assert (Q : noown (nd_id n) (nd_eng n) e1 /\ led e1 /\ en_id e1 = nd_id n) by (split; [apply noown_eq; reflexivity|split; [exact Hled|reflexivity]]).
      clearbody e1. destruct Q as (Q1 & Q2 & Q3). eapply noown_trans; [exact Q1|]. rewrite <- Q3. eapply elect_out; [exact Q2|exact H].
    - destruct (decide (rs_last (nd_state n) = None /\ rs_v (nd_state n) = vote_default /\ nd_id n ∈ dom members)) as [(Y1 & Y2 & Y3)|Y].
      + destruct (initialize_ok _ _ _ _ _ Y1 Y2 Y3 H) as (Ho & _ & _ & _ & _ & _ & Hle & _). unfold step_produced. cbn [nd_eng nd_set_eng]. rewrite Ho, drop_app.
        destruct (nd_id n) as [|k] eqn:Hk.
        * right. right. exists members, tx. repeat split; auto. rewrite Hk. exact Y3.
        * left. split; [reflexivity|]. cbn [nd_eng nd_set_eng]. rewrite Hle. auto.
      + apply own_case_none. destruct (initialize_refused _ _ _ _ _ H Y) as (err & -> & _). eexists. split; [reflexivity|split; [reflexivity|auto]].
    - eapply Hw; [exact H|]. left. eauto.
    - unfold core_change in H. destruct (ms_change _ _ _) as [m|] eqn:Hm.
      + eapply Hw; [exact H|]. right. eauto 10.
      + injection H as <-. apply own_case_same. reflexivity.
    - apply own_case_same. unfold core_read in H. repeat case_match; try discriminate; injection H as <-; reflexivity.
    - apply own_case_none. cbn [nd_eng nd_set_eng]. destruct (rs_is_voter _ _); [|injection H as <-; apply noown_refl]. eapply elect_out; [exact Hled|exact H].
    - apply own_case_none. injection H as <-. eapply quiet_noown; [apply core_heartbeat_prims|reflexivity].
    - apply own_case_none. injection H as <-. eapply quiet_noown; [apply sh_trigger_prims with (ks := [KBuild]); reflexivity|reflexivity].
    - apply own_case_none. eapply quiet_noown; [eapply en_trigger_purge_prims; exact H|reflexivity].
    - apply own_case_none. injection H as <-. eapply quiet_noown; [apply en_trigger_transfer_prims|reflexivity].
  Qed.
  Lemma own_step now ev n n' outs : node_inv E me n -> RI (nd_eng n) -> event_fits E n ev -> node_step now ev n = Ok (n', outs) ->
    own_case ev n n' (proposals (nd_id n) (step_produced ev n n')).
  Proof.
    intros In HR Hf Hs. pose proof (node_ei E me _ In) as I. pose proof (led_of _ _ _ _ I HR) as Hled.
    destruct (node_step_cases now ev n n' outs Hs) as [H1 H2|c r H1 H2 H3 H4|H1 H2 H3 H4 H5 H6|t c x r H1 H2 H3 H4 H5 H6 H7|H1 H2 H3].
    - subst n'. apply own_case_same. reflexivity.
    - subst ev. left. split; [reflexivity|]. pose proof (node_step_kinds _ _ _ _ Hs) as Hk. cbn [fst event_kinds] in Hk. rewrite (prims_field _ _ prim_leader_same _ _ _ Hk eq_refl). auto.
    - destruct ev; cbn [node_step] in Hs; unfold when_idle in Hs; rewrite ?H2 in Hs; try (exfalso; congruence).
      + eapply (msg_own now m n (n', outs)); eassumption.
      + destruct (nd_notes n) as [|x r] eqn:Hn; [injection Hs as <- <-; apply own_case_same; reflexivity|]. eapply (note_own now x r n (n', outs)); eassumption.
      + apply own_case_none. apply lift_prims in Hs as (e' & Hs & Hp). injection Hp as -> ->. cbn [nd_eng nd_set_eng]. eapply tick_out; [exact Hled|exact Hs|].
        intros x Hx. apply ElectProofs.tick_election_spec in Hx as [(_ & Hx)|(_ & ->)]; [|exact Hled].
        apply ElectProofs.elect_spec in Hx as (Hx & _). intros Q. exfalso. unfold rs_is_leader in Q. rewrite Hx in Q. cbn in Q. rewrite andb_false_r in Q. discriminate.
      + destruct (en_leader (nd_eng n)); [|injection Hs as <- <-; apply own_case_same; reflexivity]. apply lift_prims in Hs as (e' & Hs & Hp). injection Hp as -> ->.
        apply own_case_none. eapply quiet_noown; [eapply rh_initiate_prims; exact Hs|reflexivity].
      + injection Hs as <- <-. apply own_case_same. reflexivity.
      + destruct (_ !! _); injection Hs as <- <-; apply own_case_same; reflexivity.
      + rok Hs. injection Hs as <- <-. apply sm_step_eng in Hx as [Hx _]. apply own_case_same. exact Hx.
      + injection Hs as <- <-. apply own_case_same. unfold build_done. destruct (nd_builds n !! i); reflexivity.
      + apply stream_send_eng in Hs as [Hs _]. cbn in Hs. apply own_case_same. exact Hs.
      + injection Hs as <- <-. apply own_case_same. exact (proj1 (stream_fail_eng _ _)).
      + injection Hs as <- <-. apply own_case_same. unfold stream_snap_reply. repeat case_match; reflexivity.
      + injection Hs as Hs. assert (Q : nd_eng n' = nd_eng n) by (revert Hs; unfold hb_send; repeat case_match; intros [= <- <-]; reflexivity). apply own_case_same. exact Q.
      + injection Hs as Hs. pose proof (proj1 (handle_reply_eng tag r n)) as Q. rewrite Hs in Q. cbn in Q. apply own_case_same. exact Q.
    - subst ev. cbn [node_step] in Hs. unfold when_idle in Hs. rewrite H2, H3 in Hs. eapply (note_own now x r n (n', outs)); eassumption.
    - apply own_case_same. exact H1.
  Qed.
End own.

(** A request of another leader that is not refused makes the node follow it. *)
Lemma append_follow now v prev es c tx e e' : core_append now v prev es c tx e = Ok e' ->
  (exists w r, e' = push (Respond w (RAppend r) tx) e) \/ rs_v (en_state e') = v.
Proof.
  unfold core_append. intros H. rok H. injection H as <-. unfold en_append_entries, en_append in Hx. rok Hx. rok Hx0.
  destruct (x1.2) eqn:Hb; cbn [negb] in Hx0.
  - right. destruct (update_vote_v' _ _ _ _ Hx1 Hb) as [Hv _]. rewrite <- Hv.
    assert (V : forall ks a b, prims ks a b -> existsb k_changes_vote ks = false -> rs_v (en_state b) = rs_v (en_state a)).
    { intros ks a b Hp Hk. revert Hp Hk. apply (prims_field (fun e => rs_v (en_state e)) k_changes_vote). intros k a0 b0 Hp Hk.
      exact (prim_vote_same _ _ _ Hp Hk). }
    assert (V1 : rs_v (en_state x0.1) = rs_v (en_state x1.1)).
    { pose proof (V _ _ _ (fh_ensure_consecutive_prims prev x1.1) eq_refl) as Pe.
      destruct (fh_ensure_consecutive prev x1.1) as [e2 []]; injection Hx0 as <-; cbn [fst] in *; [|exact Pe].
      rewrite <- Pe. eapply V; [apply fh_append_entries_prims|reflexivity]. }
    assert (V2 : rs_v (en_state x.1) = rs_v (en_state x0.1)) by (repeat case_match; simplify_eq; reflexivity).
    destruct (x.2); [|congruence]. rewrite <- V1, <- V2. eapply V; [apply fh_commit_prims|reflexivity].
  - left. unfold vh_update_vote in Hx1. destruct (negb _); [|rok Hx1; injection Hx1 as <-; discriminate]. injection Hx1 as <-. injection Hx0 as <-.
    cbn [fst snd] in Hx. injection Hx as <-. eauto.
Qed.
Lemma install_follow now v sn tx e e' : en_install_snapshot now v sn tx e = Ok e' ->
  (exists w r, e' = push (Respond w (RSnapshot r) tx) e) \/ rs_v (en_state e') = v.
Proof.
  unfold en_install_snapshot, vh_accept_vote. intros H. rok H. rok Hx. destruct (x0.2) eqn:Hb.
  - right. destruct (update_vote_v' _ _ _ _ Hx0 Hb) as [Hv _]. rewrite <- Hv. injection Hx as <-. cbn [fst snd negb] in H. try rewrite Hb in H. cbn [negb] in H.
    destruct (fh_install (fh_vote x0.1) sn x0.1) as [e2 cond] eqn:Hi. injection H as <-. cbn.
    pose proof (pr_install (fh_vote x0.1) sn x0.1) as Hp. rewrite Hi in Hp. exact (prim_vote_same _ _ _ Hp eq_refl).
  - left. unfold vh_update_vote in Hx0. destruct (negb _); [|rok Hx0; injection Hx0 as <-; discriminate]. injection Hx0 as <-.
    cbn [fst snd negb] in *. injection Hx as <-. injection H as <-. eauto.
Qed.
Lemma prims_cmds ks e e' : prims ks e e' -> KPop ∉ ks ->
  exists cs, en_out e' = en_out e ++ cs /\ forall c, c ∈ cs -> exists k a b, k ∈ ks /\ cmd_of k a b c.
Proof.
  intros Hp Hk. revert e e' Hp. apply prims_ind_rel.
  - intros e. exists []. rewrite app_nil_r. split; [reflexivity|]. intros c Hc. apply elem_of_nil in Hc as [].
  - intros a b c (c1 & H1 & P1) (c2 & H2 & P2). exists (c1 ++ c2). rewrite H2, H1, app_assoc. split; [reflexivity|].
    intros x Hx. apply elem_of_app in Hx as [Hx|Hx]; auto.
  - intros k a b Hin Hp. destruct (prim_pushes _ _ _ Hp) as (cs & Ho & Hcs); [intros ->; contradiction|].
    exists cs. split; [exact Ho|]. intros c Hc. exists k, a, b. auto.
Qed.
Section lead.
  Context (E : Env) (cfg : EngineConfig) (HE : env_ok E).
  Notation me := (ec_id cfg).
  Lemma leader_keeps_log now ev n n' outs : fits_step E cfg now ev n n' outs -> en_leader (nd_eng n') <> None ->
    forall c, c ∈ step_produced ev n n' -> match c with TruncateLog _ | InstallSnapshot _ _ => False | _ => True end.
  Proof using HE.
    intros Hst Hl c Hc. pose proof (step_inv E cfg HE _ _ _ _ _ Hst) as [In In']. destruct Hst as (Hr & Hs & Hf & _).
    destruct (en_leader (nd_eng n')) as [l|] eqn:Hld; [|contradiction]. clear Hl.
    destruct (ei_el _ _ _ _ (node_ei E me _ In') l Hld) as (L1 & _ & L3 & _). rewrite L1 in L3.
    assert (Hno : is_follow_msg ev = true -> forall c, c ∈ step_produced ev n n' -> exists w r tx, c = Respond w r tx).
    { intros Hfm. destruct (runnable n) eqn:Hrun.
      { destruct ev; try discriminate. cbn [node_step] in Hs. unfold when_idle in Hs. rewrite Hrun in Hs. injection Hs as <- <-.
        unfold step_produced. rewrite drop_all. intros c0 H0. apply elem_of_nil in H0 as []. }
      destruct ev as [|m| | | | | | | | | | | |]; try discriminate. cbn [node_step] in Hs. unfold when_idle in Hs. rewrite Hrun in Hs.
      pose proof (node_id E me n In) as Hid. destruct m; try discriminate; cbn [handle_msg] in Hs; apply lift_prims in Hs as (e' & Hs & Hp); injection Hp as -> ->; cbn [msg_fits event_fits] in Hf.
      - destruct Hf as ((_ & Hne & _) & _). destruct (append_follow _ _ _ _ _ _ _ _ Hs) as [(w & r & ->)|Hv].
        + unfold step_produced. cbn [nd_eng nd_set_eng push en_out]. rewrite drop_app. intros c0 H0. apply elem_of_list_singleton in H0. eauto.
        + exfalso. unfold nd_state in L3. cbn [nd_eng nd_set_eng] in L3. rewrite Hv in L3. congruence.
      - destruct Hf as ((_ & Hne & _) & _). destruct (install_follow _ _ _ _ _ _ Hs) as [(w & r & ->)|Hv].
        + unfold step_produced. cbn [nd_eng nd_set_eng push en_out]. rewrite drop_app. intros c0 H0. apply elem_of_list_singleton in H0. eauto.
        + exfalso. unfold nd_state in L3. cbn [nd_eng nd_set_eng] in L3. rewrite Hv in L3. congruence. }
    destruct (is_follow_msg ev) eqn:Hfm.
    { destruct (Hno eq_refl c Hc) as (w & r & tx & ->). exact Logic.I. }
    destruct c; try exact Logic.I.
    - apply (step_truncates _ _ _ _ _ _ Hs) in Hc as [Hc _]. congruence.
    - pose proof (node_step_kinds _ _ _ _ Hs) as Hp. cbn [fst] in Hp. destruct (is_run ev) as [->|He]; [apply elem_of_nil in Hc as []|].
      assert (Hk : KInstall ∉ event_kinds ev n /\ KPop ∉ event_kinds ev n).
      { destruct ev as [|m| | | | | | | | | | | |]; cbn [event_kinds] in *; try (split; notin); try congruence.
        - destruct m; try (split; notin); discriminate Hfm.
        - destruct (nd_notes n) as [|y r]; [split; notin|]. destruct y as [| | | | |[]]; split; notin. }
      destruct Hk as [Hk1 Hk2]. destruct (prims_cmds _ _ _ Hp Hk2) as (cs & Ho & Hcs).
      rewrite (produced_app _ _ _ _ He Ho) in Hc. apply Hcs in Hc as (k & a & b & Hin & Hk). cbn in Hk. subst k. contradiction.
  Qed.
End lead.
