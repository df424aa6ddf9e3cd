(** Elections: granting votes, leases, counting votes (C03-C06), the election timer
    (C43), leadership transfer (C28). *)
From Coq Require Import Bool Lia ZifyBool ZifyNat.
From stdpp Require Import base numbers option gmap sets relations list.
From Verif Require Import Types TypesProofs LogIdList Quorum Membership QuorumSpec QuorumProofs Progress ProgressSpec ProgressProofs
  RaftState ProgressEntry Engine EnginePrims Store StoreProofs RaftCore NodeSpec NodePrims VoteNodeProofs.

(** ** Counting votes *)

Definition tt_ (b : bool) (id : nat) : nat * bool := (id, b).
(** [G] has granted and is not (known to be) a quorum yet *)
Definition cand_rep (c : Candidate) (G : list nat) : Prop :=
  (G <> [] -> joint_is_quorum (cd_qs c) G = false) /\
  exists R, cd_progress c = mkVP (cd_qs c) false (length G + length R) (map (tt_ true) G ++ map (tt_ false) R) /\
    G ++ R ≡ₚ elements (joint_ids (cd_qs c)).

Lemma cand_new_rep now v lst qs learners : cand_rep (candidate_new now v lst qs learners) [].
Proof.
  split; [congruence|].
  exists (sorted_ids (joint_ids qs)). cbn [candidate_new cd_progress cd_qs length app map]. split.
  - unfold vp_new. cbn [map]. rewrite app_nil_r, map_length. reflexivity.
  - apply sorted_ids_perm.
Qed.

Lemma cand_rep_nodup c G : cand_rep c G -> NoDup G /\ forall t, t ∈ G -> t ∈ joint_ids (cd_qs c).
Proof.
  intros (_ & R & _ & Hp).
  assert (Hnd : NoDup (G ++ R)) by (rewrite Hp; apply NoDup_elements).
  split; [apply NoDup_app in Hnd; apply Hnd|].
  intros t Ht. apply elem_of_elements. rewrite <- Hp. apply elem_of_app. auto.
Qed.

Lemma vp_index_map (b : bool) (l : list nat) (post : list (nat * bool)) t :
  vp_index (map (tt_ b) l ++ post) t =
  match list_find (fun x => x = t) l with
  | Some (i, _) => Some i
  | None => (fun i => length l + i) <$> vp_index post t
  end.
Proof.
  induction l as [|a l IH]; cbn [map app vp_index list_find length].
  - destruct (vp_index post t); reflexivity.
  - cbn [fst tt_]. destruct (decide (a = t)) as [->|Hne].
    + rewrite Nat.eqb_refl. reflexivity.
    + destruct (Nat.eqb_spec a t) as [|_]; [contradiction|]. rewrite IH.
      destruct (list_find _ l) as [[i x]|]; [reflexivity|]. destruct (vp_index post t); reflexivity.
Qed.

Lemma cand_grant_rep c G t c' ok :
  cand_rep c G -> cand_grant c t = Ok (c', ok) ->
  t ∈ joint_ids (cd_qs c) /\ cd_qs c' = cd_qs c /\
  exists G', (forall x, x ∈ G' <-> x ∈ G \/ x = t) /\ NoDup G' /\ ok = joint_is_quorum (cd_qs c) G' /\
    (ok = false -> cand_rep c' G').
Proof.
  intros (HG & R & Hprog & Hperm). unfold cand_grant. rewrite Hprog.
  unfold vp_update, vp_update_with, vp_update_gen. cbn [vp_vec vp_qs vp_granted vp_voters].
  assert (Hnd : NoDup (G ++ R)) by (rewrite Hperm; apply NoDup_elements).
  rewrite vp_index_map.
  destruct (list_find (fun x => x = t) G) as [[i x]|] eqn:HfG.
  - apply list_find_Some in HfG as (Hi & -> & _).
    rewrite lookup_app_l by (rewrite map_length; eapply lookup_lt_Some; exact Hi).
    rewrite list_lookup_fmap, Hi. cbn [fmap option_fmap option_map tt_ snd fst implb andb].
    intros [= <- <-]. cbn [cd_qs].
    assert (Ht : t ∈ G) by (eapply elem_of_list_lookup_2; exact Hi).
    repeat split.
    + apply elem_of_elements. rewrite <- Hperm. apply elem_of_app. auto.
    + exists G. split; [|split; [|split]].
      * intros x. split; [auto|]. intros [H| ->]; assumption.
      * apply NoDup_app in Hnd. apply Hnd.
      * cbn [vp_granted]. rewrite HG; [reflexivity|]. intros ->. inversion Ht.
      * intros _. split; [exact HG|]. exists R. cbn [cd_progress cd_qs]. split; [|exact Hperm]. f_equal.
        apply list_insert_id. rewrite lookup_app_l by (rewrite map_length; eapply lookup_lt_Some; exact Hi).
        rewrite list_lookup_fmap, Hi. reflexivity.
  - apply list_find_None in HfG.
    assert (HtG : t ∉ G).
    { intros Hin. rewrite Forall_forall in HfG. apply (HfG t); auto. }
    rewrite <- (app_nil_r (map (tt_ false) R)), vp_index_map.
    destruct (list_find (fun x => x = t) R) as [[i x]|] eqn:HfR; [|discriminate].
    apply list_find_Some in HfR as (Hi & -> & _). cbn [fmap option_fmap option_map]. rewrite app_nil_r.
    assert (HtR : t ∈ R) by (eapply elem_of_list_lookup_2; exact Hi).
    rewrite lookup_app_r by (rewrite map_length; lia). rewrite map_length.
    replace (length G + i - length G) with i by lia.
    rewrite list_lookup_fmap, Hi. cbn [fmap option_fmap option_map tt_ snd fst implb andb orb pltb negb].
    assert (Hlt : i < length R) by (eapply lookup_lt_Some; exact Hi).
    replace (length G + length R <=? length G + i) with false by lia.
    assert (Hsplit : R = take i R ++ t :: drop (S i) R) by (symmetry; apply take_drop_middle; exact Hi).
    assert (Hjt : t ∈ joint_ids (cd_qs c)).
    { apply elem_of_elements. rewrite <- Hperm. apply elem_of_app. auto. }
    assert (Hli : length (take i R) = i) by (rewrite take_length; lia).
    set (R1 := take i R) in *. set (R2 := drop (S i) R) in *.
    assert (Hvec : <[length G + i := (t, true)]> (map (tt_ true) G ++ map (tt_ false) R) =
                   map (tt_ true) G ++ map (tt_ false) R1 ++ (t, true) :: map (tt_ false) R2).
    { rewrite insert_app_r_alt by (rewrite map_length; lia). f_equal. rewrite map_length.
      replace (length G + i - length G) with (length (map (tt_ false) R1) + 0) by (rewrite map_length; lia).
      rewrite Hsplit at 1. rewrite map_app. rewrite insert_app_r. reflexivity. }
    rewrite Hvec.
    assert (Hlen : length G + i = length (map (tt_ true) G ++ map (tt_ false) R1)).
    { rewrite app_length, !map_length. lia. }
    rewrite Hlen at 1.
    rewrite (move_up_spec implb (fun b : bool => b) (map (tt_ true) G) (map (tt_ false) R1) (t, true) (map (tt_ false) R2)).
    2:{ apply Forall_map. apply Forall_forall. reflexivity. }
    2:{ intros a Ha. destruct G as [|g0 G0] using rev_ind; [discriminate|]. rewrite map_app in Ha. cbn in Ha.
        rewrite last_snoc in Ha. injection Ha as <-. reflexivity. }
    rewrite map_length. replace (length G + length R - length G) with (length R) by lia.
    assert (HR : length R = S (length (R1 ++ R2))).
    { rewrite Hsplit at 1. rewrite !app_length. cbn. lia. }
    rewrite HR. cbn [find_granted].
    rewrite lookup_app_r by (rewrite map_length; lia). rewrite map_length, Nat.sub_diag. cbn [lookup list_lookup snd implb].
    assert (Hids : map fst (take (S (length G)) (map (tt_ true) G ++ (t, true) :: map (tt_ false) R1 ++ map (tt_ false) R2)) = G ++ [t]).
    { rewrite take_app_ge by (rewrite map_length; lia). rewrite map_length.
      replace (S (length G) - length G) with 1 by lia. cbn [take]. rewrite map_app, map_map. cbn. f_equal. apply map_id. }
    rewrite Hids.
    assert (Hperm' : (G ++ [t]) ++ R1 ++ R2 ≡ₚ elements (joint_ids (cd_qs c))).
    { rewrite <- Hperm. rewrite Hsplit at 1. rewrite <- app_assoc. cbn. f_equiv. apply Permutation_middle. }
    assert (Hnd' : NoDup (G ++ [t])).
    { assert (Hx : NoDup ((G ++ [t]) ++ R1 ++ R2)) by (rewrite Hperm'; apply NoDup_elements).
      apply NoDup_app in Hx. apply Hx. }
    assert (Hin : forall x, x ∈ G ++ [t] <-> x ∈ G \/ x = t).
    { intros x. rewrite elem_of_app, elem_of_list_singleton. reflexivity. }
    destruct (joint_is_quorum (cd_qs c) (G ++ [t])) eqn:Hq.
    + intros [= <- <-]. cbn [cd_qs vp_granted]. split; [exact Hjt|]. split; [reflexivity|].
      exists (G ++ [t]). split; [exact Hin|]. split; [exact Hnd'|]. rewrite Hq. split; [reflexivity|discriminate].
    + assert (Hfg : find_granted implb (fun b : bool => b) (cd_qs c) false
                (map (tt_ true) G ++ (t, true) :: map (tt_ false) R1 ++ map (tt_ false) R2) (S (length G)) (length (R1 ++ R2)) = false).
      { destruct (R1 ++ R2) as [|r0 r1] eqn:HR12; [reflexivity|]. cbn [length find_granted].
        rewrite lookup_app_r by (rewrite map_length; lia). rewrite map_length.
        replace (S (length G) - length G) with 1 by lia. cbn [lookup list_lookup].
        rewrite <- map_app, HR12. reflexivity. }
      rewrite Hfg. intros [= <- <-]. cbn [cd_qs vp_granted]. split; [exact Hjt|]. split; [reflexivity|].
      exists (G ++ [t]). split; [exact Hin|]. split; [exact Hnd'|]. rewrite Hq. split; [reflexivity|]. intros _.
      split; [intros _; exact Hq|]. exists (R1 ++ R2). cbn [cd_progress cd_qs]. split; [|exact Hperm'].
      f_equal.
      * rewrite !app_length. cbn [length]. lia.
      * rewrite !map_app. cbn. rewrite <- app_assoc. reflexivity.
Qed.

Lemma implb_total : total_order implb.
Proof.
  unfold total_order. repeat split; intros;
    repeat match goal with b : bool |- _ => destruct b end; cbn in *; auto.
Qed.

Lemma cand_grant_voter c G t : cand_rep c G -> t ∈ joint_ids (cd_qs c) -> exists x, cand_grant c t = Ok x.
Proof.
  intros (_ & R & Hprog & Hperm) Ht. unfold cand_grant, vp_update, vp_update_with, vp_update_gen. rewrite Hprog.
  cbn [vp_vec vp_qs vp_granted vp_voters].
  apply elem_of_elements in Ht. rewrite <- Hperm in Ht.
  destruct (vp_index _ t) as [i|] eqn:Hi.
  - apply (vp_index_Some (fun b : bool => b)) in Hi as (v & Hv). rewrite Hv.
    repeat match goal with |- context [if ?b then _ else _] => destruct b end; eauto.
    all: destruct (move_up _ _ _ _); eauto.
  - exfalso. apply (vp_index_None implb (fun b : bool => b) implb_total) in Hi. apply Hi. rewrite map_app, !map_map. cbn. rewrite !map_id. exact Ht.
Qed.

(** ** Invariant: the grants a candidate has counted come from notes taken *)

Definition cinv (h : list Note) (n : Node) : Prop :=
  forall c, en_cand (nd_eng n) = Some c ->
    v_committed (cd_vote c) = false /\
    exists G, cand_rep c G /\ forall t, t ∈ G -> granted_by h (cd_vote c) t.

(** candidates change only by starting anew or disappearing *)
Definition crel (e e' : Engine) : Prop :=
  en_cand e' = en_cand e \/ en_cand e' = None \/
  exists c, en_cand e' = Some c /\ v_committed (cd_vote c) = false /\ cand_rep c [].
Lemma crel_refl e : crel e e. Proof. left. reflexivity. Qed.
Lemma crel_trans a b c : crel a b -> crel b c -> crel a c.
Proof.
  intros H [H2|[H2|H2]]; [unfold crel; rewrite H2; exact H|right; left; exact H2|right; right; exact H2].
Qed.

Lemma ssh_update_cand e : en_cand (ssh_update e) = en_cand e.
Proof. rewrite ssh_update_eq. reflexivity. Qed.
Lemma fh_truncate_rest since e :
  en_cand (fh_truncate since e) = en_cand e /\ en_leader (fh_truncate since e) = en_leader e /\
  en_cfg (fh_truncate since e) = en_cfg e /\ rs_vote (en_state (fh_truncate since e)) = rs_vote (en_state e) /\
  en_seen_greater (fh_truncate since e) = en_seen_greater e.
Proof.
  rewrite fh_truncate_eq. destruct (rs_get_log_id _ _); [|repeat split].
  cbn [push upd en_cand en_leader en_cfg en_state en_seen_greater]. cbv zeta.
  destruct (onat_leb _ _); repeat split.
Qed.
Lemma logh_purge_rest e :
  en_cand (logh_purge e) = en_cand e /\ en_leader (logh_purge e) = en_leader e /\
  en_cfg (logh_purge e) = en_cfg e /\ rs_vote (en_state (logh_purge e)) = rs_vote (en_state e) /\
  en_seen_greater (logh_purge e) = en_seen_greater e.
Proof.
  rewrite logh_purge_eq. destruct (rs_purge_upto _); [destruct (ologid_leb _ _)|]; repeat split.
Qed.
Lemma fh_do_append_rest lv es e :
  en_cand (fh_do_append lv es e) = en_cand e /\ en_leader (fh_do_append lv es e) = en_leader e /\
  en_cfg (fh_do_append lv es e) = en_cfg e /\ rs_vote (en_state (fh_do_append lv es e)) = rs_vote (en_state e) /\
  en_seen_greater (fh_do_append lv es e) = en_seen_greater e.
Proof.
  rewrite fh_do_append_eq. cbn [push upd en_cand en_leader en_cfg en_state en_seen_greater]. cbv zeta.
  destruct (last_two_memberships es); repeat split.
Qed.
Lemma install_cut_rest sl e :
  en_cand (install_cut sl e) = en_cand e /\ en_leader (install_cut sl e) = en_leader e /\
  en_cfg (install_cut sl e) = en_cfg e /\ rs_vote (en_state (install_cut sl e)) = rs_vote (en_state e) /\
  en_seen_greater (install_cut sl e) = en_seen_greater e.
Proof.
  unfold install_cut. destruct (rs_get_log_id _ _); [destruct (logid_eqb _ _)|]; try (repeat split; fail).
  apply fh_truncate_rest.
Qed.
Lemma fh_install_rest lv sn e :
  let e' := (fh_install lv sn e).1 in
  en_cand e' = en_cand e /\ en_leader e' = en_leader e /\ en_cfg e' = en_cfg e /\
  rs_vote (en_state e') = rs_vote (en_state e) /\ en_seen_greater e' = en_seen_greater e.
Proof.
  cbv zeta. rewrite fh_install_eq. destruct (sm_last (sn_meta sn)) as [sl|]; [|repeat split].
  destruct (ologid_leb _ _); [repeat split|]. destruct (ologid_leb _ _); [repeat split|]. cbv zeta.
  destruct (install_cut_rest sl (upd (set_snap (sn_meta sn)) e)) as (H1 & H2 & H3 & H4 & H5).
  match goal with |- context [logh_purge ?x] => destruct (logh_purge_rest x) as (-> & -> & -> & -> & ->) end.
  cbn [push upd en_cand en_leader en_cfg en_state en_seen_greater set_purge_upto rs_vote].
  rewrite H1, H2, H3, H5. unfold install_state. rewrite rs_accept_io_eq. cbn [rs_vote set_server set_mem set_committed set_io].
  repeat split. exact H4.
Qed.
Lemma leader_appended_rest ps l e :
  let e' := leader_appended ps l e in
  en_cand e' = en_cand e /\ en_cfg e' = en_cfg e /\
  rs_vote (en_state e') = rs_vote (en_state e) /\ en_seen_greater e' = en_seen_greater e /\
  exists l', en_leader e' = Some l' /\ ld_vote l' = ld_vote l /\ ld_transfer l' = ld_transfer l /\ ld_noop l' = ld_noop l.
Proof.
  cbv zeta. rewrite leader_appended_eq. cbn [push upd set_leader en_cand en_leader en_cfg en_state en_seen_greater].
  cbv zeta. rewrite rs_accept_io_eq. repeat split; [destruct (last_membership _ _) as [[? ?]|]; reflexivity|].
  eexists. split; [reflexivity|]. repeat split.
Qed.
Lemma sh_trigger_rest e :
  en_cand (sh_trigger e) = en_cand e /\ en_leader (sh_trigger e) = en_leader e /\
  en_cfg (sh_trigger e) = en_cfg e /\ rs_vote (en_state (sh_trigger e)) = rs_vote (en_state e) /\
  en_seen_greater (sh_trigger e) = en_seen_greater e.
Proof. unfold sh_trigger. destruct (io_building _); repeat split. Qed.

Lemma prim_crel k e e' : prim k e e' -> k <> KCandGrant -> crel e e'.
Proof.
  intros H Hk. destruct H; try congruence; try (left; reflexivity); try (right; left; reflexivity).
  - right. right. eexists. split; [reflexivity|]. split; [reflexivity|]. apply cand_new_rep.
  - left. apply leader_appended_rest.
  - left. apply fh_do_append_rest.
  - left. apply fh_truncate_rest.
  - left. apply sh_trigger_rest.
  - left. apply logh_purge_rest.
  - left. apply fh_install_rest.
Qed.
Lemma prims_crel ks e e' :
  forallb (fun k => negb (bool_decide (k = KCandGrant))) ks = true -> prims ks e e' -> crel e e'.
Proof.
  intros Hks. apply prims_ind_rel; [exact crel_refl|exact crel_trans|].
  intros k a b Hk Hp. rewrite forallb_forall in Hks. specialize (Hks k). rewrite <- elem_of_list_In in Hks.
  apply Hks in Hk. eapply prim_crel; [exact Hp|]. intros ->. discriminate.
Qed.
Lemma crel_cinv h n n' : cinv h n -> crel (nd_eng n) (nd_eng n') -> cinv h n'.
Proof.
  intros Hi [H|[H|(c & H & Hv & Hr)]] c0 Hc0.
  - apply Hi. congruence.
  - congruence.
  - assert (c0 = c) as -> by congruence. split; [exact Hv|]. exists []. split; [exact Hr|].
    intros t Ht. inversion Ht.
Qed.
Lemma cinv_more h h' n : cinv h n -> (forall x, x ∈ h -> x ∈ h') -> cinv h' n.
Proof.
  intros Hi Hh c Hc. destruct (Hi c Hc) as (Hv & G & HG & Hg). split; [exact Hv|]. exists G. split; [exact HG|].
  intros t Ht. destruct (Hg t Ht) as (resp & sv & Hin & Hrest). exists resp, sv. auto.
Qed.

Lemma handled_crel e e' : handled e e' -> crel e e'.
Proof. intros H. destruct H as [H|(now & m & _ & _ & H)].
  - eapply prims_crel; [|exact H]; reflexivity.
  - eapply crel_trans; [|eapply prims_crel; [|exact H]; reflexivity].
    right. right. eexists. split; [reflexivity|]. split; [reflexivity|]. apply cand_new_rep.
Qed.

(** what a counted grant does to the candidate and to leadership *)
Lemma grant_counted_cinv h now t c x r n n' :
  cinv h n -> is_grant x (nd_eng n) t c -> grant_counted now t c (nd_eng n) (nd_eng n') ->
  n' = nd_set_eng (nd_eng n') (nd_set_notes r n) -> cinv (h ++ [x]) n'.
Proof.
  intros Hi (resp & sv & -> & Hc & _ & Hg & Hv) (c' & ok & Hgr & H) _.
  destruct (Hi c Hc) as (Hun & G & HG & Hh).
  destruct (cand_grant_rep _ _ _ _ _ HG Hgr) as (Ht & Hqs & G' & Hin & Hnd & Hok & Hrep).
  destruct H as [[-> He]|[(-> & _ & He)|(-> & Hl & H)]].
  - intros c0 Hc0. rewrite He in Hc0. injection Hc0 as <-. rewrite (cand_grant_vote _ _ _ _ Hgr).
    split; [exact Hun|]. exists G'. split; [auto|]. intros t0 Ht0. apply Hin in Ht0 as [Ht0| ->].
    + destruct (Hh t0 Ht0) as (rs & s & Hx & Hy). exists rs, s. split; [apply elem_of_app; auto|exact Hy].
    + exists resp, sv. split; [apply elem_of_app; right; apply elem_of_list_singleton; reflexivity|]. auto.
  - intros c0 Hc0. rewrite He in Hc0. discriminate.
  - apply prims_crel in H; [|reflexivity]. intros c0 Hc0.
    destruct H as [H|[H|(c1 & H & Hv1 & Hr1)]]; cbn [set_leader set_cand en_cand] in H; try congruence.
    assert (c0 = c1) as -> by congruence. split; [exact Hv1|]. exists []. split; [exact Hr1|].
    intros t0 Ht0. inversion Ht0.
Qed.

Definition taken (ev : Event) (n : Node) : list Note := option_list (note_taken ev n).

Lemma node_step_cinv h now ev n n' outs :
  cinv h n -> node_step now ev n = Ok (n', outs) -> cinv (h ++ taken ev n) n'.
Proof.
  intros Hi Hs. pose proof Hs as Hs0. apply node_step_cases in Hs as [-> ->|c r _ Ho _ H|_ _ H _ _ _|t c x r -> Hr Hn Hg H Hn' ->|He _ _].
  - eapply cinv_more; [exact Hi|]. intros. apply elem_of_app. auto.
  - assert (Hc : crel (nd_eng n) (nd_eng n')).
    { apply run_cmd_prims in H. apply prims_crel in H; [exact H|reflexivity]. }
    eapply cinv_more; [eapply crel_cinv; eassumption|]. intros. apply elem_of_app. auto.
  - apply handled_crel in H.
    eapply cinv_more; [eapply crel_cinv; eassumption|]. intros. apply elem_of_app. auto.
  - unfold taken, note_taken. rewrite Hr, Hn. cbn [head option_list].
    eapply grant_counted_cinv; eassumption.
  - eapply cinv_more; [eapply crel_cinv; [exact Hi|left; congruence]|]. intros. apply elem_of_app. auto.
Qed.

Lemma node_start_cinv h now cfg d sm n : node_start now cfg d sm = Ok n -> cinv h n.
Proof.
  unfold node_start. intros H. rok H. destruct x as [[s d1] sm1]. rok H. injection H as <-.
  apply en_startup_prims, prims_crel in Hx0; [|reflexivity].
  intros c Hc. cbn [nd_eng] in Hc. destruct Hx0 as [H|[H|(c1 & H & Hv1 & Hr1)]]; cbn [engine_new en_cand] in H; try congruence.
  assert (c = c1) as -> by congruence. split; [exact Hv1|]. exists []. split; [exact Hr1|]. intros t Ht. inversion Ht.
Qed.

Lemma node_run_cinv acts : forall h n n' outs,
  cinv h n -> node_run acts n = Ok (n', outs) -> cinv (h ++ run_notes acts n) n'.
Proof.
  induction acts as [|a r IH]; intros h n n' outs Hi H; cbn [node_run run_notes] in *.
  - injection H as <- <-. rewrite app_nil_r. exact Hi.
  - rok H. rok H. injection H as <- <-. destruct x as [n1 o1]. destruct x0 as [n2 o2]. cbn [fst] in *.
    rewrite app_assoc. eapply IH; [|exact Hx0].
    destruct a as [now ev|now k j keep]; cbn [node_act] in Hx.
    + eapply node_step_cinv; eassumption.
    + rok Hx. injection Hx as <- <-. unfold node_restart in Hx1. eapply node_start_cinv. exact Hx1.
Qed.

(** ** Which votes a step stores, and when a node starts to lead *)

Definition srel (P : Vote -> Prop) (e e' : Engine) : Prop :=
  en_cfg e' = en_cfg e /\
  exists cs, en_out e' = en_out e ++ cs /\ vchain (rs_v (en_state e)) cs (rs_v (en_state e')) /\
    Forall P (saved_votes cs) /\
    forall l', en_leader e' = Some l' ->
      (exists l, en_leader e = Some l /\ v_leader (ld_vote l) = v_leader (ld_vote l')) \/
      (li_node (v_leader (ld_vote l')) = en_id e /\
       mkVote (v_leader (ld_vote l')) true ∈ rs_v (en_state e) :: saved_votes cs).

Lemma srel_refl P e : srel P e e.
Proof.
  split; [reflexivity|]. exists []. rewrite app_nil_r. repeat split; [constructor|]. intros l' Hl. left. eauto.
Qed.
Lemma last_elem_of {A} (l : list A) x : last l = Some x -> x ∈ l.
Proof. intros H. rewrite last_lookup in H. eapply elem_of_list_lookup_2. exact H. Qed.
Lemma srel_trans P a b c : srel P a b -> srel P b c -> srel P a c.
Proof.
  intros (Hc1 & cs1 & Ho1 & Hv1 & HP1 & H1) (Hc2 & cs2 & Ho2 & Hv2 & HP2 & H2). split; [congruence|].
  exists (cs1 ++ cs2). rewrite Ho2, Ho1, app_assoc. split; [reflexivity|].
  split; [eapply vchain_app; eassumption|]. rewrite saved_app. split; [apply Forall_app; auto|].
  intros l' Hl'. destruct (H2 l' Hl') as [(l & Hl & Heq)|(Hid & Hin)].
  - destruct (H1 l Hl) as [(l0 & Hl0 & Heq0)|(Hid & Hin)]; [left; exists l0; split; congruence|].
    rewrite Heq in *. right. split; [exact Hid|]. rewrite elem_of_cons in *. rewrite elem_of_app. tauto.
  - right. split; [unfold en_id in *; congruence|]. apply vchain_saved in Hv1 as [Hl1 _]. apply last_elem_of in Hl1.
    rewrite elem_of_cons in *. rewrite elem_of_app. destruct Hin as [-> |Hin]; tauto.
Qed.
Lemma srel_mono (P Q : Vote -> Prop) e e' : (forall v, P v -> Q v) -> srel P e e' -> srel Q e e'.
Proof.
  intros HPQ (Hc & cs & Ho & Hv & HP & H). split; [exact Hc|]. exists cs. repeat split; auto.
  eapply Forall_impl; [exact HP|exact HPQ].
Qed.

Lemma rs_is_leader_true s id : rs_is_leader s id = true ->
  v_committed (rs_v s) = true /\ li_node (v_leader (rs_v s)) = id /\ m_contains (em_mem (rs_eff s)) id = true.
Proof.
  unfold rs_is_leader, rs_is_leading, voted_for. intros H. apply andb_true_iff in H as [H H2].
  apply andb_true_iff in H as [H0 H1]. repeat split; [exact H2| |exact H0]. apply Nat.eqb_eq. exact H1.
Qed.
Lemma vote_lt_irrefl v : ~ vote_lt v v.
Proof. unfold vote_lt. rewrite vote_gtb_negb, vote_geb_refl. discriminate. Qed.

Lemma prim_cfg k e e' : prim k e e' -> en_cfg e' = en_cfg e.
Proof.
  intros H. destruct H; try reflexivity.
  - apply leader_appended_rest.
  - apply fh_do_append_rest.
  - apply fh_truncate_rest.
  - apply sh_trigger_rest.
  - apply logh_purge_rest.
  - apply fh_install_rest.
Qed.
Lemma prim_v k e e' : prim k e e' -> k <> KVote -> k <> KInitVote -> rs_v (en_state e') = rs_v (en_state e).
Proof.
  intros H Hv Hi. unfold rs_v. destruct H; try congruence; try reflexivity; try (rewrite rs_accept_io_eq; reflexivity).
  - cbn [upd en_state]. rewrite rs_accept_io_eq. reflexivity.
  - cbn [upd en_state]. rewrite rs_accept_io_eq. reflexivity.
  - f_equal. apply leader_appended_rest.
  - f_equal. apply fh_do_append_rest.
  - f_equal. apply fh_truncate_rest.
  - f_equal. apply sh_trigger_rest.
  - f_equal. apply logh_purge_rest.
  - f_equal. apply fh_install_rest.
Qed.
Lemma prim_saved k e e' : prim k e e' -> k <> KVote -> k <> KInitVote -> k <> KPop ->
  exists cs, en_out e' = en_out e ++ cs /\ vchain (rs_v (en_state e)) cs (rs_v (en_state e')) /\ saved_votes cs = [].
Proof.
  intros H Hv Hi Hp. pose proof (prim_v _ _ _ H Hv Hi) as Heq. destruct (prim_vrel _ _ _ H Hi Hp) as (cs & Ho & Hc).
  exists cs. split; [exact Ho|]. split; [exact Hc|]. apply vchain_saved in Hc as [Hl Hs].
  destruct (saved_votes cs) as [|v vs] using rev_ind; [reflexivity|]. exfalso.
  rewrite app_comm_cons, last_snoc in Hl. injection Hl as ->. rewrite Heq in Hs.
  inversion Hs as [|? ? _ Hf]; subst. rewrite Forall_app in Hf. destruct Hf as [_ Hf].
  inversion Hf as [|? ? Hlt _]; subst. exact (vote_lt_irrefl _ Hlt).
Qed.

Lemma prim_lead k e e' : prim k e e' -> k <> KEstablish ->
  forall l', en_leader e' = Some l' ->
    (exists l, en_leader e = Some l /\ v_leader (ld_vote l) = v_leader (ld_vote l')) \/
    (li_node (v_leader (ld_vote l')) = en_id e /\ mkVote (v_leader (ld_vote l')) true = rs_v (en_state e)).
Proof.
  intros H He. destruct H; try congruence; intros l0 Hl0; try (left; exists l0; split; [exact Hl0|reflexivity]; fail).
  - cbn in Hl0. injection Hl0 as <-. left. exists l. split; [assumption|]. congruence.
  - cbn in Hl0. injection Hl0 as <-. left. exists l. split; [assumption|]. congruence.
  - cbn in Hl0. injection Hl0 as <-. left. exists l. split; [assumption|]. cbn. congruence.
  - cbn in Hl0. injection Hl0 as <-. right.
    apply rs_is_leader_true in H as (H1 & H2 & _). unfold rs_new_leader, leader_new, into_committed.
    cbn [ld_vote v_leader set_leader en_state].
    destruct (rs_v (en_state e)) as [? c]. cbn in *. subst. split; [exact H2|reflexivity].
  - cbn in Hl0. injection Hl0 as <-. left. exists l. split; [assumption|]. reflexivity.
  - discriminate Hl0.
  - left. destruct (leader_appended_rest ps l e) as (_ & _ & _ & _ & l1 & H1 & H2 & _).
    exists l. split; [assumption|]. congruence.
  - left. exists l0. split; [|reflexivity]. rewrite <- Hl0. symmetry. apply fh_do_append_rest.
  - left. exists l0. split; [|reflexivity]. rewrite <- Hl0. symmetry. apply fh_truncate_rest.
  - left. exists l0. split; [|reflexivity]. rewrite <- Hl0. symmetry. apply sh_trigger_rest.
  - left. exists l0. split; [|reflexivity]. rewrite <- Hl0. symmetry. apply logh_purge_rest.
  - left. exists l0. split; [|reflexivity]. rewrite <- Hl0. symmetry. apply fh_install_rest.
Qed.

Definition novote (k : Kind) : bool :=
  negb (bool_decide (k ∈ [KVote; KInitVote; KPop; KEstablish])).
Lemma prims_srel P ks e e' : forallb novote ks = true -> prims ks e e' -> srel P e e'.
Proof.
  intros Hks. apply prims_ind_rel; [apply srel_refl|intros a b c; apply srel_trans|].
  intros k a b Hk Hp. rewrite forallb_forall in Hks. specialize (Hks k). rewrite <- elem_of_list_In in Hks.
  apply Hks in Hk. unfold novote in Hk.
  assert (Hn : k ∉ [KVote; KInitVote; KPop; KEstablish]) by (destruct (bool_decide _) eqn:Hb; [discriminate|]; apply bool_decide_eq_false in Hb; exact Hb).
  split; [eapply prim_cfg; exact Hp|].
  destruct (prim_saved _ _ _ Hp) as (cs & Ho & Hc & Hs); try (intros ->; apply Hn; set_solver).
  exists cs. rewrite Hs. repeat split; [exact Ho|exact Hc|constructor|].
  intros l' Hl'. destruct (prim_lead _ _ _ Hp) with (l' := l') as [H|[H1 H2]]; auto; [intros ->; apply Hn; set_solver|].
  right. split; [exact H1|]. rewrite H2. left.
Qed.

Lemma prim_srel P k e e' : prim k e e' -> novote k = true -> srel P e e'.
Proof.
  intros H Hk. eapply (prims_srel P [k]); [cbn; rewrite Hk; reflexivity|].
  apply rtc_once. exists k. split; [left|exact H].
Qed.

Lemma vote_stored_srel (P : Vote -> Prop) now v e :
  P v -> vote_gtb v (rs_v (en_state e)) = true -> srel P e (vote_stored now v e).
Proof.
  intros HP Hgt. split; [reflexivity|]. exists [SaveVote v]. split; [reflexivity|].
  cbn [vchain vote_cmd_ok vote_after vote_stored push upd en_state]. split.
  - split; [exact Hgt|]. rewrite rs_accept_io_v. reflexivity.
  - split; [repeat constructor; exact HP|]. intros l' Hl'. left. eauto.
Qed.
Lemma vh_update_vote_srel (P : Vote -> Prop) now v e x : P v -> vh_update_vote now v e = Ok x -> srel P e x.1.
Proof.
  intros HP. unfold vh_update_vote. destruct (vote_geb v (rs_v (en_state e))) eqn:Hge; cbn [negb]; [|intros [= <-]; apply srel_refl].
  intros H. rok H. injection H as <-. cbn [fst].
  eapply srel_trans; [|eapply prims_srel; [|eapply vh_update_internal_prims; exact Hx]; reflexivity].
  destruct (vote_gtb v (rs_v (en_state e))) eqn:Hgt.
  - fold (vote_stored now v e). apply vote_stored_srel; assumption.
  - assert (v = rs_v (en_state e)) as ->.
    { apply vote_geb_antisym; [exact Hge|]. rewrite vote_gtb_negb in Hgt. destruct (vote_geb (rs_v _) v); [reflexivity|discriminate]. }
    eapply prim_srel; [apply pr_touch|reflexivity].
Qed.
Ltac ps H := eapply prims_srel; [|eapply H]; [reflexivity|..].

Lemma next_vote_gt (e : Engine) (id : nat) : vote_gtb (vote_new (S (li_term (v_leader (rs_v (en_state e))))) id) (rs_v (en_state e)) = true.
Proof. destruct (rs_v (en_state e)) as [[t n0] c]. apply vote_gtb_true. cbn. lia. Qed.

Lemma en_elect_srel (P : Vote -> Prop) now e e' :
  P (vote_new (S (li_term (v_leader (rs_v (en_state e))))) (en_id e)) ->
  en_elect now e = Ok e' -> srel P e e'.
Proof.
  intros HP H. apply en_elect_split in H. cbv zeta in H.
  eapply srel_trans; [|ps H]. eapply srel_trans; [|apply vote_stored_srel; [exact HP|]].
  - eapply prim_srel; [apply (pr_cand_new now)|reflexivity].
  - cbn [en_new_candidate set_cand en_state]. apply next_vote_gt.
Qed.

Lemma core_append_srel now v prev es c tx e e' :
  core_append now v prev es c tx e = Ok e' -> srel (eq v) e e'.
Proof.
  unfold core_append. intros H. rok H. injection H as <-.
  eapply srel_trans with (b := x.1); [|destruct x.2; [ps fh_commit_prims|apply srel_refl]].
  unfold en_append_entries in Hx. rok Hx.
  eapply srel_trans with (b := x0.1).
  - unfold en_append in Hx0. rok Hx0. eapply srel_trans; [eapply vh_update_vote_srel; [|exact Hx1]; reflexivity|].
    destruct (x1.2); cbn [negb] in Hx0; [|injection Hx0 as <-; apply srel_refl].
    pose proof (fh_ensure_consecutive_prims prev x1.1) as Hp. destruct (fh_ensure_consecutive prev x1.1) as [e2 b].
    cbn [fst] in Hp. eapply srel_trans; [ps Hp|]. destruct b; injection Hx0 as <-; [ps fh_append_entries_prims|apply srel_refl].
  - destruct (x0.2) eqn:Hr.
    + destruct (io_accepted _) eqn:Hio; [|discriminate]. injection Hx as <-.
      eapply prim_srel; [apply pr_respond; cbn; eauto|reflexivity].
    + injection Hx as <-. eapply prim_srel; [apply pr_respond|reflexivity]. cbn.
      destruct x0 as [e0 r0]. cbn in Hr. subst r0. cbn.
      apply en_append_higher in Hx0 as [-> ->]. reflexivity.
    + injection Hx as <-. eapply prim_srel; [apply pr_respond; exact I|reflexivity].
Qed.
Lemma core_vote_srel now req tx e e' : core_vote now req tx e = Ok e' -> srel (eq (vq_vote req)) e e'.
Proof.
  unfold core_vote. intros H. rok H. injection H as <-.
  assert (Hs : srel (eq (vq_vote req)) e x.1 /\ vr_vote x.2 = rs_v (en_state x.1)).
  { unfold en_vote_req in Hx. destruct (_ && _); [injection Hx as <-; split; [apply srel_refl|reflexivity]|].
    destruct (negb _); [injection Hx as <-; split; [apply srel_refl|reflexivity]|]. rok Hx. injection Hx as <-.
    split; [|reflexivity]. eapply vh_update_vote_srel; [|exact Hx0]. reflexivity. }
  destruct Hs as [Hs Hv]. eapply srel_trans; [exact Hs|]. eapply prim_srel; [apply pr_respond|reflexivity].
  cbn [resp_ok]. split; [reflexivity|exact Hv].
Qed.
Lemma install_snapshot_srel now v sn tx e e' :
  en_install_snapshot now v sn tx e = Ok e' -> srel (eq v) e e'.
Proof.
  unfold en_install_snapshot. intros H. rok H. unfold vh_accept_vote in Hx. rok Hx.
  eapply srel_trans; [eapply vh_update_vote_srel; [|exact Hx0]; reflexivity|].
  destruct x0 as [e0 b0]. cbn [fst snd] in *. destruct b0.
  - injection Hx as <-. cbn [fst snd negb] in H. destruct (fh_install (fh_vote e0) sn e0) as [e2 cond] eqn:Hf.
    injection H as <-. eapply srel_trans; [eapply prim_srel; [apply (pr_install (fh_vote e0) sn)|reflexivity]|].
    rewrite Hf. cbn [fst]. eapply prim_srel; [apply pr_respond|reflexivity]. reflexivity.
  - injection Hx as <-. cbn [snd negb fst] in H. injection H as <-. eapply prim_srel; [apply pr_respond|reflexivity]. reflexivity.
Qed.
Lemma core_transfer_srel (P : Vote -> Prop) now req e e' :
  P (vote_new (S (li_term (v_leader (rs_v (en_state e))))) (en_id e)) ->
  core_transfer now req e = Ok e' -> srel P e e'.
Proof.
  intros HP. unfold core_transfer. destruct (vote_eqb _ _); [|intros [= <-]; apply srel_refl].
  intros H. eapply srel_trans; [eapply prim_srel; [apply pr_lease|reflexivity]|].
  destruct (en_id e =? tq_to req); [|injection H as <-; apply srel_refl].
  eapply en_elect_srel; [|exact H]. exact HP.
Qed.
Lemma core_initialize_srel (P : Vote -> Prop) now ms tx e e' :
  P (vote_new (S (li_term (v_leader (rs_v (en_state e))))) (en_id e)) ->
  core_initialize now ms tx e = Ok e' -> srel P e e'.
Proof.
  intros HP. unfold core_initialize. intros H. rok H. injection H as <-.
  set (m := mkMembership [dom ms] ms) in *.
  unfold en_initialize in Hx. destruct (rs_is_initialized (en_state e)) eqn:Hi;
    [injection Hx as <-; eapply prim_srel; [apply pr_respond; exact I|reflexivity]|].
  destruct (m_is_voter m (en_id e)) eqn:Hm; cbn [negb] in Hx;
    [|injection Hx as <-; eapply prim_srel; [apply pr_respond; exact I|reflexivity]].
  rok Hx. injection Hx as <-. cbn [fst snd].
  change (en_elect now (initialized now m e) = Ok x0) in Hx0.
  apply en_elect_split in Hx0. cbv zeta in Hx0. rewrite initialized_vote, initialized_id in Hx0.
  change (S (li_term (v_leader (into_committed vote_default)))) with 1 in Hx0.
  eapply srel_trans; [|eapply prim_srel; [apply pr_respond; exact I|reflexivity]].
  eapply srel_trans; [|ps Hx0]. rewrite (uninit_vote _ Hi) in HP. cbn [li_term v_leader vote_default] in HP.
  assert (Hr : en_leader (initialized now m e) = en_leader e /\ en_cfg (initialized now m e) = en_cfg e /\
    en_out (initialized now m e) = en_out e ++ [AppendInputEntries (into_committed vote_default) [init_entry m]]).
  { unfold initialized. match goal with |- context [fh_do_append ?lv ?es ?x] => destruct (fh_do_append_rest lv es x) as (_ & -> & -> & _);
      destruct (fh_do_append_neutral lv es x) as (-> & _) end. repeat split. }
  destruct Hr as (Hr1 & Hr2 & Hr3).
  split; [exact Hr2|].
  exists [AppendInputEntries (into_committed vote_default) [init_entry m]; SaveVote (vote_new 1 (en_id e))].
  split; [|split; [|split]].
  - cbn [vote_stored push en_out upd en_new_candidate set_cand]. rewrite Hr3, <- app_assoc. reflexivity.
  - cbn [vchain vote_cmd_ok vote_after vote_stored push upd en_state]. rewrite (uninit_vote _ Hi). split; [exact I|].
    split; [reflexivity|]. rewrite rs_accept_io_v. reflexivity.
  - cbn. constructor; [exact HP|constructor].
  - intros l' Hl'. left. exists l'. cbn in Hl'. rewrite <- Hr1. split; [exact Hl'|reflexivity].
Qed.

Lemma vote_resp_grant_srel now t resp c e e' :
  en_cand e = Some c -> vr_granted resp = true -> vr_vote resp = cd_vote c ->
  en_vote_resp now t resp e = Ok e' ->
  exists c' ok, cand_grant c t = Ok (c', ok) /\
   ((en_leader e' = en_leader e /\ en_out e' = en_out e /\ rs_v (en_state e') = rs_v (en_state e) /\ en_cfg e' = en_cfg e) \/
    (ok = true /\ srel (eq (into_committed (cd_vote c))) (set_leader (Some (cand_into_leader now c')) (set_cand None e)) e')).
Proof.
  unfold en_vote_resp. intros -> -> ->. assert (Hr : vote_eqb (cd_vote c) (cd_vote c) = true) by (apply vote_eqb_true; reflexivity).
  rewrite Hr. cbn [andb]. clear Hr. intros H. rok H. destruct x as [c' ok]. cbn [fst snd] in H.
  pose proof (cand_grant_vote _ _ _ _ Hx) as Hv.
  exists c', ok. split; [reflexivity|]. destruct ok; [|left; injection H as <-; repeat split].
  unfold en_establish in H. cbn [en_cand set_cand] in H. unfold eh_establish in H. cbn [en_leader set_cand] in H.
  destruct (match en_leader e with Some _ => _ | None => _ end) eqn:Hok; [|left; injection H as <-; repeat split].
  right. split; [reflexivity|]. rok H. rok H.
  eapply srel_trans; [ps rh_rebuild_streams_prims; exact Hx0|].
  eapply srel_trans; [eapply vh_update_vote_srel; [|exact Hx1]|].
  { cbn. rewrite Hv. reflexivity. }
  eapply srel_trans; [eapply prim_srel; [apply pr_accept|reflexivity]|].
  ps lh_append_prims; [|exact H]; cbn; lia.
Qed.

Definition msg_src (m : Msg) (n : Node) (v : Vote) : Prop :=
  v ∈ msg_votes m n /\ (v ∈ msg_carries m \/ v = own_next_vote n).
Lemma handle_msg_srel now m n x :
  handle_msg now m n = Ok x -> srel (msg_src m n) (nd_eng n) (nd_eng x.1).
Proof.
  assert (Hown : forall m0, msg_votes m0 n = [own_next_vote n] ->
     msg_src m0 n (vote_new (S (li_term (v_leader (rs_v (en_state (nd_eng n)))))) (en_id (nd_eng n)))).
  { intros m0 Hm. split; [rewrite Hm; left|right; reflexivity]. }
  destruct m; cbn [handle_msg]; unfold lift; intros H.
  - rok H. injection H as <-. eapply srel_mono; [|eapply core_append_srel; exact Hx]. intros ? <-. split; [|left]; left.
  - rok H. injection H as <-. eapply srel_mono; [|eapply core_vote_srel; exact Hx]. intros ? <-. split; [|left]; left.
  - rok H. injection H as <-. eapply srel_mono; [|eapply install_snapshot_srel; exact Hx]. intros ? <-. split; [|left]; left.
  - rok H. injection H as <-. eapply core_transfer_srel; [apply Hown; reflexivity|exact Hx].
  - rok H. injection H as <-. eapply core_initialize_srel; [apply Hown; reflexivity|exact Hx].
  - apply core_write_prims in H as (H1 & H2). ps H1.
  - unfold core_change in H. destruct (ms_change _ _ _).
    + apply core_write_prims in H as (H1 & H2). ps H1.
    + injection H as <-. apply srel_refl.
  - unfold core_read in H. destruct (en_leader (nd_eng n)) as [l|].
    + destruct (joint_is_quorum _ _).
      * injection H as <-. apply srel_refl.
      * destruct (forallb _ _); [|discriminate]. injection H as <-. apply srel_refl.
    + injection H as <-. apply srel_refl.
  - rok H. injection H as <-. destruct (rs_is_voter _ _).
    + eapply en_elect_srel; [apply Hown; reflexivity|exact Hx].
    + injection Hx as <-. apply srel_refl.
  - cbn in H. injection H as <-. ps core_heartbeat_prims.
  - cbn in H. injection H as <-. cbn. eapply (prims_srel _ [KBuild]); [reflexivity|]. apply sh_trigger_prims. reflexivity.
  - rok H. injection H as <-. ps en_trigger_purge_prims. exact Hx.
  - cbn in H. injection H as <-. ps en_trigger_transfer_prims.
Qed.

Definition note_src (x : Note) (n : Node) (v : Vote) : Prop := v ∈ note_votes x n /\ v ∈ note_carries x.
Ltac cursor_s := eapply (prims_srel _ [KCursor]); [reflexivity|]; cursor.

Lemma handle_note_srel now x n y :
  handle_note now x n = Ok y ->
  srel (note_src x n) (nd_eng n) (nd_eng y.1) \/
  exists t resp sv c c', x = NVoteResp t resp sv /\ en_cand (nd_eng n) = Some c /\
    vr_granted resp = true /\ vr_vote resp = cd_vote c /\ cand_grant c t = Ok (c', true) /\
    srel (eq (into_committed (cd_vote c))) (set_leader (Some (cand_into_leader now c')) (set_cand None (nd_eng n))) (nd_eng y.1).
Proof.
  destruct x as [t resp sv|v sv|io|ss t r|ss t time|r]; cbn [handle_note]; unfold lift; intros H.
  - destruct (en_cand (nd_eng n)) as [c|] eqn:Hc; [destruct (vote_matches _ _) eqn:Hm|].
    + rok H. injection H as <-. cbn [fst nd_set_eng nd_eng].
      destruct (decide (vr_granted resp = true /\ vr_vote resp = cd_vote c)) as [[Hg Hv]|Hn].
      * destruct (vote_resp_grant_srel _ _ _ _ _ _ Hc Hg Hv Hx) as (c' & ok & Hgr & H).
        destruct H as [(H1 & H2 & H3 & H4)|[-> H]].
        -- left. split; [exact H4|]. exists []. rewrite app_nil_r. rewrite H3. repeat split; [exact H2|constructor|].
           intros l' Hl'. left. exists l'. rewrite <- H1. auto.
        -- right. exists t, resp, sv, c, c'. auto 8.
      * left. unfold en_vote_resp in Hx. rewrite Hc in Hx.
        destruct (vr_granted resp && vote_eqb (vr_vote resp) (cd_vote c)) eqn:Hgg.
        { exfalso. apply Hn. apply andb_true_iff in Hgg as [H1 H2]. apply vote_eqb_true in H2. auto. }
        rok Hx. injection Hx as <-.
        eapply srel_trans; [|eapply vh_update_vote_srel; [|exact Hx0]].
        2:{ split; [|left]. unfold note_votes. rewrite Hc, Hgg. left. }
        destruct (ologid_ltb _ _); [eapply prim_srel; [apply pr_greater|reflexivity]|apply srel_refl].
    + injection H as <-. left. apply srel_refl.
    + injection H as <-. left. apply srel_refl.
  - left. destruct (vote_matches _ _).
    + rok H. rok Hx. injection Hx as <-. injection H as <-. eapply vh_update_vote_srel; [|exact Hx0]. split; left.
    + injection H as <-. apply srel_refl.
  - left. destruct io as [v|v lid].
    + injection H as <-. cursor_s.
    + destruct (en_leader _).
      * destruct (vote_matches _ _).
        -- rok H. injection H as <-. cbn [fst nd_set_eng nd_eng].
           eapply srel_trans; [|ps rh_update_local_prims; exact Hx]. cursor_s.
        -- injection H as <-. cursor_s.
      * injection H as <-. cursor_s.
  - left. destruct (session_matches _ _).
    + rok H. injection H as <-. ps rh_update_progress_prims. exact Hx.
    + injection H as <-. apply srel_refl.
  - left. destruct (session_matches _ _).
    + rok H. injection H as <-. ps rh_update_clock_prims. exact Hx.
    + injection H as <-. apply srel_refl.
  - left. destruct r as [meta|io meta|since es la].
    + rok H. injection H as <-. cbn [fst].
      eapply srel_trans; [ps en_finish_building_prims; exact Hx|].
      change x with (nd_eng (nd_set_eng x n)) at 1. cursor_s.
    + injection H as <-. cbn [fst]. cursor_s.
    + destruct (apply_results _ _) as [c outs]. injection H as <-. cbn [fst nd_set_clients nd_eng]. cursor_s.
Qed.

Lemma tick_srel (P : Vote -> Prop) now hb ee eh e e' :
  P (vote_new (S (li_term (v_leader (rs_v (en_state e))))) (en_id e)) ->
  handle_tick now hb ee eh e = Ok e' -> srel P e e'.
Proof.
  intros HP. unfold handle_tick. intros H. rok H.
  eapply srel_trans with (b := x).
  { unfold tick_election in Hx. destruct (bool_decide _); [injection Hx as <-; apply srel_refl|].
    destruct (negb _); [injection Hx as <-; apply srel_refl|].
    destruct (negb _); [injection Hx as <-; apply srel_refl|].
    destruct (_ || _); [|injection Hx as <-; apply srel_refl].
    eapply srel_trans; [eapply prim_srel; [apply (pr_greater false)|reflexivity]|].
    eapply en_elect_srel; [exact HP|exact Hx]. }
  set (e2 := match en_leader x with Some _ => _ | None => _ end) in H.
  assert (Hp : prims [KSend; KProgress] x e2).
  { subst e2. destruct (en_leader x) as [l|] eqn:Hl; [|apply prims_refl].
    destruct (ld_next_heartbeat l <=? now); [|apply prims_refl].
    destruct eh.
    - eapply prims_trans; [pk core_heartbeat_prims|]. apply set_progress_prims; [reflexivity|].
      rewrite core_heartbeat_leader. exact Hl.
    - apply set_progress_prims; [reflexivity|exact Hl]. }
  eapply srel_trans; [ps Hp|].
  destruct (ologid_leb _ _) in H.
  - ps en_step_down_prims. exact H.
  - injection H as <-. apply srel_refl.
Qed.

(** every step but taking a command *)
Definition ev_src (ev : Event) (n : Node) (v : Vote) : Prop :=
  v ∈ event_votes ev n /\ (v ∈ carried_votes ev n \/ v = own_next_vote n).
Lemma node_step_srel now ev n n' outs :
  ev <> ERun -> node_step now ev n = Ok (n', outs) ->
  srel (ev_src ev n) (nd_eng n) (nd_eng n') \/
  exists t resp sv c c', note_taken ev n = Some (NVoteResp t resp sv) /\ en_cand (nd_eng n) = Some c /\
    vr_granted resp = true /\ vr_vote resp = cd_vote c /\ cand_grant c t = Ok (c', true) /\
    srel (eq (into_committed (cd_vote c))) (set_leader (Some (cand_into_leader now c')) (set_cand None (nd_eng n))) (nd_eng n').
Proof.
  intros He. destruct ev; cbn [node_step]; unfold when_idle; intros H; try congruence.
  - left. destruct (runnable n) eqn:Hr; [injection H as <- <-; apply srel_refl|].
    apply handle_msg_srel in H. exact H.
  - unfold ev_src, event_votes, carried_votes, note_taken. destruct (runnable n) eqn:Hr; [injection H as <- <-; left; apply srel_refl|].
    destruct (nd_notes n) as [|x r] eqn:Hn; [injection H as <- <-; left; apply srel_refl|]. cbn [head].
    apply handle_note_srel in H as [H|(t & resp & sv & c & c' & -> & H)].
    { left. eapply srel_mono; [|exact H]. intros v [H1 H2]. split; [exact H1|left; exact H2]. }
    right. exists t, resp, sv, c, c'. split; [reflexivity|exact H].
  - left. destruct (runnable n) eqn:Hr; [injection H as <- <-; apply srel_refl|].
    apply lift_prims in H as (e & He' & [= -> ->]). eapply tick_srel; [|exact He']. split; [left|right; reflexivity].
  - left. destruct (runnable n) eqn:Hr; [injection H as <- <-; apply srel_refl|].
    destruct (en_leader (nd_eng n)); [|injection H as <- <-; apply srel_refl].
    apply lift_prims in H as (e & He' & [= -> ->]). ps rh_initiate_prims. exact He'.
  - left. injection H as <- <-. apply srel_refl.
  - left. destruct (so_callbacks (nd_store n) !! i); injection H as <- <-; apply srel_refl.
  - left. rok H. injection H as <- <-. apply sm_step_eng in Hx as [-> _]. apply srel_refl.
  - left. injection H as <- <-. destruct (build_done_eng i n) as [-> _]. apply srel_refl.
  - left. apply stream_send_eng in H as [H _]. cbn in H. rewrite H. apply srel_refl.
  - left. injection H as <- <-. destruct (stream_fail_eng i n) as [-> _]. apply srel_refl.
  - left. injection H as <- <-. destruct (stream_snap_reply_eng i None n) as [-> _]. apply srel_refl.
  - left. injection H as H. pose proof (hb_send_eng t n) as [H1 _]. rewrite H in H1. cbn in H1. rewrite H1. apply srel_refl.
  - left. injection H as H. pose proof (handle_reply_eng tag r n) as [H1 _]. rewrite H in H1. cbn in H1. rewrite H1. apply srel_refl.
Qed.

(** the votes a step asks to store *)
Lemma step_saved now ev n n' outs :
  ev <> ERun -> node_step now ev n = Ok (n', outs) ->
  exists vs, saved_votes (en_out (nd_eng n')) = saved_votes (en_out (nd_eng n)) ++ vs /\
    last (rs_v (nd_state n) :: vs) = Some (rs_v (nd_state n')) /\
    Forall (fun v => v ∈ event_votes ev n) vs.
Proof.
  intros He H. destruct (node_step_srel _ _ _ _ _ He H) as [(_ & cs & Ho & Hc & HP & _)|(t & resp & sv & c & c' & Hn & Hcd & Hg & Hv & _ & _ & cs & Ho & Hc & HP & _)].
  - exists (saved_votes cs). rewrite Ho, saved_app. apply vchain_saved in Hc as [Hl _].
    split; [reflexivity|]. split; [exact Hl|]. eapply Forall_impl; [exact HP|]. intros v [H1 _]. exact H1.
  - exists (saved_votes cs). rewrite Ho. cbn [set_leader set_cand en_out en_state] in *. rewrite saved_app.
    apply vchain_saved in Hc as [Hl _]. split; [reflexivity|]. split; [exact Hl|].
    eapply Forall_impl; [exact HP|]. intros v <-. unfold event_votes. destruct ev; try discriminate Hn.
    rewrite Hn. unfold note_votes. rewrite Hcd, Hg, Hv.
    assert (Hr : vote_eqb (cd_vote c) (cd_vote c) = true) by (apply vote_eqb_true; reflexivity). rewrite Hr. left.
Qed.

(** C06, one step *)
Lemma step_leads h now ev n n' outs L :
  cinv h n -> node_step now ev n = Ok (n', outs) -> leads n' L -> ~ leads n L ->
  (exists t resp sv qs G, note_taken ev n = Some (NVoteResp t resp sv) /\
     vr_granted resp = true /\ vr_vote resp = mkVote L false /\ campaigns n (mkVote L false) qs /\
     quorum qs G /\ forall x, x ∈ G -> x ∈ joint_ids qs /\ granted_by (h ++ taken ev n) (mkVote L false) x) \/
  (li_node L = en_id (nd_eng n) /\
   (rs_v (nd_state n) = mkVote L true \/ mkVote L true ∈ carried_votes ev n)).
Proof.
  intros Hi Hs (l' & Hl' & HL) Hnl.
  assert (Hd : ev = ERun \/ ev <> ERun) by (destruct ev; auto; right; discriminate).
  destruct Hd as [-> |He].
  { exfalso. apply Hnl. exists l'. split; [|exact HL]. rewrite <- Hl'.
    apply node_step_cases in Hs as [->|c r _ Ho _ H|Hne|t c x r Hne|Hne]; try congruence.
    apply run_cmd_prims in H. cbn [fst nd_set_eng nd_eng] in H.
    assert (Hk : forall a b, prims [KCursor] a b -> en_leader b = en_leader a).
    { apply prims_ind_rel; [auto|congruence|]. intros k a b Hk Hp. apply elem_of_list_singleton in Hk as ->.
      inversion Hp. reflexivity. }
    apply Hk in H. rewrite H. reflexivity. }
  assert (HA : forall t resp sv c c', note_taken ev n = Some (NVoteResp t resp sv) -> en_cand (nd_eng n) = Some c ->
    vr_granted resp = true -> vr_vote resp = cd_vote c -> cand_grant c t = Ok (c', true) -> v_leader (cd_vote c) = L ->
    (exists t resp sv qs G, note_taken ev n = Some (NVoteResp t resp sv) /\
     vr_granted resp = true /\ vr_vote resp = mkVote L false /\ campaigns n (mkVote L false) qs /\
     quorum qs G /\ forall x, x ∈ G -> x ∈ joint_ids qs /\ granted_by (h ++ taken ev n) (mkVote L false) x)).
  { intros t resp sv c c' Hn Hc Hg Hv Hgr HLc. destruct (Hi c Hc) as (Hun & G & HG & Hgb).
    destruct (cand_grant_rep _ _ _ _ _ HG Hgr) as (Ht & Hqs & G' & Hin & Hnd & Hok & _).
    assert (Hcv : cd_vote c = mkVote L false).
    { destruct (cd_vote c) as [? []]; cbn in *; congruence. }
    exists t, resp, sv, (cd_qs c), (list_to_set G'). repeat split.
    - exact Hn.
    - exact Hg.
    - congruence.
    - exists c. auto.
    - apply joint_is_quorum_spec; [exact Hnd|]. symmetry. exact Hok.
    - apply elem_of_list_to_set in H. apply Hin in H as [H| ->]; [|exact Ht].
      destruct HG as (_ & R & _ & Hperm). apply elem_of_elements. rewrite <- Hperm. apply elem_of_app. auto.
    - apply elem_of_list_to_set in H. apply Hin in H as [H| ->].
      + destruct (Hgb x H) as (rs & s & Hx & Hy). exists rs, s. rewrite Hcv in Hy. split; [apply elem_of_app; auto|exact Hy].
      + exists resp, sv. split; [|split; congruence]. unfold taken. rewrite Hn. apply elem_of_app. right. left. }
  destruct (node_step_srel _ _ _ _ _ He Hs) as [(_ & cs & Ho & Hc & HP & Hlead)|(t & resp & sv & c & c' & Hn & Hcd & Hg & Hv & Hgr & _ & cs & Ho & Hc & HP & Hlead)].
  - destruct (Hlead l' Hl') as [(l & Hl & Heq)|(Hid & Hin)].
    + exfalso. apply Hnl. exists l. split; congruence.
    + rewrite HL in *. right. split; [exact Hid|]. apply elem_of_cons in Hin as [Hin|Hin]; [left; symmetry; exact Hin|].
      rewrite Forall_forall in HP. apply HP in Hin as [_ [Hin|Hin]]; [right; exact Hin|discriminate Hin].
  - destruct (Hlead l' Hl') as [(l & Hl & Heq)|(Hid & Hin)].
    + cbn [set_leader en_leader] in Hl. injection Hl as <-. left. eapply HA; try eassumption.
      rewrite <- HL, <- Heq. cbn. rewrite (cand_grant_vote _ _ _ _ Hgr). reflexivity.
    + rewrite HL in *. apply elem_of_cons in Hin as [Hin|Hin].
      * right. split; [exact Hid|]. left. symmetry. exact Hin.
      * left. rewrite Forall_forall in HP. apply HP in Hin. eapply HA; try eassumption. unfold into_committed in Hin. congruence.
Qed.

(** ** C03, C04: vote requests *)

Lemma prims_v ks e e' :
  forallb (fun k => negb (bool_decide (k ∈ [KVote; KInitVote]))) ks = true -> prims ks e e' ->
  rs_v (en_state e') = rs_v (en_state e).
Proof.
  intros Hks. apply (prims_ind_rel ks (fun a b => rs_v (en_state b) = rs_v (en_state a))); [reflexivity|congruence|].
  intros k a b Hk Hp. rewrite forallb_forall in Hks. specialize (Hks k). rewrite <- elem_of_list_In in Hks.
  apply Hks in Hk.
  assert (Hn : k ∉ [KVote; KInitVote]) by (destruct (bool_decide _) eqn:Hb; [discriminate|]; apply bool_decide_eq_false in Hb; exact Hb).
  eapply prim_v; [exact Hp| |]; intros ->; apply Hn; set_solver.
Qed.
Lemma update_vote_v now v e x :
  vh_update_vote now v e = Ok x ->
  x.2 = vote_geb v (rs_v (en_state e)) /\ (x.2 = false -> x.1 = e) /\ (x.2 = true -> rs_v (en_state x.1) = v).
Proof.
  unfold vh_update_vote. destruct (vote_geb v (rs_v (en_state e))) eqn:Hge; cbn [negb].
  - intros H. rok H. injection H as <-. cbn [fst snd]. split; [reflexivity|]. split; [discriminate|]. intros _.
    apply vh_update_internal_prims, prims_v in Hx; [|reflexivity]. rewrite Hx.
    destruct (vote_gtb v (rs_v (en_state e))) eqn:Hgt.
    + cbn. rewrite rs_accept_io_v. reflexivity.
    + symmetry. change (v = rs_v (en_state e)). apply vote_geb_antisym; [exact Hge|]. rewrite vote_gtb_negb in Hgt.
      destruct (vote_geb (rs_v _) v); [reflexivity|discriminate].
  - intros [= <-]. repeat split. discriminate.
Qed.

Lemma lease_live_dec now s :
  v_committed (rs_v s) && negb (leased_is_expired now 0 (rs_vote s)) = true <-> lease_live now s.
Proof.
  unfold lease_live, leased_is_expired. destruct (v_committed (rs_v s)); cbn [andb]; [|split; [discriminate|intros [? _]; discriminate]].
  destruct (l_utime (rs_vote s)) as [u|]; cbn [negb].
  - rewrite negb_true_iff, Nat.ltb_ge, Nat.add_0_r. split.
    + intros H. split; [reflexivity|]. exists u. auto.
    + intros (_ & c & [= <-] & H). exact H.
  - split; [discriminate|]. intros (_ & c & ? & _). discriminate.
Qed.

Lemma vote_req_spec now req e e' resp :
  en_vote_req now req e = Ok (e', resp) ->
  (vr_granted resp = true <->
     ~ lease_live now (en_state e) /\ ologid_leb (rs_last (en_state e)) (vq_last req) = true /\
     vote_le (rs_v (en_state e)) (vq_vote req)) /\
  (vr_granted resp = true -> rs_v (en_state e') = vq_vote req) /\
  (vr_granted resp = false -> e' = e) /\
  vr_vote resp = rs_v (en_state e') /\ vr_last resp = rs_last (en_state e').
Proof.
  unfold en_vote_req. pose proof (lease_live_dec now (en_state e)) as Hl.
  destruct (_ && _).
  { intros [= <- <-]. cbn. repeat split; try discriminate. intros (H & _). exfalso. apply H, Hl. reflexivity. }
  destruct (ologid_leb (rs_last (en_state e)) (vq_last req)) eqn:Hlog; cbn [negb].
  2:{ intros [= <- <-]. cbn. repeat split; try discriminate. intros (_ & ? & _). discriminate. }
  intros H. rok H. injection H as <- <-. cbn [vr_granted vr_vote vr_last].
  apply update_vote_v in Hx as (H1 & H2 & H3). split; [|repeat split; auto].
  rewrite H1. unfold vote_le. split; [intros H; repeat split; [|exact H]|tauto]. intros Hc. apply Hl in Hc. discriminate.
Qed.

(** following another node's vote touches neither log nor membership *)
Lemma update_internal_same_log now e e' :
  li_node (v_leader (rs_v (en_state e))) <> en_id e ->
  vh_update_internal now e = Ok e' -> same_log (en_state e) (en_state e') /\ en_leader e' = None /\ en_cand e' = None.
Proof.
  intros Hne. unfold vh_update_internal.
  assert (Hl : rs_is_leading (en_state e) (en_id e) = false).
  { unfold rs_is_leading, voted_for. replace (_ =? _) with false; [apply andb_false_r|]. symmetry. apply Nat.eqb_neq. exact Hne. }
  unfold rs_is_leader. rewrite Hl. cbn [andb]. intros [= <-].
  unfold vh_become_following. rewrite ssh_update_eq. repeat split.
Qed.
Lemma vote_req_same_log now req e e' resp :
  en_vote_req now req e = Ok (e', resp) -> li_node (v_leader (vq_vote req)) <> en_id e ->
  same_log (en_state e) (en_state e').
Proof.
  unfold en_vote_req. destruct (_ && _); [intros [= <- <-]; repeat split|].
  destruct (negb _); [intros [= <- <-]; repeat split|]. intros H Hne. rok H. injection H as <- <-.
  unfold vh_update_vote in Hx. destruct (vote_geb (vq_vote req) (rs_v (en_state e))) eqn:Hge; cbn [negb] in Hx; [|injection Hx as <-; repeat split].
  rok Hx. injection Hx as <-. cbn [fst]. apply update_internal_same_log in Hx0.
  - destruct Hx0 as [Hx0 _]. destruct (vote_gtb _ _); [|exact Hx0].
    cbn [push upd en_state] in Hx0. rewrite rs_accept_io_eq in Hx0. exact Hx0.
  - destruct (vote_gtb (vq_vote req) (rs_v (en_state e))) eqn:Hgt.
    + cbn. rewrite rs_accept_io_v. exact Hne.
    + change (li_node (v_leader (rs_v (en_state e))) <> en_id e).
      assert (vq_vote req = rs_v (en_state e)) as <-; [|exact Hne].
      apply vote_geb_antisym; [exact Hge|]. rewrite vote_gtb_negb in Hgt.
      destruct (vote_geb (rs_v _) (vq_vote req)); [reflexivity|discriminate].
Qed.

(** ** C05: the lease *)

Definition linv (e : Engine) : Prop :=
  let l := rs_vote (en_state e) in
  (v_committed (l_vote l) = false -> l_lease l = 0) /\
  (l_enabled l = false -> l_lease l = 0) /\ l_lease l <= ec_leader_lease (en_cfg e).
Lemma linv_same e e' : rs_vote (en_state e') = rs_vote (en_state e) -> en_cfg e' = en_cfg e -> linv e -> linv e'.
Proof. unfold linv. intros -> ->. auto. Qed.
Lemma prim_rs_vote k e e' : prim k e e' -> k <> KVote -> k <> KInitVote -> k <> KTouch -> k <> KLease ->
  rs_vote (en_state e') = rs_vote (en_state e).
Proof.
  intros H Hv Hi Ht Hl. destruct H; try congruence; try reflexivity; try (cbn [upd en_state]; rewrite rs_accept_io_eq; reflexivity).
  - apply leader_appended_rest.
  - apply fh_do_append_rest.
  - apply fh_truncate_rest.
  - apply sh_trigger_rest.
  - apply logh_purge_rest.
  - apply fh_install_rest.
Qed.
Lemma prim_linv k e e' : prim k e e' -> linv e -> linv e'.
Proof.
  intros H Hi.
  destruct (decide (k ∈ [KVote; KInitVote; KTouch; KLease])) as [Hk|Hk].
  - destruct H; try (exfalso; set_solver); destruct Hi as (H1 & H2 & H3); unfold linv.
    + cbn [push upd en_state en_cfg]. rewrite rs_accept_io_eq. cbn. destruct (v_committed v); repeat split; try discriminate; lia.
    + cbn. destruct (l_enabled _) eqn:He; cbn; [|repeat split; auto].
      unfold rs_v. destruct (v_committed (l_vote _)); repeat split; try discriminate; lia.
    + cbn. repeat split; lia.
    + cbn. repeat split; try discriminate; lia.
  - eapply linv_same; [|eapply prim_cfg; exact H|exact Hi]. eapply prim_rs_vote; [exact H|..]; intros ->; apply Hk; set_solver.
Qed.
Lemma prims_linv ks e e' : prims ks e e' -> linv e -> linv e'.
Proof. apply prims_inv. intros k a b _. apply prim_linv. Qed.
Lemma node_step_linv now ev n n' outs : node_step now ev n = Ok (n', outs) -> linv (nd_eng n) -> linv (nd_eng n').
Proof. intros H. apply node_step_prims in H. eapply prims_linv. exact H. Qed.
Lemma node_start_engine now cfg d sm n :
  node_start now cfg d sm = Ok n ->
  exists s d1 sm1, helper_initial_state now d sm = Ok (s, d1, sm1) /\
    prims ks_startup (engine_new s cfg) (nd_eng n).
Proof.
  unfold node_start. intros H. rok H. destruct x as [[s d1] sm1]. rok H. injection H as <-.
  exists s, d1, sm1. split; [reflexivity|]. eapply en_startup_prims. exact Hx0.
Qed.
Lemma node_start_linv now cfg d sm n : node_start now cfg d sm = Ok n -> linv (nd_eng n) /\ l_lease (rs_vote (nd_state n)) = 0.
Proof.
  intros H. apply node_start_engine in H as (s & d1 & sm1 & Hh & Hp).
  apply helper_initial_inv in Hh as (sm0 & ll & lp & ids & Hh). cbv zeta in Hh. destruct Hh as (_ & _ & _ & _ & Hs).
  assert (Hl : rs_vote (en_state (nd_eng n)) = rs_vote s).
  { revert Hp. apply (prims_ind_rel ks_startup (fun a b => rs_vote (en_state b) = rs_vote (en_state a))); [reflexivity|congruence|].
    intros k a b Hk Hp. eapply prim_rs_vote; [exact Hp|..]; intros ->; apply (bool_decide_eq_true_2 _) in Hk; vm_compute in Hk; discriminate. }
  split.
  - eapply prims_linv; [exact Hp|]. unfold linv. cbn. rewrite Hs. cbn. repeat split; try discriminate; lia.
  - unfold nd_state. rewrite Hl, Hs. reflexivity.
Qed.
Lemma node_run_linv acts : forall n n' outs, linv (nd_eng n) -> node_run acts n = Ok (n', outs) -> linv (nd_eng n').
Proof.
  induction acts as [|a r IH]; intros n n' outs Hi H; cbn [node_run] in *.
  - injection H as <- <-. exact Hi.
  - rok H. rok H. injection H as <- <-. destruct x as [n1 o1]. destruct x0 as [n2 o2].
    eapply IH; [|exact Hx0]. destruct a as [now ev|now k j keep]; cbn [node_act] in Hx.
    + eapply node_step_linv; eassumption.
    + rok Hx. injection Hx as <- <-. unfold node_restart in Hx1. apply node_start_linv in Hx1 as [H _]. exact H.
Qed.
Lemma reachable_linv cfg n : reachable cfg n -> linv (nd_eng n).
Proof.
  intros (now & n0 & acts & outs & Hf & Hr). apply node_start_linv in Hf as [Hf _]. eapply node_run_linv; eassumption.
Qed.

(** disabling lasts as long as the vote *)
Definition drel (e e' : Engine) : Prop :=
  vote_le (rs_v (en_state e)) (rs_v (en_state e')) /\
  (rs_v (en_state e) = rs_v (en_state e') ->
   l_enabled (rs_vote (en_state e)) = false -> l_enabled (rs_vote (en_state e')) = false).
Lemma drel_refl e : drel e e.
Proof. split; [apply vote_geb_refl|auto]. Qed.
Lemma vote_le_trans a b c : vote_le a b -> vote_le b c -> vote_le a c.
Proof. unfold vote_le. intros H1 H2. eapply vote_geb_trans; eassumption. Qed.
Lemma drel_trans a b c : drel a b -> drel b c -> drel a c.
Proof.
  intros [H1 H2] [H3 H4]. split; [eapply vote_le_trans; eassumption|]. intros Heq Hd.
  assert (Hab : rs_v (en_state a) = rs_v (en_state b)).
  { apply vote_geb_antisym; [|exact H1]. unfold vote_le in *. rewrite Heq. exact H3. }
  apply H4; [congruence|]. auto.
Qed.
Lemma prim_drel k e e' : prim k e e' -> k <> KInitVote -> drel e e'.
Proof.
  intros H Hi. destruct (decide (k ∈ [KVote; KInitVote; KTouch; KLease])) as [Hk|Hk].
  - destruct H; try (exfalso; set_solver); try congruence; unfold drel.
    + cbn [push upd en_state]. rewrite rs_accept_io_v. cbn. split; [apply vote_gtb_geb; exact H|].
      intros Heq. exfalso. rewrite Heq in H. exact (vote_lt_irrefl _ H).
    + cbn. split; [apply vote_geb_refl|auto].
    + cbn. split; [apply vote_geb_refl|auto].
  - pose proof (prim_rs_vote _ _ _ H) as Hr. unfold drel, rs_v.
    rewrite Hr by (intros ->; apply Hk; set_solver). split; [apply vote_geb_refl|auto].
Qed.
Lemma prims_drel ks e e' : bool_decide (KInitVote ∈ ks) = false -> prims ks e e' -> drel e e'.
Proof.
  intros Hks. apply prims_ind_rel; [exact drel_refl|exact drel_trans|].
  intros k a b Hk Hp. eapply prim_drel; [exact Hp|]. intros ->. apply bool_decide_eq_false in Hks. contradiction.
Qed.
Lemma handled_drel e e' : handled e e' -> drel e e'.
Proof.
  intros [H|(now & m & Hi & _ & H)]; [eapply prims_drel; [|exact H]; reflexivity|].
  eapply drel_trans; [|eapply prims_drel; [|exact H]; reflexivity].
  unfold drel. cbn [vote_stored push upd en_state]. rewrite rs_accept_io_v. cbn [rs_v rs_vote set_vote leased_update l_vote].
  rewrite (uninit_vote _ Hi). split; [reflexivity|discriminate].
Qed.
Lemma node_step_drel now ev n n' outs : node_step now ev n = Ok (n', outs) -> drel (nd_eng n) (nd_eng n').
Proof.
  intros H. apply node_step_cases in H as [->|c r _ Ho _ H|_ _ H|t c x r _ _ _ (? & ? & _ & Hc & _) H|He].
  - apply drel_refl.
  - apply run_cmd_prims, prims_drel in H; [exact H|reflexivity].
  - apply handled_drel. assumption.
  - eapply prims_drel; [|eapply grant_counted_prims; eassumption]. reflexivity.
  - rewrite He. apply drel_refl.
Qed.

(** ** C43: the election timer *)

Lemma m_is_voter_true m id : m_is_voter m id = true <-> exists c, c ∈ m_configs m /\ id ∈ c.
Proof.
  unfold m_is_voter. rewrite existsb_exists. split; intros (c & H1 & H2); exists c; rewrite elem_of_list_In, bool_decide_eq_true in *; auto.
Qed.
Lemma election_due_dec now ee e :
  (bool_decide (rs_server (en_state e) = SLeader) = false /\ rs_is_voter (en_state e) (en_id e) = true /\ ee = true /\
   (size (m_voter_ids (em_mem (rs_eff (en_state e)))) =? 1)
   || leased_is_expired now (ec_election_timeout (en_cfg e) + (if en_seen_greater e then ec_smaller_log_timeout (en_cfg e) else 0)) (rs_vote (en_state e)) = true)
  <-> election_due now ee e.
Proof.
  unfold election_due. cbv zeta. rewrite bool_decide_eq_false, orb_true_iff. unfold rs_is_voter. rewrite m_is_voter_true.
  unfold leased_is_expired. rewrite Nat.eqb_eq.
  assert (He : match l_utime (rs_vote (en_state e)) with
    | Some u => u + l_lease (rs_vote (en_state e)) + (ec_election_timeout (en_cfg e) + (if en_seen_greater e then ec_smaller_log_timeout (en_cfg e) else 0)) <? now
    | None => true end = true <->
    match l_utime (rs_vote (en_state e)) with
    | Some u => u + l_lease (rs_vote (en_state e)) + (ec_election_timeout (en_cfg e) + (if en_seen_greater e then ec_smaller_log_timeout (en_cfg e) else 0)) < now
    | None => True end).
  { destruct (l_utime _); [rewrite Nat.ltb_lt; reflexivity|tauto]. }
  rewrite He. tauto.
Qed.
Lemma elect_spec now e e' : en_elect now e = Ok e' ->
  rs_v (en_state e') = vote_new (S (li_term (v_leader (rs_v (en_state e))))) (en_id e) /\
  SendVote (mkVoteReq (vote_new (S (li_term (v_leader (rs_v (en_state e))))) (en_id e)) (rs_last (en_state e))) ∈ en_out e'.
Proof.
  unfold en_elect. cbv zeta. intros H. rok H. destruct x as [e1 b]. cbn [fst snd] in H. destruct b; [|discriminate].
  injection H as <-. rewrite ssh_update_eq. apply update_vote_v in Hx as (_ & _ & H3). cbn [snd fst] in H3.
  split; [apply H3; reflexivity|]. cbn. apply elem_of_app. right. left.
Qed.
Lemma tick_election_spec now ee e e' : tick_election now ee e = Ok e' ->
  (election_due now ee e /\ en_elect now (set_greater false e) = Ok e') \/ (~ election_due now ee e /\ e' = e).
Proof.
  intros H. rewrite <- election_due_dec. unfold tick_election in H.
  destruct (bool_decide (rs_server (en_state e) = SLeader)) eqn:H1; [injection H as <-; right; split; [intuition discriminate|reflexivity]|].
  destruct (rs_is_voter (en_state e) (en_id e)) eqn:H2; cbn [negb] in H; [|injection H as <-; right; split; [intuition discriminate|reflexivity]].
  destruct ee; cbn [negb] in H; [|injection H as <-; right; split; [intuition discriminate|reflexivity]].
  destruct (_ || _) eqn:H3; [left; repeat split; auto; exact H|injection H as <-; right; split; [intuition congruence|reflexivity]].
Qed.
Definition nocand (k : Kind) : bool := negb (bool_decide (k ∈ [KVote; KInitVote; KCandNew; KCandGrant])).
Lemma prims_nocand ks e e' : forallb nocand ks = true -> prims ks e e' ->
  rs_v (en_state e') = rs_v (en_state e) /\ (en_cand e' = en_cand e \/ en_cand e' = None).
Proof.
  intros Hks. apply (prims_ind_rel ks (fun a b => rs_v (en_state b) = rs_v (en_state a) /\ (en_cand b = en_cand a \/ en_cand b = None))).
  - auto.
  - intros a b c [H1 H2] [H3 H4]. split; [congruence|]. destruct H4 as [H4|H4]; [rewrite H4; exact H2|auto].
  - intros k a b Hk Hp. rewrite forallb_forall in Hks. specialize (Hks k). rewrite <- elem_of_list_In in Hks.
    apply Hks in Hk. unfold nocand in Hk.
    assert (Hn : k ∉ [KVote; KInitVote; KCandNew; KCandGrant]) by (destruct (bool_decide _) eqn:Hb; [discriminate|]; apply bool_decide_eq_false in Hb; exact Hb).
    split; [eapply prim_v; [exact Hp|..]; intros ->; apply Hn; set_solver|].
    destruct Hp; try discriminate Hk; try (left; reflexivity); try (right; reflexivity).
    + left. apply leader_appended_rest.
    + left. apply fh_do_append_rest.
    + left. apply fh_truncate_rest.
    + left. apply sh_trigger_rest.
    + left. apply logh_purge_rest.
    + left. apply fh_install_rest.
Qed.
Lemma tick_spec now hb ee eh e e' : handle_tick now hb ee eh e = Ok e' ->
  (election_due now ee e ->
     rs_v (en_state e') = vote_new (S (li_term (v_leader (rs_v (en_state e))))) (en_id e)) /\
  (~ election_due now ee e ->
     rs_v (en_state e') = rs_v (en_state e) /\ (en_cand e' = en_cand e \/ en_cand e' = None)).
Proof.
  unfold handle_tick. intros H. rok H. apply tick_election_spec in Hx.
  assert (Hrest : rs_v (en_state e') = rs_v (en_state x) /\ (en_cand e' = en_cand x \/ en_cand e' = None)).
  { set (e2 := match en_leader x with Some _ => _ | None => _ end) in H.
    assert (Hp : prims (KSend :: ks_internal) x e2).
    { subst e2. destruct (en_leader x) as [l|] eqn:Hl; [|apply prims_refl].
      destruct (ld_next_heartbeat l <=? now); [|apply prims_refl].
      destruct eh.
      - eapply prims_trans; [pk core_heartbeat_prims|]. apply set_progress_prims; [reflexivity|].
        rewrite core_heartbeat_leader. exact Hl.
      - apply set_progress_prims; [reflexivity|exact Hl]. }
    assert (Hq : prims (KSend :: ks_internal) x e').
    { eapply prims_trans; [exact Hp|]. destruct (ologid_leb _ _) in H; [pk en_step_down_prims; exact H|injection H as <-; apply prims_refl]. }
    eapply prims_nocand; [|exact Hq]. reflexivity. }
  destruct Hrest as [Hr1 Hr2]. destruct Hx as [[Hd He]|[Hd ->]]; (split; [intros Hd'; try contradiction|intros Hd'; try contradiction]).
  - apply elect_spec in He as [He _]. rewrite Hr1, He. reflexivity.
  - auto.
Qed.

(** ** C28: leadership transfer *)

Lemma trigger_transfer_spec to e :
  (en_leader e = None -> en_trigger_transfer to e = e) /\
  (forall l, en_leader e = Some l ->
     let e' := en_trigger_transfer to e in
     en_leader e' = Some (ld_set_transfer (Some to) l) /\
     en_out e' = en_out e ++ [BroadcastTransferLeader (mkTransferReq (ld_vote l) to (ld_last l))] /\
     rs_v (en_state e') = rs_v (en_state e) /\ l_lease (rs_vote (en_state e')) = 0 /\ l_enabled (rs_vote (en_state e')) = false /\
     same_log (en_state e) (en_state e') /\ en_cand e' = en_cand e).
Proof.
  unfold en_trigger_transfer. split; [intros ->; reflexivity|]. intros l ->. repeat split.
Qed.
Lemma transferring_write p tx n l to :
  en_leader (nd_eng n) = Some l -> ld_transfer l = Some to ->
  core_write p tx n = Ok (n, [OClient tx (CForward (fst <$> rs_new_forward (nd_state n) to))]).
Proof. unfold core_write. intros -> ->. reflexivity. Qed.
Lemma transferring_heartbeat e l to :
  en_leader e = Some l -> ld_transfer l = Some to -> core_heartbeat e = e.
Proof. unfold core_heartbeat. intros -> ->. reflexivity. Qed.
(** no update clears the mark but giving up or taking leadership *)
Lemma prim_transfer k e e' l :
  prim k e e' -> k <> KLeaderFresh -> k <> KEstablish -> k <> KFollow ->
  en_leader e = Some l -> ld_transfer l <> None ->
  exists l', en_leader e' = Some l' /\ ld_transfer l' <> None /\ v_leader (ld_vote l') = v_leader (ld_vote l).
Proof.
  intros H H1 H2 H3 Hl Ht. destruct H; try congruence; try (exists l; repeat split; assumption).
  - exists l'. assert (l0 = l) as -> by congruence. repeat split; congruence.
  - exists l'. assert (l0 = l) as -> by congruence. repeat split; congruence.
  - assert (l0 = l) as -> by congruence. eexists. split; [reflexivity|]. split; [exact Ht|]. cbn. congruence.
  - assert (l0 = l) as -> by congruence. eexists. split; [reflexivity|]. split; [discriminate|]. reflexivity.
  - assert (l0 = l) as -> by congruence. destruct (leader_appended_rest ps l e) as (_ & _ & _ & _ & l1 & Ha & Hb & Hc & _).
    exists l1. repeat split; congruence.
  - exists l. split; [|auto]. rewrite <- Hl. apply fh_do_append_rest.
  - exists l. split; [|auto]. rewrite <- Hl. apply fh_truncate_rest.
  - exists l. split; [|auto]. rewrite <- Hl. apply sh_trigger_rest.
  - exists l. split; [|auto]. rewrite <- Hl. apply logh_purge_rest.
  - exists l. split; [|auto]. rewrite <- Hl. apply fh_install_rest.
Qed.
Lemma core_transfer_spec now req e e' :
  core_transfer now req e = Ok e' ->
  (rs_v (en_state e) <> tq_from req -> e' = e) /\
  (rs_v (en_state e) = tq_from req -> en_id e <> tq_to req ->
     rs_v (en_state e') = rs_v (en_state e) /\ l_enabled (rs_vote (en_state e')) = false /\ l_lease (rs_vote (en_state e')) = 0 /\
     same_log (en_state e) (en_state e') /\ en_leader e' = en_leader e /\ en_cand e' = en_cand e /\ en_out e' = en_out e) /\
  (rs_v (en_state e) = tq_from req -> en_id e = tq_to req ->
     rs_v (en_state e') = vote_new (S (li_term (v_leader (tq_from req)))) (en_id e) /\ vote_lt (tq_from req) (rs_v (en_state e')) /\
     SendVote (mkVoteReq (rs_v (en_state e')) (rs_last (en_state e))) ∈ en_out e').
Proof.
  unfold core_transfer. destruct (vote_eqb _ _) eqn:Hv.
  - apply vote_eqb_true in Hv. destruct (en_id e =? tq_to req) eqn:Hid.
    + intros H. apply elect_spec in H as [H1 H2]. split; [congruence|]. split; [lia|]. intros _ _.
      change (rs_v (en_state (upd (fun s => set_vote (leased_disable (rs_vote s)) s) e))) with (rs_v (en_state e)) in *.
      rewrite H1. rewrite Hv in *. split; [reflexivity|]. split; [|exact H2].
      change (vote_lt (tq_from req) (vote_new (S (li_term (v_leader (tq_from req)))) (en_id e))). rewrite <- Hv. apply next_vote_gt.
    + intros [= <-]. split; [congruence|]. split; [repeat split|lia].
  - intros [= <-]. assert (Hne : rs_v (en_state e) <> tq_from req) by (intros Heq; apply vote_eqb_true in Heq; congruence).
    repeat split; congruence.
Qed.
