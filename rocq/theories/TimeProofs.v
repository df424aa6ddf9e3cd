(** Proofs about the quorum-acknowledged time. *)
From Coq Require Import Bool Lia ZifyBool ZifyNat.
From stdpp Require Import base numbers option gmap list.
From Verif Require Import Types TypesProofs LogIdList Quorum QuorumSpec QuorumProofs Membership Progress ProgressSpec ProgressProofs
  RaftState ProgressEntry Engine LeaderTime TimeSpec.

Lemma onat_total : total_order onat_leb.
Proof.
  unfold total_order, onat_leb, onat_cmp. repeat split.
  - intros [a|]; [|reflexivity]. cbn. rewrite Nat.compare_refl. reflexivity.
  - intros [a|] [b|] [c|]; cbn; try discriminate; try reflexivity. intros H1 H2.
    destruct (Nat.compare_spec a b), (Nat.compare_spec b c), (Nat.compare_spec a c); cbn in *; try reflexivity; try discriminate; lia.
  - intros [a|] [b|]; cbn; auto. destruct (Nat.compare_spec a b), (Nat.compare_spec b a); cbn; auto; lia.
Qed.
Lemma onat_le_some t y : onat_leb (Some t) y = true -> exists s, y = Some s /\ t <= s.
Proof.
  destruct y as [s|]; [|discriminate]. unfold onat_leb, onat_cmp. cbn.
  destruct (Nat.compare_spec t s); cbn; intros; try discriminate; exists s; split; auto; lia.
Qed.
Lemma onat_gt_leb a b : onat_ltb b a = negb (onat_leb a b).
Proof.
  unfold onat_leb, onat_ltb, onat_cmp. destruct a as [a|], b as [b|]; try reflexivity; cbn.
  destruct (Nat.compare_spec a b), (Nat.compare_spec b a); cbn; try reflexivity; lia.
Qed.
Lemma onat_gt a b : (fun a b => onat_ltb b a) a b = pltb onat_leb b a.
Proof. unfold pltb. apply onat_gt_leb. Qed.

Definition hist_of (me : nat) (op : TimeOp) : nat * option nat :=
  match op with TAck j t => (j, Some t) | TReport now => (me, Some now) end.

Lemma update_ext {V P : Type} (pleb : P -> P -> bool) (borrow : V -> P) vp j f g :
  (forall x, f x = g x) -> vp_update_with pleb borrow vp j f = vp_update_with pleb borrow vp j g.
Proof.
  intros H. unfold vp_update_with, vp_update_gen. repeat (case_match; try reflexivity); rewrite ?H in *; congruence.
Qed.
Lemma acks_app {V P : Type} (pleb : P -> P -> bool) (borrow : V -> P) vp vgt h1 h2 :
  vp_acks pleb borrow vp vgt (h1 ++ h2) = vp_acks pleb borrow (vp_acks pleb borrow vp vgt h1) vgt h2.
Proof. apply foldl_app. Qed.

Definition tvgt : option nat -> option nat -> bool := fun a b => onat_ltb b a.
Lemma acked_in me hist j t : onat_leb (Some t) (acked onat_leb None (map (hist_of me) hist) j) = true ->
  exists s, t <= s /\ (j, Some s) ∈ map (hist_of me) hist.
Proof.
  induction hist as [|op hist IH] using rev_ind; [discriminate|].
  rewrite map_app. unfold acked in *. rewrite foldl_app. cbn [map foldl].
  destruct (decide (j = (hist_of me op).1)) as [Hj|Hj].
  - unfold later at 1. destruct (negb _); intros H.
    + apply onat_le_some in H as (s & Hs & Hle). exists s. split; [exact Hle|]. apply elem_of_app. right.
      apply elem_of_list_singleton. rewrite Hj, <- Hs. destruct (hist_of me op); reflexivity.
    + destruct (IH H) as (s & H1 & H2). exists s. split; [exact H1|]. apply elem_of_app. left. exact H2.
  - intros H. destruct (IH H) as (s & H1 & H2). exists s. split; [exact H1|]. apply elem_of_app. left. exact H2.
Qed.

(** the clock after a history *)
Lemma run_clock vote ops : forall e e' l, en_leader e = Some l -> ld_vote l = vote -> time_run ops e = Ok e' ->
  exists l', en_leader e' = Some l' /\ ld_vote l' = vote /\
    ld_clock l' = vp_acks onat_leb id (ld_clock l) tvgt (map (hist_of (li_node (v_leader vote))) ops).
Proof.
  induction ops as [|op ops IH]; intros e e' l Hl Hv Hr.
  - cbn in Hr. injection Hr as <-. exists l. repeat split; assumption.
  - cbn [time_run] in Hr. destruct (time_step op e) as [e1|] eqn:Hs; [|discriminate]. cbn in Hr.
    assert (exists l1, en_leader e1 = Some l1 /\ ld_vote l1 = vote /\
       ld_clock l1 = (vp_increase_to onat_leb id tvgt (ld_clock l) (hist_of (li_node (v_leader vote)) op).1
                       (hist_of (li_node (v_leader vote)) op).2).1) as (l1 & H1 & H2 & H3).
    { destruct op as [j t|now]; cbn in Hs.
      - unfold rh_update_clock in Hs. rewrite Hl in Hs.
        destruct (vp_increase_to _ _ _ _ _ _) as [c ok] eqn:Hc. destruct ok; [|discriminate]. injection Hs as <-.
        eexists. split; [reflexivity|]. split; [exact Hv|]. cbn. change id with (fun x : option nat => x). reflexivity.
      - injection Hs as <-. unfold quorum_acked. rewrite Hl. cbn. eexists. split; [reflexivity|]. split; [exact Hv|].
        cbn. rewrite Hv. reflexivity. }
    destruct (IH _ _ _ H1 H2 Hr) as (l' & H4 & H5 & H6). exists l'. split; [exact H4|]. split; [exact H5|].
    rewrite H6, H3. reflexivity.
Qed.

Lemma tvgt_acks vp hist : vp_acks onat_leb id vp tvgt hist = vp_acks onat_leb id vp (fun v x => pltb onat_leb x v) hist.
Proof.
  revert vp. induction hist as [|a hist IH]; intros vp; [reflexivity|]. cbn. fold (vp_acks onat_leb id).
  unfold vp_acks in IH. rewrite IH. f_equal. unfold vp_increase_to. f_equal. apply update_ext. intros x.
  unfold tvgt. rewrite onat_gt_leb. reflexivity.
Qed.

Lemma quorum_time c learners vote ids start ops e e' now t :
  tracked_ok [c] learners -> size c <= 3 ->
  en_leader e = Some (leader_new start vote [c] learners ids) -> time_run ops e = Ok e' ->
  (quorum_acked now e').2 = Some t ->
  exists A : gset nat, quorum [c] A /\ A ⊆ c /\
    forall j, j ∈ A -> vouches (li_node (v_leader vote)) (ops ++ [TReport now]) t j.
Proof.
  intros Hok Hc Hl Hr Ht.
  destruct (run_clock vote ops e e' _ Hl eq_refl Hr) as (l' & H1 & H2 & H3).
  unfold quorum_acked in Ht. rewrite H1 in Ht. cbn in Ht. rewrite H2, H3 in Ht. cbn [leader_new ld_clock] in Ht.
  set (me := li_node (v_leader vote)) in *.
  assert (Hg : vp_granted (vp_acks onat_leb id (vp_new id [c] learners None) tvgt (map (hist_of me) (ops ++ [TReport now]))) = Some t).
  { rewrite map_app, acks_app. exact Ht. }
  rewrite tvgt_acks in Hg.
  pose proof (progress_three onat_leb c learners None (map (hist_of me) (ops ++ [TReport now])) onat_total Hok Hc) as [Hq _].
  rewrite Hg in Hq. eexists. split; [exact Hq|]. split.
  - unfold voters_at. intros x Hx. apply elem_of_filter in Hx as [_ Hx].
    unfold joint_ids in Hx. cbn in Hx. set_solver.
  - intros j Hj. apply elem_of_filter in Hj as [Hj _]. apply acked_in in Hj as (s & Hs & Hin).
    exists s. split; [exact Hs|]. apply elem_of_list_fmap in Hin as (op & He & Hin).
    destruct op as [k u|u]; injection He as -> ->; [left|right; split; [reflexivity|]]; exact Hin.
Qed.

(** which replies are counted *)
From Verif Require Import Store RaftCore.
Lemma handle_reply_counts tag r n n' outs : handle_reply tag r n = (n', outs) ->
  exists ns, nd_notes n' = nd_notes n ++ ns /\
    forall ss t time, NHeartbeat ss t time ∈ ns ->
      (exists rid s w a, tag = TagStream t rid /\ r = RAppend a /\ (forall v, a <> AHigherVote v) /\
         s ∈ nd_streams n /\ st_target s = t /\ st_session s = ss /\
         st_wait s = Some w /\ sw_rid w = rid /\ sw_time w = time) \/
      (exists rid s meta v, tag = TagStreamSnap t rid /\ r = RSnapshot v /\ vote_gtb v (ss_vote ss) = false /\
         s ∈ nd_streams n /\ st_target s = t /\ st_session s = ss /\ st_snap s = Some (meta, time, rid)) \/
      (exists a, tag = TagHeartbeat ss time t /\ r = RAppend a).
Proof.
  intros H.
  assert (Hnil : nd_notes n' = nd_notes n -> exists ns, nd_notes n' = nd_notes n ++ ns /\
    forall ss t time, NHeartbeat ss t time ∈ ns -> False).
  { intros He. exists []. split; [rewrite app_nil_r; exact He|]. intros ss t time Hin. inversion Hin. }
  assert (Hidx : forall t i, stream_index t (nd_streams n) = Some i -> exists s, nd_streams n !! i = Some s /\ st_target s = t).
  { intros t i Hi. unfold stream_index in Hi. destruct (list_find _ _) as [[i' s]|] eqn:Hf; [|discriminate].
    injection Hi as <-. apply list_find_Some in Hf as (H1 & H2 & _). exists s. split; assumption. }
  unfold handle_reply in H.
  destruct tag as [t rid|t rid|sv t|ss0 time0 t0|tx t|], r as [a0|a|v|ok];
    try (injection H as <- <-; destruct Hnil as (ns & H1 & H2); [reflexivity|]; exists ns; split; [exact H1|];
         intros ss t' time Hin; destruct (H2 _ _ _ Hin); fail).
  all: try (injection H as <- <-; eexists [_]; split; [reflexivity|]; intros ss t' time Hin;
            apply elem_of_list_singleton in Hin; discriminate Hin).
  - destruct (stream_index t (nd_streams n)) as [i|] eqn:Hi; [|injection H as <- <-; destruct Hnil as (ns & H1 & H2); [reflexivity|]; exists ns; split; [exact H1|]; intros; exfalso; eauto].
    destruct (Hidx _ _ Hi) as (s & Hs & Hst). rewrite Hs in H. cbn in H.
    destruct (st_wait s) as [w|] eqn:Hw; [|injection H as <- <-; destruct Hnil as (ns & H1 & H2); [reflexivity|]; exists ns; split; [exact H1|]; intros; exfalso; eauto].
    destruct (Nat.eqb_spec (sw_rid w) rid) as [Hr|Hr]; [|injection H as <- <-; destruct Hnil as (ns & H1 & H2); [reflexivity|]; exists ns; split; [exact H1|]; intros; exfalso; eauto].
    injection H as <- <-. unfold stream_reply. rewrite Hs, Hw.
    assert (Hin : s ∈ nd_streams n) by (eapply elem_of_list_lookup_2; exact Hs).
    assert (Hc : (forall v, a <> AHigherVote v) ->
       forall ss t' time, NHeartbeat (st_session s) (st_target s) (sw_time w) = NHeartbeat ss t' time ->
       (exists rid' s w a', TagStream t rid = TagStream t' rid' /\ RAppend a = RAppend a' /\ (forall v, a' <> AHigherVote v) /\
         s ∈ nd_streams n /\ st_target s = t' /\ st_session s = ss /\
         st_wait s = Some w /\ sw_rid w = rid' /\ sw_time w = time)).
    { intros Ha ss t' time He. injection He as <- <- <-. exists rid, s, w, a. rewrite <- Hst at 1. repeat split; assumption. }
    destruct a as [|v|].
    + destruct (sw_payload w).
      * exists [NHeartbeat (st_session s) (st_target s) (sw_time w); NReplProgress (st_session s) (st_target s) (RRMatching (lr_last (sw_range w)))].
        split; [cbn; rewrite <- app_assoc; reflexivity|]. intros ss t' time Hx. left.
        apply elem_of_cons in Hx as [Hx|Hx]; [|apply elem_of_list_singleton in Hx; discriminate Hx].
        apply (Hc ltac:(discriminate)). symmetry. exact Hx.
      * eexists [_]. split; [reflexivity|]. intros ss t' time Hx. left. apply elem_of_list_singleton in Hx.
        apply (Hc ltac:(discriminate)). symmetry. exact Hx.
    + eexists [_]. split; [reflexivity|]. intros ss t' time Hx. apply elem_of_list_singleton in Hx. discriminate Hx.
    + destruct (lr_prev (sw_range w)) as [c|].
      * destruct (sw_payload w).
        -- exists [NHeartbeat (st_session s) (st_target s) (sw_time w); NReplProgress (st_session s) (st_target s) (RRConflict c)].
           split; [cbn; rewrite <- app_assoc; reflexivity|]. intros ss t' time Hx. left.
           apply elem_of_cons in Hx as [Hx|Hx]; [|apply elem_of_list_singleton in Hx; discriminate Hx].
           apply (Hc ltac:(discriminate)). symmetry. exact Hx.
        -- eexists [_]. split; [reflexivity|]. intros ss t' time Hx. left. apply elem_of_list_singleton in Hx.
           apply (Hc ltac:(discriminate)). symmetry. exact Hx.
      * exists []. split; [cbn; rewrite app_nil_r; reflexivity|]. intros ss t' time Hx. inversion Hx.
  - destruct (stream_index t (nd_streams n)) as [i|] eqn:Hi; [|injection H as <- <-; destruct Hnil as (ns & H1 & H2); [reflexivity|]; exists ns; split; [exact H1|]; intros; exfalso; eauto].
    destruct (Hidx _ _ Hi) as (s & Hs & Hst). rewrite Hs in H. cbn in H.
    destruct (st_snap s) as [[[meta time] r]|] eqn:Hw; [|injection H as <- <-; destruct Hnil as (ns & H1 & H2); [reflexivity|]; exists ns; split; [exact H1|]; intros; exfalso; eauto].
    destruct (Nat.eqb_spec r rid) as [Hr|Hr]; [|injection H as <- <-; destruct Hnil as (ns & H1 & H2); [reflexivity|]; exists ns; split; [exact H1|]; intros; exfalso; eauto].
    injection H as <- <-. subst r. unfold stream_snap_reply. rewrite Hs, Hw.
    assert (Hin : s ∈ nd_streams n) by (eapply elem_of_list_lookup_2; exact Hs).
    destruct (vote_gtb v (ss_vote (st_session s))) eqn:Hg.
    + eexists [_]. split; [reflexivity|]. intros ss t' time' Hx. apply elem_of_list_singleton in Hx. discriminate Hx.
    + exists [NHeartbeat (st_session s) (st_target s) time; NReplProgress (st_session s) (st_target s) (RRMatching (sm_last meta))].
      split; [cbn; rewrite <- app_assoc; reflexivity|]. intros ss t' time' Hx. right. left.
      apply elem_of_cons in Hx as [Hx|Hx]; [|apply elem_of_list_singleton in Hx; discriminate Hx].
      injection Hx as -> -> ->. exists rid, s, meta, v. rewrite Hst. repeat split; assumption.
  - injection H as <- <-. eexists [_]. split; [reflexivity|]. intros ss t' time Hx. right. right.
    apply elem_of_list_singleton in Hx. injection Hx as -> -> ->. exists a. split; reflexivity.
  - unfold read_reply in H. repeat case_match; try discriminate; injection H as <- <-;
      try (destruct Hnil as (ns & H1' & H2'); [reflexivity|]; exists ns; split; [exact H1'|]; intros; exfalso; eauto; fail).
    eexists [_]. split; [reflexivity|]. intros ss t' time Hx. apply elem_of_list_singleton in Hx. discriminate Hx.
Qed.
