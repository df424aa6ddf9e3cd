(** Proofs about calls of the public interface (C44). *)
From Coq Require Import Bool Lia ZifyBool ZifyNat.
From stdpp Require Import base numbers option gmap list.
From Verif Require Import Types LogIdList Quorum Membership QuorumSpec QuorumProofs Api ApiSpec.

(** the second request, from any membership with the groups the first has left *)
Lemma second_request m m1 ch retain c g :
  valid_membership m1 -> m_configs m1 = [c; g] -> last_group m = c -> requested m ch = Some g ->
  exists m2, m_change m1 ch retain = inl m2 /\ m_configs m2 = [g].
Proof.
  intros Hv1 H3 Hl Hg. exists (change_target m1 ch retain).
  assert (Hr : requested m1 ch = Some g).
  { unfold requested, last_group in *. rewrite H3. cbn.
    destruct ch; cbn in *; try done; injection Hg as <-; f_equal; set_solver. }
  assert (Hc : m_configs (change_target m1 ch retain) = [g]).
  { pose proof (target_groups m1 ch retain) as Ht. unfold groups_after in Ht. rewrite Hr, H3 in Ht.
    destruct Ht as [[_ ?]|[(Hn & _)|[Hn _]]]; [done| |done]. set_solver. }
  split; [|done]. apply m_change_ok. split; [done|].
  destruct Hv1 as [Hv1 Hv2]. split.
  - rewrite Hc. intros d Hin. apply Hv1. rewrite H3. set_solver.
  - rewrite Hc. intros d id Hin Hid.
    assert (d = g) as -> by set_solver.
    assert (Hs : is_Some (m_nodes m1 !! id)). { apply (Hv2 g); [rewrite H3; set_solver|done]. }
    assert (Hng : id ∈ joint_ids [g]) by (cbn; set_solver).
    unfold requested in Hg.
    destruct ch; try done; cbn [change_target] in Hc |- *; unfold next_coherent in Hc |- *;
      cbn [m_configs m_nodes] in Hc |- *; rewrite Hc; destruct retain; try done;
      try (destruct Hs as [v Hs]; exists v; apply map_filter_lookup_Some; split; [|cbn; set_solver]);
      unfold extend_nodes; try done.
    + apply elem_of_dom. rewrite dom_union. apply elem_of_union_l. by apply elem_of_dom.
    + by apply lookup_union_Some_l.
Qed.
Lemma keeps_voters_groups bs : forall m, valid_membership m -> keeps_voters m bs ->
  valid_membership (foldl after_request m bs) /\ m_configs (foldl after_request m bs) = m_configs m.
Proof.
  induction bs as [|b r IH]; intros m Hv; cbn [keeps_voters foldl]; [auto|]. intros [Hb Hr].
  assert (Hx : valid_membership (after_request m b) /\ m_configs (after_request m b) = m_configs m).
  { unfold after_request. destruct (m_change m b.1 b.2) as [m'|e] eqn:Hm; [|auto]. split; [eapply change_valid; exact Hm|].
    destruct Hb as [Hb|[e He]]; [|discriminate]. apply change_groups in Hm. unfold groups_after in Hm. rewrite Hb in Hm. exact Hm. }
  destruct Hx as [H1 H2]. destruct (IH _ H1 Hr) as [H3 H4]. split; [exact H3|congruence].
Qed.
Lemma change_call_alone m ch rt g bs : valid_membership m -> requested m ch = Some g ->
  (forall m1, m_change m ch rt = inl m1 -> keeps_voters m1 bs) ->
  match change_call ch rt m bs with
  | inl m' => m_configs m' = [g]
  | inr e => m_change m ch rt = inr e
  end.
Proof.
  intros Hv Hg Hbs. unfold change_call. destruct (m_change m ch rt) as [m1|e] eqn:H1; [|reflexivity].
  pose proof (change_groups _ _ _ _ H1) as Hgr. unfold groups_after in Hgr. rewrite Hg in Hgr.
  destruct Hgr as [[_ Hx]|[(_ & _ & Hx)|[_ Hx]]]; rewrite Hx; cbn [length Nat.eqb]; [exact Hx| |exact Hx].
  destruct (keeps_voters_groups bs m1 (change_valid _ _ _ _ H1) (Hbs m1 eq_refl)) as [K1 K2]. rewrite Hx in K2.
  destruct (second_request m _ ch rt _ _ K1 K2 eq_refl Hg) as (m2 & -> & Hc). exact Hc.
Qed.
Lemma request_last m ch rt m' g : m_change m ch rt = inl m' -> requested m ch = Some g -> last_group m' = g.
Proof.
  intros H Hg. apply change_groups in H. unfold groups_after in H. rewrite Hg in H. unfold last_group.
  destruct H as [[_ ->]|[(_ & _ & ->)|[_ ->]]]; reflexivity.
Qed.
Lemma change_call_last ids rt m bs m' : change_call (ReplaceAllVoters ids) rt m bs = inl m' ->
  valid_membership m' /\ last_group m' = ids /\ (m_configs m' = [ids] \/ exists c, m_configs m' = [c; ids]).
Proof.
  unfold change_call. intros H.
  assert (Hg : forall m0 m1, m_change m0 (ReplaceAllVoters ids) rt = inl m1 ->
    valid_membership m1 /\ last_group m1 = ids /\ (m_configs m1 = [ids] \/ exists c, m_configs m1 = [c; ids])).
  { intros m0 m1 Hc. split; [eapply change_valid; exact Hc|]. split; [eapply request_last; [exact Hc|reflexivity]|].
    apply change_groups in Hc. unfold groups_after in Hc. cbn in Hc. destruct Hc as [[_ ->]|[(_ & _ & ->)|[_ ->]]]; eauto. }
  destruct (m_change m _ rt) as [m1|] eqn:H1; [|discriminate]. destruct (_ =? _); [injection H as <-|]; eauto.
Qed.

Definition call_m : Membership := mkMembership [ {[1; 2; 3]} ] (list_to_map [(1, 11); (2, 12); (3, 13); (4, 14); (5, 15)]).
Lemma change_call_joint : exists m a b rt m', valid_membership m /\ length (m_configs m) = 1 /\
  change_call b rt (after_request m (a, rt)) [(a, rt)] = inl m' /\ length (m_configs m') = 2.
Proof.
  exists call_m, (ReplaceAllVoters {[1; 2; 4]}), (ReplaceAllVoters {[1; 2; 5]}), true. eexists.
  split; [apply ensure_valid_spec; vm_compute; reflexivity|]. split; [reflexivity|]. split; [vm_compute; reflexivity|]. reflexivity.
Qed.
