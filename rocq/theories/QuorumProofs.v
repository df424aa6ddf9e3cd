(** Quorums and membership changes. *)
From Coq Require Import Bool Lia ZifyBool ZifyNat.
From stdpp Require Import base numbers option gmap list.
From Verif Require Import Types TypesProofs Quorum Membership QuorumSpec.

(** ** majority *)
Lemma maj_loop_spec c ids : forall count seen,
  NoDup ids -> seen ## list_to_set ids -> seen ⊆ c -> count = 2 * size seen -> count <= size c ->
  maj_loop c (size c) count ids = true <-> size c < 2 * size (seen ∪ (c ∩ list_to_set ids)).
Proof.
  induction ids as [|x r IH]; intros count seen Hnd Hdis Hsub Hcount Hle; cbn [maj_loop list_to_set].
  - rewrite intersection_empty_r_L, union_empty_r_L. split; [done|lia].
  - apply NoDup_cons in Hnd as [Hx Hnd].
    case_bool_decide as Hxc.
    + assert (Hsz : size (seen ∪ {[x]}) = S (size seen)).
      { rewrite size_union by (cbn in Hdis; set_solver). rewrite size_singleton. lia. }
      destruct (size c <? count + 2) eqn:E.
      * split; [|done]. intros _.
        assert (size (seen ∪ {[x]}) <= size (seen ∪ c ∩ ({[x]} ∪ list_to_set r))).
        { apply subseteq_size. set_solver. }
        lia.
      * rewrite (IH (count + 2) (seen ∪ {[x]})); [|done| | |lia|lia].
        -- replace (seen ∪ {[x]} ∪ c ∩ list_to_set r) with (seen ∪ c ∩ ({[x]} ∪ list_to_set r)) by set_solver.
           done.
        -- cbn in Hdis. assert (x ∉ (list_to_set r : gset nat)) by by rewrite elem_of_list_to_set. set_solver.
        -- set_solver.
    + rewrite (IH count seen); [|done|cbn in Hdis; set_solver|done|done|done].
      replace (seen ∪ c ∩ ({[x]} ∪ list_to_set r)) with (seen ∪ c ∩ list_to_set r) by set_solver.
      done.
Qed.

Lemma maj_is_quorum_spec c ids : NoDup ids ->
  maj_is_quorum c ids = true <-> majority c (list_to_set ids).
Proof.
  intros Hnd. unfold maj_is_quorum, majority.
  rewrite (maj_loop_spec c ids 0 ∅); [|done|set_solver|set_solver|done|lia].
  by rewrite union_empty_l_L.
Qed.

Lemma joint_is_quorum_spec cs ids : NoDup ids ->
  joint_is_quorum cs ids = true <-> quorum cs (list_to_set ids).
Proof.
  intros Hnd. unfold quorum. induction cs as [|c cs IH]; cbn.
  - split; [|done]. intros _ c Hc. by apply elem_of_nil in Hc.
  - destruct (maj_is_quorum c ids) eqn:E; cbn.
    + rewrite IH. apply maj_is_quorum_spec in E; [|done]. split.
      * intros H c' Hc'. apply elem_of_cons in Hc' as [->|Hc']; auto.
      * intros H c' Hc'. apply H. by right.
    + split; [done|]. intros H. exfalso.
      assert (maj_is_quorum c ids = true); [|congruence].
      apply maj_is_quorum_spec; [done|]. apply H. by left.
Qed.

Lemma majority_intersect c q1 q2 : majority c q1 -> majority c q2 ->
  exists n, n ∈ c /\ n ∈ q1 /\ n ∈ q2.
Proof.
  unfold majority. intros H1 H2.
  destruct (decide (c ∩ q1 ∩ q2 = ∅)) as [E|E].
  - exfalso.
    assert (size (c ∩ q1 ∪ c ∩ q2) = size (c ∩ q1) + size (c ∩ q2)) as Es.
    { apply size_union. set_solver. }
    assert (size (c ∩ q1 ∪ c ∩ q2) <= size c) as Hle.
    { apply subseteq_size. set_solver. }
    lia.
  - apply set_choose_L in E as [n Hn]. exists n. set_solver.
Qed.
Lemma quorum_intersect cs cs' q1 q2 c : c ∈ cs -> c ∈ cs' ->
  quorum cs q1 -> quorum cs' q2 -> exists n, n ∈ c /\ n ∈ q1 /\ n ∈ q2.
Proof. intros H1 H2 Hq1 Hq2. apply majority_intersect; auto. Qed.

Lemma quorum_intersect_same cs q1 q2 : cs <> [] -> quorum cs q1 -> quorum cs q2 ->
  exists n c, c ∈ cs /\ n ∈ c /\ n ∈ q1 /\ n ∈ q2.
Proof.
  intros Hne H1 H2. destruct cs as [|c cs]; [done|].
  destruct (quorum_intersect (c :: cs) (c :: cs) q1 q2 c) as (n & ? & ? & ?); [by left|by left|done|done|].
  exists n, c. split; [by left|done].
Qed.

Lemma quorum_mono cs q1 q2 : q1 ⊆ q2 -> quorum cs q1 -> quorum cs q2.
Proof.
  intros Hs H c Hc. specialize (H c Hc). unfold majority in *.
  assert (size (c ∩ q1) <= size (c ∩ q2)) by (apply subseteq_size; set_solver). lia.
Qed.

Lemma elem_of_joint_ids cs id : id ∈ joint_ids cs <-> exists c, c ∈ cs /\ id ∈ c.
Proof.
  induction cs as [|c cs IH]; cbn.
  - split; [set_solver|]. intros (c & Hc & _). by apply elem_of_nil in Hc.
  - rewrite elem_of_union, IH. split.
    + intros [H|(c' & H & H')]; [exists c; split; [by left|done]|exists c'; split; [by right|done]].
    + intros (c' & [->|H]%elem_of_cons & H'); [by left|right; eauto].
Qed.

Lemma quorum_all cs : (forall c, c ∈ cs -> c <> ∅) -> quorum cs (joint_ids cs).
Proof.
  intros Hne c Hc. unfold majority. replace (c ∩ joint_ids cs) with c.
  - specialize (Hne c Hc). assert (size c <> 0); [|lia].
    intros E. apply size_empty_inv in E. apply Hne. set_solver.
  - apply set_eq. intros x. rewrite elem_of_intersection, elem_of_joint_ids. split; [|tauto]. eauto.
Qed.

Lemma quorum_of_voters cs q : quorum cs q <-> quorum cs (q ∩ joint_ids cs).
Proof.
  assert (forall c, c ∈ cs -> c ∩ (q ∩ joint_ids cs) = c ∩ q) as He.
  { intros c Hc. apply set_eq. intros x. rewrite !elem_of_intersection, elem_of_joint_ids.
    split; [tauto|]. intros [H1 H2]. split; [done|]. split; [done|]. eauto. }
  split; intros H c Hc; specialize (H c Hc); unfold majority in *.
  - by rewrite He.
  - by rewrite He in H.
Qed.

(** ** coherence *)
Lemma joint_coherent_one_spec a c : joint_coherent_one a c = true <-> c ∈ a.
Proof.
  unfold joint_coherent_one. rewrite existsb_exists. split.
  - intros (x & Hx & Hd). apply bool_decide_eq_true in Hd as ->. by apply elem_of_list_In.
  - intros H. exists c. split; [by apply elem_of_list_In|]. by apply bool_decide_eq_true.
Qed.
Lemma joint_coherent_spec a b : joint_coherent a b = true <-> exists c, c ∈ a /\ c ∈ b.
Proof.
  unfold joint_coherent. rewrite existsb_exists. split.
  - intros (x & Hx & Hy). rewrite existsb_exists in Hy. destruct Hy as (y & Hy & Hd).
    apply bool_decide_eq_true in Hd as <-. exists x. split; by apply elem_of_list_In.
  - intros (c & Ha & Hb). exists c. split; [by apply elem_of_list_In|].
    rewrite existsb_exists. exists c. split; [by apply elem_of_list_In|]. by apply bool_decide_eq_true.
Qed.

Lemma find_coherent_cases a g :
  (g ∈ a /\ find_coherent a g = [g]) \/
  (g ∉ a /\ exists l, last a = Some l /\ find_coherent a g = [l; g]) \/
  (a = [] /\ find_coherent a g = [g]).
Proof.
  unfold find_coherent. destruct (joint_coherent_one a g) eqn:E.
  - left. apply joint_coherent_one_spec in E. done.
  - destruct (last a) as [l|] eqn:El.
    + right; left. split; [|eauto]. intros H. apply joint_coherent_one_spec in H. congruence.
    + right; right. by apply last_None in El.
Qed.

(** ** validity *)
Lemma set_min_None s : set_min s = None <-> s = ∅.
Proof.
  unfold set_min. split.
  - intros H.
    destruct (elements s) as [|x l] eqn:E.
    + by apply elements_empty_inv, leibniz_equiv in E.
    + cbn in H. by destruct (foldr _ None l).
  - intros ->. by rewrite elements_empty.
Qed.

Lemma m_is_voter_spec m id : m_is_voter m id = true <-> voter_of m id.
Proof.
  unfold m_is_voter, voter_of. rewrite existsb_exists. split.
  - intros (c & Hc & Hd). apply bool_decide_eq_true in Hd. exists c. by rewrite elem_of_list_In.
  - intros (c & Hc & Hd). exists c. split; [by apply elem_of_list_In|]. by apply bool_decide_eq_true.
Qed.
Lemma voter_of_ids m id : id ∈ m_voter_ids m <-> voter_of m id.
Proof. apply elem_of_joint_ids. Qed.

Lemma ensure_valid_spec m : ensure_valid m = None <-> valid_membership m.
Proof.
  unfold ensure_valid, valid_membership.
  assert (Hne : ensure_non_empty m = true <-> forall c, c ∈ m_configs m -> c <> ∅).
  { unfold ensure_non_empty. rewrite forallb_forall. split.
    - intros H c Hc. apply elem_of_list_In in Hc. specialize (H c Hc).
      apply negb_true_iff, bool_decide_eq_false in H. done.
    - intros H c Hc. apply negb_true_iff, bool_decide_eq_false. apply H. by apply elem_of_list_In. }
  assert (Hv : set_min (missing_voters m) = None <->
    forall c id, c ∈ m_configs m -> id ∈ c -> is_Some (m_nodes m !! id)).
  { rewrite set_min_None. unfold missing_voters. split.
    - intros H c id Hc Hid. apply elem_of_dom.
      destruct (decide (id ∈ dom (m_nodes m))) as [|Hn]; [done|]. exfalso.
      assert (id ∈ m_voter_ids m ∖ dom (m_nodes m)); [|set_solver].
      apply elem_of_difference. split; [|done]. apply elem_of_joint_ids. eauto.
    - intros H. apply set_eq. intros id. split; [|set_solver].
      rewrite elem_of_difference. intros [H1 H2]. exfalso. apply H2, elem_of_dom.
      apply elem_of_joint_ids in H1 as (c & Hc & Hid). eauto. }
  destruct (ensure_non_empty m); cbn.
  - destruct (set_min (missing_voters m)).
    + split; [done|]. intros [_ H]. apply Hv in H. done.
    + split; [|done]. intros _. split; [by apply Hne|by apply Hv].
  - split; [done|]. intros [H _]. apply Hne in H. done.
Qed.

(** ** changes *)
Lemma m_change_ok m ch retain m' : m_change m ch retain = inl m' <->
  m' = change_target m ch retain /\ valid_membership m'.
Proof.
  unfold m_change. rewrite <- ensure_valid_spec. destruct (ensure_valid _) eqn:E.
  - split; [done|]. intros [-> H]. congruence.
  - split; [intros [= <-]; done|]. intros [-> _]. done.
Qed.

Lemma change_valid m ch retain m' : m_change m ch retain = inl m' -> valid_membership m'.
Proof. intros H. by apply m_change_ok in H as [_ ?]. Qed.

Lemma last_group_in m : m_configs m <> [] -> last_group m ∈ m_configs m.
Proof.
  unfold last_group. destruct (last (m_configs m)) as [c|] eqn:E.
  - intros _. apply last_Some in E as [l ->]. set_solver.
  - by apply last_None in E.
Qed.

Lemma target_groups m ch retain : groups_after m ch (m_configs (change_target m ch retain)).
Proof.
  unfold groups_after, requested.
  destruct ch; cbn; try done;
  (match goal with |- context [find_coherent ?a ?g] =>
    assert (Hlg : default ∅ (last (m_configs m)) = last_group m) by (unfold last_group; by destruct (last (m_configs m)));
    destruct (find_coherent_cases a g) as [[H1 ->]|[(H1 & l & Hl & ->)|[H1 ->]]]
   end;
   [left | right; left | right; right]; rewrite ?Hlg in *; try done;
   split; [done|]; split; [intros E; by rewrite E in Hl|];
   assert (l = last_group m) as -> by (unfold last_group; by rewrite Hl); done).
Qed.

Lemma change_groups m ch retain m' : m_change m ch retain = inl m' -> groups_after m ch (m_configs m').
Proof. intros H. apply m_change_ok in H as [-> _]. apply target_groups. Qed.

Lemma change_coherent m ch retain m' : m_configs m <> [] -> m_change m ch retain = inl m' ->
  exists c, c ∈ m_configs m /\ c ∈ m_configs m'.
Proof.
  intros Hne H. apply change_groups in H. unfold groups_after in H.
  destruct (requested m ch) as [g|].
  - destruct H as [[H1 ->]|[(H1 & H2 & ->)|[H1 _]]]; [| |done].
    + exists g. split; [done|set_solver].
    + exists (last_group m). split; [by apply last_group_in|set_solver].
  - rewrite H. exists (last_group m). split; by apply last_group_in.
Qed.

Lemma change_nonempty m ch retain m' : m_configs m <> [] -> m_change m ch retain = inl m' ->
  m_configs m' <> [].
Proof.
  intros Hne H. destruct (change_coherent _ _ _ _ Hne H) as (c & _ & Hc). intros E. rewrite E in Hc. set_solver.
Qed.

Lemma change_quorums_intersect m ch retain m' q q' :
  m_configs m <> [] -> m_change m ch retain = inl m' ->
  quorum (m_configs m) q -> quorum (m_configs m') q' ->
  exists n, n ∈ q /\ n ∈ q' /\ voter_of m n /\ voter_of m' n.
Proof.
  intros Hne H Hq Hq'. destruct (change_coherent _ _ _ _ Hne H) as (c & H1 & H2).
  destruct (quorum_intersect _ _ _ _ c H1 H2 Hq Hq') as (n & ? & ? & ?).
  exists n. split; [done|]. split; [done|]. split; exists c; done.
Qed.

Lemma change_twice m ch retain m1 g :
  valid_membership m -> m_change m ch retain = inl m1 -> requested m ch = Some g ->
  m_configs m1 = [g] \/
  exists m2, m_change m1 ch retain = inl m2 /\ m_configs m2 = [g].
Proof.
  intros Hv H Hg. pose proof (change_groups _ _ _ _ H) as Hgr.
  unfold groups_after in Hgr. rewrite Hg in Hgr.
  destruct Hgr as [[H1 H2]|[(H1 & H2 & H3)|[H1 H2]]]; [by left| |by left].
  right. pose proof (change_valid _ _ _ _ H) as Hv1.
  exists (change_target m1 ch retain).
  assert (Hr : requested m1 ch = Some g).
  { unfold requested, last_group in *. rewrite H3. cbn.
    destruct ch; cbn in *; try done; injection Hg as <-; f_equal; set_solver. }
  assert (Hc : m_configs (change_target m1 ch retain) = [g]).
  { pose proof (target_groups m1 ch retain) as Ht. unfold groups_after in Ht. rewrite Hr, H3 in Ht.
    destruct Ht as [[_ ?]|[(Hn & _)|[Hn _]]]; [done| |done]. set_solver. }
  split; [|done]. apply m_change_ok. split; [done|].
  destruct Hv1 as [Hv1 Hv2]. split.
  - rewrite Hc. intros c Hin. apply Hv1. rewrite H3. set_solver.
  - rewrite Hc. intros c id Hin Hid.
    assert (c = g) as -> by set_solver.
    assert (Hs : is_Some (m_nodes m1 !! id)). { apply (Hv2 g); [rewrite H3; set_solver|done]. }
    assert (Hng : id ∈ joint_ids [g]) by (cbn; set_solver).
    unfold requested in Hg.
    destruct ch; try done; cbn [change_target] in Hc |- *; unfold next_coherent in Hc |- *;
      cbn [m_configs m_nodes] in Hc |- *; rewrite Hc; destruct retain; try done;
      try (destruct Hs as [v Hs]; exists v; apply map_filter_lookup_Some; split; [|cbn; set_solver]);
      unfold extend_nodes; try done.
    + apply elem_of_dom. rewrite dom_union. apply elem_of_union_l. by apply elem_of_dom.
    + by apply lookup_union_Some_l.
Qed.

Lemma map_filter_notin (X : gset nat) (m : gmap nat nat) k :
  filter (fun kv => kv.1 ∉ X) m !! k = if bool_decide (k ∈ X) then None else m !! k.
Proof.
  case_bool_decide as E.
  - apply map_filter_lookup_None. right. intros v _. cbn. tauto.
  - destruct (m !! k) as [v|] eqn:Em.
    + by apply map_filter_lookup_Some.
    + apply map_filter_lookup_None. by left.
Qed.

Lemma change_records m ch retain m' id : m_change m ch retain = inl m' ->
  (dropped m m' ch retain id -> m_nodes m' !! id = None) /\
  (~ dropped m m' ch retain id -> m_nodes m' !! id = record_after m ch id).
Proof.
  intros H. apply m_change_ok in H as [-> _].
  assert (Hnc : forall m0 g, m_configs m0 = m_configs m ->
    (retain = false /\ voter_of m id /\ ~ voter_of (next_coherent m0 g retain) id ->
        m_nodes (next_coherent m0 g retain) !! id = None) /\
    (~ (retain = false /\ voter_of m id /\ ~ voter_of (next_coherent m0 g retain) id) ->
        m_nodes (next_coherent m0 g retain) !! id = m_nodes m0 !! id)).
  { intros m0 g Hm0. unfold voter_of. rewrite <- !elem_of_joint_ids. unfold next_coherent.
    cbn [m_configs m_nodes]. rewrite Hm0. destruct retain.
    - split; [intros [? _]; done|done].
    - rewrite map_filter_notin.
      case_bool_decide as E.
      + split; [done|]. intros Hn. exfalso. apply Hn. set_solver.
      + split; [|done]. intros (_ & H1 & H2). exfalso. apply E. set_solver. }
  unfold dropped.
  destruct ch; cbn [change_target requested record_after].
  - destruct (Hnc m (default ∅ (last (m_configs m)) ∪ ids) eq_refl) as [H1 H2].
    split; [intros (_ & ?); by apply H1|]. intros Hn. apply H2. intros ?. apply Hn. done.
  - destruct (Hnc (mkMembership (m_configs m) (extend_nodes (m_nodes m) nodes)) (default ∅ (last (m_configs m)) ∪ dom nodes) eq_refl) as [H1 H2].
    split; [intros (_ & ?); by apply H1|]. intros Hn. rewrite H2 by (intros ?; apply Hn; done).
    cbn. unfold extend_nodes. rewrite lookup_union. by destruct (m_nodes m !! id), (nodes !! id).
  - destruct (Hnc m (default ∅ (last (m_configs m)) ∖ ids) eq_refl) as [H1 H2].
    split; [intros (_ & ?); by apply H1|]. intros Hn. apply H2. intros ?. apply Hn. done.
  - destruct (Hnc m ids eq_refl) as [H1 H2].
    split; [intros (_ & ?); by apply H1|]. intros Hn. apply H2. intros ?. apply Hn. done.
  - split; [intros [? _]; done|]. intros _. cbn. rewrite lookup_union. by destruct (m_nodes m !! id), (nodes !! id).
  - split; [intros [? _]; done|]. intros _. cbn. rewrite lookup_union. by destruct (m_nodes m !! id), (nodes !! id).
  - split; [intros [? _]; done|]. intros _. cbn.
    by rewrite map_filter_notin.
  - split; [intros [? _]; done|]. intros _. done.
Qed.

(** a rejected change names a real reason *)
Lemma set_min_elem s x : set_min s = Some x -> x ∈ s /\ forall y, y ∈ s -> x <= y.
Proof.
  unfold set_min. intros H.
  assert (Hg : forall l x, foldr (fun x acc => match acc with None => Some x | Some y => Some (Nat.min x y) end) None l = Some x ->
     x ∈ l /\ forall y, y ∈ l -> x <= y).
  { clear. induction l as [|a l IH]; cbn; [done|]. intros x.
    destruct (foldr _ None l) as [y|] eqn:E.
    - intros [= <-]. destruct (IH y eq_refl) as [H1 H2]. split.
      + destruct (Nat.min_spec a y) as [[_ ->]|[_ ->]]; set_solver.
      + intros z [->|Hz]%elem_of_cons; [lia|]. specialize (H2 z Hz). lia.
    - intros [= <-]. destruct l as [|b l].
      + split; [set_solver|]. intros z [->|Hz]%elem_of_cons; [lia|set_solver].
      + cbn in E. by destruct (foldr _ None l). }
  apply Hg in H as [H1 H2]. split; [set_solver|]. intros y Hy. apply H2. set_solver.
Qed.

Lemma change_rejected m ch retain e : m_change m ch retain = inr e ->
  match e with
  | EEmptyMembership => exists c, c ∈ m_configs (change_target m ch retain) /\ c = ∅
  | ELearnerNotFound id =>
      voter_of (change_target m ch retain) id /\ m_nodes (change_target m ch retain) !! id = None
  | EInProgress _ _ => False
  end.
Proof.
  unfold m_change, ensure_valid. set (t := change_target m ch retain).
  destruct (ensure_non_empty t) eqn:E; cbn.
  - destruct (set_min (missing_voters t)) as [id|] eqn:Es; [|done]. intros [= <-].
    apply set_min_elem in Es as [Es _]. unfold missing_voters in Es.
    apply elem_of_difference in Es as [H1 H2]. split; [by apply voter_of_ids|]. by apply not_elem_of_dom.
  - intros [= <-]. unfold ensure_non_empty in E.
    apply not_true_iff_false in E. rewrite forallb_forall in E.
    destruct (decide (∅ ∈ m_configs t)) as [Hin|Hn]; [eauto|]. exfalso. apply E.
    intros c Hc. apply negb_true_iff, bool_decide_eq_false. intros ->. apply Hn. by apply elem_of_list_In.
Qed.

(** ** one change in flight *)
Lemma ms_change_in_progress s ch retain :
  em_log_id (ms_effective s) <> em_log_id (ms_committed s) ->
  ms_change s ch retain = inr (EInProgress (em_log_id (ms_committed s)) (em_log_id (ms_effective s))).
Proof. intros H. unfold ms_change. by rewrite bool_decide_false. Qed.
Lemma ms_change_ok s ch retain m' : ms_change s ch retain = inl m' ->
  em_log_id (ms_effective s) = em_log_id (ms_committed s) /\
  m_change (em_mem (ms_effective s)) ch retain = inl m'.
Proof. unfold ms_change. case_bool_decide; done. Qed.
