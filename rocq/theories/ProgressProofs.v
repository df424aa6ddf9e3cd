(** Correctness of [VecProgress]. *)
From Coq Require Import Bool Lia ZifyBool ZifyNat.
From stdpp Require Import base numbers option gmap sorting list.
From Verif Require Import Types TypesProofs Quorum QuorumSpec Membership QuorumProofs Progress ProgressSpec.

Section progress.
  Context {V P : Type} (pleb : P -> P -> bool) (borrow : V -> P).
  Context (Ho : total_order pleb).
  Lemma prefl a : pleb a a = true. Proof. apply Ho. Qed.
  Lemma ptrans a b c : pleb a b = true -> pleb b c = true -> pleb a c = true. Proof. apply Ho. Qed.
  Lemma ptotal a b : pleb a b = true \/ pleb b a = true. Proof. apply Ho. Qed.

  Notation VP := (VecProgress V P).
  Notation pltb := (pltb pleb).

  Lemma pltb_true a b : pltb a b = true <-> pleb b a = false.
  Proof. unfold Progress.pltb. destruct (pleb b a); cbn; split; congruence. Qed.
  Lemma pltb_leb a b : pltb a b = true -> pleb a b = true.
  Proof. rewrite pltb_true. intros H. destruct (ptotal a b); congruence. Qed.
  Lemma plt_le_trans a b c : pltb a b = true -> pleb b c = true -> pltb a c = true.
  Proof.
    rewrite !pltb_true. intros H1 H2. destruct (pleb c a) eqn:E; [|done].
    assert (pleb b a = true) by by eapply ptrans. congruence.
  Qed.
  Lemma ple_lt_trans a b c : pleb a b = true -> pltb b c = true -> pltb a c = true.
  Proof.
    rewrite !pltb_true. intros H1 H2. destruct (pleb c a) eqn:E; [|done].
    assert (pleb c b = true) by by eapply ptrans. congruence.
  Qed.

  (** ** index, lookups *)
  Lemma vp_index_Some (vec : list (nat * V)) id i : vp_index vec id = Some i ->
    exists v, vec !! i = Some (id, v).
  Proof.
    revert i; induction vec as [|[a v] r IH]; intros i; cbn; [done|].
    destruct (a =? id) eqn:E.
    - intros [= <-]. assert (a = id) as -> by lia. by exists v.
    - destruct (vp_index r id) as [j|]; [|done]. intros [= <-]. by apply IH.
  Qed.
  Lemma vp_index_None (vec : list (nat * V)) id : vp_index vec id = None <-> id ∉ map fst vec.
  Proof.
    induction vec as [|[a v] r IH]; cbn; [set_solver|].
    destruct (a =? id) eqn:E.
    - split; [done|]. intros H. exfalso. apply H. assert (a = id) as -> by lia. set_solver.
    - destruct (vp_index r id).
      + split; [done|]. intros H. exfalso. apply not_elem_of_cons in H as [_ H]. apply IH in H. done.
      + split; [|done]. intros _. apply not_elem_of_cons. split; [lia|by apply IH].
  Qed.
  Lemma vp_index_lookup (vec : list (nat * V)) id v i : NoDup (map fst vec) ->
    vec !! i = Some (id, v) -> vp_index vec id = Some i.
  Proof.
    revert i; induction vec as [|[a w] r IH]; intros i Hnd Hi; [done|]. cbn in *.
    apply NoDup_cons in Hnd as [Hna Hnd].
    destruct i as [|i]; cbn in Hi.
    - injection Hi as -> ->. by rewrite Nat.eqb_refl.
    - destruct (a =? id) eqn:E.
      + exfalso. assert (a = id) as -> by lia. apply Hna.
        apply elem_of_list_fmap. exists (id, v). split; [done|]. by eapply elem_of_list_lookup_2.
      + by rewrite (IH i).
  Qed.

  (** value of a node, as a function of the vector *)
  Definition vget (vec : list (nat * V)) (id : nat) : option V :=
    match vp_index vec id with
    | None => None
    | Some i => match vec !! i with Some e => Some e.2 | None => None end
    end.
  Definition vval (vec : list (nat * V)) (id : nat) : option P := borrow <$> vget vec id.

  Lemma vget_spec vec id v : NoDup (map fst vec) -> vget vec id = Some v <-> (id, v) ∈ vec.
  Proof.
    intros Hnd. unfold vget. split.
    - destruct (vp_index vec id) as [i|] eqn:E; [|done].
      apply vp_index_Some in E as [w E]. rewrite E. cbn. intros [= ->]. by eapply elem_of_list_lookup_2.
    - intros [i Hi]%elem_of_list_lookup. rewrite (vp_index_lookup _ _ _ _ Hnd Hi), Hi. done.
  Qed.
  Lemma vget_None vec id : vget vec id = None <-> id ∉ map fst vec.
  Proof.
    unfold vget. destruct (vp_index vec id) as [i|] eqn:E.
    - pose proof E as E'. apply vp_index_Some in E as [w E]. rewrite E. cbn. split; [done|].
      intros H. apply vp_index_None in H. congruence.
    - rewrite vp_index_None in E. done.
  Qed.
  Lemma vget_perm vec vec' id : NoDup (map fst vec) -> vec ≡ₚ vec' -> vget vec id = vget vec' id.
  Proof.
    intros Hnd Hp. assert (Hnd' : NoDup (map fst vec')) by by rewrite <- Hp.
    destruct (vget vec id) as [v|] eqn:E.
    - symmetry. apply vget_spec; [done|]. rewrite <- Hp. by apply vget_spec.
    - symmetry. apply vget_None. rewrite <- Hp. by apply vget_None.
  Qed.
  Lemma vget_insert vec i id v w j : NoDup (map fst vec) -> vec !! i = Some (id, v) ->
    vget (<[i := (id, w)]> vec) j = if decide (j = id) then Some w else vget vec j.
  Proof.
    intros Hnd Hi.
    assert (Hm : map fst (<[i := (id, w)]> vec) = map fst vec).
    { rewrite <- (list_insert_id (map fst vec) i id); [by rewrite list_fmap_insert|].
      by rewrite list_lookup_fmap, Hi. }
    assert (Hnd' : NoDup (map fst (<[i := (id, w)]> vec))) by by rewrite Hm.
    assert (Hlt : i < length vec) by by eapply lookup_lt_Some.
    destruct (decide (j = id)) as [->|Hne].
    - apply vget_spec; [done|]. apply elem_of_list_lookup. exists i. by apply list_lookup_insert.
    - destruct (vget vec j) as [u|] eqn:E.
      + apply vget_spec; [done|]. apply vget_spec in E; [|done].
        apply elem_of_list_lookup in E as [k Hk]. apply elem_of_list_lookup. exists k.
        destruct (decide (k = i)) as [->|Hki]; [congruence|]. by rewrite list_lookup_insert_ne.
      + apply vget_None. rewrite Hm. by apply vget_None.
  Qed.

  (** ** invariants *)
  Definition vp_wf (vp : VP) : Prop :=
    NoDup (map fst (vp_vec vp)) /\ vp_voters vp <= length (vp_vec vp) /\
    (list_to_set (map fst (take (vp_voters vp) (vp_vec vp))) : gset nat) = joint_ids (vp_qs vp).

  Definition sorted_above (g : P) (vec : list (nat * V)) : Prop :=
    forall i j a b, i < j -> vec !! i = Some a -> vec !! j = Some b ->
      pltb g (borrow b.2) = true -> pleb (borrow b.2) (borrow a.2) = true.

  Definition vp_sorted (vp : VP) : Prop :=
    sorted_above (vp_granted vp) (take (vp_voters vp) (vp_vec vp)).

  Definition vp_greatest (vp : VP) : Prop :=
    greatest_quorum_value pleb (vp_qs vp) (vval (vp_vec vp)) (vp_granted vp).

  (** ** move_up *)
  Lemma move_up_spec pre mid x post :
    Forall (fun a => pltb (borrow a.2) (borrow x.2) = true) mid ->
    (forall a, last pre = Some a -> pltb (borrow a.2) (borrow x.2) = false) ->
    move_up pleb borrow (length (pre ++ mid)) (pre ++ mid ++ x :: post) =
      (pre ++ x :: mid ++ post, length pre).
  Proof.
    intros Hmid Hpre. revert post. induction mid as [|m mid IH] using rev_ind; intros post.
    - rewrite app_nil_r. cbn [app]. destruct (length pre) as [|n] eqn:El; [done|]. cbn [move_up].
      destruct pre as [|a pre _] using rev_ind; [done|].
      rewrite app_length in El. cbn in El. assert (n = length pre) as -> by lia.
      rewrite <- app_assoc. cbn [app].
      rewrite list_lookup_middle by done.
      rewrite (lookup_app_r pre) by lia.
      replace (S (length pre) - length pre) with 1 by lia. cbn.
      rewrite (Hpre a) by by rewrite last_snoc. done.
    - apply Forall_app in Hmid as [Hmid Hm]. inversion Hm as [|? ? Hm1 _]; subst.
      rewrite !app_length. cbn [length].
      replace (length pre + (length mid + 1)) with (S (length (pre ++ mid))) by (rewrite app_length; lia).
      cbn [move_up].
      replace (pre ++ (mid ++ [m]) ++ x :: post) with ((pre ++ mid) ++ m :: x :: post) by by rewrite <- !app_assoc.
      rewrite list_lookup_middle by done.
      rewrite (lookup_app_r (pre ++ mid)) by lia.
      replace (S (length (pre ++ mid)) - length (pre ++ mid)) with 1 by lia. cbn [lookup list_lookup].
      rewrite Hm1.
      assert (Hsw : <[length (pre ++ mid) := x]> (<[S (length (pre ++ mid)) := m]> ((pre ++ mid) ++ m :: x :: post))
        = pre ++ mid ++ x :: m :: post).
      { rewrite (insert_app_r_alt (pre ++ mid)) by lia.
        replace (S (length (pre ++ mid)) - length (pre ++ mid)) with 1 by lia. cbn [insert list_insert].
        rewrite <- (Nat.add_0_r (length (pre ++ mid))), insert_app_r. cbn.
        by rewrite <- app_assoc. }
      rewrite Hsw, IH by done. by rewrite <- app_assoc.
  Qed.

  (** every split of the part before [x] is of this form *)
  Lemma split_pre (l : list (nat * V)) (x : nat * V) : exists pre mid, l = pre ++ mid /\
    Forall (fun a => pltb (borrow a.2) (borrow x.2) = true) mid /\
    (forall a, last pre = Some a -> pltb (borrow a.2) (borrow x.2) = false).
  Proof.
    induction l as [|a l IH] using rev_ind.
    - exists [], []. done.
    - destruct (pltb (borrow a.2) (borrow x.2)) eqn:E.
      + destruct IH as (pre & mid & -> & Hm & Hp). exists pre, (mid ++ [a]).
        split; [by rewrite app_assoc|]. split; [|done]. apply Forall_app. split; [done|]. by constructor.
      + exists (l ++ [a]), []. rewrite app_nil_r. split; [done|]. split; [constructor|].
        intros b. rewrite last_snoc. intros [= <-]. done.
  Qed.

  (** ** the search loop *)
  Lemma find_granted_spec qs g vec n : forall i,
    i + n <= length vec ->
    let g' := find_granted pleb borrow qs g vec i n in
    (g' = g /\ (forall j e, i <= j < i + n -> vec !! j = Some e ->
                  (exists k e', i <= k <= j /\ vec !! k = Some e' /\ pleb (borrow e'.2) g = true) \/
                  joint_is_quorum qs (map fst (take (S j) vec)) = false)) \/
    (exists j e, i <= j < i + n /\ vec !! j = Some e /\ g' = borrow e.2 /\
        pleb (borrow e.2) g = false /\
        joint_is_quorum qs (map fst (take (S j) vec)) = true /\
        (forall k e', i <= k < j -> vec !! k = Some e' ->
            pleb (borrow e'.2) g = false /\ joint_is_quorum qs (map fst (take (S k) vec)) = false)).
  Proof.
    induction n as [|n IH]; intros i Hlen; cbn [find_granted].
    - left. split; [done|]. intros; lia.
    - destruct (lookup_lt_is_Some_2 vec i ltac:(lia)) as [e He]. rewrite He.
      destruct (pleb (borrow e.2) g) eqn:E1.
      + left. split; [done|]. intros j e' Hj Hj'. left. exists i, e. split; [lia|done].
      + destruct (joint_is_quorum qs (map fst (take (S i) vec))) eqn:E2.
        * right. exists i, e. split; [lia|]. do 4 (split; [done|]). intros; lia.
        * destruct (IH (S i) ltac:(lia)) as [[Hg H]|(j & e' & Hj & Hje & Hg & Hlt & Hq & H)].
          -- left. split; [done|]. intros j e' Hj Hje.
             destruct (decide (j = i)) as [->|Hne].
             ++ right. done.
             ++ destruct (H j e') as [(k & e'' & Hk & ?)|?]; [lia|done| |by right].
                left. exists k, e''. split; [lia|done].
          -- right. exists j, e'. split; [lia|]. do 4 (split; [done|]). intros k e0 Hk Hke.
             destruct (decide (k = i)) as [->|Hne].
             ++ split; [congruence|done].
             ++ apply (H k e0); [lia|done].
  Qed.

  Lemma find_granted_ge qs g vec n i : pleb g (find_granted pleb borrow qs g vec i n) = true.
  Proof.
    revert i; induction n as [|n IH]; intros i; cbn; [apply prefl|].
    destruct (vec !! i) as [e|]; [|apply prefl].
    destruct (pleb (borrow e.2) g) eqn:E; [apply prefl|].
    destruct (joint_is_quorum _ _); [|apply IH].
    apply pltb_leb. by apply pltb_true.
  Qed.

  (** ** voters_at in terms of the vector *)
  Lemma elem_voters_at qs vec p id : NoDup (map fst vec) ->
    id ∈ voters_at pleb qs (vval vec) p <->
    id ∈ joint_ids qs /\ exists v, (id, v) ∈ vec /\ pleb p (borrow v) = true.
  Proof.
    intros Hnd. unfold voters_at, vval. rewrite elem_of_filter. split.
    - intros [H1 H2]. split; [done|]. destruct (vget vec id) as [v|] eqn:E; cbn in H1; [|done].
      exists v. split; [by apply vget_spec|done].
    - intros [H1 (v & Hv & Hp)]. split; [|done]. apply vget_spec in Hv; [|done]. by rewrite Hv.
  Qed.

  Lemma take_voter_ids vp j id : vp_wf vp -> j <= vp_voters vp ->
    id ∈ map fst (take j (vp_vec vp)) -> id ∈ joint_ids (vp_qs vp).
  Proof.
    intros (_ & _ & Hset) Hj H. rewrite <- Hset. apply elem_of_list_to_set.
    apply elem_of_list_fmap in H as (e & -> & He). apply elem_of_list_fmap. exists e. split; [done|].
    apply elem_of_take in He as (k & Hk & Hlt). apply elem_of_take. exists k. split; [done|lia].
  Qed.

  Lemma NoDup_take_fst (vec : list (nat * V)) j : NoDup (map fst vec) -> NoDup (map fst (take j vec)).
  Proof.
    intros H. rewrite <- (take_drop j vec), map_app in H. by apply NoDup_app in H as [H _].
  Qed.

  (** a prefix that is a quorum and whose members all have at least [p] makes [p] a quorum value *)
  Lemma prefix_quorum vp j p : vp_wf vp -> j <= vp_voters vp ->
    (forall k e, k < j -> vp_vec vp !! k = Some e -> pleb p (borrow e.2) = true) ->
    joint_is_quorum (vp_qs vp) (map fst (take j (vp_vec vp))) = true ->
    quorum_value pleb (vp_qs vp) (vval (vp_vec vp)) p.
  Proof.
    intros Hwf Hj Hall Hq. pose proof Hwf as (Hnd & Hlen & Hset).
    apply joint_is_quorum_spec in Hq; [|by apply NoDup_take_fst].
    eapply quorum_mono; [|done]. intros id Hid. apply elem_of_list_to_set in Hid.
    apply elem_voters_at; [done|]. split; [by eapply take_voter_ids|].
    apply elem_of_list_fmap in Hid as ([id' v] & -> & He).
    apply elem_of_take in He as (k & Hk & Hlt). exists v. cbn.
    split; [by eapply elem_of_list_lookup_2|]. by apply (Hall k (id', v)).
  Qed.

  (** ** the generic update step *)
  Definition good (vp : VP) : Prop := vp_wf vp /\ vp_sorted vp /\ vp_greatest vp.

  Definition not_above (vp : VP) : Prop :=
    forall p, pleb p (vp_granted vp) = false -> ~ quorum_value pleb (vp_qs vp) (vval (vp_vec vp)) p.

  Lemma vval_after vec i id v w j : NoDup (map fst vec) -> vec !! i = Some (id, v) ->
    vval (<[i := (id, w)]> vec) j = if decide (j = id) then Some (borrow w) else vval vec j.
  Proof. intros Hnd Hi. unfold vval. rewrite (vget_insert _ _ _ _ _ _ Hnd Hi). by destruct (decide _). Qed.

  Lemma wf_insert vp i id v w : vp_wf vp -> vp_vec vp !! i = Some (id, v) ->
    vp_wf (mkVP (vp_qs vp) (vp_granted vp) (vp_voters vp) (<[i := (id, w)]> (vp_vec vp))).
  Proof.
    intros (Hnd & Hlen & Hset) Hi. unfold vp_wf. cbn.
    assert (Hm : forall k, map fst (take k (<[i := (id, w)]> (vp_vec vp))) = map fst (take k (vp_vec vp))).
    { intros k. rewrite <- !firstn_map.
      f_equal. rewrite <- (list_insert_id (map fst (vp_vec vp)) i id); [by rewrite list_fmap_insert|].
      by rewrite list_lookup_fmap, Hi. }
    split; [|split].
    - specialize (Hm (length (vp_vec vp))). rewrite !take_ge in Hm by (rewrite ?insert_length; lia). by rewrite Hm.
    - by rewrite insert_length.
    - by rewrite Hm.
  Qed.

  (** raising one value keeps quorum values *)
  Lemma quorum_value_mono qs val val' p p' :
    (forall id v, val id = Some v -> pleb p v = true -> exists v', val' id = Some v' /\ pleb p' v' = true) ->
    quorum_value pleb qs val p -> quorum_value pleb qs val' p'.
  Proof.
    intros H Hq. eapply quorum_mono; [|done]. intros id. unfold voters_at. rewrite !elem_of_filter.
    intros [H1 H2]. split; [|done]. destruct (val id) as [v|] eqn:E; [|done].
    destruct (H id v E H1) as (v' & -> & Hv'). done.
  Qed.

  (** raising a value already above [granted] creates no new quorum value; nor does
      raising a value that stays at or below it *)
  Lemma greatest_raise vp i id v w :
    vp_wf vp -> vp_greatest vp -> vp_vec vp !! i = Some (id, v) ->
    pleb (borrow v) (borrow w) = true ->
    pltb (vp_granted vp) (borrow v) = true \/ pleb (borrow w) (vp_granted vp) = true ->
    vp_greatest (mkVP (vp_qs vp) (vp_granted vp) (vp_voters vp) (<[i := (id, w)]> (vp_vec vp))).
  Proof.
    intros Hwf [Hg1 Hg2] Hi Hle Hcase. destruct Hwf as (Hnd & _).
    unfold vp_greatest, greatest_quorum_value. cbn.
    assert (Hold : vval (vp_vec vp) id = Some (borrow v)).
    { unfold vval. rewrite (proj2 (vget_spec _ _ v Hnd)); [done|]. by eapply elem_of_list_lookup_2. }
    split.
    - eapply quorum_value_mono; [|done]. intros j u Hj Hp.
      rewrite (vval_after _ _ _ _ _ _ Hnd Hi). destruct (decide (j = id)) as [->|].
      + exists (borrow w). split; [done|]. rewrite Hold in Hj. injection Hj as <-. by eapply ptrans.
      + exists u. done.
    - intros p Hp Hq.
      destruct Hcase as [Hc|Hc].
      + (* p or prev is a quorum value before *)
        destruct (ptotal p (borrow v)) as [Hpv|Hvp].
        * apply (Hg2 p Hp). eapply quorum_value_mono; [|done]. intros j u Hj Hpu.
          rewrite (vval_after _ _ _ _ _ _ Hnd Hi) in Hj. destruct (decide (j = id)) as [->|].
          -- exists (borrow v). done.
          -- exists u. done.
        * apply (Hg2 (borrow v)); [by apply pltb_true|]. eapply quorum_value_mono; [|done]. intros j u Hj Hpu.
          rewrite (vval_after _ _ _ _ _ _ Hnd Hi) in Hj. destruct (decide (j = id)) as [->|].
          -- exists (borrow v). split; [done|]. apply prefl.
          -- exists u. split; [done|]. by eapply ptrans.
      + apply (Hg2 p Hp). eapply quorum_value_mono; [|done]. intros j u Hj Hpu.
        rewrite (vval_after _ _ _ _ _ _ Hnd Hi) in Hj. destruct (decide (j = id)) as [->|].
        * injection Hj as <-. exfalso. assert (pleb p (vp_granted vp) = true) by by eapply ptrans. congruence.
        * exists u. done.
  Qed.

  (** *** the voters at or above a value form a prefix of the vector *)
  Lemma last_index (Q : nat -> Prop) `{forall n, Decision (Q n)} n m : n < m -> Q n ->
    exists k, n <= k < m /\ Q k /\ forall j, k < j < m -> ~ Q j.
  Proof.
    induction m as [|m IH]; intros Hlt HQ; [lia|].
    destruct (decide (Q m)) as [Hm|Hm].
    - exists m. split; [lia|]. split; [done|]. intros; lia.
    - destruct (decide (n = m)) as [->|Hne]; [done|].
      destruct (IH ltac:(lia) HQ) as (k & Hk & HQk & Hmax). exists k. split; [lia|]. split; [done|].
      intros j Hj HQj. destruct (decide (j = m)) as [->|]; [done|]. apply (Hmax j); [lia|done].
  Qed.

  Lemma take_lookup_lt (vec : list (nat * V)) c k e : k < c -> vec !! k = Some e -> take c vec !! k = Some e.
  Proof. intros. by rewrite lookup_take. Qed.

  Lemma voters_prefix vp p n e : vp_wf vp -> vp_sorted vp ->
    n < vp_voters vp -> vp_vec vp !! n = Some e -> pleb p (borrow e.2) = true ->
    pleb p (vp_granted vp) = false ->
    exists m e', n <= m < vp_voters vp /\ vp_vec vp !! m = Some e' /\ pleb p (borrow e'.2) = true /\
      (forall k a, k <= m -> vp_vec vp !! k = Some a -> pleb (borrow e'.2) (borrow a.2) = true) /\
      (quorum_value pleb (vp_qs vp) (vval (vp_vec vp)) p ->
         joint_is_quorum (vp_qs vp) (map fst (take (S m) (vp_vec vp))) = true).
  Proof.
    intros Hwf Hs Hn He Hp Hg. pose proof Hwf as (Hnd & Hlen & Hset).
    set (Q := fun k => match vp_vec vp !! k with Some a => pleb p (borrow a.2) | None => false end = true).
    assert (HQn : Q n) by (unfold Q; by rewrite He).
    destruct (last_index Q n (vp_voters vp) Hn HQn) as (m & Hm & HQm & Hmax).
    destruct (lookup_lt_is_Some_2 (vp_vec vp) m ltac:(lia)) as [e' He'].
    assert (Hpe : pleb p (borrow e'.2) = true) by (unfold Q in HQm; by rewrite He' in HQm).
    exists m, e'. split; [lia|]. split; [done|]. split; [done|].
    assert (Hge : pltb (vp_granted vp) (borrow e'.2) = true).
    { eapply plt_le_trans; [|done]. by apply pltb_true. }
    split.
    - intros k a Hk Ha. destruct (decide (k = m)) as [->|].
      + assert (a = e') as -> by congruence. apply prefl.
      + apply (Hs k m a e'); [lia| | |done]; apply take_lookup_lt; done || lia.
    - intros Hq. apply joint_is_quorum_spec; [by apply NoDup_take_fst|].
      eapply quorum_mono; [|exact Hq]. intros id Hid. apply elem_voters_at in Hid as [Hj (v & Hv & Hpv)]; [|done].
      apply elem_of_list_to_set.
      (* id is among the voters *)
      rewrite <- Hset in Hj. apply elem_of_list_to_set, elem_of_list_fmap in Hj as ([id' v'] & Heq & Hin).
      cbn in Heq; subst id'.
      apply elem_of_take in Hin as (k & Hk & Hkv).
      assert (v' = v) as ->.
      { apply elem_of_list_lookup_2 in Hk. apply (vget_spec _ _ _ Hnd) in Hk.
        apply (vget_spec _ _ _ Hnd) in Hv. congruence. }
      assert (k <= m).
      { destruct (decide (k <= m)) as [|Hgt]; [done|]. exfalso. apply (Hmax k); [lia|].
        unfold Q. by rewrite Hk. }
      apply elem_of_list_fmap. exists (id, v). split; [done|]. apply elem_of_take. exists k. split; [done|lia].
  Qed.

  (** *** recomputing [granted] from a voter's index on *)
  Lemma recompute_greatest vp n x :
    vp_wf vp -> vp_sorted vp ->
    n < vp_voters vp -> vp_vec vp !! n = Some x ->
    quorum_value pleb (vp_qs vp) (vval (vp_vec vp)) (vp_granted vp) ->
    (forall p, pleb p (vp_granted vp) = false -> pleb p (borrow x.2) = false ->
        ~ quorum_value pleb (vp_qs vp) (vval (vp_vec vp)) p) ->
    good (mkVP (vp_qs vp)
            (find_granted pleb borrow (vp_qs vp) (vp_granted vp) (vp_vec vp) n (vp_voters vp - n))
            (vp_voters vp) (vp_vec vp)).
  Proof.
    intros Hwf Hs Hn Hx Hq Hnq. pose proof Hwf as (Hnd & Hlen & Hset).
    set (g := vp_granted vp) in *.
    set (g' := find_granted _ _ _ _ _ _ _).
    assert (Hgg : pleb g g' = true) by apply find_granted_ge.
    split; [done|]. split.
    { intros i j a b Hij Hi Hj Hb. apply (Hs i j a b Hij Hi Hj). cbn in Hb. by eapply ple_lt_trans. }
    unfold vp_greatest, greatest_quorum_value. cbn.
    destruct (find_granted_spec (vp_qs vp) g (vp_vec vp) (vp_voters vp - n) n ltac:(lia))
      as [[Hg H]|(j & e & Hj & Hje & Hg & Hlt & Hqj & H)]; fold g' in Hg; rewrite Hg.
    - split; [done|]. intros p Hp Hqp.
      destruct (pleb p (borrow x.2)) eqn:Epx; [|by eapply Hnq].
      destruct (voters_prefix vp p n x Hwf Hs Hn Hx Epx Hp) as (m & e' & Hm & Hme & Hpe & Hle & Hjq).
      specialize (Hjq Hqp).
      destruct (H m e') as [(k & a & Hk & Hka & Hag)|Hf]; [lia|done| |congruence].
      specialize (Hle k a ltac:(lia) Hka).
      assert (pleb p g = true); [|congruence]. eapply ptrans; [|done]. by eapply ptrans.
    - assert (Hge : pltb g (borrow e.2) = true) by by apply pltb_true.
      assert (Hmono : forall k a, k < S j -> vp_vec vp !! k = Some a -> pleb (borrow e.2) (borrow a.2) = true).
      { intros k a Hk Ha. destruct (decide (k = j)) as [->|].
        - assert (a = e) as -> by congruence. apply prefl.
        - apply (Hs k j a e); [lia| | |done]; apply take_lookup_lt; done || lia. }
      split; [by eapply prefix_quorum; [done| |exact Hmono|done]; lia|].
      intros p Hp Hqp.
      assert (Hpg : pleb p g = false).
      { destruct (pleb p g) eqn:E; [|done].
        assert (pleb p (borrow e.2) = true); [|congruence]. eapply ptrans; [done|]. by apply pltb_leb. }
      destruct (pleb p (borrow x.2)) eqn:Epx; [|by eapply Hnq].
      destruct (voters_prefix vp p n x Hwf Hs Hn Hx Epx Hpg) as (m & e' & Hm & Hme & Hpe & Hle & Hjq).
      specialize (Hjq Hqp).
      destruct (decide (m < j)) as [Hmj|Hmj].
      + destruct (H m e') as [_ Hf]; [lia|done|congruence].
      + specialize (Hle j e ltac:(lia) Hje).
        assert (pleb p (borrow e.2) = true); [|congruence]. by eapply ptrans.
  Qed.

  (** *** effect of re-sorting one voter *)
  Lemma resort_sorted vp pre mid x post :
    vp_wf vp ->
    vp_vec vp = pre ++ mid ++ x :: post -> length (pre ++ mid) < vp_voters vp ->
    sorted_above (vp_granted vp) (pre ++ mid ++ take (vp_voters vp - S (length (pre ++ mid))) post) ->
    pltb (vp_granted vp) (borrow x.2) = true ->
    (forall b, b ∈ take (vp_voters vp - S (length (pre ++ mid))) post ->
        pltb (vp_granted vp) (borrow b.2) = true -> pleb (borrow b.2) (borrow x.2) = true) ->
    Forall (fun a => pltb (borrow a.2) (borrow x.2) = true) mid ->
    (forall a, last pre = Some a -> pltb (borrow a.2) (borrow x.2) = false) ->
    let vp2 := mkVP (vp_qs vp) (vp_granted vp) (vp_voters vp) (pre ++ x :: mid ++ post) in
    vp_wf vp2 /\ vp_sorted vp2 /\ (forall id, vval (vp_vec vp2) id = vval (vp_vec vp) id).
  Proof.
    intros Hwf Hvec Hlt Hs2 Hx Hpost Hmid Hpre vp2.
    set (g := vp_granted vp) in *. set (vc := vp_voters vp) in *.
    set (vec2 := pre ++ x :: mid ++ post) in *.
    assert (Hperm : vp_vec vp ≡ₚ vec2).
    { rewrite Hvec. subst vec2. apply Permutation_app_head. by rewrite Permutation_middle. }
    pose proof Hwf as (Hnd & Hlen & Hset).
    assert (Hnd2 : NoDup (map fst vec2)) by by rewrite <- Hperm.
    assert (Hlt' : length pre + length mid < vc) by by rewrite app_length in Hlt.
    set (vt := take (vc - S (length (pre ++ mid))) post) in *.
    assert (Ht1 : take vc (vp_vec vp) = pre ++ mid ++ x :: vt).
    { rewrite Hvec, app_assoc, take_app_ge by lia.
      rewrite <- app_assoc. do 2 f_equal.
      replace (vc - length (pre ++ mid)) with (S (vc - S (length (pre ++ mid)))) by lia. done. }
    assert (Ht2 : take vc vec2 = pre ++ x :: mid ++ vt).
    { subst vec2. rewrite take_app_ge by lia. f_equal.
      replace (vc - length pre) with (S (vc - S (length pre))) by lia. cbn. f_equal.
      rewrite take_app_ge by lia. f_equal. subst vt. f_equal. rewrite app_length. lia. }
    split.
    { split; [done|]. cbn. split; [by rewrite <- Hperm|].
      fold vc vec2. rewrite Ht2, <- Hset. fold vc. rewrite Ht1.
      apply set_eq. intros y. rewrite !elem_of_list_to_set. rewrite !map_app. cbn. rewrite !map_app. set_solver. }
    split; [|intros id; unfold vval; cbn; f_equal; symmetry; by apply vget_perm].
    unfold vp_sorted; cbn. fold vc vec2 g. rewrite Ht2.
    assert (Hprelast : forall a, a ∈ pre -> pleb (borrow x.2) (borrow a.2) = true).
    { intros a Ha. destruct pre as [|l pre' _] using rev_ind; [by apply elem_of_nil in Ha|].
      assert (Hl : pleb (borrow x.2) (borrow l.2) = true).
      { specialize (Hpre l ltac:(by rewrite last_snoc)). unfold Progress.pltb in Hpre.
        by apply negb_false_iff in Hpre. }
      apply elem_of_app in Ha as [Ha|Ha%elem_of_list_singleton]; [|by subst].
      apply elem_of_list_lookup in Ha as [i Hi].
      eapply ptrans; [exact Hl|].
      apply (Hs2 i (length pre') a l).
      - by apply lookup_lt_Some in Hi.
      - rewrite <- app_assoc. by apply lookup_app_l_Some.
      - rewrite <- app_assoc. by rewrite lookup_app_r, Nat.sub_diag by lia.
      - by eapply plt_le_trans. }
    intros i j a b Hij Hi Hj Hb.
    destruct (decide (j < length pre)) as [Hjp|Hjp].
    - rewrite lookup_app_l in Hi, Hj by lia.
      apply (Hs2 i j a b Hij); [by apply lookup_app_l_Some|by apply lookup_app_l_Some|done].
    - destruct (decide (j = length pre)) as [->|Hjn].
      + rewrite list_lookup_middle in Hj by done. injection Hj as <-.
        rewrite lookup_app_l in Hi by lia. apply Hprelast. by eapply elem_of_list_lookup_2.
      + assert (Hj' : (pre ++ mid ++ vt) !! (j - 1) = Some b).
        { rewrite lookup_app_r in Hj |- * by lia.
          replace (j - length pre) with (S (j - 1 - length pre)) in Hj by lia. done. }
        destruct (decide (i = length pre)) as [->|Hin].
        * rewrite list_lookup_middle in Hi by done. injection Hi as <-.
          rewrite lookup_app_r in Hj' by lia.
          apply elem_of_list_lookup_2, elem_of_app in Hj' as [Hm|Hm]; [|by apply Hpost].
          rewrite Forall_forall in Hmid. by apply pltb_leb, Hmid.
        * destruct (decide (i < length pre)) as [Hip|Hip].
          -- apply (Hs2 i (j - 1) a b); [lia| |done|done]. rewrite lookup_app_l in Hi by lia. by apply lookup_app_l_Some.
          -- apply (Hs2 (i - 1) (j - 1) a b); [lia| |done|done].
             rewrite lookup_app_r in Hi |- * by lia.
             replace (i - length pre) with (S (i - 1 - length pre)) in Hi by lia. done.
  Qed.

  Lemma sorted_replace g (l : list (nat * V)) i id v w :
    sorted_above g l -> l !! i = Some (id, v) -> pleb (borrow v) (borrow w) = true ->
    (forall j a, j < i -> l !! j = Some a -> pltb g (borrow w) = true -> pleb (borrow w) (borrow a.2) = true) ->
    sorted_above g (<[i := (id, w)]> l).
  Proof.
    intros Hs Hi Hvw Hw k j a b Hkj Hk Hj Hb.
    assert (Hlt : i < length l) by by eapply lookup_lt_Some.
    destruct (decide (j = i)) as [->|Hj'].
    - rewrite list_lookup_insert in Hj by done. injection Hj as <-.
      rewrite list_lookup_insert_ne in Hk by lia. by apply (Hw k a).
    - rewrite list_lookup_insert_ne in Hj by lia.
      destruct (decide (k = i)) as [->|Hk'].
      + rewrite list_lookup_insert in Hk by done. injection Hk as <-. cbn.
        eapply ptrans; [|done]. by apply (Hs i j (id, v) b).
      + rewrite list_lookup_insert_ne in Hk by lia. by apply (Hs k j a b).
  Qed.

  Lemma insert_good vp i id v w : good vp -> vp_vec vp !! i = Some (id, v) ->
    pleb (borrow v) (borrow w) = true ->
    (i < vp_voters vp ->
       (pltb (vp_granted vp) (borrow v) = true \/ pleb (borrow w) (vp_granted vp) = true) /\
       forall j a, j < i -> vp_vec vp !! j = Some a -> pltb (vp_granted vp) (borrow w) = true ->
          pleb (borrow w) (borrow a.2) = true) ->
    good (mkVP (vp_qs vp) (vp_granted vp) (vp_voters vp) (<[i := (id, w)]> (vp_vec vp))).
  Proof.
    intros (Hwf & Hs & Hgr) Hi Hle Hc.
    destruct (decide (i < vp_voters vp)) as [Hlt|Hge].
    - destruct (Hc Hlt) as [Hc1 Hc2]. split; [by eapply wf_insert|]. split.
      + unfold vp_sorted; cbn.
        rewrite take_insert_lt by done.
        eapply sorted_replace; [done|by apply take_lookup_lt|done|].
        intros j a Hj Ha. apply (Hc2 j a Hj). by rewrite lookup_take in Ha by lia.
      + by eapply greatest_raise.
    - split; [by eapply wf_insert|]. split.
      + unfold vp_sorted; cbn. by rewrite take_insert by lia.
      + destruct Hwf as (Hnd & Hlen & Hset).
        assert (Hid : id ∉ joint_ids (vp_qs vp)).
        { rewrite <- Hset, elem_of_list_to_set, elem_of_list_fmap. intros ([id' u] & Heq & Hin). cbn in Heq; subst id'.
          apply elem_of_take in Hin as (k & Hk & Hkv).
          pose proof (vp_index_lookup _ _ _ _ Hnd Hk). pose proof (vp_index_lookup _ _ _ _ Hnd Hi).
          assert (k = i) by congruence. lia. }
        assert (Hsame : forall p, voters_at pleb (vp_qs vp) (vval (<[i := (id, w)]> (vp_vec vp))) p
                          = voters_at pleb (vp_qs vp) (vval (vp_vec vp)) p).
        { intros p. apply set_eq. intros j. unfold voters_at. rewrite !elem_of_filter.
          rewrite (vval_after _ _ _ _ _ _ Hnd Hi).
          destruct (decide (j = id)) as [->|]; [|done]. split; intros [_ ?]; done. }
        destruct Hgr as [H1 H2]. split; cbn.
        * unfold quorum_value. rewrite Hsame. done.
        * intros p Hp. unfold quorum_value. rewrite Hsame. by apply H2.
  Qed.

  Lemma insert_split (l : list (nat * V)) i x y : l !! i = Some y ->
    <[i := x]> l = take i l ++ x :: drop (S i) l.
  Proof. intros H. apply insert_take_drop. by eapply lookup_lt_Some. Qed.

  (** the update step, with re-sorting *)
  Lemma update_sorted_good vp i id v w : good vp -> vp_vec vp !! i = Some (id, v) ->
    i < vp_voters vp ->
    pleb (borrow v) (borrow w) = true -> pltb (vp_granted vp) (borrow w) = true ->
    let mu := move_up pleb borrow i (<[i := (id, w)]> (vp_vec vp)) in
    good (mkVP (vp_qs vp)
            (find_granted pleb borrow (vp_qs vp) (vp_granted vp) mu.1 mu.2 (vp_voters vp - mu.2))
            (vp_voters vp) mu.1) /\
    (forall j, vval mu.1 j = vval (<[i := (id, w)]> (vp_vec vp)) j) /\
    mu.1 ≡ₚ <[i := (id, w)]> (vp_vec vp).
  Proof.
    intros (Hwf & Hs & Hgr) Hi Hlt Hle Hg mu.
    pose proof Hwf as (Hnd & Hlen & Hset).
    set (vec1 := <[i := (id, w)]> (vp_vec vp)) in *.
    set (vp1 := mkVP (vp_qs vp) (vp_granted vp) (vp_voters vp) vec1).
    assert (Hwf1 : vp_wf vp1) by by eapply wf_insert.
    destruct (split_pre (take i (vp_vec vp)) (id, w)) as (pre & mid & Hpm & Hmid & Hpre).
    set (post := drop (S i) (vp_vec vp)).
    assert (Hli : i < length (vp_vec vp)) by by eapply lookup_lt_Some.
    assert (Hpl : length (pre ++ mid) = i) by (rewrite <- Hpm, take_length; lia).
    assert (Hvec1 : vec1 = pre ++ mid ++ (id, w) :: post).
    { unfold vec1. rewrite (insert_split _ _ _ _ Hi), Hpm. by rewrite <- app_assoc. }
    assert (Hmu : mu = (pre ++ (id, w) :: mid ++ post, length pre)).
    { unfold mu. rewrite Hvec1, <- Hpl. by apply move_up_spec. }
    assert (Hvec : take (vp_voters vp) (vp_vec vp) = (pre ++ mid) ++ (id, v) :: take (vp_voters vp - S i) post).
    { rewrite <- (take_drop i (vp_vec vp)) at 1. rewrite Hpm.
      rewrite take_app_ge by lia. f_equal. rewrite (drop_S _ (id, v) i Hi).
      replace (vp_voters vp - length (pre ++ mid)) with (S (vp_voters vp - S i)) by lia. done. }
    assert (Hvec1' : take (vp_voters vp) (vp_vec vp1) = (pre ++ mid) ++ (id, w) :: take (vp_voters vp - S i) post).
    { unfold vp1; cbn. rewrite Hvec1, app_assoc.
      rewrite take_app_ge by lia. f_equal.
      replace (vp_voters vp - length (pre ++ mid)) with (S (vp_voters vp - S i)) by lia. done. }
    unfold vp_sorted in Hs. rewrite Hvec in Hs.
    destruct (resort_sorted vp1 pre mid (id, w) post) as (Hwf2 & Hs2 & Hv2); try done.
    - cbn. lia.
    - cbn. rewrite Hpl. intros k j a b Hkj Hk Hj Hb.
      (* embed into the old voters *)
      set (vt := take (vp_voters vp - S i) post) in *. rewrite app_assoc in Hk, Hj.
      destruct (decide (j < i)) as [Hji|Hji].
      + rewrite lookup_app_l in Hk, Hj by lia.
        apply (Hs k j a b); [lia| | |done]; by apply lookup_app_l_Some.
      + rewrite lookup_app_r in Hj by lia.
        assert (Hj' : ((pre ++ mid) ++ (id, v) :: vt) !! S j = Some b).
        { rewrite lookup_app_r by lia. replace (S j - length (pre ++ mid)) with (S (j - length (pre ++ mid))) by lia. done. }
        destruct (decide (k < i)) as [Hki|Hki].
        * rewrite lookup_app_l in Hk by lia.
          apply (Hs k (S j) a b); [lia| |done|done]. by apply lookup_app_l_Some.
        * rewrite lookup_app_r in Hk by lia. apply (Hs (S k) (S j) a b); [lia| |done|done].
          rewrite lookup_app_r by lia. replace (S k - length (pre ++ mid)) with (S (k - length (pre ++ mid))) by lia. done.
    - cbn. rewrite Hpl. intros b Hb Hbg. eapply ptrans; [|exact Hle].
      apply elem_of_list_lookup in Hb as [k Hk].
      apply (Hs i (S (i + k)) (id, v) b); [lia| | |done].
      + by rewrite list_lookup_middle by lia.
      + rewrite lookup_app_r by lia. replace (S (i + k) - length (pre ++ mid)) with (S k) by lia. done.
    - (* recompute *)
      assert (Hval1 : forall j, vval vec1 j = if decide (j = id) then Some (borrow w) else vval (vp_vec vp) j)
        by (intros j; by eapply vval_after).
      assert (Hold : vval (vp_vec vp) id = Some (borrow v)).
      { unfold vval. rewrite (proj2 (vget_spec _ _ v Hnd)); [done|]. by eapply elem_of_list_lookup_2. }
      cbn in Hv2. rewrite Hmu. cbn [fst snd]. split; [|split].
      + set (vec2 := pre ++ (id, w) :: mid ++ post) in *.
        destruct Hgr as [Hg1 Hg2].
        apply (recompute_greatest (mkVP (vp_qs vp) (vp_granted vp) (vp_voters vp) vec2) (length pre) (id, w)); cbn.
        * done.
        * done.
        * rewrite app_length in Hpl. lia.
        * unfold vec2. by rewrite list_lookup_middle.
        * eapply quorum_value_mono; [|exact Hg1]. intros j u Hj Hp. rewrite Hv2, Hval1.
          destruct (decide (j = id)) as [->|]; [|by exists u].
          exists (borrow w). split; [done|]. rewrite Hold in Hj. injection Hj as <-. by eapply ptrans.
        * intros p Hp Hpx Hq. apply (Hg2 p Hp). eapply quorum_value_mono; [|exact Hq]. intros j u Hj Hpu.
          rewrite Hv2, Hval1 in Hj. destruct (decide (j = id)) as [->|]; [|by exists u].
          injection Hj as <-. congruence.
      + intros j. apply Hv2.
      + rewrite Hvec1. rewrite (Permutation_middle mid post (id, w)). done.
  Qed.

  (** [update_with] keeps [granted] the greatest quorum value as long as it does not
      leave a raised voter behind a smaller one. *)
  Definition in_order (vp : VP) (id : nat) (w : P) : Prop :=
    forall i j a b, vp_vec vp !! i = Some a -> a.1 = id -> j < i -> vp_vec vp !! j = Some b ->
      pltb (vp_granted vp) w = true -> pleb w (borrow b.2) = true.

  Lemma update_gen_good always vp id f v :
    good vp -> vget (vp_vec vp) id = Some v -> pleb (borrow v) (borrow (f v)) = true ->
    (always = true \/ pleb (borrow v) (vp_granted vp) = true \/ in_order vp id (borrow (f v)) \/
       id ∉ joint_ids (vp_qs vp)) ->
    let vp' := (vp_update_gen pleb borrow always vp id f).1 in
    good vp' /\
    (forall j, vval (vp_vec vp') j = if decide (j = id) then Some (borrow (f v)) else vval (vp_vec vp) j).
  Proof.
    intros Hgood Hv Hle Hc. pose proof Hgood as ((Hnd & Hlen & Hset) & Hs & Hgr).
    unfold vget in Hv. unfold vp_update_gen.
    destruct (vp_index (vp_vec vp) id) as [i|] eqn:Ei; [|done].
    apply vp_index_Some in Ei as [v' Hi]. rewrite Hi in Hv |- *. cbn in Hv. injection Hv as ->.
    cbn [fst snd].
    assert (Hval1 : forall j, vval (<[i:=(id, f v)]> (vp_vec vp)) j
              = if decide (j = id) then Some (borrow (f v)) else vval (vp_vec vp) j)
        by (intros j; by eapply vval_after).
    destruct (pleb (borrow v) (borrow (f v)) && pleb (borrow (f v)) (borrow v)) eqn:Eeq.
    { cbn [fst vp_vec]. split; [|done].
      apply andb_true_iff in Eeq as [_ E].
      eapply insert_good; [done|done|done|]. intros Hlt. split.
      - destruct (pleb (borrow v) (vp_granted vp)) eqn:E2; [right; by eapply ptrans|left; by apply pltb_true].
      - intros j a Hj Ha Hw. eapply ptrans; [done|].
        apply (Hs j i a (id, v)); [done| | |].
        + apply take_lookup_lt; [lia|done].
        + by apply take_lookup_lt.
        + cbn. by eapply plt_le_trans. }
    destruct (vp_voters vp <=? i) eqn:Evc.
    { cbn [fst vp_vec]. split; [|done]. eapply insert_good; [done|done|done|]. intros Hlt. lia. }
    destruct (pltb (vp_granted vp) (borrow (f v))) eqn:Egt.
    2: { rewrite andb_false_r. cbn [fst vp_vec]. split; [|done].
         assert (Hw : pleb (borrow (f v)) (vp_granted vp) = true).
         { unfold Progress.pltb in Egt. by apply negb_false_iff in Egt. }
         eapply insert_good; [done|done|done|]. intros Hlt. split; [by right|].
         intros j a Hj Ha Hw'. congruence. }
    rewrite andb_true_r.
    destruct (pleb (borrow v) (vp_granted vp) || always) eqn:Eso.
    - destruct (update_sorted_good vp i id v (f v) Hgood Hi ltac:(lia) Hle Egt) as (H1 & H2 & _).
      destruct (move_up pleb borrow i (<[i:=(id, f v)]> (vp_vec vp))) as [vec2 ni] eqn:Emu.
      cbn [fst snd vp_vec] in *. split; [done|]. intros j. rewrite H2. apply Hval1.
    - apply orb_false_iff in Eso as [E1 E2]. cbn [fst vp_vec]. split; [|done].
      destruct Hc as [?|[?|[Hin|Hid]]]; [congruence|congruence| |].
      2: { exfalso. apply Hid. rewrite <- Hset. apply elem_of_list_to_set, elem_of_list_fmap. exists (id, v).
           split; [done|]. apply elem_of_take. exists i. split; [done|lia]. }
      eapply insert_good; [done|done|done|]. intros Hlt. split; [left; by apply pltb_true|].
      intros j a Hj Ha Hw. by apply (Hin i j (id, v) a).
  Qed.

  (** what always holds: ids and values are updated exactly, [granted] never decreases,
      learners have no effect on it, an unknown id changes nothing *)
  Lemma move_up_perm i (l : list (nat * V)) : (move_up pleb borrow i l).1 ≡ₚ l.
  Proof.
    revert l; induction i as [|i IH]; intros l; cbn [move_up]; [done|].
    destruct (l !! i) as [a|] eqn:Ea; [|done]. destruct (l !! S i) as [b|] eqn:Eb; [|done].
    destruct (pltb (borrow a.2) (borrow b.2)); [|done].
    rewrite IH.
    assert (Hl : l = take i l ++ a :: b :: drop (S (S i)) l).
    { rewrite <- (take_drop i l) at 1. rewrite (drop_S _ _ _ Ea), (drop_S _ _ _ Eb). done. }
    assert (Hlen : length (take i l) = i) by (rewrite take_length; apply lookup_lt_Some in Ea; lia).
    rewrite Hl at 1.
    rewrite (insert_app_r_alt (take i l)) by lia.
    replace (S i - length (take i l)) with 1 by lia. cbn [insert list_insert].
    rewrite (insert_app_r_alt (take i l)) by lia.
    replace (i - length (take i l)) with 0 by lia. cbn [insert list_insert].
    rewrite Hl at 3. apply Permutation_app_head. apply Permutation_swap.
  Qed.

  Lemma update_gen_vals always vp id f v : NoDup (map fst (vp_vec vp)) ->
    vget (vp_vec vp) id = Some v ->
    let vp' := (vp_update_gen pleb borrow always vp id f).1 in
    forall j, vget (vp_vec vp') j = if decide (j = id) then Some (f v) else vget (vp_vec vp) j.
  Proof.
    intros Hnd Hv. unfold vget in Hv. unfold vp_update_gen.
    destruct (vp_index (vp_vec vp) id) as [i|] eqn:Ei; [|done].
    apply vp_index_Some in Ei as [v' Hi]. rewrite Hi in Hv |- *. cbn in Hv. injection Hv as ->.
    cbn [fst snd].
    assert (Hval1 : forall j, vget (<[i:=(id, f v)]> (vp_vec vp)) j
              = if decide (j = id) then Some (f v) else vget (vp_vec vp) j)
        by (intros j; by eapply vget_insert).
    destruct (_ && _); [done|]. destruct (_ <=? _); [done|]. destruct (_ && _); [|done].
    pose proof (move_up_perm i (<[i:=(id, f v)]> (vp_vec vp))) as Hp.
    destruct (move_up pleb borrow i _) as [vec2 ni]. cbn in *. intros j. rewrite <- Hval1. apply vget_perm; [|done].
    rewrite Hp. rewrite list_fmap_insert. cbn. rewrite list_insert_id; [done|]. by rewrite list_lookup_fmap, Hi.
  Qed.

  Lemma update_gen_granted_le always vp id f :
    pleb (vp_granted vp) (vp_granted (vp_update_gen pleb borrow always vp id f).1) = true.
  Proof.
    unfold vp_update_gen. destruct (vp_index (vp_vec vp) id) as [i|]; [|apply prefl].
    destruct (vp_vec vp !! i) as [e|]; [|apply prefl].
    destruct (_ && _); [apply prefl|]. destruct (_ <=? _); [apply prefl|]. destruct (_ && _); [|apply prefl].
    destruct (move_up pleb borrow i _) as [vec2 ni]. apply find_granted_ge.
  Qed.

  Lemma update_gen_learner always vp id f : vp_wf vp -> id ∉ joint_ids (vp_qs vp) ->
    vp_granted (vp_update_gen pleb borrow always vp id f).1 = vp_granted vp.
  Proof.
    intros (Hnd & Hlen & Hset) Hid. unfold vp_update_gen.
    destruct (vp_index (vp_vec vp) id) as [i|] eqn:Ei; [|done].
    apply vp_index_Some in Ei as [v Hi]. rewrite Hi. destruct (_ && _); [done|].
    destruct (vp_voters vp <=? i) eqn:E; [done|]. exfalso. apply Hid. rewrite <- Hset.
    apply elem_of_list_to_set, elem_of_list_fmap. exists (id, v). split; [done|].
    apply elem_of_take. exists i. split; [done|lia].
  Qed.

  Lemma update_gen_unknown always vp id f : id ∉ map fst (vp_vec vp) ->
    vp_update_gen pleb borrow always vp id f = (vp, false).
  Proof. intros H. unfold vp_update_gen. apply vp_index_None in H. by rewrite H. Qed.

  Lemma update_gen_shape always vp id f :
    let vp' := (vp_update_gen pleb borrow always vp id f).1 in
    vp_qs vp' = vp_qs vp /\ vp_voters vp' = vp_voters vp.
  Proof.
    unfold vp_update_gen. destruct (vp_index (vp_vec vp) id) as [i|]; [|done].
    destruct (vp_vec vp !! i) as [e|]; [|done].
    destruct (_ && _); [done|]. destruct (_ <=? _); [done|]. destruct (_ && _); [|done].
    by destruct (move_up pleb borrow i _) as [vec2 ni].
  Qed.

  Lemma move_up_drop i (l : list (nat * V)) : drop (S i) (move_up pleb borrow i l).1 = drop (S i) l.
  Proof.
    revert l; induction i as [|i IH]; intros l; cbn [move_up]; [done|].
    destruct (l !! i) as [a|] eqn:Ea; [|done]. destruct (l !! S i) as [b|] eqn:Eb; [|done].
    destruct (pltb (borrow a.2) (borrow b.2)); [|done].
    replace (S (S i)) with (S i + 1) by lia. rewrite <- !drop_drop, IH, !drop_drop.
    rewrite !drop_insert_gt by lia. done.
  Qed.
  Lemma move_up_take c i (l : list (nat * V)) : i < c -> take c (move_up pleb borrow i l).1 ≡ₚ take c l.
  Proof.
    intros Hi. pose proof (move_up_perm i l) as Hp.
    rewrite <- (take_drop c l) in Hp at 2. rewrite <- (take_drop c (move_up pleb borrow i l).1) in Hp at 1.
    assert (Hd : drop c (move_up pleb borrow i l).1 = drop c l).
    { replace c with (S i + (c - S i)) by lia. by rewrite <- !drop_drop, move_up_drop. }
    rewrite Hd in Hp. by apply Permutation_app_inv_r in Hp.
  Qed.

  Lemma update_gen_nodup always vp id f : NoDup (map fst (vp_vec vp)) ->
    NoDup (map fst (vp_vec (vp_update_gen pleb borrow always vp id f).1)).
  Proof.
    intros Hnd. unfold vp_update_gen. destruct (vp_index _ _) as [i|]; [|done].
    destruct (vp_vec vp !! i) as [e|] eqn:E; [|done].
    assert (Hm : map fst (<[i:=(e.1, f e.2)]> (vp_vec vp)) = map fst (vp_vec vp)).
    { rewrite list_fmap_insert. cbn. rewrite list_insert_id; [done|]. by rewrite list_lookup_fmap, E. }
    destruct (_ && _); [cbn; by rewrite Hm|]. destruct (_ <=? _); [cbn; by rewrite Hm|].
    destruct (_ && _); [|cbn; by rewrite Hm].
    pose proof (move_up_perm i (<[i:=(e.1, f e.2)]> (vp_vec vp))) as Hp.
    destruct (move_up pleb borrow i _) as [vec2 ni]. cbn in *. by rewrite Hp, Hm.
  Qed.

  Lemma update_gen_wf always vp id f : vp_wf vp -> vp_wf (vp_update_gen pleb borrow always vp id f).1.
  Proof.
    intros Hwf. pose proof Hwf as (Hnd & Hlen & Hset).
    pose proof (update_gen_nodup always vp id f Hnd) as Hnd'. revert Hnd'.
    unfold vp_update_gen. destruct (vp_index _ _) as [i|] eqn:Ei; [|done].
    destruct (vp_vec vp !! i) as [e|] eqn:E; [|done].
    apply vp_index_Some in Ei as [v Hv]. assert (e = (id, v)) as -> by congruence. cbn [fst snd].
    pose proof (wf_insert vp i id v (f v) Hwf Hv) as Hwf1.
    destruct (_ && _); [done|]. destruct (vp_voters vp <=? i) eqn:El; [done|].
    destruct (_ && _); [|done].
    pose proof (move_up_perm i (<[i:=(id, f v)]> (vp_vec vp))) as Hp.
    pose proof (move_up_take (vp_voters vp) i (<[i:=(id, f v)]> (vp_vec vp)) ltac:(lia)) as Ht.
    destruct (move_up pleb borrow i _) as [vec2 ni]. cbn in *. intros Hnd'.
    destruct Hwf1 as (_ & Hl1 & Hs1). cbn in *. split; [done|]. cbn. split; [by rewrite Hp|].
    rewrite <- Hs1. by rewrite Ht.
  Qed.

  (** ** construction *)
  Lemma sorted_ids_perm s : sorted_ids s ≡ₚ elements s.
  Proof. apply merge_sort_Permutation. Qed.
  Lemma sorted_ids_elem s x : x ∈ sorted_ids s <-> x ∈ s.
  Proof. by rewrite sorted_ids_perm, elem_of_elements. Qed.

  Lemma new_good qs learners dflt :
    (forall c, c ∈ qs -> c <> ∅) -> qs <> [] -> NoDup learners -> (forall x, x ∈ learners -> x ∉ joint_ids qs) ->
    good (vp_new borrow qs learners dflt) /\
    (forall j, vget (vp_vec (vp_new borrow qs learners dflt)) j =
       if decide (j ∈ joint_ids qs \/ j ∈ learners) then Some dflt else None).
  Proof.
    intros Hne Hqs Hndl Hdis. unfold vp_new.
    set (vt := map (fun id => (id, dflt)) (sorted_ids (joint_ids qs))).
    set (lt := map (fun id => (id, dflt)) learners).
    assert (Hfv : map fst vt = sorted_ids (joint_ids qs)) by (unfold vt; rewrite map_map; apply map_id).
    assert (Hfl : map fst lt = learners) by (unfold lt; rewrite map_map; apply map_id).
    assert (Hnd : NoDup (map fst (vt ++ lt))).
    { rewrite map_app, Hfv, Hfl. apply NoDup_app. split; [rewrite sorted_ids_perm; apply NoDup_elements|].
      split; [|done]. intros x Hx. rewrite sorted_ids_elem in Hx. intros Hl. by apply (Hdis x). }
    assert (Hget : forall j, vget (vt ++ lt) j = if decide (j ∈ joint_ids qs \/ j ∈ learners) then Some dflt else None).
    { intros j. destruct (decide _) as [Hin|Hni].
      - apply vget_spec; [done|]. apply elem_of_app. destruct Hin as [Hin|Hin]; [left|right].
        + apply elem_of_list_fmap. exists j. split; [done|]. by apply sorted_ids_elem.
        + apply elem_of_list_fmap. by exists j.
      - apply vget_None. rewrite map_app, Hfv, Hfl, elem_of_app, sorted_ids_elem. done. }
    split; [|done].
    assert (Hall : forall e, e ∈ vt ++ lt -> e.2 = dflt).
    { intros e He. apply elem_of_app in He as [He|He]; apply elem_of_list_fmap in He as (? & -> & _); done. }
    split; [|split].
    - split; [done|]. cbn. split; [rewrite app_length; lia|].
      rewrite take_app, Hfv. apply set_eq. intros x. by rewrite elem_of_list_to_set, sorted_ids_elem.
    - unfold vp_sorted; cbn. rewrite take_app. intros i j a b _ Hi Hj _.
      rewrite (Hall a), (Hall b); [apply prefl| |]; apply elem_of_app; left; by eapply elem_of_list_lookup_2.
    - unfold vp_greatest, greatest_quorum_value; cbn. split.
      + eapply quorum_mono; [|by apply quorum_all]. intros x Hx. apply elem_voters_at; [done|]. split; [done|].
        exists dflt. split; [|apply prefl]. apply vget_spec; [done|]. rewrite Hget.
        by destruct (decide _) as [|Hn]; [|exfalso; apply Hn; left].
      + intros p Hp Hq. destruct qs as [|c qs]; [done|].
        specialize (Hq c ltac:(set_solver)). unfold majority in Hq.
        assert (Hempty : voters_at pleb (c :: qs) (vval (vt ++ lt)) p = ∅).
        { apply set_eq. intros x. split; [|set_solver]. intros Hx. apply elem_voters_at in Hx as (_ & v & Hv & Hpv); [|done].
          apply Hall in Hv. cbn in Hv. subst v. congruence. }
        rewrite Hempty in Hq. rewrite (intersection_empty_r_L c), size_empty in Hq. lia.
  Qed.

  (** ** rebuilding for a new membership *)
  Lemma upgrade_good vp qs learners dflt :
    (forall c, c ∈ qs -> c <> ∅) -> qs <> [] -> NoDup learners -> (forall x, x ∈ learners -> x ∉ joint_ids qs) ->
    NoDup (map fst (vp_vec vp)) ->
    (forall e, e ∈ vp_vec vp -> pleb (borrow dflt) (borrow e.2) = true) ->
    let vp' := vp_upgrade pleb borrow vp qs learners dflt in
    good vp' /\ vp_qs vp' = qs /\
    (forall j, vget (vp_vec vp') j =
       if decide (j ∈ joint_ids qs \/ j ∈ learners)
       then Some (match vget (vp_vec vp) j with Some v => v | None => dflt end) else None).
  Proof.
    intros Hne Hqs Hndl Hdis Hnd Hdf. unfold vp_upgrade.
    destruct (new_good qs learners dflt Hne Hqs Hndl Hdis) as [Hg0 Hv0].
    assert (Hqs0 : vp_qs (vp_new borrow qs learners dflt) = qs) by done.
    set (acc := vp_new borrow qs learners dflt) in *.
    (* generalise over the processed part *)
    assert (Hgen : forall l done,
      NoDup (map fst (done ++ l)) -> (forall e, e ∈ done ++ l -> pleb (borrow dflt) (borrow e.2) = true) ->
      forall acc, good acc -> vp_qs acc = qs -> pleb (borrow dflt) (vp_granted acc) = true ->
      (forall j, vget (vp_vec acc) j =
         if decide (j ∈ joint_ids qs \/ j ∈ learners)
         then Some (match vget done j with Some v => v | None => dflt end) else None) ->
      let r := foldl (fun acc e => (vp_update pleb borrow acc e.1 e.2).1) acc l in
      good r /\ vp_qs r = qs /\
      (forall j, vget (vp_vec r) j =
         if decide (j ∈ joint_ids qs \/ j ∈ learners)
         then Some (match vget (done ++ l) j with Some v => v | None => dflt end) else None)).
    { induction l as [|[id w] l IH]; intros dn Hndd Hdd a Ha Hqa Hga Hva; cbn [foldl].
      - rewrite app_nil_r. done.
      - cbn [fst snd]. rewrite cons_middle, app_assoc. rewrite cons_middle, app_assoc in Hndd, Hdd.
        assert (Hnd1 : NoDup (map fst (dn ++ [(id, w)]))).
        { rewrite map_app in Hndd. by apply NoDup_app in Hndd as [? _]. }
        assert (Hidn : id ∉ map fst dn).
        { rewrite map_app in Hnd1. apply NoDup_app in Hnd1 as (_ & H & _). intros Hin. apply (H id Hin). cbn. set_solver. }
        assert (Hget1 : forall j, vget (dn ++ [(id, w)]) j = if decide (j = id) then Some w else vget dn j).
        { intros j. destruct (decide (j = id)) as [->|Hj].
          - apply vget_spec; [done|]. set_solver.
          - destruct (vget dn j) as [u|] eqn:E.
            + apply vget_spec; [done|]. apply vget_spec in E; [set_solver|].
              rewrite map_app in Hnd1. by apply NoDup_app in Hnd1 as [? _].
            + apply vget_None. rewrite map_app. apply vget_None in E. cbn. set_solver. }
        apply (IH (dn ++ [(id, w)])); [done|done| | | |].
        + destruct (decide (id ∈ joint_ids qs \/ id ∈ learners)) as [Hin|Hni].
          * assert (Hvid : vget (vp_vec a) id = Some dflt).
            { rewrite Hva. destruct (decide _); [|done]. by rewrite (proj2 (vget_None dn id) Hidn). }
            apply (update_gen_good false a id (fun _ => w) dflt Ha Hvid); [|by right; left].
            apply (Hdd (id, w)). set_solver.
          * unfold vp_update, vp_update_with. rewrite update_gen_unknown; [done|].
            apply vget_None. rewrite Hva. by destruct (decide _).
        + destruct (update_gen_shape false a id (fun _ => w)) as [H1 _]. unfold vp_update, vp_update_with. by rewrite H1.
        + eapply ptrans; [done|]. apply update_gen_granted_le.
        + intros j. rewrite Hget1. destruct Ha as ((Hnda & _) & _).
          destruct (decide (id ∈ joint_ids qs \/ id ∈ learners)) as [Hin|Hni].
          * assert (Hvid : vget (vp_vec a) id = Some dflt).
            { rewrite Hva. destruct (decide _); [|done]. by rewrite (proj2 (vget_None dn id) Hidn). }
            unfold vp_update, vp_update_with. rewrite (update_gen_vals false a id (fun _ => w) dflt Hnda Hvid j).
            destruct (decide (j = id)) as [->|]; [|apply Hva]. by destruct (decide _).
          * unfold vp_update, vp_update_with. rewrite update_gen_unknown.
            -- cbn [fst]. rewrite Hva. destruct (decide (j = id)) as [->|]; [|done]. by destruct (decide _).
            -- apply vget_None. rewrite Hva. by destruct (decide _). }
    apply (Hgen (vp_vec vp) []); first [done | apply prefl].
  Qed.

  (** ** a single group of at most three voters never breaks the order *)
  Lemma small_in_order vp c id v w : good vp -> vp_qs vp = [c] -> size c <= 3 -> id ∈ joint_ids (vp_qs vp) ->
    vget (vp_vec vp) id = Some v -> pltb (vp_granted vp) (borrow v) = true -> in_order vp id w.
  Proof.
    intros ((Hnd & Hlen & Hset) & Hs & [_ Hgr]) Hqs Hsz Hid Hv Hgt i j [id' v'] b Hi Heq Hj Hb _.
    cbn in Heq. subst id'. exfalso.
    assert (v' = v) as ->.
    { apply elem_of_list_lookup_2, (vget_spec _ _ _ Hnd) in Hi. congruence. }
    assert (Hiv : i < vp_voters vp).
    { rewrite <- Hset in Hid. apply elem_of_list_to_set, elem_of_list_fmap in Hid as ([x u] & Heq & Hin). cbn in Heq; subst x.
      apply elem_of_take in Hin as (k & Hk & Hkv).
      pose proof (vp_index_lookup _ _ _ _ Hnd Hk). pose proof (vp_index_lookup _ _ _ _ Hnd Hi).
      assert (k = i) by congruence. lia. }
    destruct b as [jd u].
    assert (Hub : pleb (borrow v) (borrow u) = true).
    { apply (Hs j i (jd, u) (id, v)); [done| | |done]; apply take_lookup_lt; done || lia. }
    assert (Hjd : jd ∈ joint_ids (vp_qs vp)).
    { rewrite <- Hset. apply elem_of_list_to_set, elem_of_list_fmap. exists (jd, u). split; [done|].
      apply elem_of_take. exists j. split; [done|lia]. }
    assert (Hne : jd <> id).
    { intros ->. pose proof (vp_index_lookup _ _ _ _ Hnd Hb). pose proof (vp_index_lookup _ _ _ _ Hnd Hi).
      assert (i = j) by congruence. lia. }
    apply (Hgr (borrow v)); [by apply pltb_true|].
    intros c' Hc'. rewrite Hqs in Hc'. apply elem_of_list_singleton in Hc' as ->.
    unfold majority.
    assert (Hc : forall x, x ∈ joint_ids (vp_qs vp) <-> x ∈ c).
    { intros x. rewrite Hqs, elem_of_joint_ids. set_solver. }
    assert (Hsub : ({[id]} ∪ {[jd]} : gset nat) ⊆ c ∩ voters_at pleb (vp_qs vp) (vval (vp_vec vp)) (borrow v)).
    { intros x Hx. apply elem_of_intersection. assert (x = id \/ x = jd) as [-> | ->] by set_solver.
      - split; [by apply Hc|]. apply elem_voters_at; [done|]. split; [done|]. exists v. split; [|apply prefl].
        by eapply elem_of_list_lookup_2.
      - split; [by apply Hc|]. apply elem_voters_at; [done|]. split; [done|]. exists u. split; [|done].
        by eapply elem_of_list_lookup_2. }
    apply subseteq_size in Hsub. rewrite size_union, !size_singleton in Hsub by set_solver. lia.
  Qed.
End progress.

(** ** Histories of acknowledgements *)
Section history.
  Context {P : Type} (pleb : P -> P -> bool) (Ho : total_order pleb).

  (** an acknowledgement raises the value of a node, never lowers it *)
  Definition ack (always : bool) (vp : VecProgress P P) (a : nat * P) : VecProgress P P :=
    (vp_update_gen pleb id always vp a.1 (fun x => later pleb x a.2)).1.

  Lemma later_ge_l x y : pleb x (later pleb x y) = true.
  Proof.
    unfold later. destruct (pleb y x) eqn:E; cbn; [by apply prefl|]. destruct (ptotal pleb Ho x y); congruence.
  Qed.

  Lemma ack_unknown always vp a : vget (vp_vec vp) a.1 = None -> ack always vp a = vp.
  Proof. intros H. unfold ack. rewrite (update_gen_unknown pleb id); [done..|]. exact (proj1 (vget_None pleb id Ho _ _) H). Qed.

  Lemma vval_vget (vec : list (nat * P)) j : vval id vec j = vget vec j.
  Proof. unfold vval. by destruct (vget vec j). Qed.

  Lemma history_gen always qs learners dflt hist :
    tracked_ok qs learners ->
    (always = true \/ exists c, qs = [c] /\ size c <= 3) ->
    let vp := foldl (ack always) (vp_new id qs learners dflt) hist in
    good pleb id vp /\ vp_qs vp = qs /\
    (forall j, vget (vp_vec vp) j =
       if decide (j ∈ joint_ids qs \/ j ∈ learners) then Some (acked pleb dflt hist j) else None).
  Proof.
    intros (Hqs & Hne & Hndl & Hdis') Hsm.
    assert (Hdis : forall x, x ∈ learners -> x ∉ joint_ids qs).
    { intros x Hx. rewrite elem_of_joint_ids. intros (c & Hc & Hxc). by apply (Hdis' x c). }
    induction hist as [|[i p] hist IH] using rev_ind.
    - destruct (new_good pleb id Ho qs learners dflt Hne Hqs Hndl Hdis) as [H1 H2]. cbn. done.
    - rewrite foldl_app. cbn [foldl].
      set (vp := foldl (ack always) _ hist) in *. destruct IH as (Hg & Hq & Hv).
      assert (Hacc : forall j, acked pleb dflt (hist ++ [(i, p)]) j =
         if decide (j = i) then later pleb (acked pleb dflt hist j) p else acked pleb dflt hist j).
      { intros j. unfold acked. by rewrite foldl_app. }
      destruct (decide (i ∈ joint_ids qs \/ i ∈ learners)) as [Hin|Hni].
      + assert (Hvi : vget (vp_vec vp) i = Some (acked pleb dflt hist i)) by (rewrite Hv; by destruct (decide _)).
        destruct (update_gen_good pleb id Ho always vp i (fun x => later pleb x p)
                    (acked pleb dflt hist i) Hg Hvi (later_ge_l _ _)) as [Hg' Hv'].
        { destruct Hsm as [->|(c & -> & Hsz)]; [by left|]. right.
          destruct (pleb (id (acked pleb dflt hist i)) (vp_granted vp)) eqn:E; [by left|]. right.
          destruct (decide (i ∈ joint_ids [c])) as [Hij|Hnj].
          - left. eapply (small_in_order pleb id Ho vp c); try done; [by rewrite Hq|by apply pltb_true].
          - right. by rewrite Hq. }
        fold (ack always vp (i, p)) in Hg', Hv'. cbn [fst snd] in *.
        change (vp_update_gen pleb id always vp i (fun x => later pleb x p)).1 with (ack always vp (i, p)) in *.
        split; [done|]. split; [unfold ack; by rewrite (proj1 (update_gen_shape pleb id always vp i _))|].
        intros j. rewrite <- vval_vget, Hv', Hacc, vval_vget.
        destruct (decide (j = i)) as [->|]; [by destruct (decide _)|apply Hv].
      + rewrite ack_unknown; [|rewrite Hv; by destruct (decide _)].
        split; [done|]. split; [done|]. intros j. rewrite Hv, Hacc.
        destruct (decide (j = i)) as [->|]; [by destruct (decide _)|done].
  Qed.

  Lemma greatest_ext qs val val' g : (forall j, j ∈ joint_ids qs -> val j = val' j) ->
    greatest_quorum_value pleb qs val g -> greatest_quorum_value pleb qs val' g.
  Proof.
    intros H. unfold greatest_quorum_value, quorum_value.
    assert (Hv : forall p, voters_at pleb qs val p = voters_at pleb qs val' p).
    { intros p. apply set_eq. intros x. unfold voters_at. rewrite !elem_of_filter.
      split; intros [H1 H2]; (split; [|done]); [rewrite <- H by done|rewrite H by done]; done. }
    rewrite Hv. intros [H1 H2]. split; [done|]. intros p Hp. rewrite <- Hv. by apply H2.
  Qed.

  Lemma history_greatest always qs learners dflt hist :
    tracked_ok qs learners ->
    (always = true \/ exists c, qs = [c] /\ size c <= 3) ->
    greatest_quorum_value pleb qs (fun j => Some (acked pleb dflt hist j))
      (vp_granted (foldl (ack always) (vp_new id qs learners dflt) hist)).
  Proof.
    intros Hok Hc. destruct (history_gen always qs learners dflt hist Hok Hc) as ((_ & _ & Hg) & Hq & Hv).
    unfold vp_greatest in Hg. rewrite Hq in Hg.
    eapply greatest_ext; [|exact Hg]. intros j Hj. rewrite vval_vget, Hv.
    by destruct (decide _) as [|Hn]; [|exfalso; apply Hn; left].
  Qed.

  Lemma acks_ack vp hist : vp_acks pleb id vp (fun v x => pltb pleb x v) hist = foldl (ack false) vp hist.
  Proof. done. Qed.
  Lemma acks_sorted_ack vp hist : vp_acks_sorted pleb id vp (fun v x => pltb pleb x v) hist = foldl (ack true) vp hist.
  Proof. done. Qed.

  (** ** theorem forms *)
  Definition code_acks qs learners dflt hist :=
    vp_acks pleb id (vp_new id qs learners dflt) (fun v x => pltb pleb x v) hist.

  Lemma acks_granted_le vp hist : pleb (vp_granted vp) (vp_granted (foldl (ack false) vp hist)) = true.
  Proof.
    revert vp; induction hist as [|a hist IH]; intros vp; cbn; [by apply prefl|].
    eapply (ptrans pleb Ho); [|apply IH]. by apply update_gen_granted_le.
  Qed.

  (** the bookkeeping is right in every reachable state, also of the unrepaired code *)
  Lemma acks_wf always vp hist : vp_wf vp -> vp_wf (foldl (ack always) vp hist) /\
    vp_qs (foldl (ack always) vp hist) = vp_qs vp.
  Proof.
    revert vp; induction hist as [|a hist IH]; intros vp Hwf; cbn; [done|].
    destruct (IH (ack always vp a)) as [H1 H2]; [by apply update_gen_wf|].
    split; [done|]. rewrite H2. by apply update_gen_shape.
  Qed.

  Lemma acks_vals always vp hist : NoDup (map fst (vp_vec vp)) ->
    forall j v, vget (vp_vec vp) j = Some v ->
      vget (vp_vec (foldl (ack always) vp hist)) j = Some (acked pleb v hist j).
  Proof.
    revert vp; induction hist as [|[i p] hist IH]; intros vp Hnd j v Hv; cbn; [done|].
    destruct (vget (vp_vec vp) i) as [w|] eqn:Ei.
    - pose proof (update_gen_vals pleb id Ho always vp i (fun x => later pleb x p) w Hnd Ei) as Hu.
      change (vp_update_gen pleb id always vp i (fun x => later pleb x p)).1 with (ack always vp (i, p)) in Hu.
      apply IH; [by apply (update_gen_nodup pleb id always vp i)|].
      rewrite Hu. destruct (decide (j = i)) as [->|]; [|done]. congruence.
    - rewrite ack_unknown by done. rewrite decide_False by congruence. by apply IH.
  Qed.
End history.

Lemma nat_total : total_order Nat.leb.
Proof. split; [|split]; intros; lia. Qed.

Lemma tracked_joint qs learners : tracked_ok qs learners -> forall x, x ∈ learners -> x ∉ joint_ids qs.
Proof. intros (_ & _ & _ & H) x Hx. rewrite elem_of_joint_ids. intros (c & Hc & Hxc). by apply (H x c). Qed.

Lemma progress_refuted :
  exists (qs : list (gset nat)) (hist : list (nat * nat)),
    tracked_ok qs [] /\
    let vp := vp_acks Nat.leb id (vp_new id qs [] 0) (fun v x => pltb Nat.leb x v) hist in
    ~ quorum_value Nat.leb qs (fun j => Some (acked Nat.leb 0 hist j)) (vp_granted vp).
Proof.
  exists [list_to_set [1;2;3;4;5]], [(1,6);(2,4);(2,8);(3,7)]. split.
  - split; [done|]. split; [|split; [constructor|]].
    + intros c Hc. apply elem_of_list_singleton in Hc as ->. intros H.
      assert (H1 : 1 ∈ (list_to_set [1;2;3;4;5] : gset nat)) by set_solver. rewrite H in H1. set_solver.
    + intros x c Hx. by apply elem_of_nil in Hx.
  - intros vp Hq.
    assert (Hg : vp_granted vp = 7) by by vm_compute.
    rewrite Hg in Hq. specialize (Hq _ (elem_of_list_here _ _)). revert Hq. unfold majority.
    assert (Hb : Nat.ltb (size (list_to_set [1;2;3;4;5] : gset nat))
      (2 * size (list_to_set [1;2;3;4;5] ∩ voters_at Nat.leb [list_to_set [1;2;3;4;5]]
         (fun j => Some (acked Nat.leb 0 [(1,6);(2,4);(2,8);(3,7)] j)) 7)) = false) by by vm_compute.
    apply Nat.ltb_ge in Hb. intros Hq. unfold lt in Hq. exact (Nat.lt_irrefl _ (Nat.lt_le_trans _ _ _ Hq Hb)).
Qed.

Section theorems.
  Context {P : Type} (pleb : P -> P -> bool).

  Lemma progress_three (c : gset nat) learners dflt hist :
    total_order pleb -> tracked_ok [c] learners -> size c <= 3 ->
    let vp := vp_acks pleb id (vp_new id [c] learners dflt) (fun v x => pltb pleb x v) hist in
    greatest_quorum_value pleb [c] (fun j => Some (acked pleb dflt hist j)) (vp_granted vp).
  Proof. intros Ho Hok Hc. apply (history_greatest pleb Ho false); [done|]. right. by exists c. Qed.

  Lemma progress_repaired qs learners dflt hist :
    total_order pleb -> tracked_ok qs learners ->
    let vp := vp_acks_sorted pleb id (vp_new id qs learners dflt) (fun v x => pltb pleb x v) hist in
    greatest_quorum_value pleb qs (fun j => Some (acked pleb dflt hist j)) (vp_granted vp).
  Proof. intros Ho Hok. apply (history_greatest pleb Ho true); [done|]. by left. Qed.

  Lemma progress_new_wf qs learners (dflt : P) : total_order pleb -> tracked_ok qs learners ->
    vp_wf (vp_new id qs learners dflt).
  Proof.
    intros Ho Hok. pose proof Hok as (H1 & H2 & H3 & H4).
    apply (new_good pleb id Ho qs learners dflt H2 H1 H3 (tracked_joint _ _ Hok)).
  Qed.

  Lemma progress_monotone qs learners dflt hist1 hist2 :
    total_order pleb -> tracked_ok qs learners ->
    let run := fun h => vp_acks pleb id (vp_new id qs learners dflt) (fun v x => pltb pleb x v) h in
    pleb (vp_granted (run hist1)) (vp_granted (run (hist1 ++ hist2))) = true /\
    (forall j, (exists c, c ∈ qs /\ j ∈ c) \/ j ∈ learners ->
       vp_get (run hist1) j = Some (acked pleb dflt hist1 j)).
  Proof.
    intros Ho Hok run. split.
    - unfold run, vp_acks. rewrite foldl_app. apply (acks_granted_le pleb Ho).
    - intros j Hj. pose proof Hok as (H1 & H2 & H3 & H4).
      apply (acks_vals pleb Ho false); [by apply progress_new_wf|].
      destruct (new_good pleb id Ho qs learners dflt H2 H1 H3 (tracked_joint _ _ Hok)) as [_ Hv].
      rewrite Hv. rewrite decide_True; [done|]. by rewrite elem_of_joint_ids.
  Qed.

  Lemma progress_learner qs learners dflt hist j v :
    total_order pleb -> tracked_ok qs learners -> (forall c, c ∈ qs -> j ∉ c) ->
    let run := fun h => vp_acks pleb id (vp_new id qs learners dflt) (fun v x => pltb pleb x v) h in
    vp_granted (run (hist ++ [(j, v)])) = vp_granted (run hist).
  Proof.
    intros Ho Hok Hj run. unfold run, vp_acks. rewrite foldl_app. cbn [foldl].
    destruct (acks_wf pleb false (vp_new id qs learners dflt) hist) as [Hwf Hqs]; [by apply progress_new_wf|].
    apply (update_gen_learner pleb id false); [done|].
    match goal with |- _ ∉ joint_ids (vp_qs ?x) => change (vp_qs x) with (vp_qs (foldl (ack pleb false) (vp_new id qs learners dflt) hist)) end.
    rewrite Hqs. cbn. rewrite elem_of_joint_ids. intros (c & Hc & Hjc). by apply (Hj c).
  Qed.
End theorems.

Section theorems2.
  Context {V P : Type} (pleb : P -> P -> bool) (borrow : V -> P).

  Lemma progress_step (vp : VecProgress V P) j f v :
    total_order pleb -> good pleb borrow vp ->
    vp_get vp j = Some v -> pleb (borrow v) (borrow (f v)) = true ->
    pleb (borrow v) (vp_granted vp) = true \/ in_order pleb borrow vp j (borrow (f v)) ->
    let vp' := (vp_update_with pleb borrow vp j f).1 in
    good pleb borrow vp' /\
    greatest_quorum_value pleb (vp_qs vp) (fun i => borrow <$> vp_get vp' i) (vp_granted vp') /\
    (forall i, vp_get vp' i = if decide (i = j) then Some (f v) else vp_get vp i).
  Proof.
    intros Ho Hg Hv Hle Hc vp'.
    destruct (update_gen_good pleb borrow Ho false vp j f v Hg Hv Hle) as [Hg' _]; [tauto|].
    split; [done|]. split.
    - destruct Hg' as (_ & _ & H). unfold vp_greatest in H.
      rewrite (proj1 (update_gen_shape pleb borrow false vp j f)) in H. exact H.
    - destruct Hg as ((Hnd & _) & _). exact (update_gen_vals pleb borrow Ho false vp j f v Hnd Hv).
  Qed.

  Lemma progress_rebuild (vp : VecProgress V P) qs learners dflt :
    total_order pleb -> tracked_ok qs learners ->
    NoDup (map fst (vp_vec vp)) ->
    (forall e, e ∈ vp_vec vp -> pleb (borrow dflt) (borrow e.2) = true) ->
    let vp' := vp_upgrade pleb borrow vp qs learners dflt in
    greatest_quorum_value pleb qs (fun i => borrow <$> vp_get vp' i) (vp_granted vp') /\
    (forall i, (exists c, c ∈ qs /\ i ∈ c) \/ i ∈ learners ->
       vp_get vp' i = Some (match vp_get vp i with Some v => v | None => dflt end)) /\
    (forall i, ~ ((exists c, c ∈ qs /\ i ∈ c) \/ i ∈ learners) -> vp_get vp' i = None).
  Proof.
    intros Ho Hok Hnd Hd vp'. pose proof Hok as (H1 & H2 & H3 & H4).
    destruct (upgrade_good pleb borrow Ho vp qs learners dflt H2 H1 H3 (tracked_joint _ _ Hok) Hnd Hd)
      as ((_ & _ & Hg) & Hq & Hv).
    unfold vp_greatest in Hg. rewrite Hq in Hg. split; [exact Hg|].
    split; intros i Hi; (etransitivity; [apply Hv|]);
    destruct (decide (i ∈ joint_ids qs \/ i ∈ learners)) as [H|H]; rewrite elem_of_joint_ids in H; done.
  Qed.
End theorems2.

Lemma progress_example_tracked : tracked_ok [list_to_set [1; 2; 3]] [7].
Proof.
  split; [done|]. split; [|split; [repeat constructor; set_solver|]].
  - intros c Hc. apply elem_of_list_singleton in Hc as ->. intros H.
    assert (H1 : 1 ∈ (list_to_set [1;2;3] : gset nat)) by set_solver. rewrite H in H1. set_solver.
  - intros x c Hx Hc. apply elem_of_list_singleton in Hc as ->. apply elem_of_list_singleton in Hx as ->. set_solver.
Qed.
