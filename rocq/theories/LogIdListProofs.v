(** Refinement of the compact log-id index to the full list of log ids. *)
From Coq Require Import Bool Lia ZifyBool ZifyNat.
From stdpp Require Import base numbers option list_numbers list.
From Verif Require Import Types TypesProofs LogIdList LogIdSpec.

(** ** Expansion of a key list *)
Fixpoint fill (L : LeaderId) (b n : nat) : list LogId :=
  match n with 0 => [] | S n => mkLogId L b :: fill L (S b) n end.

Fixpoint expand (keys : list LogId) : list LogId :=
  match keys with
  | [] => []
  | x :: r =>
      match r with
      | [] => [x]
      | y :: _ => fill (lid_leader x) (lid_index x) (lid_index y - lid_index x) ++ expand r
      end
  end.

Fixpoint sortedk (keys : list LogId) : Prop :=
  match keys with
  | x :: ((y :: _) as r) => lid_index x < lid_index y /\ sortedk r
  | _ => True
  end.

Fixpoint canon (keys : list LogId) : Prop :=
  match keys with
  | x :: ((y :: (_ :: _)) as r) => lid_leader x <> lid_leader y /\ canon r
  | _ => True
  end.

Definition lil_rep (keys ids : list LogId) : Prop :=
  sortedk keys /\ canon keys /\ expand keys = ids.

Lemma logid_eta (x : LogId) : mkLogId (lid_leader x) (lid_index x) = x.
Proof. by destruct x. Qed.

Lemma fill_app L b n m : fill L b (n + m) = fill L b n ++ fill L (b + n) m.
Proof.
  revert b; induction n as [|n IH]; intros b; cbn; [by rewrite Nat.add_0_r|].
  rewrite IH. do 3 f_equal. lia.
Qed.
Lemma fill_S L b n : fill L b (S n) = mkLogId L b :: fill L (S b) n.
Proof. done. Qed.
Lemma fill_snoc L b n : fill L b (S n) = fill L b n ++ [mkLogId L (b + n)].
Proof. replace (S n) with (n + 1) by lia. by rewrite fill_app. Qed.
Lemma fill_length L b n : length (fill L b n) = n.
Proof. revert b; induction n as [|n IH]; intros b; cbn; [done|by rewrite IH]. Qed.
Lemma fill_lookup L b n k x : fill L b n !! k = Some x -> k < n /\ x = mkLogId L (b + k).
Proof.
  revert b k; induction n as [|n IH]; intros b [|k]; cbn; try done.
  - intros [= <-]. split; [lia|]. f_equal. lia.
  - intros H. apply IH in H as [H ->]. split; [lia|f_equal; lia].
Qed.
Lemma fill_Forall L b n (P : LogId -> Prop) :
  (forall k, k < n -> P (mkLogId L (b + k))) -> Forall P (fill L b n).
Proof.
  intros H. apply Forall_lookup. intros k x Hk.
  apply fill_lookup in Hk as [Hk ->]. auto.
Qed.

(** ** find / filter helpers *)
Lemma Forall_mono {A} (P Q : A -> Prop) l : Forall P l -> (forall x, P x -> Q x) -> Forall Q l.
Proof. intros H HPQ. induction H; constructor; auto. Qed.
Lemma find_app_none {A} (f : A -> bool) l1 l2 :
  Forall (fun x => f x = false) l1 -> List.find f (l1 ++ l2) = List.find f l2.
Proof. induction 1 as [|x l Hx _ IH]; cbn; [done|]. by rewrite Hx. Qed.
Lemma find_app_some {A} (f : A -> bool) l1 l2 x :
  List.find f l1 = Some x -> List.find f (l1 ++ l2) = Some x.
Proof. induction l1 as [|y l IH]; cbn; [done|]. destruct (f y); auto. Qed.
Lemma find_none_Forall {A} (f : A -> bool) l :
  Forall (fun x => f x = false) l -> List.find f l = None.
Proof. induction 1 as [|x l Hx _ IH]; cbn; [done|]. by rewrite Hx. Qed.
Lemma filter_all {A} (f : A -> bool) l : Forall (fun x => f x = true) l -> List.filter f l = l.
Proof. induction 1 as [|x l Hx _ IH]; cbn; [done|]. by rewrite Hx, IH. Qed.
Lemma filter_none {A} (f : A -> bool) l : Forall (fun x => f x = false) l -> List.filter f l = [].
Proof. induction 1 as [|x l Hx _ IH]; cbn; [done|]. by rewrite Hx, IH. Qed.
Lemma filter_app' {A} (f : A -> bool) l1 l2 :
  List.filter f (l1 ++ l2) = List.filter f l1 ++ List.filter f l2.
Proof. apply List.filter_app. Qed.

(** ** Structure of expand *)
Lemma sortedk_tail x r : sortedk (x :: r) -> sortedk r.
Proof. destruct r; cbn; tauto. Qed.
Lemma canon_tail x r : canon (x :: r) -> canon r.
Proof. destruct r as [|y [|z r]]; cbn; tauto. Qed.

Lemma expand_cons x y r :
  expand (x :: y :: r) = fill (lid_leader x) (lid_index x) (lid_index y - lid_index x) ++ expand (y :: r).
Proof. done. Qed.

Lemma expand_ge x r : sortedk (x :: r) -> Forall (fun z => lid_index x <= lid_index z) (expand (x :: r)).
Proof.
  revert x; induction r as [|y r IH]; intros x Hs.
  - cbn. constructor; [lia|constructor].
  - rewrite expand_cons. destruct Hs as [Hlt Hs]. apply Forall_app. split.
    + apply fill_Forall. cbn. intros; lia.
    + eapply Forall_mono; [by apply IH|]. cbn. intros; lia.
Qed.

Lemma expand_head x r : sortedk (x :: r) -> exists r', expand (x :: r) = x :: r'.
Proof.
  destruct r as [|y r]; intros Hs; [by exists []|].
  rewrite expand_cons. destruct Hs as [Hlt Hs].
  destruct (lid_index y - lid_index x) as [|n] eqn:E; [lia|].
  rewrite fill_S, logid_eta. eauto.
Qed.

Lemma last_cons' {A} (x : A) l : last (x :: l) = match last l with Some y => Some y | None => Some x end.
Proof. destruct l; [done|]. cbn. destruct (last (a :: l)) eqn:E; [done|]. apply last_None in E. done. Qed.

Lemma expand_last keys : last (expand keys) = last keys.
Proof.
  induction keys as [|x [|y r] IH]; [done|done|].
  rewrite expand_cons, last_app, IH, (last_cons' x).
  destruct (last (y :: r)) eqn:E; [done|]. by apply last_None in E.
Qed.

Lemma sortedk_last_ge x r l : sortedk (x :: r) -> last (x :: r) = Some l -> lid_index x <= lid_index l.
Proof.
  revert x; induction r as [|y r IH]; intros x Hs Hl.
  - cbn in Hl. injection Hl as ->. lia.
  - destruct Hs as [Hlt Hs]. apply IH in Hl; [lia|done].
Qed.

Lemma expand_le keys l : sortedk keys -> last keys = Some l ->
  Forall (fun z => lid_index z <= lid_index l) (expand keys).
Proof.
  induction keys as [|x [|y r] IH]; intros Hs Hl.
  - done.
  - cbn in Hl. injection Hl as ->. cbn. constructor; [lia|constructor].
  - rewrite expand_cons. destruct Hs as [Hlt Hs]. apply Forall_app. split; [|by apply IH].
    apply fill_Forall. cbn. intros k Hk.
    pose proof (sortedk_last_ge _ _ _ Hs Hl). lia.
Qed.

(** expansion of a concatenation *)
Definition gap (l : option LogId) (upto : nat) : list LogId :=
  match l with
  | None => []
  | Some l => fill (lid_leader l) (S (lid_index l)) (upto - S (lid_index l))
  end.

Lemma expand_app K1 k K2 : sortedk (K1 ++ k :: K2) ->
  expand (K1 ++ k :: K2) = expand K1 ++ gap (last K1) (lid_index k) ++ expand (k :: K2).
Proof.
  induction K1 as [|x [|y r] IH]; intros Hs; [done| |].
  - cbn [app] in *. destruct Hs as [Hlt Hs]. rewrite expand_cons. cbn [expand last gap app].
    replace (lid_index k - lid_index x) with (S (lid_index k - S (lid_index x))) by lia.
    by rewrite fill_S, logid_eta.
  - cbn [app] in *. destruct Hs as [Hlt Hs]. rewrite expand_cons, IH by done.
    rewrite expand_cons, (last_cons' x), app_assoc.
    destruct (last (y :: r)) eqn:E; [done|]. by apply last_None in E.
Qed.

Lemma sortedk_app_iff K1 k K2 :
  sortedk (K1 ++ k :: K2) <->
  sortedk K1 /\ sortedk (k :: K2) /\ (forall l, last K1 = Some l -> lid_index l < lid_index k).
Proof.
  induction K1 as [|x [|y r] IH].
  - cbn [app]. split; [|tauto]. intros H. split; [done|]. split; [done|]. done.
  - cbn [app]. split.
    + intros [Hlt Hs]. split; [done|]. split; [done|]. intros l [= <-]. done.
    + intros (_ & Hs & Hl). split; [by apply Hl|done].
  - cbn [app] in *. rewrite (last_cons' x). destruct (last (y :: r)) as [l|] eqn:E; [|by apply last_None in E].
    cbn [sortedk] in *. tauto.
Qed.

Lemma canon_change pre p q x : canon (pre ++ [p; q]) -> canon (pre ++ [p; x]).
Proof.
  induction pre as [|a pre IH]; [done|]. cbn [app].
  destruct pre as [|b pre]; cbn [app] in *.
  - intros [H1 H2]. split; [done|]. done.
  - destruct pre as [|c pre]; cbn [app] in *; intros [H1 H2]; (split; [done|]; by apply IH).
Qed.
Lemma canon_snoc pre p q x : canon (pre ++ [p; q]) -> lid_leader p <> lid_leader q ->
  canon (pre ++ [p; q; x]).
Proof.
  intros Hc Hne. induction pre as [|a pre IH]; [done|]. cbn [app] in *.
  destruct pre as [|b pre]; cbn [app] in *.
  - destruct Hc as [H1 H2]. split; [done|]. by apply IH.
  - destruct pre as [|c pre]; cbn [app] in *; destruct Hc as [H1 H2]; (split; [done|]; by apply IH).
Qed.
Lemma canon_prefix K1 K2 : canon (K1 ++ K2) -> canon K1.
Proof.
  induction K1 as [|a [|b [|c K]] IH]; try done.
  cbn [app] in *. intros [H1 H2]. split; [done|]. by apply IH.
Qed.
(** a proper prefix has no two adjacent equal leaders at all *)
Lemma canon_prefix_strict pre p q k K2 : canon (pre ++ p :: q :: k :: K2) ->
  lid_leader p <> lid_leader q.
Proof.
  induction pre as [|a pre IH]; cbn [app].
  - intros [H _]. done.
  - intros H. apply canon_tail in H. auto.
Qed.

Lemma list_snoc2 {A} (l : list A) : 2 <= length l -> exists pre p q, l = pre ++ [p; q].
Proof.
  intros H. destruct l as [|q l _] using rev_ind; [cbn in H; lia|].
  destruct l as [|p l _] using rev_ind; [cbn in H; lia|].
  exists l, p, q. by rewrite <- app_assoc.
Qed.

Lemma lil_append_2 pre p q x :
  lil_append (pre ++ [p; q]) x =
  if leader_eqb (lid_leader p) (lid_leader q) then pre ++ [p; x] else pre ++ [p; q; x].
Proof.
  unfold lil_append. rewrite app_length. cbn [length].
  replace (length pre + 2 =? 0) with false by (symmetry; lia).
  replace (length pre + 2 =? 1) with false by (symmetry; lia).
  rewrite (lookup_app_r pre _ (length pre + 2 - 1)) by lia.
  rewrite (lookup_app_r pre _ (length pre + 2 - 2)) by lia.
  replace (length pre + 2 - 1 - length pre) with 1 by lia.
  replace (length pre + 2 - 2 - length pre) with 0 by lia. cbn.
  destruct (leader_eqb _ _).
  - replace (length pre + 2 - 1) with (length pre + 1) by lia.
    by rewrite insert_app_r.
  - by rewrite <- app_assoc.
Qed.

Lemma lil_append_rep keys ids x :
  lil_rep keys ids ->
  (forall l, last keys = Some l -> lid_index l < lid_index x) ->
  lil_rep (lil_append keys x) (ids ++ gap (last keys) (lid_index x) ++ [x]).
Proof.
  intros (Hs & Hc & <-) Hx.
  destruct keys as [|k [|k2 keys]].
  - cbn. repeat split.
  - cbn [lil_append length Nat.eqb app last gap expand]. cbn. specialize (Hx k eq_refl).
    repeat split; [lia|]. cbn.
    replace (lid_index x - lid_index k) with (S (lid_index x - S (lid_index k))) by lia.
    by rewrite fill_S, logid_eta.
  - destruct (list_snoc2 (k :: k2 :: keys)) as (pre & p & q & E); [cbn; lia|].
    rewrite E in *. clear E k k2 keys.
    assert (Hlast : last (pre ++ [p; q]) = Some q) by by rewrite last_app.
    specialize (Hx q Hlast). rewrite Hlast, lil_append_2.
    pose proof Hs as Hs'.
    apply (sortedk_app_iff pre p [q]) in Hs as (Hs1 & [Hpq _] & Hl).
    destruct (leader_eqb _ _) eqn:Epq.
    + assert (Hs2 : sortedk (pre ++ [p; x])).
      { apply sortedk_app_iff. split; [done|]. split; [split; [lia|done]|done]. }
      split; [done|]. split; [by eapply canon_change|].
      rewrite (expand_app pre p [x]) by done. rewrite (expand_app pre p [q]) by done.
      rewrite <- !app_assoc. do 2 f_equal. rewrite !expand_cons. cbn [expand gap].
      rewrite <- app_assoc. cbn.
      assert (EL : lid_leader p = lid_leader q) by (apply leader_eqb_eq; done).
      replace (lid_index x - lid_index p) with
        ((lid_index q - lid_index p) + S (lid_index x - S (lid_index q))) by lia.
      rewrite fill_app, fill_S, <- app_assoc. cbn.
      replace (lid_index p + (lid_index q - lid_index p)) with (lid_index q) by lia.
      by rewrite EL, logid_eta.
    + assert (Hne : lid_leader p <> lid_leader q).
      { intros E. apply leader_eqb_eq in E. congruence. }
      assert (Hs2 : sortedk (pre ++ [p; q; x])).
      { apply sortedk_app_iff. split; [done|]. split; [repeat split; lia|done]. }
      split; [done|]. split; [by apply canon_snoc|].
      replace (pre ++ [p; q; x]) with ((pre ++ [p; q]) ++ [x]) by by rewrite <- app_assoc.
      rewrite expand_app by (by rewrite <- app_assoc). by rewrite Hlast.
Qed.

(** ** uniqueness: the key list is the compressed list *)
Definition strip (keys : list LogId) : list LogId :=
  firsts None keys.

Lemma firsts_fill L b n r : firsts (Some L) (fill L b n ++ r) = firsts (Some L) r.
Proof.
  revert b; induction n as [|n IH]; intros b; [done|].
  cbn [fill app firsts lid_leader]. by rewrite bool_decide_true.
Qed.

Lemma firsts_expand prev keys : sortedk keys -> firsts prev (expand keys) = firsts prev keys.
Proof.
  revert prev; induction keys as [|x [|y r] IH]; intros prev Hs; [done|done|].
  rewrite expand_cons. destruct Hs as [Hlt Hs].
  destruct (lid_index y - lid_index x) as [|n] eqn:E; [lia|].
  rewrite fill_S, logid_eta. cbn [app].
  remember (y :: r) as yr. cbn [firsts]. destruct (bool_decide _) eqn:Ed.
  - apply bool_decide_eq_true in Ed as ->.
    by rewrite firsts_fill, IH.
  - by rewrite firsts_fill, IH.
Qed.


Lemma firsts_canon prev keys : canon keys -> sortedk keys ->
  match keys with x :: _ => prev <> Some (lid_leader x) | [] => True end ->
  match last keys with
  | None => firsts prev keys
  | Some l => if bool_decide (last (firsts prev keys) = Some l) then firsts prev keys
              else firsts prev keys ++ [l]
  end = keys.
Proof.
  revert prev; induction keys as [|x [|y [|z r]] IH]; intros prev Hc Hs Hp; [done| | |].
  - cbn. rewrite (bool_decide_false (prev = _)) by done. cbn. by rewrite bool_decide_true.
  - cbn. rewrite (bool_decide_false (prev = _)) by done.
    destruct Hs as [Hlt _].
    destruct (decide (lid_leader x = lid_leader y)) as [E|E].
    + rewrite (bool_decide_true (Some _ = _)) by congruence. cbn.
      rewrite bool_decide_false; [done|]. intros [= ->]. lia.
    + rewrite (bool_decide_false (Some _ = _)) by congruence. cbn.
      by rewrite bool_decide_true.
  - destruct Hc as [Hne Hc]. destruct Hs as [Hlt Hs].
    specialize (IH (Some (lid_leader x)) Hc Hs ltac:(congruence)).
    remember (y :: z :: r) as yz. cbn [firsts]. rewrite (bool_decide_false (prev = _)) by done.
    rewrite last_cons'. destruct (last yz) as [l|] eqn:El; [|by subst; apply last_None in El].
    rewrite last_cons'.
    assert (firsts (Some (lid_leader x)) yz <> []) as Hnn.
    { subst. cbn. rewrite bool_decide_false by congruence. done. }
    destruct (last (firsts (Some (lid_leader x)) yz)) as [f|] eqn:Ef; [|by apply last_None in Ef].
    destruct (bool_decide _); [by rewrite IH|]. cbn. by rewrite IH.
Qed.

Lemma compress_expand keys : sortedk keys -> canon keys -> compress (expand keys) = keys.
Proof.
  intros Hs Hc. unfold compress. rewrite firsts_expand, expand_last by done.
  apply (firsts_canon None); [done|done|]. by destruct keys.
Qed.
Lemma lil_rep_compress keys ids : lil_rep keys ids -> keys = compress ids.
Proof. intros (Hs & Hc & <-). symmetry. by apply compress_expand. Qed.

Lemma consecutive_snoc b ids x : consecutive b (ids ++ [x]) ->
  consecutive b ids /\ lid_index x = b + length ids.
Proof.
  intros H. split.
  - intros k y Hk. apply H. by apply lookup_app_l_Some.
  - apply H. by rewrite lookup_app_r, Nat.sub_diag by lia.
Qed.

Lemma consecutive_last b ids l : consecutive b ids -> last ids = Some l ->
  S (lid_index l) = b + length ids.
Proof.
  intros Hc [ids' ->]%last_Some. apply consecutive_snoc in Hc as [_ ->].
  rewrite app_length. cbn. lia.
Qed.

Lemma compress_rep b ids : consecutive b ids -> lil_rep (compress ids) ids.
Proof.
  induction ids as [|x ids IH] using rev_ind; intros Hc.
  - repeat split.
  - apply consecutive_snoc in Hc as [Hc Hx]. specialize (IH Hc).
    assert (Hl : forall l, last (compress ids) = Some l -> S (lid_index l) = lid_index x).
    { intros l Hl. destruct IH as (Hs & Hcn & He). rewrite <- (expand_last (compress ids)), He in Hl.
      apply (consecutive_last b) in Hl; [|done]. lia. }
    assert (Hr : lil_rep (lil_append (compress ids) x) (ids ++ gap (last (compress ids)) (lid_index x) ++ [x])).
    { apply lil_append_rep; [done|]. intros l ?%Hl. lia. }
    assert (Hg : gap (last (compress ids)) (lid_index x) = []).
    { destruct (last (compress ids)) as [l|]; [|done]. specialize (Hl l eq_refl). cbn.
      by replace (lid_index x - S (lid_index l)) with 0 by lia. }
    rewrite Hg in Hr. cbn in Hr. by rewrite <- (lil_rep_compress _ _ Hr).
Qed.

Lemma lil_rep_iff b keys ids : consecutive b ids -> lil_rep keys ids <-> keys = compress ids.
Proof.
  intros Hc. split; [apply lil_rep_compress|intros ->; by eapply compress_rep].
Qed.

Lemma expand_consecutive keys : sortedk keys ->
  consecutive (default 0 (lid_index <$> head keys)) (expand keys).
Proof.
  induction keys as [|x [|y r] IH]; intros Hs.
  - intros k z. cbn. by rewrite lookup_nil.
  - intros [|k] z; cbn; [intros [= ->]; lia|done].
  - destruct Hs as [Hlt Hs]. specialize (IH Hs). cbn [head fmap option_fmap option_map default] in *.
    rewrite expand_cons. intros k z. rewrite lookup_app_Some, fill_length.
    intros [H|[Hk H]].
    + apply fill_lookup in H as [_ ->]. done.
    + apply IH in H. cbn in *. lia.
Qed.

(** ** get *)
Lemma lil_get_expand keys i : sortedk keys -> lil_get keys i = ids_get (expand keys) i.
Proof.
  unfold ids_get. induction keys as [|x [|y r] IH]; intros Hs.
  - done.
  - unfold lil_get. cbn. destruct (lid_index x =? i) eqn:E.
    + cbn. f_equal. assert (lid_index x = i) as <- by lia. apply logid_eta.
    + by destruct (lid_index x <? i).
  - rewrite expand_cons. destruct Hs as [Hlt Hs]. specialize (IH Hs).
    unfold lil_get. remember (y :: r) as yr. cbn [bsearch].
    destruct (lid_index x =? i) eqn:E; [|destruct (lid_index x <? i) eqn:E2].
    + cbn. destruct (lid_index y - lid_index x) as [|n] eqn:En; [lia|].
      cbn. rewrite E. f_equal. f_equal. lia.
    + destruct (i <? lid_index y) eqn:E3.
      * (* in the filled part *)
        assert (bsearch yr i = inr 0) as ->.
        { subst. cbn. replace (lid_index y =? i) with false by (symmetry; lia).
          by replace (lid_index y <? i) with false by (symmetry; lia). }
        cbn. assert (exists n, length yr = S n) as [n ->] by (subst; cbn; eauto).
        symmetry. apply find_app_some.
        replace (lid_index y - lid_index x) with ((i - lid_index x) + S (lid_index y - S i)) by lia.
        rewrite fill_app, find_app_none.
        -- cbn. replace (lid_index x + (i - lid_index x)) with i by lia. by rewrite Nat.eqb_refl.
        -- apply fill_Forall. intros k Hk. cbn. lia.
      * rewrite find_app_none.
        2:{ apply fill_Forall. intros k Hk. cbn. lia. }
        rewrite <- IH. unfold lil_get.
        destruct (bsearch yr i) as [j|j] eqn:Eb.
        -- done.
        -- destruct j as [|j].
           ++ exfalso. subst yr. cbn in Eb.
              destruct (lid_index y =? i) eqn:?; [done|].
              destruct (lid_index y <? i) eqn:?; [|lia].
              by destruct (bsearch r i).
           ++ cbn. rewrite Nat.sub_0_r. done.
    + symmetry. rewrite find_app_none.
      2:{ apply fill_Forall. intros k Hk. cbn. lia. }
      apply find_none_Forall. subst yr. eapply Forall_mono; [by apply expand_ge|].
      cbn. intros; lia.
Qed.

(** ** bsearch decomposition *)
Lemma bsearch_decomp keys at_ : sortedk keys ->
  match bsearch keys at_ with
  | inl i => exists K1 k K2, keys = K1 ++ k :: K2 /\ length K1 = i /\ lid_index k = at_ /\
               (forall l, last K1 = Some l -> lid_index l < at_)
  | inr i => exists K1 K2, keys = K1 ++ K2 /\ length K1 = i /\
               (forall l, last K1 = Some l -> lid_index l < at_) /\
               (forall k, head K2 = Some k -> at_ < lid_index k)
  end.
Proof.
  induction keys as [|x r IH]; intros Hs.
  - cbn. exists [], []. done.
  - cbn. specialize (IH (sortedk_tail _ _ Hs)).
    destruct (lid_index x =? at_) eqn:E; [|destruct (lid_index x <? at_) eqn:E2].
    + exists [], x, r. repeat split; [lia|done].
    + destruct (bsearch r at_) as [i|i].
      * destruct IH as (K1 & k & K2 & -> & <- & <- & Hl).
        exists (x :: K1), k, K2. repeat split. intros l. rewrite last_cons'.
        destruct (last K1) as [l'|]; intros [= <-]; [by apply Hl|lia].
      * destruct IH as (K1 & K2 & -> & <- & Hl & Hh).
        exists (x :: K1), K2. split; [done|]. split; [done|]. split; [|done].
        intros l. rewrite last_cons'.
        destruct (last K1) as [l'|]; intros [= <-]; [by apply Hl|lia].
    + exists [], (x :: r). split; [done|]. split; [done|]. split; [done|].
      intros k [= <-]. lia.
Qed.

(** ** truncate *)
Lemma ids_before_expand_lt keys l at_ : sortedk keys -> last keys = Some l -> lid_index l < at_ ->
  ids_before (expand keys) at_ = expand keys.
Proof.
  intros Hs Hl Hlt. apply filter_all. eapply Forall_mono; [by eapply expand_le|]. cbn. intros; lia.
Qed.

Lemma trunc_go K1 k K2 at_ :
  sortedk (K1 ++ k :: K2) -> canon (K1 ++ k :: K2) ->
  (forall l, last K1 = Some l -> lid_index l < at_) -> at_ <= lid_index k ->
  lil_rep (match last K1 with
           | None => K1
           | Some lst =>
               if lid_index lst <? at_ - 1
               then lil_append K1 (mkLogId (lid_leader lst) (at_ - 1))
               else K1
           end) (ids_before (expand (K1 ++ k :: K2)) at_).
Proof.
  intros Hs Hc Hl Hk. rewrite expand_app by done. unfold ids_before.
  rewrite !filter_app'. fold (ids_before (expand K1) at_).
  assert (filter_none_tail : List.filter (fun x => lid_index x <? at_) (expand (k :: K2)) = []).
  { apply filter_none. apply sortedk_app_iff in Hs as (_ & Hs & _).
    eapply Forall_mono; [by apply expand_ge|]. cbn. intros; lia. }
  rewrite filter_none_tail, app_nil_r.
  pose proof (canon_prefix _ _ Hc) as Hc1.
  apply sortedk_app_iff in Hs as (Hs1 & _ & _).
  destruct (last K1) as [l|] eqn:El.
  2:{ apply last_None in El as ->. repeat split. }
  specialize (Hl l eq_refl). rewrite (ids_before_expand_lt K1 l at_) by done.
  cbn [gap].
  replace (lid_index k - S (lid_index l)) with ((at_ - S (lid_index l)) + (lid_index k - at_)) by lia.
  rewrite fill_app, filter_app', (filter_all _ (fill _ _ (at_ - _))), filter_none, app_nil_r.
  2:{ apply fill_Forall. intros; cbn; lia. }
  2:{ apply fill_Forall. intros; cbn; lia. }
  destruct (lid_index l <? at_ - 1) eqn:E.
  - assert (Hrep : lil_rep K1 (expand K1)) by done.
    apply (lil_append_rep _ _ (mkLogId (lid_leader l) (at_ - 1))) in Hrep.
    2:{ rewrite El. intros l' [= <-]. cbn. lia. }
    rewrite El in Hrep. cbn [gap lid_index lid_leader] in Hrep.
    replace (at_ - S (lid_index l)) with (S (at_ - 1 - S (lid_index l))) by lia.
    rewrite fill_snoc.
    replace (S (lid_index l) + (at_ - 1 - S (lid_index l))) with (at_ - 1) by lia. done.
  - replace (at_ - S (lid_index l)) with 0 by lia. cbn. by rewrite app_nil_r.
Qed.

Lemma lil_truncate_rep keys ids at_ :
  lil_rep keys ids -> lil_rep (lil_truncate keys at_) (ids_before ids at_).
Proof.
  intros (Hs & Hc & <-). unfold lil_truncate.
  pose proof (bsearch_decomp keys at_ Hs) as Hb.
  destruct (bsearch keys at_) as [i|i].
  - destruct Hb as (K1 & k & K2 & -> & <- & <- & Hl).
    rewrite take_app. by apply trunc_go.
  - destruct Hb as (K1 & K2 & -> & <- & Hl & Hh).
    destruct K2 as [|k K2].
    + rewrite !app_nil_r in *. rewrite Nat.eqb_refl.
      destruct (last K1) as [l|] eqn:El.
      * specialize (Hl l eq_refl). rewrite (ids_before_expand_lt _ l) by done. done.
      * by apply last_None in El as ->.
    + replace (length K1 =? length (K1 ++ k :: K2)) with false
        by (rewrite app_length; cbn; symmetry; lia).
      rewrite take_app. specialize (Hh k eq_refl). apply trunc_go; [done|done|done|lia].
Qed.

(** ** purge *)
Lemma canon_drop K1 K2 : canon (K1 ++ K2) -> canon K2.
Proof. induction K1 as [|a K1 IH]; [done|]. cbn [app]. intros H%canon_tail. auto. Qed.

Lemma canon_head_change x x' r : lid_leader x = lid_leader x' -> canon (x :: r) -> canon (x' :: r).
Proof. destruct r as [|y [|z r]]; cbn; try done. by intros ->. Qed.

Lemma lil_purge_rep keys ids upto :
  lil_rep keys ids -> lil_rep (lil_purge keys upto) (ids_purge ids upto).
Proof.
  intros (Hs & Hc & <-). unfold lil_purge, ids_purge. rewrite expand_last.
  destruct (next_index (last keys) <=? lid_index upto) eqn:E; [repeat split|].
  destruct keys as [|k0 keys]; [cbn in E; lia|]. cbn [head].
  destruct (lid_index upto <? lid_index k0) eqn:E0.
  - repeat split; [done|done|]. symmetry. apply filter_all.
    eapply Forall_mono; [by apply expand_ge|]. cbn. intros; lia.
  - remember (k0 :: keys) as K eqn:EK.
    pose proof (bsearch_decomp K (lid_index upto) Hs) as Hb.
    destruct (bsearch K (lid_index upto)) as [i|i].
    + destruct Hb as (K1 & k & K2 & HK & <- & Hk & Hl).
      assert (lil_rep (k :: K2) (ids_from (expand K) (lid_index upto))) as Hrep.
      { rewrite HK in *. apply canon_drop in Hc. pose proof Hs as Hs'.
        apply sortedk_app_iff in Hs as (Hs1 & Hs2 & Hl').
        repeat split; [done|done|]. rewrite expand_app by done. unfold ids_from.
        rewrite !filter_app'. rewrite (filter_none _ (expand K1)), (filter_none _ (gap _ _)).
        + cbn. symmetry. apply filter_all. eapply Forall_mono; [by apply expand_ge|]. cbn. intros; lia.
        + destruct (last K1) as [l|] eqn:El; [|constructor]. apply fill_Forall. cbn. intros; lia.
        + destruct (last K1) as [l|] eqn:El.
          * specialize (Hl _ eq_refl). eapply Forall_mono; [by eapply expand_le|]. cbn. intros; lia.
          * apply last_None in El as ->. constructor. }
      destruct (0 <? length K1) eqn:E1.
      * by rewrite HK, drop_app, <- HK.
      * destruct K1; [|cbn in E1; lia]. cbn in HK. by rewrite HK in *.
    + destruct Hb as (K1 & K2 & HK & <- & Hl & Hh).
      destruct K1 as [|p K1 _] using rev_ind.
      { cbn in HK. rewrite HK in EK. subst K2. specialize (Hh k0 eq_refl). lia. }
      rewrite last_snoc in Hl. specialize (Hl p eq_refl).
      destruct K2 as [|k K2].
      { rewrite app_nil_r in HK. rewrite HK, last_snoc in E. cbn in E. lia. }
      specialize (Hh k eq_refl).
      rewrite app_length. cbn [length].
      replace (length K1 + 1 - 1) with (length K1) by lia.
      rewrite HK in *. rewrite <- (app_assoc K1 [p]) in *. cbn [app] in *. rewrite drop_app.
      pose proof Hs as Hs'.
      apply sortedk_app_iff in Hs as (Hs1 & [Hpk Hs2] & Hl').
      apply canon_drop in Hc.
      split; [split; [cbn; lia|done]|]. split; [by eapply canon_head_change|].
      rewrite (expand_app K1 p) by done. unfold ids_from.
      rewrite !filter_app'. rewrite (filter_none _ (expand K1)), (filter_none _ (gap _ _)).
      * cbn [app]. rewrite expand_cons. cbn [lid_leader lid_index].
        rewrite (expand_cons p k).
        replace (lid_index k - lid_index p) with
          ((lid_index upto - lid_index p) + (lid_index k - lid_index upto)) by lia.
        rewrite fill_app, !filter_app', (filter_none _ (fill _ _ (lid_index upto - _))).
        2:{ apply fill_Forall. cbn. intros; lia. }
        cbn [app].
        replace (lid_index p + (lid_index upto - lid_index p)) with (lid_index upto) by lia.
        rewrite !filter_all; [done| |].
        -- eapply Forall_mono; [by apply expand_ge|]. cbn. intros; lia.
        -- apply fill_Forall. cbn. intros; lia.
      * destruct (last K1) as [l|] eqn:El; [|constructor]. apply fill_Forall. cbn. intros; lia.
      * destruct (last K1) as [l|] eqn:El.
        -- specialize (Hl' _ eq_refl). eapply Forall_mono; [by eapply expand_le|]. cbn. intros; lia.
        -- apply last_None in El as ->. constructor.
Qed.

(** ** by_last_leader *)
Lemma last_run_app_r l1 l2 : l2 <> [] -> 
  (forall x y, last l1 = Some x -> head l2 = Some y -> lid_leader x <> lid_leader y) ->
  last_run (l1 ++ l2) = last_run l2.
Proof.
  intros Hn. induction l1 as [|x l1 IH]; intros H; [done|]. cbn [app last_run].
  destruct (forallb _ _) eqn:E.
  - exfalso. rewrite forallb_forall in E.
    destruct l2 as [|y l2]; [done|].
    destruct (last (x :: l1)) as [z|] eqn:El; [|by apply last_None in El].
    apply (H z y eq_refl eq_refl).
    assert (leader_eqb (lid_leader x) (lid_leader y) = true) as E1.
    { apply E. apply in_or_app. right. by left. }
    apply leader_eqb_eq in E1. rewrite <- E1.
    rewrite last_cons' in El. destruct (last l1) as [w|] eqn:Ew; injection El as ->; [|done].
    symmetry. apply leader_eqb_eq. apply E. apply in_or_app. left.
    apply elem_of_list_In. rewrite last_lookup in Ew. by eapply elem_of_list_lookup_2.
  - apply IH. intros a b Ha. apply H. by rewrite last_cons', Ha.
Qed.
Lemma last_run_same x r : Forall (fun y => lid_leader y = lid_leader x) r -> last_run (x :: r) = x :: r.
Proof.
  intros H. cbn. assert (forallb (fun y => leader_eqb (lid_leader x) (lid_leader y)) r = true) as ->; [|done].
  apply forallb_forall. intros y Hy. apply leader_eqb_eq.
  rewrite Forall_forall in H. symmetry. apply H. by apply elem_of_list_In.
Qed.

Lemma lil_by_last_leader_rep keys ids :
  lil_rep keys ids -> lil_by_last_leader keys = run_ends (last_run ids).
Proof.
  intros (Hs & Hc & <-).
  destruct keys as [|k [|k2 keys]]; [done|done|].
  destruct (list_snoc2 (k :: k2 :: keys)) as (pre & p & q & E); [cbn; lia|].
  rewrite E in *. clear E k k2 keys. unfold lil_by_last_leader.
  rewrite app_length. cbn [length].
  replace (length pre + 2 <? 2) with false by (symmetry; lia).
  rewrite (lookup_app_r pre _ (length pre + 2 - 1)) by lia.
  rewrite (lookup_app_r pre _ (length pre + 2 - 2)) by lia.
  replace (length pre + 2 - 1 - length pre) with 1 by lia.
  replace (length pre + 2 - 2) with (length pre) by lia.
  rewrite Nat.sub_diag. cbn.
  rewrite expand_app by done.
  apply sortedk_app_iff in Hs as (Hs1 & [Hpq _] & Hl).
  rewrite expand_cons. cbn [expand].
  destruct (lid_index q - lid_index p) as [|n] eqn:En; [lia|].
  destruct (leader_eqb _ _) eqn:Epq.
  - apply leader_eqb_eq in Epq. rewrite drop_app.
    rewrite app_assoc, last_run_app_r.
    + rewrite fill_S, logid_eta. cbn [app]. rewrite last_run_same.
      * cbn. destruct (fill (lid_leader p) (S (lid_index p)) n ++ [q]) eqn:Ef.
        { destruct (fill _ _ n); done. }
        rewrite <- Ef, last_app. done.
      * apply Forall_app. split; [|by constructor].
        apply fill_Forall. done.
    + by rewrite fill_S.
    + intros x y Hx Hy. rewrite fill_S, logid_eta in Hy. cbn in Hy. injection Hy as <-.
      rewrite last_app in Hx.
      destruct pre as [|b pre _] using rev_ind; [done|].
      rewrite <- app_assoc in Hc. cbn in Hc. apply canon_prefix_strict in Hc.
      rewrite last_snoc in Hx.
      destruct (last (gap (Some b) (lid_index p))) as [g|] eqn:Eg.
      * injection Hx as <-. cbn in Eg. rewrite last_lookup in Eg. by apply fill_lookup in Eg as [_ ->].
      * rewrite expand_last, last_snoc in Hx. by injection Hx as <-.
  - assert (Hne : lid_leader p <> lid_leader q).
    { intros Eq. assert (leader_eqb (lid_leader q) (lid_leader p) = true) by by apply leader_eqb_eq.
      congruence. }
    replace (length pre + 2 - 1) with (length (pre ++ [p])) by (rewrite app_length; cbn; lia).
    replace (pre ++ [p; q]) with ((pre ++ [p]) ++ [q]) by by rewrite <- app_assoc.
    rewrite drop_app.
    rewrite !app_assoc, last_run_app_r; [done|done|].
    intros x y Hx [= <-]. rewrite last_app in Hx.
    destruct (last (fill (lid_leader p) (lid_index p) (S n))) as [g|] eqn:Eg.
    + injection Hx as <-. rewrite last_lookup in Eg. by apply fill_lookup in Eg as [_ ->].
    + apply last_None in Eg. done.
Qed.

(** ** extend *)
Lemma consecutive_app b l1 l2 :
  consecutive b (l1 ++ l2) <-> consecutive b l1 /\ consecutive (b + length l1) l2.
Proof.
  split.
  - intros H. split.
    + intros k x Hk. apply H. by apply lookup_app_l_Some.
    + intros k x Hk. rewrite <- Nat.add_assoc. apply H.
      rewrite lookup_app_r by lia. by replace (length l1 + k - length l1) with k by lia.
  - intros [H1 H2] k x Hk. apply lookup_app_Some in Hk as [Hk|[Hge Hk]]; [by apply H1|].
    apply H2 in Hk. lia.
Qed.
Lemma consecutive_cons b x l : consecutive b (x :: l) <-> lid_index x = b /\ consecutive (S b) l.
Proof.
  split.
  - intros H. split; [specialize (H 0 x eq_refl); lia|]. intros k y Hk.
    specialize (H (S k) y Hk). lia.
  - intros [H1 H2] [|k] y; cbn; [intros [= ->]; lia|]. intros Hk. apply H2 in Hk. lia.
Qed.

Lemma lil_rep_last keys ids : lil_rep keys ids -> last keys = last ids.
Proof. intros (_ & _ & <-). by rewrite expand_last. Qed.
Lemma lil_rep_head keys ids : lil_rep keys ids -> head keys = head ids.
Proof.
  intros (Hs & _ & <-). destruct keys as [|x r]; [done|].
  destruct (expand_head x r Hs) as [r' ->]. done.
Qed.

(** [fill] of the leader's consecutive ids *)
Lemma consecutive_fill b L l : consecutive b l -> Forall (fun x => lid_leader x = L) l ->
  l = fill L b (length l).
Proof.
  revert b; induction l as [|x l IH]; intros b Hc Hf; [done|].
  apply consecutive_cons in Hc as [Hx Hc]. inversion Hf as [|? ? HxL Hf']; subst.
  cbn. f_equal; [by rewrite logid_eta|]. by apply IH.
Qed.

(** loop invariant of [extend]: keys represent [ids]; ids of [skipped] (all of the
    current leader) were not yet recorded *)
Lemma lil_extend_loop_rep new_ids : forall keys ids skipped prev b,
  lil_rep keys ids ->
  consecutive b (ids ++ skipped ++ new_ids) ->
  prev = lid_leader <$> last ids ->
  Forall (fun x => Some (lid_leader x) = prev) skipped ->
  exists ids' skipped',
    lil_rep (lil_extend_loop keys prev new_ids) ids' /\
    ids' ++ skipped' = ids ++ skipped ++ new_ids /\
    Forall (fun x => Some (lid_leader x) = (lid_leader <$> last ids')) skipped'.
Proof.
  induction new_ids as [|x new_ids IH]; intros keys ids skipped prev b Hrep Hc Hprev Hsk.
  - exists ids, skipped. cbn. rewrite app_nil_r. split; [done|]. split; [done|].
    by rewrite <- Hprev.
  - cbn. assert (Hstep : prev <> Some (lid_leader x) ->
      exists ids' skipped',
        lil_rep (lil_extend_loop (lil_append keys x) (Some (lid_leader x)) new_ids) ids' /\
        ids' ++ skipped' = ids ++ skipped ++ x :: new_ids /\
        Forall (fun y => Some (lid_leader y) = (lid_leader <$> last ids')) skipped').
    { intros Hne.
      assert (lil_rep (lil_append keys x) (ids ++ skipped ++ [x])) as Hrep'.
      { pose proof (lil_rep_last _ _ Hrep) as Hlk.
        apply consecutive_app in Hc as [Hc1 Hc2].
        apply consecutive_app in Hc2 as [Hc2 Hc3]. apply consecutive_cons in Hc3 as [Hx _].
        assert (Hgap : gap (last keys) (lid_index x) = skipped /\
                       forall l, last keys = Some l -> lid_index l < lid_index x).
        { rewrite Hlk. destruct (last ids) as [l|] eqn:El.
          - pose proof (consecutive_last _ _ _ Hc1 El) as Hli.
            split; [|intros l' [= <-]; lia]. cbn.
            rewrite (consecutive_fill _ (lid_leader l) _ Hc2) at 1.
            + f_equal; lia.
            + eapply Forall_mono; [done|]. cbn. rewrite Hprev. cbn. congruence.
          - apply last_None in El. subst ids. cbn in *. split; [|done].
            destruct skipped as [|s skipped]; [done|]. inversion Hsk as [|? ? Hs1]; subst. done. }
        destruct Hgap as [Hgap Hlt]. rewrite <- Hgap. by apply lil_append_rep. }
      destruct (IH _ _ [] (Some (lid_leader x)) b Hrep') as (ids' & sk' & H1 & H2 & H3).
      - cbn. rewrite <- !app_assoc. done.
      - by rewrite app_assoc, last_snoc.
      - constructor.
      - exists ids', sk'. split; [done|]. split; [|done]. rewrite H2. cbn. by rewrite <- !app_assoc. }
    destruct prev as [p|]; [|by apply Hstep].
    destruct (leader_eqb p (lid_leader x)) eqn:E.
    + apply leader_eqb_eq in E. subst p.
      destruct (IH keys ids (skipped ++ [x]) (Some (lid_leader x)) b) as (ids' & sk' & H1 & H2 & H3); [done| |done| |].
      * rewrite <- !app_assoc. done.
      * apply Forall_app. split; [done|]. by constructor.
      * exists ids', sk'. split; [done|]. split; [|done]. rewrite H2. by rewrite <- !app_assoc.
    + apply Hstep. intros [= ->]. rewrite leader_eqb_refl in E. done.
Qed.

Lemma last_app_ne {A} (l1 l2 : list A) : l2 <> [] -> last (l1 ++ l2) = last l2.
Proof. intros H. rewrite last_app. destruct (last l2) eqn:E; [done|]. by apply last_None in E. Qed.

Lemma lil_extend_rep keys ids new_ids b :
  lil_rep keys ids -> consecutive b (ids ++ new_ids) ->
  lil_rep (lil_extend keys new_ids) (ids ++ new_ids).
Proof.
  intros Hrep Hc. unfold lil_extend.
  destruct (lil_extend_loop_rep new_ids keys ids [] (lid_leader <$> last keys) b)
    as (ids' & sk' & H1 & H2 & H3); [done|done|by rewrite (lil_rep_last _ _ Hrep)|constructor|].
  cbn in H2. rewrite <- H2 in Hc |- *.
  destruct (last new_ids) as [lst|] eqn:El.
  2:{ apply last_None in El. subst new_ids. cbn in *. rewrite app_nil_r in H2.
      (* nothing appended *)
      assert (sk' = []) as ->.
      { destruct H1 as (Hs1 & _ & He1). pose proof (lil_rep_last _ _ Hrep) as Hk.
        destruct Hrep as (Hs & _ & He). subst ids'. rewrite <- He in H2.
        assert (length (expand keys ++ sk') = length (expand keys)) by by rewrite H2.
        rewrite app_length in H. destruct sk'; [done|cbn in H; lia]. }
      by rewrite app_nil_r. }
  assert (Hlast : last (ids' ++ sk') = Some lst).
  { rewrite H2, last_app_ne; [done|]. intros ->. done. }
  destruct (ologid_eqb _ _) eqn:Eq.
  - apply ologid_eqb_true in Eq. rewrite (lil_rep_last _ _ H1) in Eq.
    destruct sk' as [|s sk']; [by rewrite app_nil_r|].
    (* impossible: indexes differ *)
    exfalso. pose proof (consecutive_last _ _ _ Hc Hlast) as I1.
    apply consecutive_app in Hc as [Hc1 _].
    pose proof (consecutive_last _ _ _ Hc1 Eq) as I2.
    rewrite app_length in I1. cbn in I1. lia.
  - destruct sk' as [|s sk' _] using rev_ind.
    { rewrite app_nil_r in Hlast. rewrite (lil_rep_last _ _ H1), Hlast in Eq.
      assert (ologid_eqb (Some lst) (Some lst) = true) by by apply ologid_eqb_true. congruence. }
    rewrite app_assoc, last_snoc in Hlast. injection Hlast as ->.
    assert (Hgap : gap (last (lil_extend_loop keys (lid_leader <$> last keys) new_ids)) (lid_index lst) = sk' /\
      forall l, last (lil_extend_loop keys (lid_leader <$> last keys) new_ids) = Some l -> lid_index l < lid_index lst).
    { rewrite (lil_rep_last _ _ H1). rewrite app_assoc in Hc.
      apply consecutive_snoc in Hc as [Hc Hx].
      apply consecutive_app in Hc as [Hc1 Hc2]. rewrite app_length in Hx.
      apply Forall_app in H3 as [H3 _].
      destruct (last ids') as [l|] eqn:El'.
      - pose proof (consecutive_last _ _ _ Hc1 El') as Hli.
        split; [|intros l' [= <-]; lia]. cbn.
        rewrite (consecutive_fill _ (lid_leader l) _ Hc2) at 1.
        + f_equal; lia.
        + eapply Forall_mono; [done|]. cbn. congruence.
      - split; [|done]. cbn. destruct sk'; [done|]. inversion H3; subst. done. }
    destruct Hgap as [Hgap Hlt].
    replace (ids' ++ sk' ++ [lst]) with
      (ids' ++ gap (last (lil_extend_loop keys (lid_leader <$> last keys) new_ids)) (lid_index lst) ++ [lst])
      by by rewrite Hgap.
    by apply lil_append_rep.
Qed.

Lemma lil_extend_same_rep keys ids new_ids b L :
  lil_rep keys ids -> consecutive b (ids ++ new_ids) ->
  Forall (fun x => lid_leader x = L) new_ids ->
  lil_rep (lil_extend_same keys new_ids) (ids ++ new_ids).
Proof.
  intros Hrep Hc Hf. unfold lil_extend_same. destruct new_ids as [|first r]; [by rewrite app_nil_r|].
  pose proof (lil_rep_last _ _ Hrep) as Hlk.
  assert (Hr1 : lil_rep (lil_append keys first) (ids ++ [first])).
  { pose proof (lil_append_rep keys ids first Hrep) as Hr.
    apply consecutive_app in Hc as [Hc1 Hc2]. apply consecutive_cons in Hc2 as [Hx _].
    assert (Hg : gap (last keys) (lid_index first) = [] /\ forall l, last keys = Some l -> lid_index l < lid_index first).
    { rewrite Hlk. destruct (last ids) as [l|] eqn:El; [|done].
      pose proof (consecutive_last _ _ _ Hc1 El).
      split; [|intros l' [= <-]; lia]. cbn.
      by replace (lid_index first - S (lid_index l)) with 0 by lia. }
    destruct Hg as [Hg Hlt]. specialize (Hr Hlt). by rewrite Hg in Hr. }
  rewrite last_cons'. destruct (last r) as [lst|] eqn:El.
  - destruct (logid_eqb lst first) eqn:E.
    + apply logid_eqb_true in E. subst lst.
      exfalso. apply consecutive_app in Hc as [_ Hc]. apply consecutive_cons in Hc as [Hx Hc].
      rewrite last_lookup in El. apply Hc in El. lia.
    + destruct r as [|lst' r _] using rev_ind; [done|].
      rewrite last_snoc in El. injection El as ->.
      apply consecutive_app in Hc as [Hc1 Hc2]. apply consecutive_cons in Hc2 as [Hx Hc2].
      apply consecutive_snoc in Hc2 as [Hc2 Hy].
      apply Forall_cons in Hf as [HfL Hf]. apply Forall_app in Hf as [Hf _].
      pose proof (lil_append_rep _ _ lst Hr1) as Hr2.
      assert (Hl1 : last (lil_append keys first) = Some first).
      { by rewrite (lil_rep_last _ _ Hr1), last_snoc. }
      rewrite Hl1 in Hr2. specialize (Hr2 ltac:(intros l [= <-]; lia)).
      replace (ids ++ first :: r ++ [lst]) with ((ids ++ [first]) ++ gap (Some first) (lid_index lst) ++ [lst]); [done|].
      rewrite <- app_assoc. cbn. do 3 f_equal.
      rewrite (consecutive_fill _ L _ Hc2) by done. rewrite HfL. f_equal. lia. lia.
  - apply last_None in El. subst r. by rewrite logid_eqb_refl.
Qed.


(** ** histories *)
Lemma lil_rep_consecutive keys ids : lil_rep keys ids -> exists b, consecutive b ids.
Proof. intros (Hs & _ & <-). eexists. by apply expand_consecutive. Qed.

Lemma lil_step_rep keys ids op : lil_rep keys ids -> op_ok ids op ->
  lil_rep (lil_step keys op) (ids_step ids op).
Proof.
  intros Hrep Hok. destruct op as [x|l|l|at_|upto]; cbn in *.
  - destruct Hok as [b Hc]. pose proof (lil_rep_last _ _ Hrep) as Hl.
    pose proof (lil_append_rep _ _ x Hrep) as Hr.
    assert (Hlt : forall l, last keys = Some l -> S (lid_index l) = lid_index x).
    { intros l E. rewrite Hl in E. apply consecutive_snoc in Hc as [Hc Hx].
      rewrite (consecutive_last _ _ _ Hc E). lia. }
    specialize (Hr ltac:(intros l ?%Hlt; lia)).
    assert (gap (last keys) (lid_index x) = []) as Hg.
    { destruct (last keys) as [l|]; [|done]. specialize (Hlt l eq_refl). cbn.
      by replace (lid_index x - S (lid_index l)) with 0 by lia. }
    by rewrite Hg in Hr.
  - destruct Hok as [b Hc]. by eapply lil_extend_rep.
  - destruct Hok as [[b Hc] [L HL]]. by eapply lil_extend_same_rep.
  - by apply lil_truncate_rep.
  - by apply lil_purge_rep.
Qed.

Lemma lil_run_rep ops : forall keys ids, lil_rep keys ids -> ops_ok ids ops ->
  lil_rep (lil_run keys ops) (ids_run ids ops).
Proof.
  induction ops as [|op ops IH]; intros keys ids Hrep Hok; cbn; [done|].
  destruct Hok as [H1 H2]. apply IH; [|done]. by apply lil_step_rep.
Qed.

Lemma lil_history b ids0 ops : consecutive b ids0 -> ops_ok ids0 ops ->
  let ids := ids_run ids0 ops in
  let keys := lil_run (compress ids0) ops in
  keys = compress ids /\
  (forall i, lil_get keys i = ids_get ids i) /\
  lil_first keys = head ids /\
  lil_last keys = last ids /\
  lil_by_last_leader keys = run_ends (last_run ids).
Proof.
  intros Hc Hok ids keys.
  assert (Hrep : lil_rep keys ids).
  { apply lil_run_rep; [|done]. by eapply compress_rep. }
  split; [by apply lil_rep_compress|].
  split. { intros i. destruct Hrep as (Hs & _ & <-). by apply lil_get_expand. }
  split; [by apply lil_rep_head|]. split; [by apply lil_rep_last|].
  by apply lil_by_last_leader_rep.
Qed.

Lemma consecutive_seq b l : map lid_index l = seq b (length l) -> consecutive b l.
Proof.
  intros H k x Hk.
  assert (Hl : map lid_index l !! k = Some (lid_index x)) by by rewrite list_lookup_fmap, Hk.
  rewrite H in Hl. apply lookup_seq in Hl as [-> _]. reflexivity.
Qed.
