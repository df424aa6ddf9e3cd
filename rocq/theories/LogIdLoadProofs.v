(** [load_log_ids] returns the compact index of the stored log. *)
From Coq Require Import Bool Lia ZifyBool ZifyNat.
From stdpp Require Import base numbers option list.
From Verif Require Import Types TypesProofs LogIdList LogIdSpec LogIdListProofs.

(** ** load_log_ids *)
Definition seg (ids : list LogId) (b : nat) (f l : LogId) : list LogId :=
  take (S (lid_index l) - lid_index f) (drop (lid_index f - b) ids).

Definition pushes (res l : list LogId) : list LogId := foldl load_push res l.

Lemma pushes_app res l1 l2 : pushes res (l1 ++ l2) = pushes (pushes res l1) l2.
Proof. apply foldl_app. Qed.

Lemma load_push_last res f : exists r, last (load_push res f) = Some r /\
  leader_leb (lid_leader f) (lid_leader r) = true.
Proof.
  unfold load_push. destruct (last res) as [r|] eqn:E.
  - destruct (leader_ltb _ _) eqn:E2.
    + exists f. rewrite last_snoc. split; [done|]. ord.
    + exists r. split; [done|]. ord.
  - exists f. rewrite last_snoc. split; [done|]. ord.
Qed.
Lemma load_push_noop res f r : last res = Some r ->
  leader_leb (lid_leader f) (lid_leader r) = true -> load_push res f = res.
Proof.
  intros Hr Hl. unfold load_push. rewrite Hr.
  destruct (leader_ltb _ _) eqn:E; [|done]. exfalso. ord.
Qed.
Lemma pushes_noop res l r : last res = Some r ->
  Forall (fun f => leader_leb (lid_leader f) (lid_leader r) = true) l -> pushes res l = res.
Proof.
  intros Hr. induction 1 as [|f l Hf _ IH]; cbn; [done|]. erewrite load_push_noop by done. done.
Qed.
(** pushing a run of a single leader is pushing its first element *)
Lemma pushes_same res f l : Forall (fun x => lid_leader x = lid_leader f) l ->
  pushes res (f :: l) = load_push res f.
Proof.
  intros Hl. cbn. destruct (load_push_last res f) as (r & Hr & Hle).
  apply (pushes_noop _ _ r); [done|]. eapply Forall_mono; [done|]. cbn. by intros x ->.
Qed.

Section load.
  Context (ids : list LogId) (b : nat) (sto : nat -> option LogId).
  Context (Hcons : consecutive b ids) (Hsort : leaders_sorted ids).
  Context (Hsto : forall i x, ids_get ids i = Some x -> b < i -> sto i = Some x).

  Lemma ids_get_lookup k x : ids !! k = Some x -> ids_get ids (b + k) = Some x.
  Proof.
    intros Hk. unfold ids_get.
    rewrite <- (take_drop k ids). rewrite find_app_none.
    - rewrite (drop_S _ _ _ Hk). cbn. rewrite (Hcons _ _ Hk), Nat.eqb_refl. done.
    - apply Forall_lookup. intros j y Hj.
      apply lookup_take_Some in Hj as [Hj Hlt]. apply Hcons in Hj. lia.
  Qed.

  Definition inids (x : LogId) : Prop := b <= lid_index x /\ ids !! (lid_index x - b) = Some x.

  Lemma inids_sorted x y : inids x -> inids y -> lid_index x <= lid_index y ->
    leader_leb (lid_leader x) (lid_leader y) = true.
  Proof.
    intros [H1 H2] [H3 H4] H. eapply (Hsort (lid_index x - b) (lid_index y - b)); [lia|done|done].
  Qed.

  Lemma seg_inids f l x : inids f -> inids l -> x ∈ seg ids b f l ->
    inids x /\ lid_index f <= lid_index x <= lid_index l.
  Proof.
    intros [Hf1 Hf2] [Hl1 Hl2]. unfold seg. rewrite elem_of_list_lookup. intros [k Hk].
    apply lookup_take_Some in Hk as [Hk Hlt]. rewrite lookup_drop in Hk.
    pose proof (Hcons _ _ Hk) as Hx. unfold inids.
    replace (lid_index x - b) with (lid_index f - b + k) by lia.
    split; [split; [lia|done]|lia].
  Qed.

  Lemma seg_cons f l : inids f -> lid_index f <= lid_index l ->
    exists r, seg ids b f l = f :: r.
  Proof.
    intros [Hf1 Hf2] Hle. unfold seg. rewrite (drop_S _ _ _ Hf2).
    replace (S (lid_index l) - lid_index f) with (S (lid_index l - lid_index f)) by lia.
    cbn. eauto.
  Qed.

  Lemma seg_split f m l : inids f -> inids m -> inids l ->
    lid_index f <= lid_index m -> lid_index m <= lid_index l ->
    exists r1 r2, seg ids b f m = r1 ++ [m] /\ seg ids b m l = m :: r2 /\
                  seg ids b f l = r1 ++ m :: r2.
  Proof.
    intros Hf Hm Hl H1 H2. unfold seg.
    destruct Hf as [Hf1 Hf2], Hm as [Hm1 Hm2], Hl as [Hl1 Hl2].
    exists (take (lid_index m - lid_index f) (drop (lid_index f - b) ids)),
           (take (lid_index l - lid_index m) (drop (S (lid_index m - b)) ids)).
    assert (E : drop (lid_index f - b) ids !! (lid_index m - lid_index f) = Some m).
    { rewrite lookup_drop. by replace (lid_index f - b + (lid_index m - lid_index f)) with (lid_index m - b) by lia. }
    split; [|split].
    - replace (S (lid_index m) - lid_index f) with (S (lid_index m - lid_index f)) by lia.
      by apply take_S_r.
    - rewrite (drop_S _ _ _ Hm2).
      by replace (S (lid_index l) - lid_index m) with (S (lid_index l - lid_index m)) by lia.
    - rewrite <- (take_drop (lid_index m - lid_index f) (drop (lid_index f - b) ids)) at 1.
      rewrite take_app_ge by (rewrite take_length, drop_length;
        apply lookup_lt_Some in Hm2; apply lookup_lt_Some in Hf2; lia).
      f_equal. rewrite take_length, drop_drop, drop_length.
      replace (lid_index f - b + (lid_index m - lid_index f)) with (lid_index m - b) by lia.
      rewrite (drop_S _ _ _ Hm2).
      apply lookup_lt_Some in Hm2.
      replace (S (lid_index l) - lid_index f - (lid_index m - lid_index f) `min` (length ids - (lid_index f - b)))
        with (S (lid_index l - lid_index m)) by lia. done.
  Qed.

  (** cost of a stack segment *)
  Definition cost (s : LogId * LogId) : nat :=
    Nat.max 1 (2 * (lid_index s.2 - lid_index s.1) - 1).
  Definition stack_cost (st : list (LogId * LogId)) : nat :=
    foldr (fun s n => cost s + n) 0 st.

  Definition stack_ids (st : list (LogId * LogId)) : list LogId :=
    mjoin ((fun s => seg ids b s.1 s.2) <$> st).

  (** segments are in order, and start at or above the last recorded id *)
  Fixpoint stack_ok (lo : nat) (st : list (LogId * LogId)) : Prop :=
    match st with
    | [] => True
    | (f, l) :: st =>
        inids f /\ inids l /\ lo <= lid_index f /\ lid_index f <= lid_index l /\
        stack_ok (lid_index l) st
    end.
  Lemma stack_ok_mono lo lo' st : lo' <= lo -> stack_ok lo st -> stack_ok lo' st.
  Proof.
    destruct st as [|[f l] st]; [done|]. cbn. intros Hle (?&?&?&?&?). repeat first [done | lia | split].
  Qed.

  Definition res_ok (res : list LogId) (lo : nat) : Prop :=
    forall r, last res = Some r -> inids r /\ lid_index r <= lo.

  Lemma load_push_ok res f lo : res_ok res lo -> inids f -> lo <= lid_index f ->
    res_ok (load_push res f) (lid_index f).
  Proof.
    intros Hr Hf Hlo r. unfold load_push. destruct (last res) as [r'|] eqn:E.
    - destruct (leader_ltb _ _).
      + rewrite last_snoc. intros [= <-]. done.
      + intros Hl. rewrite E in Hl. injection Hl as ->. destruct (Hr r E). split; [done|lia].
    - rewrite last_snoc. intros [= <-]. done.
  Qed.

  Lemma load_loop_correct fuel : forall st res lo,
    stack_ok lo st -> stack_cost st < fuel -> res_ok res lo ->
    load_loop fuel sto st res = LoadOk (pushes res (stack_ids st)).
  Proof.
    induction fuel as [|fuel IH]; intros st res lo Hok Hfuel Hres; [lia|].
    destruct st as [|[f l] st]; [done|].
    destruct Hok as (Hf & Hl & Hlo & Hle & Hok).
    cbn [load_loop]. unfold stack_ids. cbn [fmap list_fmap mjoin list_join fst snd].
    fold (stack_ids st). rewrite pushes_app.
    cbn [stack_cost foldr] in Hfuel. fold (stack_cost st) in Hfuel. unfold cost in Hfuel. cbn [fst snd] in Hfuel.
    pose proof (load_push_ok res f lo Hres Hf Hlo) as Hpush.
    destruct (leader_eqb (lid_leader f) (lid_leader l)) eqn:E1.
    { apply leader_eqb_eq in E1.
      rewrite (IH _ _ (lid_index f)); [|by eapply stack_ok_mono|lia|done].
      do 2 f_equal. destruct (seg_cons f l Hf Hle) as [r Hr].
      rewrite Hr, pushes_same; [done|].
      apply Forall_forall. intros x Hx.
      destruct (seg_inids f l x Hf Hl) as [Hxi Hxr]; [rewrite Hr; by right|].
      pose proof (inids_sorted f x Hf Hxi ltac:(lia)).
      pose proof (inids_sorted x l Hxi Hl ltac:(lia)). ord. }
    assert (Hne : lid_leader f <> lid_leader l).
    { intros E. rewrite E, leader_eqb_refl in E1. done. }
    assert (Hlt : lid_index f < lid_index l).
    { destruct (decide (lid_index f = lid_index l)) as [E|E]; [|lia].
      destruct Hf as [_ Hf], Hl as [_ Hl]. rewrite E, Hl in Hf. injection Hf as ->. done. }
    destruct (S (lid_index f) =? lid_index l) eqn:E2.
    { rewrite (IH _ _ (lid_index l)); [|done|lia|].
      - do 2 f_equal.
        destruct (seg_split f l l Hf Hl Hl) as (r1 & r2 & H1 & H2 & H3); [lia|lia|].
        destruct (seg_split f f l Hf Hf Hl) as (r1' & r2' & H1' & H2' & H3'); [lia|lia|].
        assert (Hseg : seg ids b f l = [f; l]).
        { assert (Hlen : length (seg ids b f l) <= 2).
          { unfold seg. rewrite take_length. lia. }
          rewrite H1. rewrite H1 in Hlen. rewrite app_length in Hlen. cbn in Hlen.
          destruct (seg_cons f l Hf Hle) as [r Hr]. rewrite H1 in Hr.
          destruct r1 as [|a [|a' r1]]; cbn in Hr, Hlen; [|by injection Hr as ->|lia].
          injection Hr as Hr _. subst. done. }
        rewrite Hseg. cbn.
        unfold load_push at 2.
        destruct (load_push_last res f) as (r & Hr & _). rewrite Hr.
        destruct (Hpush r Hr) as [Hri Hrle].
        pose proof (inids_sorted r f Hri Hf Hrle).
        pose proof (inids_sorted f l Hf Hl ltac:(lia)).
        destruct (leader_ltb (lid_leader r) (lid_leader l)) eqn:E3; [done|].
        exfalso. apply Hne. clear - H H0 E3. ord.
      - intros r. rewrite last_snoc. intros [= <-]. done. }
    set (m := Nat.div (lid_index f + lid_index l) 2).
    assert (Hm : lid_index f < m /\ m < lid_index l).
    { assert (m = (lid_index f + lid_index l) / 2) as Em by done.
      pose proof (Nat.div_mod (lid_index f + lid_index l) 2 ltac:(lia)).
      pose proof (Nat.mod_upper_bound (lid_index f + lid_index l) 2 ltac:(lia)). lia. }
    destruct (lookup_lt_is_Some_2 ids (m - b)) as [mid Hmid].
    { destruct Hl as [? Hl]. apply lookup_lt_Some in Hl. lia. }
    assert (Hbf : b <= lid_index f) by (destruct Hf; lia).
    pose proof (Hcons _ _ Hmid) as Hmi.
    assert (Emi : lid_index mid = m) by lia.
    assert (Hmin : inids mid). { split; [lia|]. by rewrite Emi. }
    rewrite (Hsto m mid); [| |lia].
    2:{ replace m with (b + (m - b)) by lia. by apply ids_get_lookup. }
    destruct (seg_split f mid l Hf Hmin Hl) as (r1 & r2 & H1 & H2 & H3); [lia|lia|].
    pose proof (inids_sorted f mid Hf Hmin ltac:(lia)) as Lfm.
    pose proof (inids_sorted mid l Hmin Hl ltac:(lia)) as Lml.
    destruct (leader_eqb (lid_leader f) (lid_leader mid)) eqn:E3.
    { apply leader_eqb_eq in E3.
      rewrite (IH _ _ (lid_index f)); [| |cbn [stack_cost foldr]; fold (stack_cost st); unfold cost; cbn [fst snd]; lia|done].
      2:{ cbn. repeat first [done | lia | split]. }
      unfold stack_ids. cbn [fmap list_fmap mjoin list_join fst snd]. fold (stack_ids st).
      rewrite pushes_app. do 2 f_equal. rewrite H3, pushes_app, H2. f_equal.
      destruct (seg_cons f mid Hf ltac:(lia)) as [r Hr]. rewrite H1 in Hr.
      destruct r1 as [|a r1]; cbn in Hr; injection Hr as Hr1 Hr2.
      { subst. lia. }
      subst a. symmetry. apply pushes_same. apply Forall_forall. intros x Hx.
      destruct (seg_inids f mid x Hf Hmin) as [Hxi Hxr].
      { rewrite H1. apply elem_of_app. left. by right. }
      pose proof (inids_sorted f x Hf Hxi ltac:(lia)).
      pose proof (inids_sorted x mid Hxi Hmin ltac:(lia)). ord. }
    destruct (leader_eqb (lid_leader mid) (lid_leader l)) eqn:E4.
    { apply leader_eqb_eq in E4.
      rewrite (IH _ _ lo); [| |cbn [stack_cost foldr]; fold (stack_cost st); unfold cost; cbn [fst snd]; lia|done].
      2:{ cbn. split; [done|]. split; [done|]. split; [lia|]. split; [lia|].
          eapply stack_ok_mono; [|done]. lia. }
      unfold stack_ids. cbn [fmap list_fmap mjoin list_join fst snd]. fold (stack_ids st).
      rewrite pushes_app. do 2 f_equal. rewrite H3, H1.
      rewrite (pushes_app res r1 [mid]), (pushes_app res r1 (mid :: r2)).
      symmetry. rewrite pushes_same; [done|]. apply Forall_forall. intros x Hx.
      destruct (seg_inids mid l x Hmin Hl) as [Hxi Hxr]; [rewrite H2; by right|].
      pose proof (inids_sorted mid x Hmin Hxi ltac:(lia)).
      pose proof (inids_sorted x l Hxi Hl ltac:(lia)). ord. }
    rewrite (IH _ _ lo); [| |cbn [stack_cost foldr]; fold (stack_cost st); unfold cost; cbn [fst snd]; lia|done].
    2:{ cbn. repeat first [done | lia | split]. }
    unfold stack_ids. cbn [fmap list_fmap mjoin list_join fst snd]. fold (stack_ids st).
    rewrite !pushes_app. do 2 f_equal. rewrite H1, H2, H3.
    rewrite (pushes_app res r1 [mid]), (pushes_app res r1 (mid :: r2)).
    cbn. f_equal. destruct (load_push_last (pushes res r1) mid) as (r & Hr & Hlr).
    by apply (load_push_noop _ _ r).
  Qed.
End load.

Lemma pushes_firsts l : forall res r, last res = Some r ->
  leaders_sorted (r :: l) -> pushes res l = res ++ firsts (Some (lid_leader r)) l.
Proof.
  induction l as [|x l IH]; intros res r Hr Hs; cbn; [by rewrite app_nil_r|].
  assert (Hrx : leader_leb (lid_leader r) (lid_leader x) = true) by by apply (Hs 0 1 r x ltac:(lia)).
  assert (Hs1 : leaders_sorted (x :: l)).
  { intros i j a c Hij Hi Hj. by apply (Hs (S i) (S j) a c ltac:(lia)). }
  assert (Hs2 : leaders_sorted (r :: l)).
  { intros [|i] [|j] a c Hij Hi Hj; try lia.
    - by apply (Hs 0 0 a c ltac:(lia)).
    - by apply (Hs 0 (S (S j)) a c ltac:(lia)).
    - by apply (Hs (S (S i)) (S (S j)) a c ltac:(lia)). }
  case_bool_decide as E.
  - injection E as E. rewrite (load_push_noop _ _ r); [|done|rewrite E; ord].
    by apply IH.
  - unfold load_push. rewrite Hr.
    destruct (leader_ltb _ _) eqn:E2.
    + rewrite (IH _ x); [|by rewrite last_snoc|done]. by rewrite <- app_assoc.
    + exfalso. apply E. f_equal. clear -Hrx E2. ord.
Qed.

Lemma pushes_nil_firsts l : leaders_sorted l -> pushes [] l = firsts None l.
Proof.
  destruct l as [|x l]; intros Hs; [done|]. cbn.
  rewrite (pushes_firsts _ _ x); done.
Qed.

(** The stored log is the list [ids]; [last_purged] is its head when something was
    purged, and only entries above it can be read. *)
Lemma load_log_ids_compress fuel b ids last_purged sto :
  consecutive b ids -> leaders_sorted ids ->
  match last_purged with None => b = 0 | Some p => head ids = Some p end ->
  (forall i x, ids_get ids i = Some x -> (last_purged = None \/ b < i) -> sto i = Some x) ->
  2 * length ids < fuel ->
  load_log_ids fuel last_purged (last ids) sto = LoadOk (compress ids).
Proof.
  intros Hc Hs Hp Hsto Hfuel. unfold load_log_ids.
  destruct (last ids) as [lst|] eqn:El.
  2:{ by apply last_None in El as ->. }
  destruct ids as [|f ids']; [done|]. remember (f :: ids') as ids eqn:Eids.
  assert (Hf : inids ids b f).
  { split; subst ids; apply consecutive_cons in Hc as [Hx _]; [lia|].
    by replace (lid_index f - b) with 0 by lia. }
  pose proof (consecutive_last _ _ _ Hc El) as Hli.
  assert (Hlen : length ids = S (length ids')) by by subst.
  assert (Hlst : inids ids b lst).
  { split; [lia|]. rewrite last_lookup in El. by replace (lid_index lst - b) with (pred (length ids)) by lia. }
  assert (Hfi : lid_index f = b).
  { subst ids. by apply consecutive_cons in Hc as [Hx _]. }
  assert (Hrun : load_loop fuel sto [(f, lst)] [] = LoadOk (firsts None ids)).
  { rewrite (load_loop_correct ids b sto Hc Hs) with (lo := 0).
    - f_equal. rewrite <- pushes_nil_firsts by done. f_equal. unfold stack_ids. cbn.
      rewrite app_nil_r. unfold seg. rewrite Hfi, Nat.sub_diag. cbn.
      apply take_ge. lia.
    - intros i x Hi Hlt. apply Hsto; auto.
    - cbn. repeat first [done | lia | split].
    - cbn. unfold cost. cbn. lia.
    - done. }
  assert (Hres : match load_loop fuel sto [(f, lst)] [] with
     | LoadOk res => if ologid_eqb (last res) (Some lst) then LoadOk res else LoadOk (res ++ [lst])
     | e => e end = LoadOk (compress ids)).
  { rewrite Hrun. unfold compress. rewrite El.
    destruct (ologid_eqb _ _) eqn:E.
    - apply ologid_eqb_true in E. by rewrite bool_decide_true.
    - rewrite bool_decide_false; [done|]. intros E'.
      assert (ologid_eqb (last (firsts None ids)) (Some lst) = true) by by apply ologid_eqb_true.
      congruence. }
  destruct last_purged as [p|].
  - assert (p = f) as -> by (subst ids; cbn in Hp; congruence). done.
  - rewrite (Hsto 0 f); [done| |by left].
    subst ids. unfold ids_get. cbn. by rewrite Hfi, Hp.
Qed.
