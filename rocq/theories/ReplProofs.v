(** Proofs about the search for a follower's matching point. *)
From Coq Require Import Bool Lia ZifyBool ZifyNat.
From stdpp Require Import base numbers option list.
From Verif Require Import Types TypesProofs LogIdList LogIdSpec Membership RaftState ProgressEntry ReplSpec.

Definition pid (ids : list LogId) (i : nat) : option LogId := match i with 0 => None | S j => ids !! j end.

Lemma shared_le ids f : shared ids f <= length ids.
Proof. revert f. induction ids as [|x ids IH]; intros [|y f]; cbn; try lia. case_bool_decide; [specialize (IH f); lia|lia]. Qed.
Lemma shared_take ids f n : n <= shared ids f -> take n ids = take n f.
Proof.
  revert f n. induction ids as [|x ids IH]; intros [|y f] n Hn; cbn in Hn; try (replace n with 0 by lia; reflexivity).
  case_bool_decide as He; [|replace n with 0 by lia; reflexivity].
  subst y. destruct n as [|n]; [reflexivity|]. cbn. f_equal. apply IH. lia.
Qed.
Lemma shared_ge ids f n : n <= length ids -> take n ids = take n f -> n <= shared ids f.
Proof.
  revert f n. induction ids as [|x ids IH]; intros f n Hn Ht; cbn in Hn; [lia|].
  destruct n as [|n]; [lia|]. destruct f as [|y f]; [discriminate Ht|].
  cbn in Ht. injection Ht as Hxy Ht. subst y. cbn. rewrite bool_decide_eq_true_2 by reflexivity.
  apply le_n_S, IH; [lia|assumption].
Qed.
Lemma shared_lookup ids f i x : i < shared ids f -> ids !! i = Some x -> f !! i = Some x.
Proof.
  intros Hi Hx. pose proof (shared_take ids f (S i) ltac:(lia)) as Ht.
  rewrite <- (lookup_take f (S i)) by lia. rewrite <- Ht, lookup_take by lia. exact Hx.
Qed.
Lemma shared_stored ids f n : n <= length ids -> logs_match ids f ->
  shared ids (stored ids n f) = Nat.max (shared ids f) n /\ logs_match ids (stored ids n f).
Proof.
  intros Hn Hm. unfold stored. case_bool_decide as Ht.
  - pose proof (shared_ge ids f n Hn (eq_sym Ht)). split; [lia|exact Hm].
  - assert (Hlt : shared ids f < n).
    { destruct (decide (shared ids f < n)); [assumption|]. exfalso. apply Ht. symmetry. apply shared_take. lia. }
    split.
    + apply Nat.le_antisymm.
      * assert (Hl : shared ids (take n ids) <= n).
        { destruct (decide (shared ids (take n ids) <= n)); [assumption|]. exfalso.
          pose proof (shared_take ids (take n ids) (S n) ltac:(lia)) as He.
          apply (f_equal length) in He. pose proof (shared_le ids (take n ids)).
          rewrite !take_length in He. lia. }
        lia.
      * replace (Nat.max (shared ids f) n) with n by lia. apply shared_ge; [exact Hn|].
        rewrite take_take. f_equal. lia.
    + intros i x Hx Hf. assert (i < n).
      { apply lookup_lt_Some in Hf. rewrite take_length in Hf. lia. }
      rewrite take_take. f_equal. lia.
Qed.
Lemma accepts_iff ids f a : logs_match ids f -> consecutive 0 ids -> a <= length ids ->
  (accepts f (pid ids a) <-> a <= shared ids f).
Proof.
  intros Hm Hc Ha. destruct a as [|j]; cbn; [split; [lia|trivial]|].
  destruct (lookup_lt_is_Some_2 ids j ltac:(lia)) as [x Hx]. rewrite Hx. cbn.
  pose proof (Hc _ _ Hx) as Hi. cbn in Hi. rewrite Hi. split.
  - intros Hf. pose proof (Hm _ _ Hx Hf). apply shared_ge; [lia|assumption].
  - intros Hl. eapply shared_lookup; [|exact Hx]. lia.
Qed.
Lemma shared_app ids new f : (forall x, x ∈ new -> x ∉ f) -> shared (ids ++ new) f = shared ids f.
Proof.
  intros Hn. revert f Hn. induction ids as [|x ids IH]; intros f Hn.
  - cbn. destruct new as [|x new]; [reflexivity|]. destruct f as [|y f]; [reflexivity|]. cbn.
    rewrite bool_decide_eq_false_2; [reflexivity|]. intros ->. apply (Hn y); left.
  - destruct f as [|y f]; [reflexivity|]. cbn. case_bool_decide; [|reflexivity]. f_equal. apply IH.
    intros z Hz Hf. apply (Hn z Hz). right. exact Hf.
Qed.
Lemma match_app ids new f : (forall x, x ∈ new -> x ∉ f) -> logs_match ids f -> logs_match (ids ++ new) f.
Proof.
  intros Hn Hm i x Hx Hf. destruct (decide (i < length ids)) as [Hi|Hi].
  - rewrite lookup_app_l in Hx by lia. rewrite take_app_le by lia. exact (Hm _ _ Hx Hf).
  - exfalso. rewrite lookup_app_r in Hx by lia. apply (Hn x).
    + eapply elem_of_list_lookup_2. exact Hx.
    + eapply elem_of_list_lookup_2. exact Hf.
Qed.

Lemma ids_lt ids i j x y : consecutive 0 ids -> leaders_sorted ids -> ids !! i = Some x -> ids !! j = Some y ->
  ologid_ltb (Some x) (Some y) = (i <? j).
Proof.
  intros Hc Hs Hx Hy. pose proof (Hc _ _ Hx) as Hi. pose proof (Hc _ _ Hy) as Hj. cbn in Hi, Hj.
  destruct (Nat.ltb_spec i j) as [Hlt|Hge].
  - pose proof (Hs _ _ _ _ (Nat.lt_le_incl _ _ Hlt) Hx Hy). ord.
  - pose proof (Hs _ _ _ _ Hge Hy Hx). ord.
Qed.

Definition infl_ok (max : nat) (x : Exch) : Prop :=
  match pe_inflight (x_pe x) with
  | InfNone => True
  | InfLogs r =>
      exists a b, x_low x <= a < b /\ b <= length (x_ids x) /\ a <= x_high x /\ b - a <= max /\
        lr_prev r = pid (x_ids x) a /\ lr_last r = pid (x_ids x) b
  | InfSnapshot o =>
      exists m, o = Some m /\ x_ids x !! lid_index m = Some m /\ x_high x <= lid_index m
  end.
Record XI (max : nat) (x : Exch) : Prop := {
  xi_view : leader_view (x_s x) (x_ids x);
  xi_match : logs_match (x_ids x) (x_f x);
  xi_in : x_low x <= shared (x_ids x) (x_f x) <= x_high x;
  xi_high : x_high x <= length (x_ids x);
  xi_low : forall m, pe_matching (x_pe x) = Some m -> x_ids x !! lid_index m = Some m;
  xi_infl : infl_ok max x;
}.

Lemma last_next ids : consecutive 0 ids -> next_index (last ids) = length ids.
Proof.
  intros Hc. destruct (last ids) as [y|] eqn:Hl.
  - rewrite last_lookup in Hl. pose proof (Hc _ _ Hl) as Hi. apply lookup_lt_Some in Hl. cbn in *. lia.
  - apply last_None in Hl. subst. reflexivity.
Qed.
Lemma pid_next ids a : consecutive 0 ids -> a <= length ids -> next_index (pid ids a) = a.
Proof.
  intros Hc Ha. destruct a as [|j]; [reflexivity|]. cbn.
  destruct (lookup_lt_is_Some_2 ids j ltac:(lia)) as [x Hx]. rewrite Hx. cbn. rewrite (Hc _ _ Hx). reflexivity.
Qed.
Lemma pid_app ids new a : a <= length ids -> pid (ids ++ new) a = pid ids a.
Proof. intros Ha. destruct a as [|j]; [reflexivity|]. cbn. apply lookup_app_l. lia. Qed.
Lemma prev_pid s ids a : leader_view s ids -> next_index (rs_purge_upto s) <= a -> a <= length ids ->
  rs_prev_log_id s a = pid ids a.
Proof.
  intros Hv Hp Ha. destruct a as [|j]; [reflexivity|]. cbn.
  destruct (lookup_lt_is_Some_2 ids j ltac:(lia)) as [x Hx]. rewrite Hx. eapply lv_get; eassumption.
Qed.
Lemma inf_logs_pid ids a b : consecutive 0 ids -> leaders_sorted ids -> a <= length ids -> b <= length ids ->
  inf_logs (pid ids a) (pid ids b) = if a <? b then InfLogs (mkRange (pid ids a) (pid ids b)) else InfNone.
Proof.
  intros Hc Hs Ha Hb. unfold inf_logs. destruct a as [|i], b as [|j]; cbn [pid].
  - reflexivity.
  - destruct (lookup_lt_is_Some_2 ids j ltac:(lia)) as [y Hy]. rewrite Hy. reflexivity.
  - destruct (lookup_lt_is_Some_2 ids i ltac:(lia)) as [x Hx]. rewrite Hx. reflexivity.
  - destruct (lookup_lt_is_Some_2 ids i ltac:(lia)) as [x Hx].
    destruct (lookup_lt_is_Some_2 ids j ltac:(lia)) as [y Hy].
    rewrite Hx, Hy. rewrite (ids_lt ids i j) by assumption.
    destruct (Nat.ltb_spec i j), (Nat.ltb_spec (S i) (S j)); try lia; reflexivity.
Qed.
Lemma mid_range a b : a <= b -> a <= calc_mid a b <= b /\ (a < b -> calc_mid a b < b).
Proof.
  intros H. unfold calc_mid. pose proof (Nat.mul_div_le (b - a) 16 ltac:(lia)). lia.
Qed.

(** what [next_send] does *)
Lemma next_send_spec max x pe' ok : XI max x -> pe_inflight (x_pe x) = InfNone ->
  pe_next_send (x_s x) max (x_pe x) = (pe', ok) ->
  let p := next_index (rs_purge_upto (x_s x)) in
  pe_matching pe' = pe_matching (x_pe x) /\ pe_searching_end pe' = x_high x /\
  if x_high x <? p then ok = true /\ pe_inflight pe' = InfSnapshot (rs_snap_last (x_s x))
  else
    let a := Nat.max (calc_mid (x_low x) (x_high x)) p in
    let b := Nat.min (a + max) (length (x_ids x)) in
    x_low x <= a <= x_high x /\ p <= a /\
    if a =? b then ok = false /\ pe_inflight pe' = InfNone
    else ok = true /\ a < b /\ pe_inflight pe' = InfLogs (mkRange (pid (x_ids x) a) (pid (x_ids x) b)).
Proof.
  intros HX Hi Hn. destruct HX as [Hv Hm Hin Hh Hl _]. unfold pe_next_send in Hn. rewrite Hi in Hn.
  fold (x_high x) (x_low x) in Hn. cbv zeta in *. rewrite (lv_last _ _ Hv), (last_next _ (lv_consecutive _ _ Hv)) in Hn.
  set (p := next_index (rs_purge_upto (x_s x))) in *.
  destruct (Nat.ltb_spec (x_high x) p) as [Hp|Hp].
  { injection Hn as <- <-. cbn. repeat split. }
  set (a := Nat.max (calc_mid (x_low x) (x_high x)) p) in *.
  set (b := Nat.min (a + max) (length (x_ids x))) in *.
  assert (Ha : x_low x <= a <= x_high x).
  { pose proof (mid_range (x_low x) (x_high x) ltac:(lia)). unfold a. lia. }
  destruct (Nat.eqb_spec a b) as [He|He].
  { injection Hn as <- <-. cbn. repeat split; try lia. }
  injection Hn as <- <-. cbn [pe_set_inflight pe_matching pe_searching_end pe_inflight].
  assert (Hab : a < b) by (unfold b in *; lia).
  rewrite (prev_pid _ _ a Hv), (prev_pid _ _ b Hv) by (unfold b in *; lia).
  rewrite inf_logs_pid; [|apply (lv_consecutive _ _ Hv)|apply (lv_sorted _ _ Hv)|unfold b in *; lia..].
  destruct (Nat.ltb_spec a b); [|lia]. repeat split; lia.
Qed.

Lemma xstart_XI max x : xstart x -> XI max x.
Proof.
  intros (Hv & Hm & Hp). assert (Hl : x_low x = 0) by (unfold x_low; rewrite Hp; reflexivity).
  assert (Hh : x_high x = length (x_ids x)).
  { unfold x_high. rewrite Hp. cbn. rewrite (lv_last _ _ Hv). apply last_next, (lv_consecutive _ _ Hv). }
  split; [exact Hv|exact Hm|rewrite Hl, Hh; pose proof (shared_le (x_ids x) (x_f x)); lia|lia| |].
  - rewrite Hp. discriminate.
  - unfold infl_ok. rewrite Hp. exact I.
Qed.

Lemma stored_len (ids : list LogId) i x : ids !! i = Some x -> S i <= length ids.
Proof. intros H. apply lookup_lt_Some in H. lia. Qed.

(** every reply moves one end of the interval *)
Definition moved (k : XStep) (a b : Exch) : Prop :=
  match k with
  | XReply =>
      (x_low a < x_low b /\ x_high b = Nat.max (x_high a) (x_low b)) \/
      (x_low b = x_low a /\ x_high b < x_high a)
  | _ => x_low b = x_low a /\ x_high b = x_high a
  end.
Lemma xstep_XI max k a b : XI max a -> xstep max k a b -> XI max b /\ moved k a b.
Proof.
  intros HX Hs. destruct Hs as [s ids pe f pe' Hn|s ids pe f pe' r x y Hi Ha Hy Hx Hr Hu|s ids pe f pe' r c Hi Hc Ha Hu
    |s ids pe f pe' x Hi Hu|s ids pe f|s ids pe f s' new Hv' Hf].
  - destruct (pe_inflight pe) as [|r|o] eqn:Hi;
      [|unfold pe_next_send in Hn; rewrite Hi in Hn; discriminate Hn..].
    pose proof (next_send_spec max _ _ _ HX Hi Hn) as (H1 & H2 & H3).
    destruct HX as [Hv Hm Hin Hh Hl _]. cbn [x_s x_ids x_pe x_f] in *.
    unfold x_low, x_high in *. cbn [x_s x_ids x_pe x_f] in *.
    split; [|unfold moved, x_low, x_high; cbn; rewrite H1, H2; split; reflexivity].
    split; unfold x_low, x_high; cbn [x_s x_ids x_pe x_f]; rewrite ?H1, ?H2; try assumption.
    unfold infl_ok, x_low, x_high. cbn [x_s x_ids x_pe x_f]. rewrite H1, H2.
    destruct (Nat.ltb_spec (pe_searching_end pe) (next_index (rs_purge_upto s))) as [Hp|Hp].
    + destruct H3 as [_ ->]. pose proof (lv_snap _ _ Hv) as Hsn. cbn in Hsn.
      destruct (rs_snap_last s) as [m|] eqn:Hsl; [|cbn in Hsn; lia]. exists m.
      split; [reflexivity|]. split; [eapply lv_snap_in; eassumption|]. cbn in Hsn. lia.
    + destruct H3 as (H3 & H4 & H5). case_match eqn:He; [destruct H5 as [H5 _]; discriminate H5|].
      destruct H5 as (_ & H5 & ->). do 2 eexists. split; [split; [apply H3|exact H5]|].
      split; [lia|]. split; [apply H3|]. split; [lia|]. split; reflexivity.
  - destruct HX as [Hv Hm Hin Hh Hl Hf]. unfold infl_ok in Hf. unfold x_low, x_high in *.
    cbn [x_s x_ids x_pe x_f] in *. rewrite Hi in Hf. destruct Hf as (p & q & H1 & H2 & H3 & H4 & H5 & H6).
    rewrite H5 in Hr. rewrite (pid_next _ _ (lv_consecutive _ _ Hv)) in Hr by lia.
    assert (Hyq : lid_index y < q).
    { rewrite Hy in H6. pose proof (pid_next _ q (lv_consecutive _ _ Hv) H2) as Hq. rewrite <- H6 in Hq. cbn in Hq. lia. }
    pose proof (stored_len _ _ _ Hx) as Hlen.
    pose proof (shared_stored ids f (S (lid_index x)) Hlen Hm) as [Hs1 Hs2].
    unfold pe_update_matching, inf_ack in Hu. rewrite Hi in Hu. cbn in Hu. injection Hu as <-.
    split; [split|]; unfold x_low, x_high; cbn [x_s x_ids x_pe x_f pe_matching pe_searching_end next_index]; try assumption.
    + rewrite Hs1. lia.
    + lia.
    + intros m [= <-]. exact Hx.
    + unfold infl_ok, x_low, x_high. cbn [x_s x_ids x_pe x_f pe_matching pe_searching_end pe_inflight next_index].
      change (Some x) with (Some x). rewrite H6.
      assert (Hpx : Some x = pid ids (S (lid_index x))) by (cbn; symmetry; exact Hx).
      rewrite Hpx, inf_logs_pid; [|apply (lv_consecutive _ _ Hv)|apply (lv_sorted _ _ Hv)|lia..].
      destruct (Nat.ltb_spec (S (lid_index x)) q); [|exact I].
      exists (S (lid_index x)), q. cbn [lr_prev lr_last]. repeat split; lia.
    + left. unfold x_low, x_high. cbn [x_s x_ids x_pe x_f pe_matching pe_searching_end next_index]. split; [lia|reflexivity].
  - destruct HX as [Hv Hm Hin Hh Hl Hf]. unfold infl_ok in Hf. unfold x_low, x_high in *.
    cbn [x_s x_ids x_pe x_f] in *. rewrite Hi in Hf. destruct Hf as (p & q & H1 & H2 & H3 & H4 & H5 & H6).
    unfold pe_update_conflicting, inf_conflict in Hu. rewrite Hi in Hu. cbn in Hu. injection Hu as <-.
    rewrite <- Hc, H5, (accepts_iff ids f p Hm (lv_consecutive _ _ Hv)) in Ha by lia.
    pose proof (pid_next _ p (lv_consecutive _ _ Hv) ltac:(lia)) as Hp. rewrite <- H5, Hc in Hp. cbn in Hp.
    split; [split|]; unfold x_low, x_high; cbn [x_s x_ids x_pe x_f pe_matching pe_searching_end]; try assumption; try lia.
    + exact I.
    + right. unfold x_low, x_high. cbn [x_s x_ids x_pe x_f pe_matching pe_searching_end]. lia.
  - destruct HX as [Hv Hm Hin Hh Hl Hf]. unfold infl_ok in Hf. unfold x_low, x_high in *.
    cbn [x_s x_ids x_pe x_f] in *. rewrite Hi in Hf. destruct Hf as (m & [= <-] & Hx & Hlt).
    pose proof (stored_len _ _ _ Hx) as Hlen.
    pose proof (shared_stored ids f (S (lid_index x)) Hlen Hm) as [Hs1 Hs2].
    unfold pe_update_matching, inf_ack in Hu. rewrite Hi in Hu. cbn in Hu. injection Hu as <-.
    split; [split|]; unfold x_low, x_high; cbn [x_s x_ids x_pe x_f pe_matching pe_searching_end next_index]; try assumption.
    + rewrite Hs1. lia.
    + lia.
    + intros m [= <-]. exact Hx.
    + exact I.
    + left. unfold x_low, x_high. cbn [x_s x_ids x_pe x_f pe_matching pe_searching_end next_index]. split; [lia|reflexivity].
  - destruct HX as [Hv Hm Hin Hh Hl Hf]. split; [split; try assumption; exact I|split; reflexivity].
  - destruct HX as [Hv Hm Hin Hh Hl Hfl]. unfold infl_ok in *. unfold x_low, x_high in *.
    cbn [x_s x_ids x_pe x_f] in *.
    split; [split|split; reflexivity]; unfold x_low, x_high; cbn [x_s x_ids x_pe x_f]; try assumption.
    + apply match_app; assumption.
    + rewrite shared_app by assumption. exact Hin.
    + rewrite app_length. lia.
    + intros m Hm'. pose proof (Hl m Hm') as Hx. rewrite lookup_app_l; [exact Hx|]. apply lookup_lt_Some in Hx. exact Hx.
    + unfold infl_ok, x_low, x_high. cbn [x_s x_ids x_pe x_f]. destruct (pe_inflight pe) as [|r|o]; [exact I| |].
      * destruct Hfl as (p & q & H1 & H2 & H3 & H4 & H5 & H6). exists p, q. rewrite app_length.
        rewrite !pid_app by lia. repeat split; try assumption; lia.
      * destruct Hfl as (m & H1 & H2 & H3). exists m. split; [exact H1|]. split; [|exact H3].
        rewrite lookup_app_l; [exact H2|]. apply lookup_lt_Some in H2. exact H2.
Qed.
Lemma xrun_XI max ks a b : XI max a -> xrun max ks a b -> XI max b.
Proof. intros HX Hr. induction Hr as [|k ks a b c Hs Hr IH]; [exact HX|]. apply IH. exact (proj1 (xstep_XI _ _ _ _ HX Hs)). Qed.

(** ** The statements *)

(** the interval and the requests of every state reached *)
Lemma repl_interval max ks a b : xstart a -> xrun max ks a b ->
  x_low b <= shared (x_ids b) (x_f b) <= x_high b /\
  (forall r, pe_inflight (x_pe b) = InfLogs r ->
     exists i es, lr_prev r = last (take i (x_ids b)) /\ i <= length (x_ids b) /\
       es = take (next_index (lr_last r) - i) (drop i (x_ids b)) /\
       last es = lr_last r /\ 0 < length es <= max /\ x_low b <= i <= x_high b).
Proof.
  intros Ha Hr. pose proof (xrun_XI _ _ _ _ (xstart_XI max _ Ha) Hr) as [Hv Hm Hin Hh Hl Hf].
  split; [exact Hin|]. intros r Hi. unfold infl_ok in Hf. rewrite Hi in Hf.
  destruct Hf as (p & q & H1 & H2 & H3 & H4 & H5 & H6). exists p. eexists.
  assert (Hlast : forall i, i <= length (x_ids b) -> pid (x_ids b) i = last (take i (x_ids b))).
  { intros [|i] Hi'; [reflexivity|]. destruct (lookup_lt_is_Some_2 (x_ids b) i ltac:(lia)) as [z Hz].
    rewrite (take_S_r _ _ _ Hz), last_snoc. exact Hz. }
  rewrite H5. split; [apply Hlast; lia|]. split; [lia|]. split; [reflexivity|].
  rewrite H6, (pid_next _ q (lv_consecutive _ _ Hv) H2).
  destruct q as [|q]; [lia|]. cbn [pid]. destruct (lookup_lt_is_Some_2 (x_ids b) q ltac:(lia)) as [z Hz].
  split.
  - rewrite last_lookup, take_length, drop_length, lookup_take, lookup_drop by lia. f_equal. lia.
  - rewrite take_length, drop_length. lia.
Qed.

(** each reply narrows it, and there are not more replies than twice the length of the log *)
Definition xleft (x : Exch) : nat := (length (x_ids x) - x_low x) + (x_high x - x_low x).
Lemma repl_shrinks max ks a b c : xstart a -> xrun max ks a b -> xstep max XReply b c ->
  (x_low b < x_low c /\ x_high c = Nat.max (x_high b) (x_low c)) \/
  (x_low c = x_low b /\ x_high c < x_high b).
Proof.
  intros Ha Hr Hs. pose proof (xrun_XI _ _ _ _ (xstart_XI max _ Ha) Hr) as HX.
  exact (proj2 (xstep_XI _ _ _ _ HX Hs)).
Qed.
Lemma xstep_left max k a b : XI max a -> xstep max k a b -> k <> XLeader ->
  x_ids b = x_ids a /\ xleft b + replies [k] <= xleft a.
Proof.
  intros HX Hs Hk. destruct (xstep_XI _ _ _ _ HX Hs) as [HX' Hmv]. unfold xleft.
  assert (He : x_ids b = x_ids a) by (destruct Hs; cbn in *; try reflexivity; congruence).
  split; [exact He|]. rewrite He. pose proof (xi_in _ _ HX). pose proof (xi_high _ _ HX).
  pose proof (xi_in _ _ HX'). pose proof (xi_high _ _ HX') as Hh'. rewrite He in Hh'.
  destruct k; cbn [moved replies filter List.filter length] in *; try congruence; lia.
Qed.
Lemma repl_terminates max ks ks' a b c : xstart a -> xrun max ks a b -> xrun max ks' b c -> XLeader ∉ ks' ->
  replies ks' <= 2 * length (x_ids b).
Proof.
  intros Ha Hr Hr' Hn. pose proof (xrun_XI _ _ _ _ (xstart_XI max _ Ha) Hr) as HX.
  assert (Hle : xleft b <= 2 * length (x_ids b)).
  { unfold xleft. pose proof (xi_high _ _ HX). lia. }
  enough (xleft c + replies ks' <= xleft b) by lia.
  clear Ha Hr Hle. induction Hr' as [|k ks2 x y z Hs Hr' IH]; [cbn; lia|].
  apply not_elem_of_cons in Hn as [Hn1 Hn2].
  pose proof (xstep_left _ _ _ _ HX Hs (not_eq_sym Hn1)) as [_ H1].
  specialize (IH Hn2 (proj1 (xstep_XI _ _ _ _ HX Hs))).
  unfold replies in *. cbn [List.filter] in *. destruct k; cbn [length] in *; lia.
Qed.

(** with nothing on its way: everything is sent, or the next request goes out; a snapshot only if
    the follower's matching point is purged *)
Lemma repl_progress max ks a b pe ok : 0 < max -> xstart a -> xrun max ks a b ->
  pe_inflight (x_pe b) = InfNone -> next_index (rs_purge_upto (x_s b)) < length (x_ids b) ->
  pe_next_send (x_s b) max (x_pe b) = (pe, ok) ->
  (ok = false <-> x_low b = length (x_ids b)) /\
  (ok = false -> take (length (x_ids b)) (x_f b) = x_ids b) /\
  (ok = true -> (exists r, pe_inflight pe = InfLogs r) \/
     (pe_inflight pe = InfSnapshot (rs_snap_last (x_s b)) /\ rs_snap_last (x_s b) <> None /\
      shared (x_ids b) (x_f b) < next_index (rs_purge_upto (x_s b)))).
Proof.
  intros Hmax Ha Hr Hi Hp Hn. pose proof (xrun_XI _ _ _ _ (xstart_XI max _ Ha) Hr) as HX.
  pose proof (next_send_spec _ _ _ _ HX Hi Hn) as (_ & _ & H3). destruct HX as [Hv Hm Hin Hh Hl _].
  cbv zeta in H3. destruct (Nat.ltb_spec (x_high b) (next_index (rs_purge_upto (x_s b)))) as [Hlt|Hge].
  - destruct H3 as [-> Hsn]. split; [split; [discriminate|lia]|]. split; [discriminate|]. intros _. right.
    split; [exact Hsn|]. split; [|lia]. pose proof (lv_snap _ _ Hv) as H4. intros He. rewrite He in H4. cbn in H4. lia.
  - destruct H3 as (H3 & H4 & H5). pose proof (mid_range (x_low b) (x_high b) ltac:(lia)) as Hmid.
    destruct (Nat.eqb_spec (Nat.max (calc_mid (x_low b) (x_high b)) (next_index (rs_purge_upto (x_s b))))
       (Nat.min (Nat.max (calc_mid (x_low b) (x_high b)) (next_index (rs_purge_upto (x_s b))) + max) (length (x_ids b)))) as [He|He].
    + destruct H5 as [-> _]. assert (Hlow : x_low b = length (x_ids b)).
      { destruct (decide (x_low b < x_high b)) as [Hd|Hd]; [apply Hmid in Hd|]; lia. }
      split; [tauto|]. split; [|discriminate]. intros _.
      rewrite <- (shared_take (x_ids b) (x_f b)) by lia. apply take_ge. lia.
    + destruct H5 as (-> & H5 & H6). split; [split; [discriminate|intros He'; exfalso; lia]|]. split; [discriminate|].
      intros _. left. eexists. exact H6.
Qed.
