(** Every channel is answered at most as often as it was handed in. *)
From Coq Require Import Bool Lia ZifyBool ZifyNat.
From stdpp Require Import base numbers option gmap relations list.
From Verif Require Import Types TypesProofs LogIdList Quorum Membership Progress RaftState
  ProgressEntry Engine Store RaftCore EnginePrims NodeSpec NodePrims StoreProofs LogSpec ClientSpec.

Definition waiting (n : Node) : list nat := (map_to_list (nd_clients n)).*2 ++ (rd_tx <$> nd_reads n).
Lemma filter_both {A} (P Q : A -> Prop) `{forall x, Decision (P x), forall x, Decision (Q x)} (l : list A) :
  (forall x, P x <-> ~ Q x) -> filter P l ++ filter Q l ≡ₚ l.
Proof.
  intros HPQ. induction l as [|x l IH]; [reflexivity|]. rewrite !filter_cons. destruct (decide (P x)) as [Hp|Hp].
  - rewrite decide_False by (apply HPQ; exact Hp). cbn. f_equiv. exact IH.
  - destruct (decide (Q x)) as [Hq|Hq]; [|exfalso; apply Hp, HPQ; exact Hq]. rewrite <- Permutation_middle. f_equiv. exact IH.
Qed.
Lemma map_filter_list (P : nat * nat -> Prop) `{forall x, Decision (P x)} (m : gmap nat nat) :
  map_to_list (filter P m) ≡ₚ filter P (map_to_list m).
Proof.
  rewrite map_filter_alt. apply map_to_list_to_map. pose proof (NoDup_fst_map_to_list m) as Hn. revert Hn.
  generalize (map_to_list m). intros l. induction l as [|x l IH]; [auto|]. intros Hn. cbn in Hn. apply NoDup_cons in Hn as [H1 H2].
  rewrite filter_cons. destruct (decide (P x)); [|auto]. cbn. apply NoDup_cons. split; [|auto].
  intros Hx. apply H1. apply elem_of_list_fmap in Hx as (y & -> & Hy). apply elem_of_list_filter in Hy as [_ Hy].
  apply elem_of_list_fmap. eauto.
Qed.
Lemma insert_tx i tx (m : gmap nat nat) : (map_to_list (<[i := tx]> m)).*2 ⊆+ tx :: (map_to_list m).*2.
Proof.
  rewrite <- insert_delete_insert. rewrite map_to_list_insert by apply lookup_delete. cbn. apply submseteq_skip.
  apply fmap_submseteq. apply map_to_list_submseteq. apply delete_subseteq.
Qed.
Lemma apply_results_tx es : forall c, answered (apply_results es c).2 ++ (map_to_list (apply_results es c).1).*2 ≡ₚ (map_to_list c).*2.
Proof.
  induction es as [|e r IH]; intros c; cbn [apply_results]; [reflexivity|].
  destruct (c !! e_index e) as [tx|] eqn:Hc.
  - specialize (IH (delete (e_index e) c)). destruct (apply_results r (delete (e_index e) c)) as [c2 o2]. cbn [fst snd] in *.
    cbn. rewrite IH. rewrite <- (map_to_list_delete c _ _ Hc). reflexivity.
  - specialize (IH c). destruct (apply_results r c) as [c2 o2]. exact IH.
Qed.
Lemma answered_app a b : answered (a ++ b) = answered a ++ answered b.
Proof. apply flat_map_app. Qed.
Lemma answered_sends {A} (f : A -> Out) l : (forall x, out_tx (f x) = []) -> answered (map f l) = [].
Proof. intros Hf. induction l as [|x l IH]; [reflexivity|]. cbn. rewrite Hf. exact IH. Qed.
Lemma answered_clients {A} (l : list (A * nat)) r : answered (map (fun x => OClient x.2 r) l) = l.*2.
Proof. induction l as [|x l IH]; [reflexivity|]. cbn. f_equal. exact IH. Qed.

Lemma quiet_tx now ev n n' o : nd_clients n' = nd_clients n -> nd_reads n' = nd_reads n -> answered o = [] ->
  answered o ++ waiting n' ⊆+ act_tx (Act now ev) ++ waiting n.
Proof. intros H1 H2 H3. unfold waiting. rewrite H1, H2, H3. apply submseteq_inserts_l. reflexivity. Qed.
Lemma client_tx_step now m tx n n' o r : client_tx m = Some tx -> nd_clients n' = nd_clients n -> nd_reads n' = nd_reads n -> o = [OClient tx r] ->
  answered o ++ waiting n' ⊆+ act_tx (Act now (EMsg m)) ++ waiting n.
Proof. intros Hm H1 H2 ->. unfold waiting. rewrite H1, H2. cbn. rewrite Hm. reflexivity. Qed.
Lemma write_tx now m p tx n x : client_tx m = Some tx -> core_write p tx n = Ok x ->
  answered x.2 ++ waiting x.1 ⊆+ act_tx (Act now (EMsg m)) ++ waiting n.
Proof.
  intros Hm. unfold core_write. destruct (en_leader (nd_eng n)) as [l|]; [|intros [= <-]; eapply client_tx_step; eauto].
  destruct (ld_transfer l); [intros [= <-]; eapply client_tx_step; eauto|]. intros Hs. rok Hs. destruct (rs_last _) as [lst|]; [|discriminate].
  injection Hs as <-. cbn [fst snd]. unfold waiting. cbn. rewrite Hm. cbn.
  change (tx :: (map_to_list (nd_clients n)).*2 ++ (rd_tx <$> nd_reads n)) with ((tx :: (map_to_list (nd_clients n)).*2) ++ (rd_tx <$> nd_reads n)).
  apply submseteq_app; [apply insert_tx|reflexivity].
Qed.
Lemma msg_tx now m n x : handle_msg now m n = Ok x ->
  answered x.2 ++ waiting x.1 ⊆+ act_tx (Act now (EMsg m)) ++ waiting n.
Proof.
  assert (Hl : forall y, lift n y = Ok x -> answered x.2 ++ waiting x.1 ⊆+ act_tx (Act now (EMsg m)) ++ waiting n).
  { intros y Hy. apply lift_prims in Hy as (e & _ & ->). apply quiet_tx; reflexivity. }
  destruct m; cbn [handle_msg]; try apply Hl.
  - apply write_tx. reflexivity.
  - unfold core_change. destruct (ms_change _ _ _); [apply write_tx; reflexivity|]. intros [= <-]. eapply client_tx_step; eauto.
  - unfold core_read. destruct (en_leader _) as [l|]; [|intros [= <-]; eapply client_tx_step; eauto; reflexivity].
    destruct (joint_is_quorum _ _); [intros [= <-]; eapply client_tx_step; eauto; reflexivity|]. destruct (forallb _ _); [|discriminate].
    intros [= <-]. cbn [fst snd]. rewrite answered_sends by reflexivity. unfold waiting. cbn. rewrite fmap_app, app_assoc. cbn.
    rewrite <- Permutation_cons_append. reflexivity.
Qed.
Lemma read_reply_tx tx t r n : answered (read_reply tx t r n).2 ++ waiting (read_reply tx t r n).1 ⊆+ waiting n.
Proof.
  unfold read_reply. destruct (read_index tx (nd_reads n)) as [i|] eqn:Hi; [|reflexivity]. destruct (nd_reads n !! i) as [rd|] eqn:Hr; [|reflexivity].
  assert (Htx : rd_tx rd = tx).
  { unfold read_index in Hi. destruct (list_find _ _) as [[j y]|] eqn:Hf; [|discriminate]. injection Hi as ->.
    apply list_find_Some in Hf as (H1 & H2 & _). congruence. }
  assert (Hdel : forall c : gmap nat nat, [tx] ++ (map_to_list c).*2 ++ (rd_tx <$> delete i (nd_reads n)) ⊆+ (map_to_list c).*2 ++ (rd_tx <$> nd_reads n)).
  { intros c. rewrite (Permutation_app_comm [tx]), <- app_assoc. apply submseteq_skips_l.
    rewrite <- (take_drop_middle _ _ _ Hr) at 2. rewrite delete_take_drop, !fmap_app, fmap_cons, Htx, <- app_assoc. cbn.
    apply submseteq_skips_l. rewrite <- Permutation_cons_append. reflexivity. }
  assert (Hkeep : forall (c : gmap nat nat) g, (map_to_list c).*2 ++ (rd_tx <$> <[i := mkRead tx (rd_vote rd) (rd_qs rd) g (rd_resp rd)]> (nd_reads n)) = (map_to_list c).*2 ++ (rd_tx <$> nd_reads n)).
  { intros c g. f_equal. rewrite list_fmap_insert. cbn. apply list_insert_id. rewrite list_lookup_fmap, Hr, <- Htx. reflexivity. }
  destruct r; try destruct (joint_is_quorum _ _); cbn [fst snd answered flat_map out_tx app]; unfold waiting; cbn [nd_clients nd_reads note nd_set_notes nd_set_reads];
    try apply Hdel; rewrite Hkeep; reflexivity.
Qed.
Theorem step_tx now ev n n' o : node_step now ev n = Ok (n', o) ->
  answered o ++ waiting n' ⊆+ act_tx (Act now ev) ++ waiting n.
Proof.
  intros Hs. assert (Hn : answered [] ++ waiting n ⊆+ act_tx (Act now ev) ++ waiting n) by (apply submseteq_inserts_l; reflexivity).
  destruct ev; cbn [node_step] in Hs; unfold when_idle in Hs.
  - unfold run_one in Hs. destruct (en_out (nd_eng n)) as [|c r]; [injection Hs as <- <-; exact Hn|].
    destruct (cond_ok _ _); [|injection Hs as <- <-; exact Hn].
    destruct c; cbn [run_cmd] in Hs;
      repeat match type of Hs with context [match ?t with _ => _ end] => destruct t eqn:?; try discriminate Hs end;
      injection Hs as <- <-; try (apply quiet_tx; [reflexivity|reflexivity|first [reflexivity|apply answered_sends; reflexivity]]).
    cbn [nd_set_eng nd_clients]. rewrite answered_clients. unfold waiting. cbn [nd_clients nd_reads nd_set_clients nd_set_store nd_set_eng act_tx app].
    rewrite app_assoc. apply submseteq_skips_r. rewrite <- fmap_app. apply fmap_submseteq. rewrite map_filter_list, filter_both; [reflexivity|].
    intros x. cbn. lia.
  - destruct (runnable n); [injection Hs as <- <-; exact Hn|]. apply (msg_tx _ _ _ _ Hs).
  - destruct (runnable n); [injection Hs as <- <-; exact Hn|]. destruct (nd_notes n) as [|y r]; [injection Hs as <- <-; exact Hn|].
    assert (Hl : forall m z, nd_clients m = nd_clients n -> nd_reads m = nd_reads n -> lift m z = Ok (n', o) -> answered o ++ waiting n' ⊆+ act_tx (Act now ENote) ++ waiting n).
    { intros m z H1 H2 Hy. apply lift_prims in Hy as (e & _ & [= -> ->]). apply quiet_tx; [exact H1|exact H2|reflexivity]. }
    assert (Hq : forall m, nd_clients m = nd_clients n -> nd_reads m = nd_reads n -> Ok (m, []) = Ok (n', o) -> answered o ++ waiting n' ⊆+ act_tx (Act now ENote) ++ waiting n).
    { intros m H1 H2 [= <- <-]. apply quiet_tx; [exact H1|exact H2|reflexivity]. }
    destruct y as [t resp sv|v sv|io|ss t rr|ss t time|[meta|io meta|s es la]]; cbn [handle_note] in Hs.
    + destruct (en_cand _); [destruct (vote_matches _ _)|]; first [eapply Hl; [| |exact Hs]; reflexivity|eapply Hq; [| |exact Hs]; reflexivity].
    + destruct (vote_matches _ _); first [eapply Hl; [| |exact Hs]; reflexivity|eapply Hq; [| |exact Hs]; reflexivity].
    + destruct io; [eapply Hq; [| |exact Hs]; reflexivity|]. destruct (en_leader _); [|eapply Hq; [| |exact Hs]; reflexivity].
      destruct (vote_matches _ _); first [eapply Hl; [| |exact Hs]; reflexivity|eapply Hq; [| |exact Hs]; reflexivity].
    + destruct (session_matches _ _); first [eapply Hl; [| |exact Hs]; reflexivity|eapply Hq; [| |exact Hs]; reflexivity].
    + destruct (session_matches _ _); first [eapply Hl; [| |exact Hs]; reflexivity|eapply Hq; [| |exact Hs]; reflexivity].
    + rok Hs. eapply Hq; [| |exact Hs]; reflexivity.
    + eapply Hq; [| |exact Hs]; reflexivity.
    + cbn zeta in Hs. change (nd_clients (nd_upd_io _ _)) with (nd_clients n) in Hs. pose proof (apply_results_tx es (nd_clients n)) as Ha.
      destruct (apply_results es (nd_clients n)) as [c outs]. injection Hs as <- <-. cbn [fst snd] in Ha. unfold waiting.
      cbn [nd_clients nd_reads nd_set_clients nd_upd_io nd_set_notes nd_set_eng act_tx app]. rewrite app_assoc, Ha. reflexivity.
  - destruct (runnable n); [injection Hs as <- <-; exact Hn|]. apply lift_prims in Hs as (e & _ & [= -> ->]). apply quiet_tx; reflexivity.
  - destruct (runnable n); [injection Hs as <- <-; exact Hn|]. destruct (en_leader _); [|injection Hs as <- <-; exact Hn].
    apply lift_prims in Hs as (e & _ & [= -> ->]). apply quiet_tx; reflexivity.
  - injection Hs as <- <-. apply quiet_tx; reflexivity.
  - destruct (so_callbacks _ !! _); injection Hs as <- <-; apply quiet_tx; reflexivity.
  - rok Hs. injection Hs as -> <-. unfold sm_step in Hx. destruct (nd_smq n) as [|[]]; try destruct (_ =? _); try discriminate; injection Hx as <-; apply quiet_tx; reflexivity.
  - injection Hs as <- <-. unfold build_done. destruct (nd_builds n !! _); apply quiet_tx; reflexivity.
  - unfold stream_send in Hs. repeat match type of Hs with context [match ?t with _ => _ end] => destruct t; try discriminate Hs end;
      injection Hs as <- <-; apply quiet_tx; reflexivity.
  - injection Hs as <- <-. unfold stream_fail. repeat match goal with |- context [match ?t with _ => _ end] => destruct t end; apply quiet_tx; reflexivity.
  - injection Hs as <- <-. unfold stream_snap_reply. repeat match goal with |- context [match ?t with _ => _ end] => destruct t end; apply quiet_tx; reflexivity.
  - injection Hs as Hs. unfold hb_send in Hs. repeat match type of Hs with context [match ?t with _ => _ end] => destruct t end; injection Hs as <- <-; apply quiet_tx; reflexivity.
  - injection Hs as Hs. destruct tag, r; cbn [handle_reply] in Hs;
      try (injection Hs as <- <-; apply quiet_tx; reflexivity);
      try (rename resp into rp).
    all: try (repeat match type of Hs with context [match ?t with _ => _ end] => destruct t end; injection Hs as <- <-;
      unfold stream_reply, stream_snap_reply; repeat match goal with |- context [match ?t with _ => _ end] => destruct t end; apply quiet_tx; reflexivity).
    pose proof (read_reply_tx tx target r n) as Hr. rewrite Hs in Hr. exact Hr.
Qed.
Theorem run_tx acts : forall n n' o, node_run acts n = Ok (n', o) -> answered o ++ waiting n' ⊆+ asked acts ++ waiting n.
Proof.
  induction acts as [|a r IH]; intros n n' o Hr; cbn [node_run asked flat_map] in *; [injection Hr as <- <-; reflexivity|].
  rok Hr. rok Hr. injection Hr as <- <-. destruct x as [n1 o1], x0 as [n2 o2]. cbn [fst snd] in *. apply IH in Hx0.
  assert (Ha : answered o1 ++ waiting n1 ⊆+ act_tx a ++ waiting n).
  { destruct a as [now ev|now k j keep]; cbn [node_act] in Hx; [eapply step_tx; exact Hx|]. rok Hx. injection Hx as <- <-. cbn.
    unfold node_restart, node_start in Hx1. rok Hx1. destruct x0 as [[s d] sm]. rok Hx1. injection Hx1 as <-. apply submseteq_nil_l. }
  rewrite answered_app, <- app_assoc. unfold asked in Hx0. etrans; [apply submseteq_skips_l; exact Hx0|].
  rewrite app_assoc, (Permutation_app_comm (answered o1)), <- app_assoc. etrans; [apply submseteq_skips_l; exact Ha|].
  rewrite app_assoc, (Permutation_app_comm (flat_map act_tx r)). reflexivity.
Qed.
Theorem answered_once now cfg n0 acts n outs : node_fresh now cfg = Ok n0 -> node_run acts n0 = Ok (n, outs) ->
  answered outs ⊆+ asked acts /\ (NoDup (asked acts) -> NoDup (answered outs)).
Proof.
  intros Hf Hr. assert (Hs : answered outs ⊆+ asked acts).
  { apply run_tx in Hr. assert (Hw : waiting n0 = []).
    { unfold node_fresh, node_start in Hf. rok Hf. destruct x as [[s d] sm]. rok Hf. injection Hf as <-. reflexivity. }
    rewrite Hw, app_nil_r in Hr. etrans; [|exact Hr]. apply submseteq_inserts_r. reflexivity. }
  split; [exact Hs|]. intros Hn. apply submseteq_Permutation in Hs as [k Hk]. rewrite Hk in Hn. apply NoDup_app in Hn as [Hn _]. exact Hn.
Qed.
