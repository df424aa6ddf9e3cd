(** Lemmas about the balancer, the configuration and the chunked transport. *)
From Coq Require Import Bool Lia ZifyBool ZifyNat.
From stdpp Require Import base numbers option list.
From Verif Require Import Types TypesProofs RaftState Engine EnginePrims Runtime Transport MiscSpec.

(** ** Balancer *)

Definition bal_ok (b : Balancer) : Prop := 1 <= bl_raft b /\ 2 * bl_raft b <= bl_total b.

Lemma bal_new_ok total : 10 <= total -> bal_ok (bal_new total).
Proof.
  intros H. unfold bal_ok, bal_new. cbn [bl_raft bl_total].
  pose proof (Nat.div_mod total 10 ltac:(lia)). pose proof (Nat.mod_upper_bound total 10 ltac:(lia)). lia.
Qed.
Lemma bal_op_ok o b : bal_ok b -> bal_ok (bal_op o b) /\ bl_total (bal_op o b) = bl_total b.
Proof.
  intros [H1 H2]. split; [|destruct o; reflexivity]. destruct o; unfold bal_ok, bal_op, bal_increase_notification, bal_increase_raft_msg; cbn [bl_raft bl_total].
  - set (r := bl_raft b) in *. pose proof (Nat.div_mod (r * 15) 16 ltac:(lia)). pose proof (Nat.mod_upper_bound (r * 15) 16 ltac:(lia)).
    destruct (r * 15 / 16 =? 0) eqn:E; lia.
  - set (r := bl_raft b) in *. pose proof (Nat.div_mod (r * 17) 16 ltac:(lia)). pose proof (Nat.mod_upper_bound (r * 17) 16 ltac:(lia)).
    pose proof (Nat.div_mod (bl_total b) 2 ltac:(lia)). pose proof (Nat.mod_upper_bound (bl_total b) 2 ltac:(lia)).
    destruct (bl_total b / 2 <? r * 17 / 16) eqn:E; lia.
Qed.
Lemma bal_ops_ok total ops : 10 <= total ->
  let b := foldl (fun b o => bal_op o b) (bal_new total) ops in
  1 <= bal_raft_msg b /\ exists m, bal_notification b = Ok m /\ 1 <= m /\ bal_raft_msg b <= m /\ bal_raft_msg b + m = total.
Proof.
  intros Ht. cbv zeta.
  assert (Hg : forall b0, bal_ok b0 -> bl_total b0 = total ->
    bal_ok (foldl (fun b o => bal_op o b) b0 ops) /\ bl_total (foldl (fun b o => bal_op o b) b0 ops) = total).
  { induction ops as [|o ops IH]; intros b0 Hb Hn; cbn [foldl]; [auto|].
    destruct (bal_op_ok o b0 Hb) as [H1 H2]. apply IH; [exact H1|congruence]. }
  destruct (Hg (bal_new total) (bal_new_ok _ Ht) eq_refl) as [[H1 H2] H3].
  set (b := foldl _ _ _) in *. unfold bal_raft_msg, bal_notification. split; [exact H1|].
  exists (bl_total b - bl_raft b). destruct (bl_raft b <=? bl_total b) eqn:E; [|lia]. repeat split; lia.
Qed.

(** growth *)
Lemma bal_grow_stuck b : bl_raft b < 16 -> bl_raft (bal_increase_raft_msg b) <= bl_raft b.
Proof.
  intros H. unfold bal_increase_raft_msg. cbn [bl_raft]. set (r := bl_raft b) in *.
  pose proof (Nat.div_mod (r * 17) 16 ltac:(lia)).
  destruct (bl_total b / 2 <? r * 17 / 16) eqn:E; lia.
Qed.
Lemma bal_grow b : 16 <= bl_raft b -> bl_raft (bal_increase_raft_msg b) = bl_total b / 2 \/ bl_raft b < bl_raft (bal_increase_raft_msg b).
Proof.
  intros H. unfold bal_increase_raft_msg. cbn [bl_raft]. set (r := bl_raft b) in *.
  pose proof (Nat.div_mod (r * 17) 16 ltac:(lia)). pose proof (Nat.mod_upper_bound (r * 17) 16 ltac:(lia)).
  destruct (bl_total b / 2 <? r * 17 / 16) eqn:E; [left; reflexivity|right; lia].
Qed.
Lemma bal_note_shrinks b : 2 <= bl_raft b -> bl_raft (bal_increase_notification b) < bl_raft b.
Proof.
  intros H. unfold bal_increase_notification. cbn [bl_raft]. set (r := bl_raft b) in *.
  pose proof (Nat.div_mod (r * 15) 16 ltac:(lia)). destruct (r * 15 / 16 =? 0) eqn:E; lia.
Qed.
(** once below 16, never above again *)
Lemma bal_stuck ops b : bl_raft b < 16 -> bal_ok b ->
  bl_raft (foldl (fun b o => bal_op o b) b ops) < 16.
Proof.
  revert b. induction ops as [|o ops IH]; intros b Hb Hok; cbn [foldl]; [exact Hb|].
  apply IH; [|apply bal_op_ok; exact Hok]. destruct o; cbn [bal_op].
  - unfold bal_increase_notification. cbn [bl_raft]. set (r := bl_raft b) in *.
    pose proof (Nat.div_mod (r * 15) 16 ltac:(lia)). destruct (r * 15 / 16 =? 0) eqn:E; lia.
  - pose proof (bal_grow_stuck b Hb). lia.
Qed.

Lemma process_spec {A} k (q : list A) : let '(n, h, r) := process k q in
  q = h ++ r /\ length h = min k (length q) /\ n <= S (length h) /\ (r <> [] -> n = k).
Proof.
  unfold process. destruct (length q <? k) eqn:E.
  - rewrite app_nil_r. repeat split; try lia. congruence.
  - rewrite take_drop, take_length. repeat split; lia.
Qed.

Lemma loop_rounds_spec {A B} (arr : list (list A * list B * list B)) : forall b (api : list A) (notes : list B),
  bal_ok b -> exists b' ha hn, loop_rounds arr b api notes = Ok (b', ha, hn) /\ bal_ok b' /\
    take (length arr) api `prefix_of` ha /\ take (length arr) notes `prefix_of` hn.
Proof.
  induction arr as [|[[a1 n1] n2] arr IH]; intros b api notes Hb; cbn [loop_rounds].
  - exists b, [], []. repeat split; [apply Hb|apply Hb|exists []; reflexivity|exists []; reflexivity].
  - destruct Hb as [H1 H2].
    assert (Hnote : bal_notification b = Ok (bl_total b - bl_raft b)).
    { unfold bal_notification. destruct (bl_raft b <=? bl_total b) eqn:E; [reflexivity|lia]. }
    pose proof (process_spec (bal_raft_msg b) api) as Ha. destruct (process (bal_raft_msg b) api) as [[na ha] ra] eqn:Hpa0.
    pose proof (process_spec (bl_total b - bl_raft b) (notes ++ n1)) as Hn.
    destruct (process (bl_total b - bl_raft b) (notes ++ n1)) as [[nn hn] rn] eqn:Hpn0.
    unfold loop_round. rewrite Hpa0, Hnote. cbn [res_bind]. rewrite Hpn0. cbn [res_bind].
    set (b' := if nn =? bl_total b - bl_raft b then _ else _).
    assert (Hb' : bal_ok b').
    { subst b'. destruct (nn =? _); [apply (bal_op_ok BIncNote); split; assumption|].
      destruct (na =? _); [apply (bal_op_ok BIncRaft)|]; split; assumption. }
    destruct (IH b' (ra ++ a1) (rn ++ n2) Hb') as (b2 & ha' & hn' & Heq & Hb2 & Hpa & Hpn). rewrite Heq. cbn [res_bind].
    exists b2, (ha ++ ha'), (hn ++ hn'). split; [reflexivity|]. split; [exact Hb2|].
    destruct Ha as (Ha & Hla & _). destruct Hn as (Hn & Hln & _). unfold bal_raft_msg in Hla. cbn [length].
    assert (Hgen : forall (T : Type) (q h r e x : list T) n, q = h ++ r -> (h <> [] \/ q = []) ->
       take n (r ++ e) `prefix_of` x -> take (S n) q `prefix_of` h ++ x).
    { intros T q h r e x n -> Hne [z Hz]. destruct Hne as [Hne|Hq].
      - rewrite firstn_app. rewrite firstn_app in Hz. destruct h as [|y h]; [congruence|].
        cbn [length take app]. replace (S n - S (length h)) with (n - length h) by lia.
        destruct (decide (n <= length h)) as [Hle|Hgt].
        + replace (n - length h) with 0 by lia. cbn [take]. rewrite app_nil_r. exists (drop n h ++ x).
          cbn [app]. rewrite app_assoc, take_drop. reflexivity.
        + rewrite take_ge by lia. assert (Hsplit : take n r = take (n - length h) r ++ drop (n - length h) (take n r)).
          { replace (take (n - length h) r) with (take (n - length h) (take n r)) by (rewrite take_take; f_equal; lia). rewrite take_drop. reflexivity. }
          rewrite Hz, Hsplit. eexists. cbn [app]. rewrite <- !app_assoc. reflexivity.
      - destruct h; [|discriminate]. destruct r; [|discriminate]. exists x. reflexivity. }
    split.
    + eapply Hgen; [exact Ha| |exact Hpa]. destruct ha; [right|left; discriminate].
      cbn [length] in Hla. destruct api; [reflexivity|cbn in Hla; lia].
    + destruct notes as [|n0 notes]; [rewrite take_nil; exists (hn ++ hn'); reflexivity|].
      assert (Hpre : take (S (length arr)) (n0 :: notes) `prefix_of` take (S (length arr)) ((n0 :: notes) ++ n1)).
      { rewrite firstn_app. eexists. reflexivity. }
      etrans; [exact Hpre|]. eapply Hgen; [exact Hn| |exact Hpn]. left. intros ->. cbn in Hln. lia.
Qed.

(** ** Configuration *)

Lemma cfg_validate_spec c :
  cfg_validate c = inl c <->
  cf_heartbeat c < cf_timeout_min c /\ cf_timeout_min c < cf_timeout_max c /\ cf_max_payload c <> 0.
Proof.
  unfold cfg_validate. destruct (cf_timeout_max c <=? cf_timeout_min c) eqn:E1; [split; [discriminate|lia]|].
  destruct (cf_timeout_min c <=? cf_heartbeat c) eqn:E2; [split; [discriminate|lia]|].
  destruct (cf_max_payload c =? 0) eqn:E3; [split; [discriminate|lia]|]. split; [lia|reflexivity].
Qed.
Lemma cfg_validate_same c c' : cfg_validate c = inl c' -> c' = c.
Proof.
  unfold cfg_validate. repeat match goal with |- context [if ?t then _ else _] => destruct t end; congruence.
Qed.
Lemma cfg_engine_spec id r c : cfg_validate c = inl c ->
  exists t, cfg_rand_timeout r c = Ok t /\ cf_timeout_min c <= t < cf_timeout_max c /\ cf_heartbeat c < t /\
    exists ec, cfg_engine id r c = Ok ec /\ ec_id ec = id /\ ec_election_timeout ec = t /\
      ec_leader_lease ec = cf_timeout_max c /\ ec_election_timeout ec < ec_leader_lease ec /\
      ec_election_timeout ec < ec_smaller_log_timeout ec /\ 0 < ec_max_payload ec.
Proof.
  intros H. apply cfg_validate_spec in H as (H1 & H2 & H3).
  pose proof (Nat.mod_upper_bound r (cf_timeout_max c - cf_timeout_min c) ltac:(lia)).
  unfold cfg_engine, cfg_rand_timeout, gen_range. destruct (cf_timeout_max c <=? cf_timeout_min c) eqn:E; [lia|].
  eexists. split; [reflexivity|]. split; [lia|]. split; [lia|].
  eexists. split; [reflexivity|]. cbn [ec_id ec_election_timeout ec_leader_lease ec_smaller_log_timeout ec_max_payload].
  repeat split; lia.
Qed.
(** every value of the range is drawn by some random input *)
Lemma cfg_rand_onto c t : cf_timeout_min c <= t < cf_timeout_max c -> exists r, cfg_rand_timeout r c = Ok t.
Proof.
  intros H. exists (t - cf_timeout_min c). unfold cfg_rand_timeout, gen_range.
  destruct (cf_timeout_max c <=? cf_timeout_min c) eqn:E; [lia|]. f_equal. rewrite Nat.mod_small by lia. lia.
Qed.

(** ** Transport *)

Lemma write_at_prefix bytes off k n :
  off <= k -> k <= length bytes -> n = length (take n (drop off bytes)) ->
  write_at off (take n (drop off bytes)) (take k bytes) = take (max k (off + n)) bytes.
Proof.
  intros Hk Hl Hn. unfold write_at. rewrite take_length.
  replace (off - k `min` length bytes) with 0 by lia. cbn [replicate]. rewrite app_nil_r.
  rewrite take_length, drop_length in Hn.
  rewrite take_take. replace (min off k) with off by lia.
  rewrite take_length, drop_length. replace (min n (length bytes - off)) with n by lia.
  apply list_eq. intros i.
  destruct (decide (i < off)) as [H1|H1].
  { rewrite lookup_app_l by (rewrite take_length; lia). rewrite !lookup_take by lia. reflexivity. }
  rewrite lookup_app_r by (rewrite take_length; lia). rewrite take_length. replace (off `min` length bytes) with off by lia.
  destruct (decide (i < off + n)) as [H2|H2].
  { rewrite lookup_app_l by (rewrite take_length, drop_length; lia). rewrite lookup_take by lia. rewrite lookup_drop.
    rewrite lookup_take by lia. f_equal. lia. }
  rewrite lookup_app_r by (rewrite take_length, drop_length; lia). rewrite take_length, drop_length, lookup_drop.
  replace (off + n + (i - off - n `min` (length bytes - off))) with i by lia.
  destruct (decide (i < k)) as [H3|H3].
  - rewrite !lookup_take by lia. reflexivity.
  - rewrite !lookup_take_ge by lia. reflexivity.
Qed.

Section Xfer.
  Context (id size : nat) (bytes : list nat).

  (** the receiver's data for this snapshot is a prefix of at least [off] bytes *)
  Definition recv_ok (off : nat) (s : option Streaming) : Prop :=
    match s with
    | Some x => st_id x = id -> exists k, st_data x = take k bytes /\ off <= k /\ k <= length bytes
    | None => True
    end.
  Definition out_ok (out : list (nat * list nat)) : Prop :=
    Forall (fun p : nat * list nat => p.1 = id -> p.2 = bytes) out.
  Definition sender_off (s : Sender) : nat := match s with Sending o => o | _ => 0 end.
  Definition xinv (x : Xfer) : Prop :=
    sender_off (xf_sender x) <= length bytes /\ recv_ok (sender_off (xf_sender x)) (xf_recv x) /\ out_ok (xf_out x) /\
    (xf_sender x = Finished -> (id, bytes) ∈ xf_out x).

  Lemma recv_ok_mono a b s : a <= b -> recv_ok b s -> recv_ok a s.
  Proof. unfold recv_ok. destruct s; [|auto]. intros H Hr Hi. destruct (Hr Hi) as (k & ? & ? & ?). exists k. repeat split; auto; lia. Qed.

  Lemma receive_own off s s' r :
    off <= length bytes -> recv_ok off s -> receive_chunk s (chunk_at id size bytes off) = (s', r) ->
    recv_ok off s' /\
    match r with
    | ChMismatch => True
    | ChAccepted => ck_done (chunk_at id size bytes off) = false /\
                    recv_ok (off + length (ck_data (chunk_at id size bytes off))) s'
    | ChComplete d => ck_done (chunk_at id size bytes off) = true /\ d = bytes
    end.
  Proof.
    intros Ho Hs H. unfold receive_chunk, chunk_at in H. cbn [ck_id ck_offset ck_done ck_data] in H.
    set (d := take size (drop off bytes)) in *.
    assert (Hd : d = take (length d) (drop off bytes)).
    { subst d. rewrite take_length. rewrite <- take_take. destruct (decide (size <= length (drop off bytes))) as [Hle|Hle].
      - replace (size `min` length (drop off bytes)) with size by lia. rewrite take_take. f_equal. lia.
      - rewrite (take_ge (drop off bytes) (length (drop off bytes))) by lia. reflexivity. }
    assert (Hdl : off + length d <= length bytes).
    { subst d. rewrite take_length, drop_length. lia. }
    assert (Hgen : forall cur k, st_data cur = take k bytes -> off <= k -> k <= length bytes -> st_id cur = id ->
      let s1 := stm_receive (mkChunk id off d (off + length d =? length bytes)) cur in
      st_id s1 = id /\ st_data s1 = take (max k (off + length d)) bytes).
    { intros cur k Hdat Hk Hkl Hid. unfold stm_receive. cbn [st_id st_data ck_offset ck_data]. split; [exact Hid|].
      replace (if off =? st_offset cur then st_offset cur else off) with off by (destruct (off =? st_offset cur) eqn:E; lia).
      rewrite Hdat. pose proof (write_at_prefix bytes off k (length d) Hk Hkl) as Hw. rewrite <- Hd in Hw. apply Hw. reflexivity. }
    assert (Hend : forall cur k, st_data cur = take k bytes -> off <= k -> k <= length bytes -> st_id cur = id ->
      (let s1 := stm_receive (mkChunk id off d (off + length d =? length bytes)) cur in
       if off + length d =? length bytes then (None, ChComplete (st_data s1)) else (Some s1, ChAccepted)) = (s', r) ->
      recv_ok off s' /\ match r with
        | ChMismatch => True
        | ChAccepted => (off + length d =? length bytes) = false /\ recv_ok (off + length d) s'
        | ChComplete x => (off + length d =? length bytes) = true /\ x = bytes
        end).
    { intros cur k Hdat Hk Hkl Hid He. destruct (Hgen cur k Hdat Hk Hkl Hid) as [Hi1 Hd1]. cbv zeta in He.
      remember (stm_receive (mkChunk id off d (off + length d =? length bytes)) cur) as s1 eqn:Es1. clear Es1.
      destruct (off + length d =? length bytes) eqn:E; injection He as <- <-.
      - split; [exact I|]. split; [reflexivity|]. rewrite Hd1. rewrite take_ge by lia. reflexivity.
      - assert (Hr : recv_ok (off + length d) (Some s1)).
        { intros _. exists (max k (off + length d)). repeat split; [exact Hd1| |]; lia. }
        split; [eapply recv_ok_mono; [|exact Hr]; lia|]. split; [reflexivity|exact Hr]. }
    unfold chunk_at. cbn [ck_id ck_offset ck_done ck_data]. fold d.
    destruct s as [x|]; [|destruct (off =? 0) eqn:E0; cbn [negb andb] in H].
    - destruct (st_id x =? id) eqn:Ei; cbn [negb andb] in H.
      + destruct (Hs ltac:(lia)) as (k & Hdat & Hk & Hkl). eapply (Hend x k); eauto. lia.
      + destruct (off =? 0) eqn:E0; cbn [negb] in H.
        * eapply (Hend (mkStreaming 0 id []) 0); cbn; auto; lia.
        * injection H as <- <-. auto.
    - eapply (Hend (mkStreaming 0 id []) 0); cbn; auto; lia.
    - injection H as <- <-. auto.
  Qed.

  Lemma receive_other off req s s' r :
    ck_id req <> id -> recv_ok off s -> receive_chunk s req = (s', r) -> recv_ok off s'.
  Proof.
    intros Hne Hs H. unfold receive_chunk in H.
    destruct (negb _ && negb _); [injection H as <- <-; exact Hs|].
    destruct (ck_done req); injection H as <- <-; [exact I|].
    intros Hid. exfalso. apply Hne. cbn in Hid. destruct s as [x|]; [|exact Hid].
    destruct (st_id x =? ck_id req) eqn:E; [|exact Hid]. lia.
  Qed.

  Notation sync := (no_delay id).

  Lemma xf_step_inv f x : sync f -> xinv x -> xinv (xf_step id size bytes f x).
  Proof.
    intros Hf (Ho & Hr & Hout & Hfin). destruct f; cbn [xf_step no_delay] in *.
    - destruct (xf_sender x) as [off| |] eqn:Hs; [|unfold xinv; rewrite Hs; auto|unfold xinv; rewrite Hs; auto].
      cbn [sender_off] in *. unfold xf_deliver. cbn [xf_recv xf_sender xf_sent xf_out].
      destruct (receive_chunk (xf_recv x) (chunk_at id size bytes off)) as [s' r] eqn:Hc.
      pose proof (receive_own _ _ _ _ Ho Hr Hc) as [Hr' Hm]. unfold xinv. cbn [xf_recv xf_sender xf_sent xf_out].
      destruct r as [| |d]; cbn [sender_next].
      + cbn. rewrite app_nil_r. repeat split; [lia|eapply recv_ok_mono; [|exact Hr']; lia|exact Hout|discriminate].
      + destruct Hm as [Hd Hr2]. rewrite Hd. cbn [sender_off]. rewrite app_nil_r. repeat split; [|exact Hr2|exact Hout|discriminate].
        cbn. rewrite take_length, drop_length. lia.
      + destruct Hm as [Hd ->]. rewrite Hd. cbn [sender_off]. repeat split; [lia|eapply recv_ok_mono; [|exact Hr']; lia| |].
        * apply Forall_app. split; [exact Hout|]. constructor; [reflexivity|constructor].
        * intros _. apply elem_of_app. right. left.
    - destruct (xf_sender x) as [off| |] eqn:Hs; unfold xinv; cbn [xf_recv xf_sender xf_out]; rewrite ?Hs; auto.
    - destruct (xf_sender x) as [off| |] eqn:Hs; [|unfold xinv; rewrite Hs; auto|unfold xinv; rewrite Hs; auto].
      cbn [sender_off] in *. unfold xf_deliver. cbn [xf_recv xf_sender xf_sent xf_out].
      destruct (receive_chunk (xf_recv x) (chunk_at id size bytes off)) as [s' r] eqn:Hc.
      pose proof (receive_own _ _ _ _ Ho Hr Hc) as [Hr' Hm]. unfold xinv. cbn [fst xf_recv xf_sender xf_sent xf_out].
      cbn [sender_off]. repeat split; [exact Ho|exact Hr'| |discriminate].
      destruct r as [| |d]; [rewrite app_nil_r; exact Hout|rewrite app_nil_r; exact Hout|].
      destruct Hm as [_ ->]. apply Forall_app. split; [exact Hout|]. constructor; [reflexivity|constructor].
    - unfold xinv. cbn [xf_recv xf_sender xf_out]. cbn [recv_ok]. auto.
    - unfold xinv. cbn [xf_recv xf_sender xf_out sender_off]. repeat split; [lia|eapply recv_ok_mono; [|exact Hr]; lia|exact Hout|discriminate].
    - unfold xinv. cbn [xf_recv xf_sender xf_out sender_off]. repeat split; [lia|eapply recv_ok_mono; [|exact Hr]; lia|exact Hout|discriminate].
    - unfold xf_deliver. destruct (receive_chunk (xf_recv x) req) as [s' r] eqn:Hc.
      unfold xinv. cbn [fst xf_recv xf_sender xf_out]. split; [exact Ho|]. split; [eapply receive_other; eassumption|].
      split.
      + apply Forall_app. split; [exact Hout|]. destruct r; constructor; [|constructor]. cbn. congruence.
      + intros H. apply elem_of_app. left. auto.
    - contradiction.
  Qed.
  Lemma xf_run_inv fs x : Forall sync fs -> xinv x -> xinv (xf_run id size bytes fs x).
  Proof.
    revert x. induction fs as [|f fs IH]; intros x Hf Hx; [exact Hx|]. inversion Hf; subst.
    unfold xf_run. cbn [foldl]. apply IH; [assumption|]. apply xf_step_inv; assumption.
  Qed.
  Lemma transfer_safe fs s : Forall sync fs -> recv_ok 0 s ->
    let x := xf_run id size bytes fs (xf_start s) in
    (forall d, (id, d) ∈ xf_out x -> d = bytes) /\ (xf_sender x = Finished -> (id, bytes) ∈ xf_out x).
  Proof.
    intros Hf Hs. destruct (xf_run_inv fs (xf_start s) Hf) as (_ & _ & Hout & Hfin).
    { unfold xinv, xf_start. cbn. repeat split; [lia|exact Hs|constructor|discriminate]. }
    split; [|exact Hfin]. intros d Hd. unfold out_ok in Hout. rewrite Forall_forall in Hout. apply (Hout _ Hd). reflexivity.
  Qed.

  Lemma transfer_safe_fresh fs s : Forall sync fs -> (forall x, s = Some x -> st_id x <> id) ->
    let x := xf_run id size bytes fs (xf_start s) in
    (forall d, (id, d) ∈ xf_out x -> d = bytes) /\ (xf_sender x = Finished -> (id, bytes) ∈ xf_out x).
  Proof.
    intros Hf Hs. apply transfer_safe; [exact Hf|]. destruct s as [x|]; [|exact I]. intros Hid. exfalso. eapply Hs; [reflexivity|exact Hid].
  Qed.

  (** progress: with replies arriving the sender finishes *)
  Definition ready (x : Xfer) (off : nat) : Prop :=
    xf_sender x = Sending off /\ off <= length bytes /\ recv_ok off (xf_recv x) /\
    (off = 0 \/ exists s, xf_recv x = Some s /\ st_id s = id).
  Lemma ready_finishes : 0 < size -> forall m x off, length bytes - off <= m -> ready x off ->
    exists n, n <= S m /\ xf_sender (xf_run id size bytes (replicate n FReplied) x) = Finished.
  Proof.
    intros Hsz. induction m as [|m IH]; intros x off Hm (Hs & Ho & Hr & Hor).
    all: destruct (receive_chunk (xf_recv x) (chunk_at id size bytes off)) as [s' r] eqn:Hc;
      pose proof (receive_own _ _ _ _ Ho Hr Hc) as [Hr' Hmm].
    all: assert (Hne : r <> ChMismatch).
    1,3: intros ->; revert Hc; unfold receive_chunk, chunk_at; cbn [ck_id ck_offset ck_done ck_data];
      (destruct Hor as [->|(s & -> & Hid)];
        [cbn [Nat.eqb negb]; rewrite andb_false_r|
         replace (st_id s =? id) with true by lia; cbn [negb andb]]);
      (destruct (_ =? length bytes); intros [= ? ?]).
    all: assert (Hx : xf_step id size bytes FReplied x =
        mkXfer (sender_next id size bytes off (Some r)) s' (xf_sent x ++ [chunk_at id size bytes off])
          (xf_out x ++ match r with ChComplete d => [(id, d)] | _ => [] end)).
    1,3: cbn [xf_step]; rewrite Hs; unfold xf_deliver; cbn [xf_recv xf_sender xf_sent xf_out]; rewrite Hc; reflexivity.
    - exists 1. split; [lia|]. cbn [replicate]. unfold xf_run. cbn [foldl]. rewrite Hx. cbn [xf_sender].
      destruct r as [| |d]; [congruence| |].
      + destruct Hmm as [Hd _]. cbn [ck_done chunk_at] in Hd. rewrite take_length, drop_length in Hd. lia.
      + cbn [sender_next]. destruct Hmm as [-> _]. reflexivity.
    - destruct r as [| |d]; [congruence| |].
      + destruct Hmm as [Hd Hr2].
        assert (Hlt : length (ck_data (chunk_at id size bytes off)) = min size (length bytes - off)).
        { cbn. rewrite take_length, drop_length. reflexivity. }
        assert (Hoff : off < length bytes).
        { cbn [ck_done chunk_at] in Hd. change (take size (drop off bytes)) with (ck_data (chunk_at id size bytes off)) in Hd. lia. }
        destruct (IH (xf_step id size bytes FReplied x) (off + length (ck_data (chunk_at id size bytes off)))) as (n & Hn & Hfin).
        * lia.
        * rewrite Hx. unfold ready. cbn [xf_sender xf_recv sender_next]. rewrite Hd. split; [reflexivity|]. split; [lia|].
          split; [exact Hr2|]. right. revert Hc. unfold receive_chunk. cbn [ck_id ck_offset ck_done ck_data chunk_at].
          destruct (negb _ && negb _); [intros [= ? ?]|]. cbn [ck_done chunk_at] in Hd. rewrite Hd. intros [= <- ].
          eexists. split; [reflexivity|]. cbn. destruct (xf_recv x) as [y|]; [|reflexivity].
          destruct (st_id y =? id) eqn:E; [lia|reflexivity].
        * exists (S n). split; [lia|]. cbn [replicate]. unfold xf_run in *. cbn [foldl]. exact Hfin.
      + exists 1. split; [lia|]. cbn [replicate]. unfold xf_run. cbn [foldl]. rewrite Hx. cbn [xf_sender sender_next].
        destruct Hmm as [-> _]. reflexivity.
  Qed.
  Lemma transfer_finishes fs s : 0 < size -> Forall sync fs -> recv_ok 0 s ->
    let x := xf_run id size bytes fs (xf_start s) in
    xf_sender x <> Stopped ->
    exists n, n <= length bytes + 2 /\ xf_sender (xf_run id size bytes (replicate n FReplied) x) = Finished.
  Proof.
    intros Hsz Hf Hs. cbv zeta. intros Hns.
    destruct (xf_run_inv fs (xf_start s) Hf) as (Ho & Hr & Hout & _).
    { unfold xinv, xf_start. cbn. repeat split; [lia|exact Hs|constructor|discriminate]. }
    set (x := xf_run id size bytes fs (xf_start s)) in *.
    destruct (xf_sender x) as [off| |] eqn:Hse; [|exists 0; split; [lia|exact Hse]|congruence].
    cbn [sender_off] in *.
    assert (Hcase : (off = 0 \/ exists y, xf_recv x = Some y /\ st_id y = id) \/
                    (off <> 0 /\ match xf_recv x with Some y => st_id y <> id | None => True end)).
    { destruct (decide (off = 0)) as [->|Hoff]; [auto|]. destruct (xf_recv x) as [y|]; [|right; auto].
      destruct (decide (st_id y = id)); [left; right; eauto|right; auto]. }
    destruct Hcase as [Hc|[Hoff Hc]].
    - destruct (ready_finishes Hsz (length bytes) x off) as (n & Hn & Hfin); [lia|repeat split; auto|]. exists n. split; [lia|exact Hfin].
    - assert (Hmis : receive_chunk (xf_recv x) (chunk_at id size bytes off) = (xf_recv x, ChMismatch)).
      { unfold receive_chunk, chunk_at. cbn [ck_id ck_offset].
        replace (match xf_recv x with Some y => st_id y =? id | None => false end) with false
          by (destruct (xf_recv x) as [y|]; [destruct (st_id y =? id) eqn:E; [lia|reflexivity]|reflexivity]).
        replace (off =? 0) with false by lia. reflexivity. }
      destruct (ready_finishes Hsz (length bytes) (xf_step id size bytes FReplied x) 0) as (n & Hn & Hfin); [lia| |].
      + cbn [xf_step]. rewrite Hse. unfold xf_deliver. cbn [xf_recv xf_sender xf_sent xf_out]. rewrite Hmis.
        unfold ready. cbn [xf_sender xf_recv sender_next]. repeat split; [lia| |auto]. eapply recv_ok_mono; [|exact Hr]. lia.
      + exists (S n). split; [lia|]. cbn [replicate]. unfold xf_run in *. cbn [foldl]. exact Hfin.
  Qed.
  Lemma transfer_finishes_fresh fs s : 0 < size -> Forall sync fs -> (forall x, s = Some x -> st_id x <> id) ->
    let x := xf_run id size bytes fs (xf_start s) in
    xf_sender x <> Stopped ->
    exists n, n <= length bytes + 2 /\ xf_sender (xf_run id size bytes (replicate n FReplied) x) = Finished.
  Proof.
    intros Hz Hf Hs. apply transfer_finishes; [exact Hz|exact Hf|]. destruct s as [x|]; [|exact I]. intros Hid. exfalso. eapply Hs; [reflexivity|exact Hid].
  Qed.
End Xfer.

(** ** Witnesses *)

(** sizes 1, bytes 1 2 3: the first and last chunk are delivered again after completion *)
Lemma transfer_delayed_corrupts : exists fs d,
  (3, d) ∈ xf_out (xf_run 3 1 [1; 2; 3] fs (xf_start None)) /\ d <> [1; 2; 3].
Proof.
  exists [FReplied; FReplied; FReplied; FDelayed 0; FDelayed 2], [1; 0; 3]. split; [|discriminate].
  apply (bool_decide_eq_true_1 (_ ∈ _)). vm_compute. reflexivity.
Qed.
Lemma bal_small_refuted : exists total ops, 1 <= total /\
  let b := foldl (fun b o => bal_op o b) (bal_new total) ops in
  bal_raft_msg b = 0 \/ bal_notification b = Ok 0.
Proof. exists 9, []. split; [lia|]. left. reflexivity. Qed.
Lemma bal_default_stuck : exists ops, forall ops',
  bal_raft_msg (foldl (fun b o => bal_op o b) (bal_new (100 * 100)) (ops ++ ops')) < 16.
Proof.
  exists (replicate 80 BIncNote). intros ops'. rewrite foldl_app. unfold bal_raft_msg. apply bal_stuck.
  - apply Nat.ltb_lt. vm_compute. reflexivity.
  - split; apply Nat.leb_le; vm_compute; reflexivity.
Qed.
Lemma rounds_no_starvation {A B} (arrivals : list (list A * list B * list B)) total ops (api : list A) (notes : list B) :
  10 <= total ->
  exists b' ha hn, loop_rounds arrivals (foldl (fun b o => bal_op o b) (bal_new total) ops) api notes = Ok (b', ha, hn) /\
    take (length arrivals) api `prefix_of` ha /\ take (length arrivals) notes `prefix_of` hn.
Proof.
  intros Ht.
  assert (Hg : forall b0, bal_ok b0 -> bal_ok (foldl (fun b o => bal_op o b) b0 ops)).
  { induction ops as [|o ops IH]; intros b0 Hb; cbn [foldl]; [auto|]. apply IH, bal_op_ok, Hb. }
  destruct (loop_rounds_spec arrivals _ api notes (Hg _ (bal_new_ok _ Ht))) as (b' & ha & hn & H1 & _ & H2 & H3). eauto 6.
Qed.
