(** Paths in a history, and logs that are paths. *)
From Coq Require Import Bool Lia ZifyBool ZifyNat.
From stdpp Require Import base numbers option gmap relations list.
From Verif Require Import Types TypesProofs LogIdList LogIdSpec LogIdListProofs Membership RaftState
  ProgressEntry Engine Store RaftCore NodeSpec LogSpec.

Lemma leader_leb_refl l : leader_leb l l = true.
Proof. ord. Qed.
Lemma leader_leb_trans a b c : leader_leb a b = true -> leader_leb b c = true -> leader_leb a c = true.
Proof. ord. Qed.
Lemma ologid_leb_refl x : ologid_leb x x = true.
Proof. destruct x; ord. Qed.
Lemma oleader_le_trans a L L' : oleader_le a L -> leader_leb L L' = true -> oleader_le a L'.
Proof. destruct a; cbn; [|auto]. intros. eapply leader_leb_trans; eauto. Qed.

Section hist.
  Context (H : Hist) (Hok : hist_ok H).

  Lemma pfx_trans a b c : pfx H a b -> pfx H b c -> pfx H a c.
  Proof. intros Hab Hbc. induction Hbc as [|b y p pl Hy Hp IH]; [exact Hab|]. econstructor; eauto. Qed.
  Lemma pfx_idx a b : pfx H a b -> next_index a <= next_index b.
  Proof.
    induction 1 as [|a y p pl Hy Hp IH]; [lia|]. apply Hok in Hy as [Hi _]. cbn. lia.
  Qed.
  Lemma pfx_eq_idx a b : pfx H a b -> next_index b <= next_index a -> a = b.
  Proof.
    destruct 1 as [|a y p pl Hy Hp]; [reflexivity|]. apply Hok in Hy as [Hi _]. apply pfx_idx in Hp. cbn. lia.
  Qed.
  Lemma pfx_antisym a b : pfx H a b -> pfx H b a -> a = b.
  Proof. intros H1 H2. apply pfx_eq_idx; [exact H1|]. apply pfx_idx. exact H2. Qed.
  Lemma pfx_linear a b c : pfx H a c -> pfx H b c -> pfx H a b \/ pfx H b a.
  Proof.
    intros Hac. revert b. induction Hac as [x|a y p pl Hy Hp IH]; intros b Hb; [right; exact Hb|].
    inversion Hb as [|b' y' p' pl' Hy' Hp']; subst.
    - left. econstructor; eauto.
    - rewrite Hy in Hy'. injection Hy' as <- <-. apply IH. exact Hp'.
  Qed.
  Lemma pfx_of_idx a b c : pfx H a c -> pfx H b c -> next_index a <= next_index b -> pfx H a b.
  Proof.
    intros Ha Hb Hi. destruct (pfx_linear a b c Ha Hb) as [?|Hba]; [assumption|].
    rewrite (pfx_eq_idx b a Hba Hi). constructor.
  Qed.
  Lemma pfx_same_idx a b c : pfx H a c -> pfx H b c -> next_index a = next_index b -> a = b.
  Proof. intros Ha Hb Hi. apply pfx_eq_idx; [|lia]. eapply pfx_of_idx; eauto. lia. Qed.
  Lemma pfx_le a b : pfx H a b -> ologid_leb a b = true.
  Proof.
    induction 1 as [|a y p pl Hy Hp IH]; [apply ologid_leb_refl|].
    pose proof (pfx_idx _ _ Hp) as Hix. apply Hok in Hy as [Hi Hl].
    destruct a as [a|]; [|reflexivity]. destruct p as [p|]; [|cbn in Hix; lia].
    destruct Hl as [Hl _]. cbn in Hix, Hi. destruct a as [[] ?], p as [[] ?], y as [[] ?]. cbn in *. ord.
  Qed.
  Lemma pfx_leader a b : pfx H (Some a) (Some b) -> leader_leb (lid_leader a) (lid_leader b) = true.
  Proof. intros Hp. apply pfx_le in Hp. ord. Qed.
  Lemma pfx_oleader a b L : pfx H a b -> oleader_le b L -> oleader_le a L.
  Proof.
    intros Hp. destruct a as [a|]; [|constructor]. destruct b as [b|]; [|apply pfx_idx in Hp; cbn in Hp; lia].
    apply pfx_leader in Hp. cbn. intros Hb. eapply leader_leb_trans; eauto.
  Qed.
  Lemma pfx_of_leb a b c : pfx H a c -> pfx H b c -> ologid_leb a b = true -> pfx H a b.
  Proof.
    intros Ha Hb Hle. destruct (pfx_linear a b c Ha Hb) as [?|Hba]; [assumption|].
    assert (a = b) as ->; [|constructor]. apply pfx_le in Hba.
    destruct a as [a|], b as [b|]; [|ord..|reflexivity].
    f_equal. destruct a as [[] ?], b as [[] ?]. ord.
  Qed.
  Lemma pfx_lt a b : pfx H a b -> a <> b -> ologid_ltb a b = true.
  Proof.
    intros Hp Hn. pose proof (pfx_le _ _ Hp) as Hle. destruct (ologid_ltb a b) eqn:Hlt; [reflexivity|].
    destruct Hn. destruct a as [a|], b as [b|]; [|ord..|reflexivity].
    f_equal. destruct a as [[] ?], b as [[] ?]. ord.
  Qed.
  Lemma pfx_lt_idx a b : pfx H a b -> a <> b -> next_index a < next_index b.
  Proof. intros Hp Hn. destruct (decide (next_index b <= next_index a)) as [Hi|?]; [|lia]. destruct Hn. apply pfx_eq_idx; assumption. Qed.
  Lemma pfx_none_inv a : pfx H a None -> a = None.
  Proof. inversion 1. reflexivity. Qed.
  Lemma hist_rooted y : is_Some (H y) -> pfx H None (Some y).
  Proof.
    remember (lid_index y) as i eqn:Hi. revert y Hi. induction i as [i IH] using lt_wf_ind. intros y -> [[p pl] Hy].
    econstructor; [exact Hy|]. destruct (Hok _ _ _ Hy) as [Hix Hp]. destruct p as [x|]; [|constructor].
    destruct Hp as [_ Hx]. cbn in Hix. apply (IH (lid_index x)); [lia|reflexivity|exact Hx].
  Qed.
  Lemma pfx_rooted a b : pfx H None b -> pfx H a b -> pfx H None a.
  Proof.
    intros Hb Hab. destruct (pfx_linear None a b Hb Hab) as [?|Hx]; [assumption|].
    apply pfx_none_inv in Hx as ->. constructor.
  Qed.
  (** the prefix with a given length *)
  Lemma pfx_at c i : pfx H None c -> i <= next_index c -> exists a, pfx H a c /\ next_index a = i.
  Proof.
    intros Hc. revert i. remember None as z eqn:Hz. induction Hc as [|a y p pl Hy Hp IH]; intros i Hi; subst.
    - exists None. split; [constructor|]. cbn in *. lia.
    - destruct (decide (i = next_index (Some y))) as [->|Hne]; [exists (Some y); split; [constructor|reflexivity]|].
      destruct (IH eq_refl i) as (b & Hb & Hbi); [pose proof (proj1 (Hok _ _ _ Hy)); cbn in *; lia|].
      exists b. split; [econstructor; eauto|exact Hbi].
  Qed.

  (** ** Chains *)

  Lemma es_last_nil p : es_last p [] = p.
  Proof. reflexivity. Qed.
  Lemma es_last_cons p e es : es_last p (e :: es) = es_last (Some (e_log_id e)) es.
  Proof. unfold es_last. rewrite last_cons'. destruct (last es); reflexivity. Qed.
  Lemma es_last_app p a b : es_last p (a ++ b) = es_last (es_last p a) b.
  Proof.
    revert p. induction a as [|e a IH]; intros p; [reflexivity|]. cbn [app]. rewrite !es_last_cons. apply IH.
  Qed.
  Lemma es_last_ne p q es : es <> [] -> es_last p es = es_last q es.
  Proof. destruct es; [congruence|]. intros _. rewrite !es_last_cons. reflexivity. Qed.
  Lemma chain_app p a b : chain H p (a ++ b) <-> chain H p a /\ chain H (es_last p a) b.
  Proof.
    revert p. induction a as [|e a IH]; intros p; [cbn; tauto|]. cbn [app chain]. rewrite es_last_cons, IH. tauto.
  Qed.
  Lemma chain_pfx p es : chain H p es -> pfx H p (es_last p es).
  Proof.
    revert p. induction es as [|e es IH]; intros p; [constructor|]. intros [He Hc]. rewrite es_last_cons.
    eapply pfx_trans; [|apply IH; exact Hc]. econstructor; [exact He|constructor].
  Qed.
  Lemma chain_take p es k : chain H p es -> chain H p (take k es).
  Proof. intros Hc. rewrite <- (take_drop k es) in Hc. apply chain_app in Hc as [? _]. assumption. Qed.
  Lemma chain_length p es : chain H p es -> next_index (es_last p es) = next_index p + length es.
  Proof.
    revert p. induction es as [|e es IH]; intros p; [cbn; lia|]. intros [He Hc]. rewrite es_last_cons.
    rewrite (IH _ Hc). apply Hok in He as [He _]. cbn in *. lia.
  Qed.
  Lemma chain_index p es k e : chain H p es -> es !! k = Some e -> e_index e = next_index p + k.
  Proof.
    revert p k. induction es as [|x es IH]; intros p k; [discriminate|]. intros [He Hc].
    apply Hok in He as [He _]. destruct k as [|k]; cbn.
    - intros [= <-]. unfold e_index. lia.
    - intros Hk. rewrite (IH _ _ Hc Hk). cbn. unfold e_index in *. lia.
  Qed.
  Lemma chain_lookup p es k e : chain H p es -> es !! k = Some e ->
    pfx H (Some (e_log_id e)) (es_last p es) /\ pfx H p (Some (e_log_id e)) /\
    H (e_log_id e) = Some (es_last p (take k es), e_payload e).
  Proof.
    intros Hc Hk. pose proof (take_drop_middle es k e Hk) as Hd. rewrite <- Hd in Hc |- *.
    apply chain_app in Hc as [H1 [He H2]]. rewrite es_last_app, es_last_cons. cbn in He.
    split; [apply chain_pfx; exact H2|]. split; [econstructor; [exact He|apply chain_pfx; exact H1]|].
    assert (k <= length es) by (apply lookup_lt_Some in Hk; lia).
    rewrite take_app_alt by (rewrite take_length; lia). exact He.
  Qed.
  Lemma chain_elem p es e : chain H p es -> e ∈ es ->
    pfx H (Some (e_log_id e)) (es_last p es) /\ pfx H p (Some (e_log_id e)) /\ next_index p <= e_index e /\
    e_index e < next_index (es_last p es) /\ exists q, H (e_log_id e) = Some (q, e_payload e).
  Proof.
    intros Hc He. apply elem_of_list_lookup in He as (k & Hk).
    pose proof (chain_index _ _ _ _ Hc Hk) as Hi. pose proof (chain_lookup _ _ _ _ Hc Hk) as (H1 & H2 & H3).
    split; [exact H1|]. split; [exact H2|]. split; [lia|]. split; [|eauto].
    apply pfx_idx in H1. cbn in H1. unfold e_index. lia.
  Qed.
  Lemma chain_in p es x : chain H p es -> pfx H (Some x) (es_last p es) -> next_index p <= lid_index x ->
    exists e, es !! (lid_index x - next_index p) = Some e /\ e_log_id e = x.
  Proof.
    intros Hc Hx Hi. pose proof (pfx_idx _ _ Hx) as Hn. rewrite (chain_length _ _ Hc) in Hn. cbn in Hn.
    destruct (lookup_lt_is_Some_2 es (lid_index x - next_index p)) as [e He]; [lia|].
    exists e. split; [exact He|]. pose proof (chain_index _ _ _ _ Hc He) as Hei.
    apply (chain_lookup p) in He as (He & _); [|exact Hc].
    assert (Some (e_log_id e) = Some x) as [= ->]; [|reflexivity].
    eapply pfx_same_idx; [exact He|exact Hx|]. cbn. unfold e_index in Hei. lia.
  Qed.
  Lemma chain_unique p es es' : chain H p es -> chain H p es' -> es_last p es = es_last p es' -> es = es'.
  Proof.
    intros H1 H2 He. apply list_eq_same_length with (n := length es); [|reflexivity|].
    { pose proof (chain_length _ _ H1) as L1. pose proof (chain_length _ _ H2) as L2. rewrite He in L1. lia. }
    intros i x y Hi Hx Hy.
    pose proof (chain_index _ _ _ _ H1 Hx) as I1. pose proof (chain_index _ _ _ _ H2 Hy) as I2.
    apply (chain_lookup p) in Hx as (P1 & _ & Q1); [|exact H1]. apply (chain_lookup p) in Hy as (P2 & _ & Q2); [|exact H2].
    rewrite <- He in P2. assert (Some (e_log_id x) = Some (e_log_id y)) as [= Exy].
    { eapply pfx_same_idx; [exact P1|exact P2|]. cbn. unfold e_index in *. lia. }
    rewrite Exy in Q1. rewrite Q1 in Q2. injection Q2 as _ Q2. destruct x, y. cbn in *. congruence.
  Qed.
  Lemma chain_prefix p es es' : chain H p es -> chain H p es' -> pfx H (es_last p es) (es_last p es') -> es `prefix_of` es'.
  Proof.
    intros H1 H2 Hp. pose proof (chain_length _ _ H1) as L1. pose proof (chain_length _ _ H2) as L2.
    pose proof (pfx_idx _ _ Hp) as Hi. exists (drop (length es) es').
    rewrite <- (take_drop (length es) es') at 1. f_equal. symmetry.
    assert (Ht : chain H p (take (length es) es')) by (apply chain_take; exact H2).
    apply (chain_unique p); [exact H1|exact Ht|].
    eapply pfx_same_idx; [exact Hp| |].
    - rewrite <- (take_drop (length es) es') at 2. rewrite es_last_app. apply chain_pfx.
      rewrite <- (take_drop (length es) es') in H2. apply chain_app in H2 as [_ ?]. assumption.
    - rewrite L1, (chain_length _ _ Ht), take_length. lia.
  Qed.

  (** ** Logs *)

  Lemma ls_last_es l : ls_last l = es_last (ls_purged l) (ls_entries l).
  Proof. reflexivity. Qed.
  Lemma log_ok_pfx l : log_ok H l -> pfx H (ls_purged l) (ls_last l).
  Proof. intros [_ Hc]. apply chain_pfx. exact Hc. Qed.
  Lemma log_ok_root l : log_ok H l -> pfx H None (ls_last l).
  Proof. intros Hl. eapply pfx_trans; [apply Hl|]. apply log_ok_pfx. exact Hl. Qed.
  Lemma log_ok_length l : log_ok H l -> next_index (ls_last l) = next_index (ls_purged l) + length (ls_entries l).
  Proof. intros [_ Hc]. apply chain_length. exact Hc. Qed.

  Lemma filter_chain_lt p es i : chain H p es -> filter (fun e => e_index e < i) es = take (i - next_index p) es.
  Proof.
    revert p. induction es as [|e es IH]; intros p; [rewrite take_nil; reflexivity|]. intros [He Hc].
    pose proof (proj1 (Hok _ _ _ He)) as Hi. rewrite filter_cons. destruct (decide (e_index e < i)) as [Hlt|Hge].
    - replace (i - next_index p) with (S (i - next_index (Some (e_log_id e)))) by (unfold e_index in *; cbn; lia).
      cbn [take]. f_equal. apply IH. exact Hc.
    - replace (i - next_index p) with 0 by (unfold e_index in *; lia). cbn [take].
      rewrite (IH _ Hc). replace (i - next_index (Some (e_log_id e))) with 0 by (unfold e_index in *; cbn; lia). reflexivity.
  Qed.
  Lemma filter_chain_gt p es i : chain H p es -> filter (fun e => i < e_index e) es = drop (S i - next_index p) es.
  Proof.
    revert p. induction es as [|e es IH]; intros p; [rewrite drop_nil; reflexivity|]. intros [He Hc].
    pose proof (proj1 (Hok _ _ _ He)) as Hi. rewrite filter_cons. destruct (decide (i < e_index e)) as [Hlt|Hge].
    - replace (S i - next_index p) with 0 by (unfold e_index in *; cbn; lia). cbn [drop]. f_equal.
      rewrite (IH _ Hc). replace (S i - next_index (Some (e_log_id e))) with 0 by (unfold e_index in *; cbn; lia). reflexivity.
    - replace (S i - next_index p) with (S (S i - next_index (Some (e_log_id e)))) by (unfold e_index in *; cbn; lia).
      cbn [drop]. apply IH. exact Hc.
  Qed.
  Lemma filter_chain_range p es a b : chain H p es ->
    filter (fun e => a <= e_index e < b) es = take (b - Nat.max a (next_index p)) (drop (a - next_index p) es).
  Proof.
    intros Hc. revert p Hc. induction es as [|e es IH]; intros p; [rewrite drop_nil, take_nil; reflexivity|]. intros [He Hc].
    pose proof (proj1 (Hok _ _ _ He)) as Hi. unfold e_index in *. specialize (IH _ Hc). cbn [next_index] in IH.
    rewrite filter_cons. destruct (decide (a <= lid_index (e_log_id e) < b)) as [Hin|Hout].
    - replace (a - next_index p) with 0 by lia. cbn [drop].
      replace (b - Nat.max a (next_index p)) with (S (b - Nat.max a (S (lid_index (e_log_id e))))) by lia.
      cbn [take]. rewrite IH. replace (a - S (lid_index (e_log_id e))) with 0 by lia. reflexivity.
    - rewrite IH. destruct (decide (a <= lid_index (e_log_id e))) as [Ha|Ha].
      + replace (a - next_index p) with 0 by lia. replace (b - Nat.max a (next_index p)) with 0 by lia.
        replace (b - Nat.max a (S (lid_index (e_log_id e)))) with 0 by lia. reflexivity.
      + replace (a - next_index p) with (S (a - S (lid_index (e_log_id e)))) by lia. cbn [drop].
        f_equal. lia.
  Qed.

  Lemma ls_append_ok es l : log_ok H l -> chain H (ls_last l) es ->
    log_ok H (ls_append es l) /\ ls_last (ls_append es l) = es_last (ls_last l) es.
  Proof.
    intros [Hp Hc] He. split.
    - split; [exact Hp|]. cbn. apply chain_app. split; [exact Hc|exact He].
    - rewrite !ls_last_es. cbn. apply es_last_app.
  Qed.
  Lemma ls_truncate_eq i l : log_ok H l ->
    ls_truncate i l = mkLS (ls_purged l) (take (i - next_index (ls_purged l)) (ls_entries l)).
  Proof. intros [_ Hc]. unfold ls_truncate. f_equal. apply filter_chain_lt. exact Hc. Qed.
  Lemma ls_truncate_ok i l : log_ok H l -> next_index (ls_purged l) <= i ->
    log_ok H (ls_truncate i l) /\ pfx H (ls_last (ls_truncate i l)) (ls_last l) /\
    next_index (ls_last (ls_truncate i l)) = Nat.min i (next_index (ls_last l)).
  Proof.
    intros Hl Hi. rewrite (ls_truncate_eq i l Hl). destruct Hl as [Hp Hc].
    set (k := i - next_index (ls_purged l)).
    assert (Ht : chain H (ls_purged l) (take k (ls_entries l))) by (apply chain_take; exact Hc).
    split; [split; [exact Hp|exact Ht]|]. rewrite !ls_last_es. cbn [ls_purged ls_entries]. split.
    - rewrite <- (take_drop k (ls_entries l)) at 2. rewrite es_last_app. apply chain_pfx.
      rewrite <- (take_drop k (ls_entries l)) in Hc. apply chain_app in Hc as [_ ?]. assumption.
    - rewrite (chain_length _ _ Ht), (chain_length _ _ Hc), take_length. subst k. lia.
  Qed.
  Lemma ls_purge_eq x l : log_ok H l ->
    ls_purge x l = mkLS (Some x) (drop (S (lid_index x) - next_index (ls_purged l)) (ls_entries l)).
  Proof. intros [_ Hc]. unfold ls_purge. f_equal. apply filter_chain_gt. exact Hc. Qed.
  (** purging a position in the log *)
  Lemma ls_purge_ok x l : log_ok H l -> pfx H (Some x) (ls_last l) -> next_index (ls_purged l) <= S (lid_index x) ->
    log_ok H (ls_purge x l) /\ ls_last (ls_purge x l) = ls_last l.
  Proof.
    intros Hl Hx Hi. pose proof (log_ok_root _ Hl) as Hr. rewrite (ls_purge_eq x l Hl). destruct Hl as [Hp Hc].
    set (k := S (lid_index x) - next_index (ls_purged l)).
    assert (Hk : es_last (ls_purged l) (take k (ls_entries l)) = Some x).
    { assert (Ht : chain H (ls_purged l) (take k (ls_entries l))) by (apply chain_take; exact Hc).
      rewrite ls_last_es in Hx. eapply pfx_same_idx; [|exact Hx|].
      - rewrite <- (take_drop k (ls_entries l)) at 2. rewrite es_last_app. apply chain_pfx.
        rewrite <- (take_drop k (ls_entries l)) in Hc. apply chain_app in Hc as [_ ?]. assumption.
      - apply pfx_idx in Hx. rewrite (chain_length _ _ Hc) in Hx. rewrite (chain_length _ _ Ht), take_length. subst k. cbn in *. lia. }
    rewrite <- (take_drop k (ls_entries l)) in Hc. apply chain_app in Hc as [_ Hc]. rewrite Hk in Hc.
    split; [split; [|exact Hc]|].
    - cbn. eapply pfx_rooted; [|exact Hx]. exact Hr.
    - rewrite !ls_last_es. cbn. rewrite <- (take_drop k (ls_entries l)) at 2. rewrite es_last_app, Hk. reflexivity.
  Qed.
  (** purging at or beyond the end *)
  Lemma ls_purge_beyond x l : log_ok H l -> pfx H None (Some x) -> next_index (ls_last l) <= S (lid_index x) ->
    log_ok H (ls_purge x l) /\ ls_last (ls_purge x l) = Some x.
  Proof.
    intros Hl Hx Hi. rewrite (ls_purge_eq x l Hl). destruct Hl as [Hp Hc].
    rewrite ls_last_es, (chain_length _ _ Hc) in Hi.
    rewrite drop_ge by lia. split; [split; [exact Hx|exact I]|reflexivity].
  Qed.

  (** ** The log ids of a log *)

  Definition ls_base (l : LogStore) : nat := match ls_purged l with Some p => lid_index p | None => 0 end.
  Lemma ls_ids_consecutive l : log_ok H l -> consecutive (ls_base l) (ls_ids l).
  Proof.
    intros [_ Hc]. unfold ls_base, ls_ids.
    assert (Hm : consecutive (next_index (ls_purged l)) (map e_log_id (ls_entries l))).
    { intros k x Hk. apply list_lookup_fmap_Some in Hk as (e & He & ->). eapply chain_index; eauto. }
    destruct (ls_purged l) as [p|]; [|exact Hm]. cbn. apply consecutive_cons. split; [reflexivity|exact Hm].
  Qed.
  Lemma ls_ids_last l : last (ls_ids l) = ls_last l.
  Proof.
    unfold ls_ids, ls_last. destruct (ls_entries l) as [|e es] eqn:He.
    - cbn. destruct (ls_purged l); reflexivity.
    - rewrite last_app, fmap_last. destruct (last (e :: es)) as [x|] eqn:Hx; [reflexivity|].
      apply last_None in Hx. discriminate.
  Qed.
  Lemma ls_ids_elem l x : log_ok H l -> x ∈ ls_ids l <->
    pfx H (Some x) (ls_last l) /\ next_index (ls_purged l) <= S (lid_index x).
  Proof.
    intros Hl. unfold ls_ids. rewrite elem_of_app. split.
    - intros [Hx|Hx].
      + destruct (ls_purged l) as [p|] eqn:Hp; [|apply elem_of_nil in Hx as []]. apply elem_of_list_singleton in Hx as ->.
        rewrite <- Hp. split; [apply log_ok_pfx; exact Hl|rewrite Hp; cbn; lia].
      + apply elem_of_list_fmap in Hx as (e & -> & He). destruct Hl as [Hp Hc].
        pose proof (chain_elem _ _ _ Hc He) as (H1 & H2 & H3 & _). split; [exact H1|]. unfold e_index in H3. lia.
    - intros [Hx Hi]. destruct (decide (next_index (ls_purged l) = S (lid_index x))) as [He|Hne].
      + left. assert (Some x = ls_purged l) as <-; [|constructor].
        eapply pfx_same_idx; [exact Hx|apply log_ok_pfx; exact Hl|cbn; lia].
      + right. destruct Hl as [Hp Hc]. destruct (chain_in _ _ _ Hc Hx) as (e & He & <-); [lia|].
        apply elem_of_list_fmap. exists e. split; [reflexivity|eapply elem_of_list_lookup_2; exact He].
  Qed.
  Lemma ids_get_elem b ids i x : consecutive b ids -> ids_get ids i = Some x <-> x ∈ ids /\ lid_index x = i.
  Proof.
    intros Hc. unfold ids_get. split.
    - intros Hf. apply find_some in Hf as [H1 H2]. split; [apply elem_of_list_In; exact H1|lia].
    - intros [Hx Hi]. apply elem_of_list_lookup in Hx as (k & Hk).
      destruct (List.find (fun y => lid_index y =? i) ids) as [y|] eqn:Hf.
      + apply find_some in Hf as [H1 H2]. apply elem_of_list_In, elem_of_list_lookup in H1 as (k' & Hk').
        pose proof (Hc _ _ Hk). pose proof (Hc _ _ Hk'). assert (k = k') as -> by lia. congruence.
      + eapply find_none in Hf; [|apply elem_of_list_In; eapply elem_of_list_lookup_2; exact Hk]. lia.
  Qed.
  Lemma ls_get l i x : log_ok H l -> ids_get (ls_ids l) i = Some x <->
    pfx H (Some x) (ls_last l) /\ next_index (ls_purged l) <= S (lid_index x) /\ lid_index x = i.
  Proof.
    intros Hl. rewrite (ids_get_elem _ _ _ _ (ls_ids_consecutive l Hl)), (ls_ids_elem l x Hl). tauto.
  Qed.
  Lemma ls_get_none l i : log_ok H l -> ids_get (ls_ids l) i = None ->
    S i < next_index (ls_purged l) \/ next_index (ls_last l) <= i.
  Proof.
    intros Hl Hn. destruct (decide (S i < next_index (ls_purged l))) as [?|Ha]; [left; assumption|].
    destruct (decide (next_index (ls_last l) <= i)) as [?|Hb]; [right; assumption|]. exfalso.
    destruct (pfx_at (ls_last l) (S i)) as ([x|] & Hx & Hxi); [apply log_ok_root; exact Hl|lia| |cbn in Hxi; lia].
    cbn in Hxi. assert (ids_get (ls_ids l) i = Some x); [|congruence]. apply ls_get; [exact Hl|].
    split; [exact Hx|]. lia.
  Qed.

  (** the effect of log changes on the list of log ids *)
  Lemma ls_ids_append es l : ls_ids (ls_append es l) = ls_ids l ++ map e_log_id es.
  Proof. unfold ls_ids. cbn. rewrite map_app, app_assoc. reflexivity. Qed.
  Lemma filter_map_ids (P : Entry -> Prop) `{forall e, Decision (P e)} (f : LogId -> bool) es :
    (forall e, f (e_log_id e) = true <-> P e) ->
    map e_log_id (filter P es) = List.filter f (map e_log_id es).
  Proof.
    intros Hf. induction es as [|e es IH]; [reflexivity|]. rewrite filter_cons. cbn [map List.filter].
    destruct (decide (P e)) as [Hp|Hp].
    - replace (f (e_log_id e)) with true by (symmetry; apply Hf; exact Hp). cbn. f_equal. exact IH.
    - replace (f (e_log_id e)) with false; [exact IH|]. symmetry. apply not_true_is_false.
      rewrite Hf. exact Hp.
  Qed.
  Lemma ls_ids_truncate i l : next_index (ls_purged l) <= i -> ls_ids (ls_truncate i l) = ids_before (ls_ids l) i.
  Proof.
    intros Hi. unfold ls_ids, ids_before, ls_truncate. cbn [ls_purged ls_entries]. rewrite filter_app'. f_equal.
    - destruct (ls_purged l) as [p|]; [|reflexivity]. cbn in *. replace (lid_index p <? i) with true by lia. reflexivity.
    - apply filter_map_ids. intros e. unfold e_index. lia.
  Qed.
  Lemma ls_ids_purge x l : log_ok H l ->
    (pfx H (Some x) (ls_last l) /\ next_index (ls_purged l) <= S (lid_index x)) \/ next_index (ls_last l) <= lid_index x ->
    ls_ids (ls_purge x l) = ids_purge (ls_ids l) x.
  Proof.
    intros Hl Hx. unfold ids_purge. rewrite ls_ids_last.
    destruct (next_index (ls_last l) <=? lid_index x) eqn:Hb.
    - unfold ls_ids. rewrite (ls_purge_eq x l Hl). cbn [ls_purged ls_entries]. rewrite drop_ge; [reflexivity|].
      pose proof (log_ok_length l Hl). lia.
    - destruct Hx as [[Hx Hi]|?]; [|lia]. unfold ls_ids at 1, ls_purge. cbn [ls_purged ls_entries option_list].
      unfold ids_from. unfold ls_ids. rewrite filter_app'.
      rewrite (filter_map_ids _ (fun y => lid_index x <? lid_index y)) by (intros; unfold e_index; lia).
      destruct (decide (next_index (ls_purged l) = S (lid_index x))) as [He|Hne].
      + assert (ls_purged l = Some x) as ->.
        { symmetry. eapply pfx_same_idx; [exact Hx|apply log_ok_pfx; exact Hl|cbn; lia]. }
        cbn. replace (lid_index x <=? lid_index x) with true by lia. cbn. f_equal.
        destruct Hl as [_ Hc]. rewrite !filter_all; [reflexivity|..]; apply Forall_map, Forall_forall; intros e Hee;
          pose proof (chain_elem _ _ _ Hc Hee) as (_ & _ & H3 & _); rewrite He in H3; unfold e_index in *; lia.
      + destruct Hl as [Hp Hc]. destruct (chain_in _ _ _ Hc Hx) as (e & He & Hex); [lia|].
        pose proof (take_drop_middle _ _ _ He) as Hd. rewrite <- Hd in Hc |- *. 
        set (l1 := take (lid_index x - next_index (ls_purged l)) (ls_entries l)) in *.
        set (l2 := drop (S (lid_index x - next_index (ls_purged l))) (ls_entries l)) in *.
        rewrite !map_app, !filter_app'. cbn [map]. rewrite Hex.
        apply chain_app in Hc as [C1 [C2 C3]]. rewrite Hex in C3.
        assert (F1 : Forall (fun y => lid_index y < lid_index x) (map e_log_id l1)).
        { apply Forall_map, Forall_forall. intros e1 He1. pose proof (chain_elem _ _ _ C1 He1) as (_ & _ & _ & H4 & _).
          apply Hok in C2 as [C2 _]. rewrite <- Hex. unfold e_index in *. lia. }
        assert (F2 : Forall (fun y => lid_index x < lid_index y) (map e_log_id l2)).
        { apply Forall_map, Forall_forall. intros e2 He2. pose proof (chain_elem _ _ _ C3 He2) as (_ & _ & H3 & _).
          cbn in H3. unfold e_index in *. lia. }
        rewrite (filter_none (fun y => lid_index x <? lid_index y) (map e_log_id l1)) by (eapply Forall_mono; [exact F1|]; cbn; intros; lia).
        rewrite (filter_none (fun y => lid_index x <=? lid_index y) (map e_log_id l1)) by (eapply Forall_mono; [exact F1|]; cbn; intros; lia).
        cbn [List.filter app]. replace (lid_index x <? lid_index x) with false by lia. replace (lid_index x <=? lid_index x) with true by lia.
        rewrite (filter_all (fun y => lid_index x <? lid_index y) (map e_log_id l2)) by (eapply Forall_mono; [exact F2|]; cbn; intros; lia).
        rewrite (filter_all (fun y => lid_index x <=? lid_index y) (map e_log_id l2)) by (eapply Forall_mono; [exact F2|]; cbn; intros; lia).
        destruct (ls_purged l) as [p|]; [|reflexivity]. cbn in *. replace (lid_index x <=? lid_index p) with false by lia. reflexivity.
  Qed.
End hist.
