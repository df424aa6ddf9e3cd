(** The command queue: executed in order, only when the condition holds. *)
From Coq Require Import Bool Lia ZifyBool ZifyNat Sorted.
From stdpp Require Import base numbers option gmap relations list.
From Verif Require Import Types TypesProofs LogIdList Quorum Membership Progress RaftState ProgressEntry
  Engine EnginePrims Store RaftCore NodeSpec NodePrims StoreProofs VoteNodeProofs.

Lemma step_queue now ev n n' outs : node_step now ev n = Ok (n', outs) ->
  en_out (nd_eng n) ++ step_produced ev n n' = step_executed ev n ++ en_out (nd_eng n') /\
  (ev <> ERun -> en_out (nd_eng n) `prefix_of` en_out (nd_eng n')).
Proof.
  intros H.
  assert (Hgen : ev <> ERun -> en_out (nd_eng n) `prefix_of` en_out (nd_eng n') ->
    en_out (nd_eng n) ++ step_produced ev n n' = step_executed ev n ++ en_out (nd_eng n') /\
    (ev <> ERun -> en_out (nd_eng n) `prefix_of` en_out (nd_eng n'))).
  { intros Hne [cs Hcs]. split; [|intros _; exists cs; exact Hcs].
    assert (step_executed ev n = []) as -> by (unfold step_executed; destruct ev; congruence || reflexivity).
    assert (step_produced ev n n' = cs) as ->; [|rewrite Hcs; reflexivity].
    unfold step_produced. rewrite Hcs, drop_app. destruct ev; congruence || reflexivity. }
  assert (Hrun : forall c r, en_out (nd_eng n) = c :: r -> run_cmd now c (nd_set_eng (popped (nd_eng n) r) n) = Ok (n', outs) ->
    en_out (nd_eng n') = r).
  { intros c r Ho Hc. destruct c; cbn [run_cmd] in Hc;
      repeat match type of Hc with
      | context [match ?t with _ => _ end] => destruct t eqn:?; try discriminate Hc
      end; injection Hc as <- <-; reflexivity. }
  assert (Hd : ev = ERun \/ ev <> ERun) by (destruct ev; auto; right; discriminate).
  destruct Hd as [->|Hne].
  - split; [|congruence]. cbn [node_step] in H. unfold run_one in H. unfold step_executed, step_produced.
    destruct (en_out (nd_eng n)) as [|c r] eqn:Ho; [injection H as <- _; rewrite Ho; reflexivity|].
    destruct (cond_ok _ _) eqn:Hc; [|injection H as <- _; rewrite Ho, app_nil_r; reflexivity].
    rewrite app_nil_r. cbn [app]. f_equal. symmetry. eapply Hrun; [reflexivity|exact H].
  - apply (Hgen Hne).
    apply node_step_cases in H as [-> ->|c r -> Ho _ H|_ _ H (Hs & _) _ Hrep|t c x r -> _ _ (? & ? & _ & Hc & _) H Hn' ->|He Hs Hr].
    + reflexivity.
    + congruence.
    + apply handled_vrel in H as (cs & Ho & _). rewrite Ho. exists cs. reflexivity.
    + pose proof (grant_counted_prims _ _ _ _ _ Hc H) as Hp. apply prims_vrel in Hp as (cs & Ho & _); [|reflexivity].
      rewrite Ho. exists cs. reflexivity.
    + rewrite He. reflexivity.
Qed.

Lemma run_queue evs : forall n n' outs, node_run (acts_of evs) n = Ok (n', outs) ->
  en_out (nd_eng n) ++ (run_commands evs n).2 = (run_commands evs n).1 ++ en_out (nd_eng n').
Proof.
  induction evs as [|[now ev] evs IH]; intros n n' outs H; cbn [acts_of map node_run run_commands] in *.
  - injection H as <- _. rewrite app_nil_r. reflexivity.
  - rok H. rok H. injection H as <- <-. cbn [node_act fst snd] in Hx. rewrite Hx.
    destruct x as [n1 o1], x0 as [n2 o2]. cbn [fst] in *. specialize (IH n1 n2 o2 Hx0).
    destruct (run_commands evs n1) as [ex pr]. cbn [fst snd] in *.
    apply step_queue in Hx as [Hq _]. rewrite app_assoc, Hq, <- app_assoc, IH, app_assoc. reflexivity.
Qed.

Lemma step_executed_met ev n c : c ∈ step_executed ev n -> met c n /\ ev = ERun /\ head (en_out (nd_eng n)) = Some c.
Proof.
  unfold step_executed, met. destruct ev; try (intros Hc; inversion Hc; fail).
  destruct (en_out (nd_eng n)) as [|x r]; [intros Hc; inversion Hc|].
  destruct (cond_ok _ _) eqn:E; [|intros Hc; inversion Hc]. intros Hc. apply elem_of_list_singleton in Hc as ->. auto.
Qed.

(** a waiting head blocks: nothing is executed; a ready head is executed by the next run step,
    and until then the loop handles no message, note or tick *)
Lemma head_blocks now ev n n' outs c r :
  en_out (nd_eng n) = c :: r -> node_step now ev n = Ok (n', outs) ->
  (~ met c n -> step_executed ev n = [] /\ exists cs, en_out (nd_eng n') = c :: r ++ cs) /\
  (met c n -> ev = ERun -> en_out (nd_eng n') = r) /\
  (met c n -> ev <> ERun -> en_out (nd_eng n') = c :: r /\ met c n').
Proof.
  intros Ho H. pose proof (step_queue _ _ _ _ _ H) as [Hq Hp]. unfold met.
  destruct (cond_ok (cmd_condition c) (rs_io (nd_state n))) eqn:Hc.
  - split; [congruence|]. split.
    + intros _ ->. unfold step_executed, step_produced in Hq. rewrite Ho, Hc, app_nil_r in Hq. cbn in Hq. congruence.
    + intros _ Hne.
      assert (He : nd_eng n' = nd_eng n).
      { assert (Hr : runnable n = true) by (unfold runnable; rewrite Ho; exact Hc).
        apply node_step_cases in H as [-> ->|? ? -> _ _ _|_ Hrn _ _ _ _|? ? ? ? _ Hrn _ _ _ _ _|He _ _]; congruence. }
      unfold nd_state. rewrite He. auto.
  - split; [|split; congruence]. intros _.
    assert (Hex : step_executed ev n = []) by (unfold step_executed; rewrite Ho; destruct ev; rewrite ?Hc; reflexivity).
    split; [exact Hex|]. rewrite Hex, Ho in Hq. exists (step_produced ev n n'). cbn in Hq. congruence.
Qed.
