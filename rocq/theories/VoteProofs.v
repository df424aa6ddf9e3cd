(** Laws of the vote orders. *)
From Coq Require Import Bool Lia ZifyBool ZifyNat.
From stdpp Require Import base numbers option sets list.
From Verif Require Import Types TypesProofs VoteSpec.

Lemma vote_geb_spec a b : vote_geb b a = true <-> vote_le a b.
Proof.
  rewrite vote_geb_true. unfold vote_le.
  destruct (v_committed a), (v_committed b); intuition (try lia; try congruence).
Qed.

Lemma vote_order_laws :
  (forall a, vote_geb a a = true) /\
  (forall a b, vote_geb a b = true -> vote_geb b a = true -> a = b) /\
  (forall a b c, vote_geb a b = true -> vote_geb b c = true -> vote_geb a c = true) /\
  (forall a b, vote_geb a b = true \/ vote_geb b a = true) /\
  (forall a b, vote_gtb a b = true <-> vote_geb a b = true /\ a <> b) /\
  (forall a b, vote_geb b a = true <-> vote_le a b) /\
  (forall a b, vote_pcmp a b <> CmpPanic).
Proof.
  split; [apply vote_geb_refl|]. split; [apply vote_geb_antisym|]. split; [apply vote_geb_trans|].
  split; [apply vote_geb_total|]. split; [apply vote_gtb_iff|]. split; [apply vote_geb_spec|].
  intros a b. destruct (vote_pcmp_total a b) as [c ->]. done.
Qed.

Lemma vote_committed_strict l : vote_gtb (mkVote l true) (mkVote l false) = true.
Proof. ord. Qed.
Lemma vote_leader_strict a b : leader_ltb (v_leader a) (v_leader b) = true -> vote_gtb b a = true.
Proof. ord. Qed.

Lemma std_leader_cases a b :
  match std_leader_pcmp a b with
  | Some Eq => a = b
  | Some Lt => sl_term a < sl_term b \/ (sl_term a = sl_term b /\ sl_voted a = None /\ sl_voted b <> None)
  | Some Gt => sl_term b < sl_term a \/ (sl_term a = sl_term b /\ sl_voted b = None /\ sl_voted a <> None)
  | None => sl_term a = sl_term b /\ exists x y, sl_voted a = Some x /\ sl_voted b = Some y /\ x <> y
  end.
Proof.
  unfold std_leader_pcmp. destruct a as [ta va], b as [tb vb]; cbn.
  destruct (Nat.compare_spec ta tb) as [->|H|H]; [|by left|by left].
  destruct va as [x|], vb as [y|]; try (right; repeat split; done); [|done].
  destruct (x =? y) eqn:E.
  - assert (x = y) as -> by lia. done.
  - split; [done|]. exists x, y. split; [done|]. split; [done|]. lia.
Qed.

Lemma std_geb_true a b : std_vote_geb a b = true <->
  sl_term (sv_leader b) < sl_term (sv_leader a) \/
  (sl_term (sv_leader a) = sl_term (sv_leader b) /\
    match sl_voted (sv_leader b), sl_voted (sv_leader a) with
    | None, Some _ => True
    | Some _, None => False
    | None, None => sv_committed b = true -> sv_committed a = true
    | Some x, Some y =>
        (x = y /\ (sv_committed b = true -> sv_committed a = true)) \/
        (x <> y /\ sv_committed a = true /\ sv_committed b = false)
    end).
Proof.
  unfold std_vote_geb, std_vote_pcmp.
  pose proof (std_leader_cases (sv_leader a) (sv_leader b)) as H.
  destruct (std_leader_pcmp (sv_leader a) (sv_leader b)) as [[]|]; cbn.
  - rewrite H. destruct (sv_committed a), (sv_committed b), (sl_voted (sv_leader b)); cbn; intuition (try lia; try congruence).
  - destruct (sl_voted (sv_leader b)) eqn:E1, (sl_voted (sv_leader a)) eqn:E2; intuition (try lia; try congruence).
  - destruct (sl_voted (sv_leader b)) eqn:E1, (sl_voted (sv_leader a)) eqn:E2; intuition (try lia; try congruence).
  - destruct H as [H (x & y & Hx & Hy & Hne)]. rewrite Hx, Hy.
    destruct (sv_committed a), (sv_committed b); cbn; intuition (try lia; try congruence).
Qed.

Lemma stdvote_eq a b : sl_term (sv_leader a) = sl_term (sv_leader b) ->
  sl_voted (sv_leader a) = sl_voted (sv_leader b) -> sv_committed a = sv_committed b -> a = b.
Proof. destruct a as [[] ], b as [[] ]; cbn. congruence. Qed.

Lemma std_partial_order :
  (forall a, std_ge a a) /\
  (forall a b, std_ge a b -> std_ge b a -> a = b) /\
  (forall a b c, no_split [a; b; c] -> std_ge a b -> std_ge b c -> std_ge a c) /\
  (forall a b, no_split [a; b] -> std_vote_pcmp a b <> CmpPanic).
Proof.
  unfold std_ge. repeat split.
  - intros a. apply std_geb_true. right. split; [done|]. destruct (sl_voted _); [left|]; done.
  - intros a b. rewrite !std_geb_true. intros H1 H2.
    assert (sl_term (sv_leader a) = sl_term (sv_leader b)) as Et by lia.
    destruct H1 as [H1|[_ H1]], H2 as [H2|[_ H2]]; try lia.
    apply stdvote_eq; [done| |];
      destruct (sl_voted (sv_leader a)), (sl_voted (sv_leader b)); try done;
      destruct (sv_committed a), (sv_committed b); intuition congruence.
  - intros a b c Hns. rewrite !std_geb_true. intros H1 H2.
    destruct H1 as [H1|[E1 H1]], H2 as [H2|[E2 H2]]; [left; lia|left; lia|left; lia|right].
    split; [congruence|].
    assert (Hac : forall x y, sl_voted (sv_leader a) = Some x -> sl_voted (sv_leader c) = Some y ->
       sv_committed a = true -> sv_committed c = true -> x = y).
    { intros x y Hx Hy Ha Hc. eapply (Hns a c); try done; [set_solver|set_solver|congruence]. }
    destruct (sl_voted (sv_leader a)) as [x|], (sl_voted (sv_leader b)) as [y|],
       (sl_voted (sv_leader c)) as [z|]; try done; try tauto.
    destruct (decide (z = x)) as [->|Hne].
    + left. split; [done|]. intuition congruence.
    + right. split; [done|].
      destruct (sv_committed a) eqn:Ea, (sv_committed b) eqn:Eb, (sv_committed c) eqn:Ec;
        intuition (try congruence). all: exfalso; apply Hne; symmetry; by apply Hac.
  - intros a b Hns. unfold std_vote_pcmp.
    pose proof (std_leader_cases (sv_leader a) (sv_leader b)) as H.
    destruct (std_leader_pcmp (sv_leader a) (sv_leader b)) as [[]|]; try done.
    destruct H as [H (x & y & Hx & Hy & Hne)].
    destruct (sv_committed a) eqn:Ea, (sv_committed b) eqn:Eb; try done.
    intros _. apply Hne. eapply (Hns a b); try done; set_solver.
Qed.

Lemma std_uncommitted_incomparable t n m : n <> m ->
  std_vote_pcmp (mkStdVote (mkStdLeaderId t (Some n)) false) (mkStdVote (mkStdLeaderId t (Some m)) false) = PC None.
Proof.
  intros H. unfold std_vote_pcmp, std_leader_pcmp. cbn. rewrite Nat.compare_refl.
  by replace (n =? m) with false by lia.
Qed.
Lemma std_committed_beats t n v :
  sl_term (sv_leader v) = t -> sv_committed v = false ->
  std_vote_pcmp (mkStdVote (mkStdLeaderId t (Some n)) true) v = PC (Some Gt).
Proof.
  destruct v as [[t' [m|]] c]; cbn; intros -> ->; unfold std_vote_pcmp, std_leader_pcmp; cbn;
    rewrite Nat.compare_refl; [|done]. by destruct (n =? m).
Qed.

Lemma std_adopted_promise v0 reqs a b :
  a ∈ std_adopted v0 reqs -> b ∈ std_adopted v0 reqs ->
  sv_committed a = false -> sv_committed b = false ->
  sl_term (sv_leader a) = sl_term (sv_leader b) -> sl_voted (sv_leader a) <> None -> sl_voted (sv_leader b) <> None ->
  sv_leader a = sv_leader b.
Proof.
  (* what can still be adopted above [v] *)
  assert (Hafter : forall reqs v x y, y ∈ std_adopted v reqs -> sv_committed x = false -> sl_voted (sv_leader x) <> None ->
     (sl_term (sv_leader x) < sl_term (sv_leader v) \/ v = x \/
      (sl_term (sv_leader x) = sl_term (sv_leader v) /\ sv_committed v = true /\ sl_voted (sv_leader v) <> None)) ->
     sv_committed y = false -> sl_voted (sv_leader y) <> None -> sl_term (sv_leader x) = sl_term (sv_leader y) ->
     sv_leader x = sv_leader y).
  { clear. induction reqs as [|r rs IH]; intros v x y Hy Hx Hxv Hv Hyc Hyv Ht; cbn [std_adopted] in Hy; [inversion Hy|].
    destruct (std_vote_geb r v) eqn:Hge; [|eapply IH; eassumption].
    apply std_geb_true in Hge.
    assert (Hr : sl_term (sv_leader x) < sl_term (sv_leader r) \/ r = x \/
      (sl_term (sv_leader x) = sl_term (sv_leader r) /\ sv_committed r = true /\ sl_voted (sv_leader r) <> None)).
    { destruct Hv as [Hv|[-> |(H1 & H2 & H3)]].
      - left. destruct Hge as [Hge|[Hge _]]; lia.
      - destruct Hge as [Hge|[Hge H]]; [left; lia|].
        destruct r as [[rt rn] rc], x as [[xt xn] xc]. cbn in *. subst.
        destruct rn as [rn|], xn as [xn|]; try tauto; try congruence.
        destruct rc; [right; right; repeat split; congruence|].
        right. left. intuition congruence.
      - destruct Hge as [Hge|[Hge H]]; [left; lia|].
        destruct r as [[rt rn] rc], v as [[vt vn] vc]. cbn in *. subst.
        destruct rn as [rn|], vn as [vn|]; try tauto; try congruence.
        right. right. repeat split; [|congruence]. destruct rc; intuition congruence. }
    apply elem_of_cons in Hy as [-> |Hy]; [|eapply IH; eassumption].
    destruct Hr as [Hr|[-> |(_ & Hr & _)]]; [lia|reflexivity|congruence]. }
  revert v0. induction reqs as [|r rs IH]; intros v0 Ha Hb Hac Hbc Ht Hav Hbv; cbn [std_adopted] in *; [inversion Ha|].
  destruct (std_vote_geb r v0) eqn:Hge; [|eapply IH; eassumption].
  apply elem_of_cons in Ha as [-> |Ha], Hb as [-> |Hb]; [reflexivity| | |eapply IH; eassumption].
  - eapply Hafter; try eassumption. auto.
  - symmetry. eapply Hafter; try eassumption; auto.
Qed.
