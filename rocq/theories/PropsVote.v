(** C01: vote comparison is a sound order. *)
From Verif Require Import Types VoteSpec VoteProofs.
From stdpp Require Import base list.

Theorem C01_vote_total_order :
  (forall a, vote_geb a a = true) /\
  (forall a b, vote_geb a b = true -> vote_geb b a = true -> a = b) /\
  (forall a b c, vote_geb a b = true -> vote_geb b c = true -> vote_geb a c = true) /\
  (forall a b, vote_geb a b = true \/ vote_geb b a = true) /\
  (forall a b, vote_gtb a b = true <-> vote_geb a b = true /\ a <> b) /\
  (forall a b, vote_geb b a = true <-> vote_le a b) /\
  (forall a b, vote_pcmp a b <> CmpPanic).
Proof. exact vote_order_laws. Qed.
Print Assumptions C01_vote_total_order.

Theorem C01_committed_vote_is_greater : forall l,
  vote_gtb (mkVote l true) (mkVote l false) = true.
Proof. exact vote_committed_strict. Qed.
Print Assumptions C01_committed_vote_is_greater.

Theorem C01_greater_leader_is_greater : forall a b,
  leader_ltb (v_leader a) (v_leader b) = true -> vote_gtb b a = true.
Proof. exact vote_leader_strict. Qed.
Print Assumptions C01_greater_leader_is_greater.
Example C01_greater_leader_nontrivial :
  leader_ltb (v_leader (mkVote (mkLeaderId 3 7) true)) (v_leader (mkVote (mkLeaderId 4 1) false)) = true.
Proof. reflexivity. Qed.

Theorem C01_std_partial_order :
  (forall a, std_ge a a) /\
  (forall a b, std_ge a b -> std_ge b a -> a = b) /\
  (forall a b c, no_split [a; b; c] -> std_ge a b -> std_ge b c -> std_ge a c) /\
  (forall a b, no_split [a; b] -> std_vote_pcmp a b <> CmpPanic).
Proof. exact std_partial_order. Qed.
Print Assumptions C01_std_partial_order.
Example C01_std_nontrivial :
  no_split [mkStdVote (mkStdLeaderId 2 (Some 1)) true; mkStdVote (mkStdLeaderId 2 (Some 2)) false;
            mkStdVote (mkStdLeaderId 1 (Some 3)) true].
Proof.
  intros a b n m Ha Hb Ca Cb Et Ea Eb.
  repeat match goal with H : _ ∈ _ :: _ |- _ => apply elem_of_cons in H as [->|H]
    | H : _ ∈ [] |- _ => apply elem_of_nil in H as [] end; cbn in *; congruence.
Qed.

Theorem C01_std_uncommitted_incomparable : forall t n m, n <> m ->
  std_vote_pcmp (mkStdVote (mkStdLeaderId t (Some n)) false)
                (mkStdVote (mkStdLeaderId t (Some m)) false) = PC None.
Proof. exact std_uncommitted_incomparable. Qed.
Print Assumptions C01_std_uncommitted_incomparable.
Example C01_std_uncommitted_nontrivial : 1 <> 2.
Proof. discriminate. Qed.

Theorem C01_std_committed_beats : forall t n v,
  sl_term (sv_leader v) = t -> sv_committed v = false ->
  std_vote_pcmp (mkStdVote (mkStdLeaderId t (Some n)) true) v = PC (Some Gt).
Proof. exact std_committed_beats. Qed.
Print Assumptions C01_std_committed_beats.
Example C01_std_committed_nontrivial :
  sl_term (sv_leader (mkStdVote (mkStdLeaderId 5 (Some 9)) false)) = 5 /\
  sv_committed (mkStdVote (mkStdLeaderId 5 (Some 9)) false) = false.
Proof. split; reflexivity. Qed.
