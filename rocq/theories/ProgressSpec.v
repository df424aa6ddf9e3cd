(** Independent specification of "the greatest value acknowledged by a quorum". *)
From Verif Require Import Types Quorum QuorumSpec.
From stdpp Require Import base numbers gmap list.

(** the voter groups are non-empty and the learners are distinct non-voters *)
Definition tracked_ok (qs : list (gset nat)) (learners : list nat) : Prop :=
  qs <> [] /\ (forall c, c ∈ qs -> c <> ∅) /\ NoDup learners /\
  (forall x c, x ∈ learners -> c ∈ qs -> x ∉ c).

Section spec.
  Context {P : Type} (pleb : P -> P -> bool).

  (** voters whose acknowledged value is at least [p]; [val] gives the value of a node *)
  Definition voters_at (qs : list (gset nat)) (val : nat -> option P) (p : P) : gset nat :=
    filter (fun id => match val id with Some v => pleb p v | None => false end = true) (joint_ids qs).

  (** [p] is acknowledged by a quorum *)
  Definition quorum_value (qs : list (gset nat)) (val : nat -> option P) (p : P) : Prop :=
    quorum qs (voters_at qs val p).

  (** [g] is the greatest such value *)
  Definition greatest_quorum_value (qs : list (gset nat)) (val : nat -> option P) (g : P) : Prop :=
    quorum_value qs val g /\ forall p, pleb p g = false -> ~ quorum_value qs val p.

  (** [<=] is reflexive, transitive and total *)
  Definition total_order : Prop :=
    (forall a, pleb a a = true) /\
    (forall a b c, pleb a b = true -> pleb b c = true -> pleb a c = true) /\
    (forall a b, pleb a b = true \/ pleb b a = true).

  (** the later of two values *)
  Definition later (x y : P) : P := if negb (pleb y x) then y else x.

  (** the greatest value node [j] has acknowledged in a history of acknowledgements *)
  Definition acked (dflt : P) (hist : list (nat * P)) (j : nat) : P :=
    foldl (fun m a => if decide (j = a.1) then later m a.2 else m) dflt hist.
End spec.
