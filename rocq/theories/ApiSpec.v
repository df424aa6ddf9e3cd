(** Vocabulary for the calls of the public interface. *)
From stdpp Require Import base numbers option gmap list.
From Verif Require Import Types LogIdList Membership QuorumSpec Api.

(** none of these requests, handled one after the other, changes the voters: each is about
    nodes only or is refused *)
Fixpoint keeps_voters (m : Membership) (bs : list (ChangeMembers * bool)) : Prop :=
  match bs with
  | [] => True
  | b :: r => (requested m b.1 = None \/ exists e, m_change m b.1 b.2 = inr e) /\ keeps_voters (after_request m b) r
  end.
