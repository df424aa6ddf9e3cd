(** Independent specification of quorums and of membership changes. *)
From Verif Require Import Types Membership.
From stdpp Require Import base numbers gmap list.

(** More than half of a voter group. *)
Definition majority (c q : gset nat) : Prop := size c < 2 * size (c ∩ q).
(** A quorum of a (joint) membership has a majority in every group. *)
Definition quorum (cs : list (gset nat)) (q : gset nat) : Prop :=
  forall c, c ∈ cs -> majority c q.

(** Groups are non-empty and every voter has a node record. *)
Definition valid_membership (m : Membership) : Prop :=
  (forall c, c ∈ m_configs m -> c <> ∅) /\
  (forall c id, c ∈ m_configs m -> id ∈ c -> is_Some (m_nodes m !! id)).

Definition voter_of (m : Membership) (id : nat) : Prop :=
  exists c, c ∈ m_configs m /\ id ∈ c.

(** The current (last) voter group. *)
Definition last_group (m : Membership) : gset nat :=
  match last (m_configs m) with Some c => c | None => ∅ end.

(** The voter set a request asks for; [None] for requests about node records. *)
Definition requested (m : Membership) (ch : ChangeMembers) : option (gset nat) :=
  match ch with
  | AddVoterIds ids => Some (last_group m ∪ ids)
  | AddVoters nodes => Some (last_group m ∪ dom nodes)
  | RemoveVoters ids => Some (last_group m ∖ ids)
  | ReplaceAllVoters ids => Some ids
  | AddNodes _ | SetNodes _ | RemoveNodes _ | ReplaceAllNodes _ => None
  end.

(** Voter groups after a request: one step towards the requested set. *)
Definition groups_after (m : Membership) (ch : ChangeMembers) (cs : list (gset nat)) : Prop :=
  match requested m ch with
  | None => cs = m_configs m
  | Some g =>
      (g ∈ m_configs m /\ cs = [g]) \/
      (g ∉ m_configs m /\ m_configs m <> [] /\ cs = [last_group m; g]) \/
      (m_configs m = [] /\ cs = [g])
  end.

(** Node records after a request, for nodes that are not dropped. *)
Definition record_after (m : Membership) (ch : ChangeMembers) (id : nat)
  : option nat :=
  match ch with
  | AddVoterIds _ | RemoveVoters _ | ReplaceAllVoters _ => m_nodes m !! id
  | AddVoters add | AddNodes add =>
      match m_nodes m !! id with Some n => Some n | None => add !! id end
  | SetNodes s => match s !! id with Some n => Some n | None => m_nodes m !! id end
  | RemoveNodes ids => if bool_decide (id ∈ ids) then None else m_nodes m !! id
  | ReplaceAllNodes all => all !! id
  end.
(** Voters removed by a voter request without [retain] lose their record. *)
Definition dropped (m m' : Membership) (ch : ChangeMembers) (retain : bool) (id : nat) : Prop :=
  requested m ch <> None /\ retain = false /\ voter_of m id /\ ~ voter_of m' id.
