(** Properties of the quorum-acknowledged position (C15). *)
From stdpp Require Import base numbers gmap list.
From Verif Require Import Types Quorum QuorumSpec QuorumProofs Progress ProgressSpec ProgressProofs.

(** C15, full statement, is FALSE of the code: with five voters, the history
    a:=6, b:=4, b:=8, c:=7 makes the leader regard 7 as granted although only two of
    five voters have acknowledged 7 ([progress/mod.rs:358]: a voter that is already
    above the granted value is not moved up when it is raised again). *)
Theorem C15_greatest_quorum_value_refuted :
  exists (qs : list (gset nat)) (hist : list (nat * nat)),
    tracked_ok qs [] /\
    let vp := vp_acks Nat.leb id (vp_new id qs [] 0) (fun v x => pltb Nat.leb x v) hist in
    ~ quorum_value Nat.leb qs (fun j => Some (acked Nat.leb 0 hist j)) (vp_granted vp).
Proof. exact progress_refuted. Qed.
Print Assumptions C15_greatest_quorum_value_refuted.

(** It is true of the code when there is one voter group of at most three voters. *)
Theorem C15_up_to_three_voters_partial :
  forall {P : Type} (pleb : P -> P -> bool) (c : gset nat) learners dflt hist,
    total_order pleb -> tracked_ok [c] learners -> size c <= 3 ->
    let vp := vp_acks pleb id (vp_new id [c] learners dflt) (fun v x => pltb pleb x v) hist in
    greatest_quorum_value pleb [c] (fun j => Some (acked pleb dflt hist j)) (vp_granted vp).
Proof. exact (@progress_three). Qed.
Print Assumptions C15_up_to_three_voters_partial.

(** For any quorum set, one acknowledgement keeps it true provided the acknowledging
    voter was not above the granted value before, or does not overtake a voter placed
    before it (missing: a voter above the granted value overtaking another one). *)
Theorem C15_in_order_step_partial :
  forall {V P : Type} (pleb : P -> P -> bool) (borrow : V -> P) (vp : VecProgress V P) j f v,
    total_order pleb -> good pleb borrow vp ->
    vp_get vp j = Some v -> pleb (borrow v) (borrow (f v)) = true ->
    pleb (borrow v) (vp_granted vp) = true \/ in_order pleb borrow vp j (borrow (f v)) ->
    let vp' := (vp_update_with pleb borrow vp j f).1 in
    good pleb borrow vp' /\
    greatest_quorum_value pleb (vp_qs vp) (fun i => borrow <$> vp_get vp' i) (vp_granted vp') /\
    (forall i, vp_get vp' i = if decide (i = j) then Some (f v) else vp_get vp i).
Proof. exact (@progress_step). Qed.
Print Assumptions C15_in_order_step_partial.

(** With the re-sorting condition repaired it is true for every quorum set. *)
Theorem C15_repaired_greatest_quorum_value :
  forall {P : Type} (pleb : P -> P -> bool) qs learners dflt hist,
    total_order pleb -> tracked_ok qs learners ->
    let vp := vp_acks_sorted pleb id (vp_new id qs learners dflt) (fun v x => pltb pleb x v) hist in
    greatest_quorum_value pleb qs (fun j => Some (acked pleb dflt hist j)) (vp_granted vp).
Proof. exact (@progress_repaired). Qed.
Print Assumptions C15_repaired_greatest_quorum_value.

(** Rebuilding the tracker for a new membership (whatever state it was in, also a
    broken order) yields the greatest quorum value of the new membership, keeps the
    value of every tracked node and starts the others at the default. *)
Theorem C15_rebuild_is_greatest :
  forall {V P : Type} (pleb : P -> P -> bool) (borrow : V -> P) (vp : VecProgress V P) qs learners dflt,
    total_order pleb -> tracked_ok qs learners ->
    NoDup (map fst (vp_vec vp)) ->
    (forall e, e ∈ vp_vec vp -> pleb (borrow dflt) (borrow e.2) = true) ->
    let vp' := vp_upgrade pleb borrow vp qs learners dflt in
    greatest_quorum_value pleb qs (fun i => borrow <$> vp_get vp' i) (vp_granted vp') /\
    (forall i, (exists c, c ∈ qs /\ i ∈ c) \/ i ∈ learners ->
       vp_get vp' i = Some (match vp_get vp i with Some v => v | None => dflt end)) /\
    (forall i, ~ ((exists c, c ∈ qs /\ i ∈ c) \/ i ∈ learners) -> vp_get vp' i = None).
Proof. exact (@progress_rebuild). Qed.
Print Assumptions C15_rebuild_is_greatest.

(** The granted value never decreases, and every node's value is exactly the greatest
    it acknowledged (both also in histories where the order is broken). *)
Theorem C15_never_decreases :
  forall {P : Type} (pleb : P -> P -> bool) qs learners dflt hist1 hist2,
    total_order pleb -> tracked_ok qs learners ->
    let run := fun h => vp_acks pleb id (vp_new id qs learners dflt) (fun v x => pltb pleb x v) h in
    pleb (vp_granted (run hist1)) (vp_granted (run (hist1 ++ hist2))) = true /\
    (forall j, (exists c, c ∈ qs /\ j ∈ c) \/ j ∈ learners ->
       vp_get (run hist1) j = Some (acked pleb dflt hist1 j)).
Proof. exact (@progress_monotone). Qed.
Print Assumptions C15_never_decreases.

(** Acknowledgements of nodes that are not voters never change the granted value. *)
Theorem C15_learners_never_contribute :
  forall {P : Type} (pleb : P -> P -> bool) qs learners dflt hist j v,
    total_order pleb -> tracked_ok qs learners -> (forall c, c ∈ qs -> j ∉ c) ->
    let run := fun h => vp_acks pleb id (vp_new id qs learners dflt) (fun v x => pltb pleb x v) h in
    vp_granted (run (hist ++ [(j, v)])) = vp_granted (run hist).
Proof. exact (@progress_learner). Qed.
Print Assumptions C15_learners_never_contribute.

(** Non-trivial instances. *)
Example C15_three_voters_example :
  let h := [(1, 6); (2, 4); (7, 9); (2, 8); (3, 7)] in
  tracked_ok [list_to_set [1; 2; 3]] [7] /\
  vp_granted (vp_acks Nat.leb id (vp_new id [list_to_set [1; 2; 3]] [7] 0) (fun v x => pltb Nat.leb x v) h) = 7.
Proof. split; [exact progress_example_tracked|vm_compute; reflexivity]. Qed.
Example C15_joint_repaired_example :
  let qs := [list_to_set [1; 2; 3; 4; 5]; list_to_set [1; 2; 6]] in
  let h := [(1, 6); (2, 4); (2, 8); (3, 7); (6, 9)] in
  vp_granted (vp_acks_sorted Nat.leb id (vp_new id qs [7] 0) (fun v x => pltb Nat.leb x v) h) = 6 /\
  vp_granted (vp_acks Nat.leb id (vp_new id qs [7] 0) (fun v x => pltb Nat.leb x v) h) = 7.
Proof. split; vm_compute; reflexivity. Qed.
