(** Model of [VecProgress], [progress/mod.rs], generic in the entry type [V], the
    progress type [P] and its order ([V: Borrow<P>], [P: PartialOrd], total in all
    uses: [Option<LogId>], [Option<Instant>], [bool]).  The statistics field is not
    modelled. *)
From Verif Require Import Types Quorum.
From stdpp Require Import base numbers gmap sorting list.

Section progress.
  Context {V P : Type}.
  Context (pleb : P -> P -> bool) (borrow : V -> P).

  Definition pltb (a b : P) : bool := negb (pleb b a).

  (** [progress/mod.rs:116-143] *)
  Record VecProgress := mkVP {
    vp_qs : list (gset nat);
    vp_granted : P;
    vp_voters : nat;
    vp_vec : list (nat * V);
  }.

  (** [quorum_set.ids()]: ascending ids of a [BTreeSet] *)
  Definition sorted_ids (s : gset nat) : list nat := merge_sort Nat.le (elements s).

  (** [new], [progress/mod.rs:216-230] *)
  Definition vp_new (qs : list (gset nat)) (learners : list nat) (dflt : V) : VecProgress :=
    let voters := map (fun id => (id, dflt)) (sorted_ids (joint_ids qs)) in
    mkVP qs (borrow dflt) (length voters) (voters ++ map (fun id => (id, dflt)) learners).

  (** [index], [progress/mod.rs:234-243] *)
  Fixpoint vp_index (vec : list (nat * V)) (target : nat) : option nat :=
    match vec with
    | [] => None
    | e :: r => if e.1 =? target then Some 0
                else match vp_index r target with Some i => Some (S i) | None => None end
    end.

  (** [move_up], [progress/mod.rs:247-259]: [index] counts down *)
  Fixpoint move_up (index : nat) (vec : list (nat * V)) : list (nat * V) * nat :=
    match index with
    | 0 => (vec, 0)
    | S i =>
        match vec !! i, vec !! S i with
        | Some a, Some b =>
            if pltb (borrow a.2) (borrow b.2)
            then move_up i (<[i := b]> (<[S i := a]> vec))
            else (vec, S i)
        | _, _ => (vec, S i) (* not reachable: index < length *)
        end
    end.

  (** the [for] loop, [progress/mod.rs:363-380]; [n] is [voter_count - i] *)
  Fixpoint find_granted (qs : list (gset nat)) (granted : P) (vec : list (nat * V))
      (i n : nat) : P :=
    match n with
    | 0 => granted
    | S n =>
        match vec !! i with
        | None => granted (* not reachable *)
        | Some e =>
            if pleb (borrow e.2) granted then granted
            else if joint_is_quorum qs (map fst (take (S i) vec)) then borrow e.2
            else find_granted qs granted vec (S i) n
        end
    end.

  (** [update_with], [progress/mod.rs:320-384].  The boolean is [true] for [Ok],
      [false] for [Err] (id not found).  [always_sort] is [false] for the code; with
      [true] it is the repaired version used to state what is missing: the moved
      element is re-sorted whenever it ends up above [granted]. *)
  Definition vp_update_gen (always_sort : bool) (vp : VecProgress) (id : nat) (f : V -> V)
    : VecProgress * bool :=
    match vp_index (vp_vec vp) id with
    | None => (vp, false)
    | Some index =>
        match vp_vec vp !! index with
        | None => (vp, false) (* not reachable *)
        | Some elt =>
            let prev := borrow elt.2 in
            let v' := f elt.2 in
            let vec1 := <[index := (elt.1, v')]> (vp_vec vp) in
            let vp1 := mkVP (vp_qs vp) (vp_granted vp) (vp_voters vp) vec1 in
            let prev_le_granted := pleb prev (vp_granted vp) in
            let new_gt_granted := pltb (vp_granted vp) (borrow v') in
            if pleb prev (borrow v') && pleb (borrow v') prev then (vp1, true)
            else if vp_voters vp <=? index then (vp1, true)
            else if (prev_le_granted || always_sort) && new_gt_granted then
              let '(vec2, new_index) := move_up index vec1 in
              (mkVP (vp_qs vp)
                    (find_granted (vp_qs vp) (vp_granted vp) vec2 new_index (vp_voters vp - new_index))
                    (vp_voters vp) vec2, true)
            else (vp1, true)
        end
    end.
  Definition vp_update_with : VecProgress -> nat -> (V -> V) -> VecProgress * bool :=
    vp_update_gen false.
  Definition vp_update (vp : VecProgress) (id : nat) (v : V) : VecProgress * bool :=
    vp_update_with vp id (fun _ => v).

  (** [increase_to], [progress/mod.rs:58-65]; [vgt] is [>] on entries *)
  Definition vp_increase_to (vgt : V -> V -> bool) (vp : VecProgress) (id : nat) (v : V)
    : VecProgress * bool :=
    vp_update_with vp id (fun x => if vgt v x then v else x).

  (** a history of [increase_to] calls; [vp_acks_sorted] is the same history run on the
      repaired version *)
  Definition vp_acks (vp : VecProgress) (vgt : V -> V -> bool) (hist : list (nat * V)) : VecProgress :=
    foldl (fun vp a => (vp_increase_to vgt vp a.1 a.2).1) vp hist.
  Definition vp_acks_sorted (vp : VecProgress) (vgt : V -> V -> bool) (hist : list (nat * V)) : VecProgress :=
    foldl (fun vp a => (vp_update_gen true vp a.1 (fun x => if vgt a.2 x then a.2 else x)).1) vp hist.

  (** [try_get], [progress/mod.rs:387-390] *)
  Definition vp_get (vp : VecProgress) (id : nat) : option V :=
    match vp_index (vp_vec vp) id with
    | None => None
    | Some i => match vp_vec vp !! i with Some e => Some e.2 | None => None end
    end.
  (** assignment through [get_mut], [progress/mod.rs:392-395] *)
  Definition vp_set (vp : VecProgress) (id : nat) (v : V) : VecProgress :=
    match vp_index (vp_vec vp) id with
    | None => vp
    | Some i => mkVP (vp_qs vp) (vp_granted vp) (vp_voters vp) (<[i := (id, v)]> (vp_vec vp))
    end.

  (** [upgrade_quorum_set], [progress/mod.rs:417-431] *)
  Definition vp_upgrade (vp : VecProgress) (qs : list (gset nat)) (learners : list nat) (dflt : V)
    : VecProgress :=
    foldl (fun acc e => (vp_update acc e.1 e.2).1) (vp_new qs learners dflt) (vp_vec vp).

  (** [is_voter], [progress/mod.rs:433-436] *)
  Definition vp_is_voter (vp : VecProgress) (id : nat) : option bool :=
    match vp_index (vp_vec vp) id with
    | None => None
    | Some i => Some (i <? vp_voters vp)
    end.
End progress.
Arguments VecProgress : clear implicits.
Arguments mkVP {V P}.
Arguments vp_qs {V P}. Arguments vp_granted {V P}. Arguments vp_voters {V P}. Arguments vp_vec {V P}.
