(** Model of quorum sets: simple majority and joint. *)
From Verif Require Import Types.
From stdpp Require Import base numbers gmap list.

(** [BTreeSet::is_quorum] (and the identical [Vec] version),
    [quorum/quorum_set_impl.rs:11-23, 36-48]: loop over the iterator with early
    return; [count] grows by 2 per contained id. *)
Fixpoint maj_loop (c : gset nat) (limit count : nat) (ids : list nat) : bool :=
  match ids with
  | [] => false
  | id :: r =>
      if bool_decide (id ∈ c) then
        if limit <? count + 2 then true else maj_loop c limit (count + 2) r
      else maj_loop c limit count r
  end.
Definition maj_is_quorum (c : gset nat) (ids : list nat) : bool :=
  maj_loop c (size c) 0 ids.

(** [Joint::is_quorum], [quorum/joint.rs:56-63, 82-89] *)
Fixpoint joint_is_quorum (cs : list (gset nat)) (ids : list nat) : bool :=
  match cs with
  | [] => true
  | c :: cs => if negb (maj_is_quorum c ids) then false else joint_is_quorum cs ids
  end.

(** [Joint::ids], [quorum/joint.rs:65-71]: union of the children. *)
Fixpoint joint_ids (cs : list (gset nat)) : gset nat :=
  match cs with [] => ∅ | c :: cs => c ∪ joint_ids cs end.

(** [Joint::is_coherent_with(&Joint)], [quorum/coherent_impl.rs:15-25] *)
Definition joint_coherent (a b : list (gset nat)) : bool :=
  existsb (fun x => existsb (fun y => bool_decide (x = y)) b) a.

(** [Joint::is_coherent_with(&QS)], [coherent_impl.rs:51-59] *)
Definition joint_coherent_one (a : list (gset nat)) (c : gset nat) : bool :=
  existsb (fun x => bool_decide (x = c)) a.

(** [find_coherent], [coherent_impl.rs:68-79] *)
Definition find_coherent (a : list (gset nat)) (other : gset nat) : list (gset nat) :=
  if joint_coherent_one a other then [other]
  else match last a with
       | Some lst => [lst; other]
       | None => [other]
       end.
