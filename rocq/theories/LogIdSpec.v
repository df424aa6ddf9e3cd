(** Specification of the log-id index: the full list of log ids. *)
From Verif Require Import Types LogIdList.
From stdpp Require Import base numbers list.

(** [ids] holds log ids of consecutive indexes starting at [b]. *)
Definition consecutive (b : nat) (ids : list LogId) : Prop :=
  forall k x, ids !! k = Some x -> lid_index x = b + k.

(** Looking up the log id with a given index in a full list. *)
Definition ids_get (ids : list LogId) (i : nat) : option LogId :=
  List.find (fun x => lid_index x =? i) ids.

(** The part of the log below / from an index. *)
Definition ids_before (ids : list LogId) (at_ : nat) : list LogId :=
  List.filter (fun x => lid_index x <? at_) ids.
Definition ids_from (ids : list LogId) (at_ : nat) : list LogId :=
  List.filter (fun x => at_ <=? lid_index x) ids.

(** Non-decreasing leader ids. *)
Definition leaders_sorted (ids : list LogId) : Prop :=
  forall i j x y, i <= j -> ids !! i = Some x -> ids !! j = Some y ->
    leader_leb (lid_leader x) (lid_leader y) = true.

(** The compact form, defined by reading every log id: keep a log id if its leader
    differs from that of its predecessor, and always keep the last. *)
Fixpoint firsts (prev : option LeaderId) (ids : list LogId) : list LogId :=
  match ids with
  | [] => []
  | x :: r =>
      if bool_decide (prev = Some (lid_leader x)) then firsts prev r
      else x :: firsts (Some (lid_leader x)) r
  end.
Definition compress (ids : list LogId) : list LogId :=
  let f := firsts None ids in
  match last ids with
  | None => f
  | Some l => if bool_decide (last f = Some l) then f else f ++ [l]
  end.

(** The log ids proposed by the leader of the last log id: the maximal suffix with
    that leader. *)
Fixpoint last_run (ids : list LogId) : list LogId :=
  match ids with
  | [] => []
  | x :: r =>
      if forallb (fun y => leader_eqb (lid_leader x) (lid_leader y)) r then x :: r
      else last_run r
  end.
(** The first and the last element of a run. *)
Definition run_ends (run : list LogId) : list LogId :=
  match run with
  | [] => []
  | [x] => [x]
  | x :: r => match last r with Some y => [x; y] | None => [x] end
  end.

(** Purging keeps the purged position itself as the first known log id; purging
    beyond the end leaves just that position. *)
Definition ids_purge (ids : list LogId) (upto : LogId) : list LogId :=
  if next_index (last ids) <=? lid_index upto then [upto] else ids_from ids (lid_index upto).

(** Effect of a call on the full list, and the calls that keep it in order. *)
Definition ids_step (ids : list LogId) (op : LilOp) : list LogId :=
  match op with
  | OAppend x => ids ++ [x]
  | OExtend l | OExtendSame l => ids ++ l
  | OTruncate at_ => ids_before ids at_
  | OPurge upto => ids_purge ids upto
  end.
Definition op_ok (ids : list LogId) (op : LilOp) : Prop :=
  match op with
  | OAppend x => exists b, consecutive b (ids ++ [x])
  | OExtend l => exists b, consecutive b (ids ++ l)
  | OExtendSame l =>
      (exists b, consecutive b (ids ++ l)) /\ exists L, Forall (fun x => lid_leader x = L) l
  | OTruncate _ | OPurge _ => True
  end.
Fixpoint ids_run (ids : list LogId) (ops : list LilOp) : list LogId :=
  match ops with [] => ids | op :: ops => ids_run (ids_step ids op) ops end.
Fixpoint ops_ok (ids : list LogId) (ops : list LilOp) : Prop :=
  match ops with [] => True | op :: ops => op_ok ids op /\ ops_ok (ids_step ids op) ops end.
