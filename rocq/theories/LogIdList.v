(** Model of the compact log-id index, [engine/log_id_list.rs].
    [LogIdList{key_log_ids}] is represented by the plain list of key log ids. *)
From Verif Require Import Types.
From stdpp Require Import base numbers list gmap.

(** [Vec::binary_search_by(|x| x.index.cmp(&at))]: [inl i] for [Ok(i)], [inr i] for
    [Err(i)].  Rust's binary search is modelled by its specification on a vector
    strictly sorted by index (the only use): the position of the match, or the
    number of smaller elements. *)
Fixpoint bsearch (keys : list LogId) (at_ : nat) : nat + nat :=
  match keys with
  | [] => inr 0
  | x :: r =>
      if lid_index x =? at_ then inl 0
      else if lid_index x <? at_ then
        match bsearch r at_ with inl i => inl (S i) | inr i => inr (S i) end
      else inr 0
  end.

(** [LogIdList::append], [log_id_list.rs:181-216] *)
Definition lil_append (keys : list LogId) (new_log_id : LogId) : list LogId :=
  let l := length keys in
  if l =? 0 then [new_log_id]
  else if l =? 1 then keys ++ [new_log_id]
  else
    match keys !! (l - 1), keys !! (l - 2) with
    | Some last, Some prev =>
        if leader_eqb (lid_leader prev) (lid_leader last)
        then <[l - 1 := new_log_id]> keys
        else keys ++ [new_log_id]
    | _, _ => keys ++ [new_log_id] (* not reachable: l >= 2 *)
    end.

(** [extend_from_same_leader], [log_id_list.rs:133-147].  The release-mode
    [assert_eq!] of line 140 is not a branch here: the caller
    ([leader_append_entries]) passes ids of one leader. *)
Definition lil_extend_same (keys : list LogId) (new_ids : list LogId) : list LogId :=
  match new_ids with
  | [] => keys
  | first :: _ =>
      let keys1 := lil_append keys first in
      match last new_ids with
      | Some lst => if logid_eqb lst first then keys1 else lil_append keys1 lst
      | None => keys1
      end
  end.

(** the [for] loop of [extend], [log_id_list.rs:154-162] *)
Fixpoint lil_extend_loop (keys : list LogId) (prev : option LeaderId) (new_ids : list LogId)
  : list LogId :=
  match new_ids with
  | [] => keys
  | x :: r =>
      match prev with
      | Some p =>
          if leader_eqb p (lid_leader x) then lil_extend_loop keys prev r
          else lil_extend_loop (lil_append keys x) (Some (lid_leader x)) r
      | None => lil_extend_loop (lil_append keys x) (Some (lid_leader x)) r
      end
  end.

(** [extend], [log_id_list.rs:151-171] *)
Definition lil_extend (keys : list LogId) (new_ids : list LogId) : list LogId :=
  let keys1 := lil_extend_loop keys (lid_leader <$> last keys) new_ids in
  match last new_ids with
  | None => keys1
  | Some lst =>
      if ologid_eqb (last keys1) (Some lst) then keys1 else lil_append keys1 lst
  end.

(** [truncate], [log_id_list.rs:220-243] *)
Definition lil_truncate (keys : list LogId) (at_ : nat) : list LogId :=
  let go (i : nat) :=
    let keys1 := take i keys in
    match last keys1 with
    | None => keys1
    | Some lst =>
        if lid_index lst <? at_ - 1
        then lil_append keys1 (mkLogId (lid_leader lst) (at_ - 1))
        else keys1
    end in
  match bsearch keys at_ with
  | inl i => go i
  | inr i => if i =? length keys then keys else go i
  end.

(** [purge], [log_id_list.rs:247-274] *)
Definition lil_purge (keys : list LogId) (upto : LogId) : list LogId :=
  if next_index (last keys) <=? lid_index upto then [upto]
  else
    match head keys with
    | None => keys (* not reachable: [next_index None = 0] *)
    | Some k0 =>
        if lid_index upto <? lid_index k0 then keys
        else
          match bsearch keys (lid_index upto) with
          | inl i => if 0 <? i then drop i keys else keys
          | inr i =>
              match drop (i - 1) keys with
              | k :: r => mkLogId (lid_leader k) (lid_index upto) :: r
              | [] => []
              end
          end
    end.

(** [get], [log_id_list.rs:279-292] *)
Definition lil_get (keys : list LogId) (index : nat) : option LogId :=
  match bsearch keys index with
  | inl i => match keys !! i with
             | Some k => Some (mkLogId (lid_leader k) index)
             | None => None
             end
  | inr i =>
      if (i =? 0) || (i =? length keys) then None
      else match keys !! (i - 1) with
           | Some k => Some (mkLogId (lid_leader k) index)
           | None => None
           end
  end.

(** [first]/[last], [log_id_list.rs:294-300] *)
Definition lil_first (keys : list LogId) : option LogId := head keys.
Definition lil_last (keys : list LogId) : option LogId := last keys.

(** [by_last_leader], [log_id_list.rs:313-326] *)
Definition lil_by_last_leader (keys : list LogId) : list LogId :=
  let l := length keys in
  if l <? 2 then keys
  else
    match keys !! (l - 1), keys !! (l - 2) with
    | Some a, Some b =>
        if leader_eqb (lid_leader a) (lid_leader b) then drop (l - 2) keys
        else drop (l - 1) keys
    | _, _ => keys (* not reachable *)
    end.

(** A call on the index.  The engine uses [extend] for entries of a replication
    message ([raft_state/mod.rs:259] [extend_log_ids]), [extend_from_same_leader]
    for proposals, [truncate] and [purge]. *)
Inductive LilOp :=
| OAppend (x : LogId)
| OExtend (l : list LogId)
| OExtendSame (l : list LogId)
| OTruncate (at_ : nat)
| OPurge (upto : LogId).
Definition lil_step (keys : list LogId) (op : LilOp) : list LogId :=
  match op with
  | OAppend x => lil_append keys x
  | OExtend l => lil_extend keys l
  | OExtendSame l => lil_extend_same keys l
  | OTruncate at_ => lil_truncate keys at_
  | OPurge upto => lil_purge keys upto
  end.
Fixpoint lil_run (keys : list LogId) (ops : list LilOp) : list LogId :=
  match ops with [] => keys | op :: ops => lil_run (lil_step keys op) ops end.

(** ** [load_log_ids], [log_id_list.rs:46-118] *)

(** [res.last().map(|x| x.leader_id) < Some(first.leader_id)] then [res.push(first)],
    lines 78-80, 86-88, 97-99 *)
Definition load_push (res : list LogId) (first : LogId) : list LogId :=
  match last res with
  | None => res ++ [first]
  | Some r => if leader_ltb (lid_leader r) (lid_leader first) then res ++ [first] else res
  end.

Inductive LoadRes :=
| LoadOk (keys : list LogId)
| LoadErr (index : nat)   (** [StorageError]: no entry at this index *)
| LoadFuel.               (** model artefact: fuel exhausted *)

(** the [loop], lines 68-111; [sto i] is [sto.get_log_id(i)], [None] an error *)
Fixpoint load_loop (fuel : nat) (sto : nat -> option LogId)
    (stack : list (LogId * LogId)) (res : list LogId) : LoadRes :=
  match fuel with
  | 0 => LoadFuel
  | S fuel =>
      match stack with
      | [] => LoadOk res
      | (first, lst) :: stack =>
          if leader_eqb (lid_leader first) (lid_leader lst) then
            load_loop fuel sto stack (load_push res first)
          else if S (lid_index first) =? lid_index lst then
            load_loop fuel sto stack (load_push res first ++ [lst])
          else
            let m := Nat.div (lid_index first + lid_index lst) 2 in
            match sto m with
            | None => LoadErr m
            | Some mid =>
                if leader_eqb (lid_leader first) (lid_leader mid) then
                  load_loop fuel sto ((mid, lst) :: stack) (load_push res first)
                else if leader_eqb (lid_leader mid) (lid_leader lst) then
                  load_loop fuel sto ((first, mid) :: stack) res
                else
                  load_loop fuel sto ((first, mid) :: (mid, lst) :: stack) res
            end
      end
  end.

Definition load_log_ids (fuel : nat) (last_purged last_log_id : option LogId)
    (sto : nat -> option LogId) : LoadRes :=
  match last_log_id with
  | None => LoadOk []
  | Some lst =>
      let run (first : LogId) :=
        match load_loop fuel sto [(first, lst)] [] with
        | LoadOk res =>
            if ologid_eqb (last res) (Some lst) then LoadOk res else LoadOk (res ++ [lst])
        | e => e
        end in
      match last_purged with
      | Some p => run p
      | None => match sto 0 with None => LoadErr 0 | Some f => run f end
      end
  end.
