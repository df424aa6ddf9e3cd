(** Vocabulary for how a leader finds the point up to which a follower's log matches its own
    ([progress/entry/mod.rs]).  A log is written as the full list of its log ids from index 0. *)
From Verif Require Import Types LogIdList LogIdSpec Membership RaftState ProgressEntry.
From stdpp Require Import base numbers option list.

(** The leader's state [s] describes the log [ids]: it knows the last log id, every log id from
    the purge position on, and its snapshot covers at least what may be purged. *)
Record leader_view (s : RaftState) (ids : list LogId) : Prop := {
  lv_consecutive : consecutive 0 ids;
  lv_sorted : leaders_sorted ids;
  lv_last : rs_last s = last ids;
  lv_purge : next_index (rs_purge_upto s) <= length ids;
  lv_get : forall i x, next_index (rs_purge_upto s) <= S i -> ids !! i = Some x ->
             rs_get_log_id s i = Some x;
  lv_snap : next_index (rs_purge_upto s) <= next_index (rs_snap_last s);
  lv_snap_in : forall x, rs_snap_last s = Some x -> ids !! lid_index x = Some x;
}.

(** How many leading log ids two logs have in common. *)
Fixpoint shared (ids f : list LogId) : nat :=
  match ids, f with
  | x :: ids', y :: f' => if bool_decide (x = y) then S (shared ids' f') else 0
  | _, _ => 0
  end.
(** Logs match: a log id found in both has the same log ids before it. *)
Definition logs_match (ids f : list LogId) : Prop :=
  forall i x, ids !! i = Some x -> f !! i = Some x -> take (S i) ids = take (S i) f.

(** A follower with log [f] accepts a request whose previous log id it has... *)
Definition accepts (f : list LogId) (prev : option LogId) : Prop :=
  match prev with None => True | Some x => f !! lid_index x = Some x end.
(** ... and then holds the first [n] log ids of the leader; what it has beyond them stays only
    if nothing before conflicts. *)
Definition stored (ids : list LogId) (n : nat) (f : list LogId) : list LogId :=
  if bool_decide (take n f = take n ids) then f else take n ids.

(** Leader and one follower.  [x_ids] is the leader's log, [x_f] the follower's. *)
Record Exch := mkX { x_s : RaftState; x_ids : list LogId; x_pe : ProgressEntry; x_f : list LogId }.

Inductive XStep := XSend | XReply | XLeader | XError.
(** What can happen between them, [max] being the limit on the entries of a request:
    - the leader sends the next request, if there is one;
    - the follower has the previous log id and stores entries up to [x], the last one of the
      request or, if the request was cut, one before it;
    - the follower lacks the previous log id;
    - the follower installs the leader's snapshot;
    - the request fails and the leader forgets it;
    - the leader appends, purges or builds a snapshot. *)
Inductive xstep (max : nat) : XStep -> Exch -> Exch -> Prop :=
| xs_send s ids pe f pe' :
    pe_next_send s max pe = (pe', true) -> xstep max XSend (mkX s ids pe f) (mkX s ids pe' f)
| xs_success s ids pe f pe' r x y :
    pe_inflight pe = InfLogs r -> accepts f (lr_prev r) -> lr_last r = Some y ->
    ids !! lid_index x = Some x -> next_index (lr_prev r) <= lid_index x <= lid_index y ->
    pe_update_matching pe (Some x) = Ok pe' ->
    xstep max XReply (mkX s ids pe f) (mkX s ids pe' (stored ids (S (lid_index x)) f))
| xs_conflict s ids pe f pe' r c :
    pe_inflight pe = InfLogs r -> lr_prev r = Some c -> ~ accepts f (Some c) ->
    pe_update_conflicting pe (lid_index c) = Ok pe' ->
    xstep max XReply (mkX s ids pe f) (mkX s ids pe' f)
| xs_snapshot s ids pe f pe' x :
    pe_inflight pe = InfSnapshot (Some x) -> pe_update_matching pe (Some x) = Ok pe' ->
    xstep max XReply (mkX s ids pe f) (mkX s ids pe' (stored ids (S (lid_index x)) f))
| xs_error s ids pe f :
    xstep max XError (mkX s ids pe f) (mkX s ids (pe_set_inflight InfNone pe) f)
| xs_leader s ids pe f s' new :
    leader_view s' (ids ++ new) -> (forall x, x ∈ new -> x ∉ f) ->
    xstep max XLeader (mkX s ids pe f) (mkX s' (ids ++ new) pe f).

Inductive xrun (max : nat) : list XStep -> Exch -> Exch -> Prop :=
| xr_nil a : xrun max [] a a
| xr_cons k ks a b c : xstep max k a b -> xrun max ks b c -> xrun max (k :: ks) a c.

(** The start: nothing is known of a follower with any log that matches. *)
Definition xstart (x : Exch) : Prop :=
  leader_view (x_s x) (x_ids x) /\ logs_match (x_ids x) (x_f x) /\
  x_pe x = pe_empty (next_index (rs_last (x_s x))).

(** The ends of the interval the leader searches. *)
Definition x_low (x : Exch) : nat := next_index (pe_matching (x_pe x)).
Definition x_high (x : Exch) : nat := pe_searching_end (x_pe x).
Definition replies (ks : list XStep) : nat :=
  length (List.filter (fun k => match k with XReply => true | _ => false end) ks).
