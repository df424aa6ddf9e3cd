(** Concrete runs for the durability property. *)
From stdpp Require Import base numbers option gmap list.
From Verif Require Import Types LogIdList Membership RaftState ProgressEntry Engine Store RaftCore NodeSpec NodeExamples LogSpec LogPropSpec
  LogExamples DurableSpec.

(** node 2 gets the entries 0 to 3 of leader 1, of which 0 is committed, and then leader 3
    finds that the logs agree up to (1,1,1) *)
Definition ex_d1 : list Action :=
  Act 3 (EMsg (MAppend ex_v1 None (take 4 ex_log1) (Some (ex_lid 0 0 0)) 8)) :: ex_settle 3 ++ [Act 3 ESm; Act 3 ENote].
Definition ex_d2 : list Action :=
  ex_d1 ++ [Act 40 (EMsg (MAppend ex_v3 (Some (ex_lid 1 1 1)) [] None 9))] ++ ex_settle 40 ++ ex_settle 40.
(** and replaces the entries from index 2, of which the first two are durable when the node crashes *)
Definition ex_d3 : list Action :=
  ex_d2 ++ [Act 41 (EMsg (MAppend ex_v3 (Some (ex_lid 1 1 1)) (drop 2 ex_log3) None 10))] ++ ex_settle 41 ++ ex_settle 41 ++
  [Crash 50 0 0 0].
(** leader 3 sends a snapshot up to (2,3,3) instead; the truncation it causes is durable, the snapshot is not *)
Definition ex_d4 : list Action := ex_d2 ++ [Act 41 ex_install] ++ ex_runs 41 2.
Definition ex_acks (x : res (Node * list Out)) : list nat :=
  match x with Ok (_, outs) => omap (fun o => match o with OReply tx (RAppend ASuccess) => Some tx | _ => None end) outs | Panic => [] end.
Definition ex_disk (k j : nat) (x : res (Node * list Out)) : option (Vote * list LogId) :=
  match x with Ok (n, _) => let d := crash_disk k j (nd_store n) in Some (disk_vote d, map e_log_id (ls_entries (dk_log d))) | Panic => None end.
