(** Vocabulary for the quorum-acknowledged time: what a leader is told and asked. *)
From Verif Require Import Types LogIdList Quorum Membership Progress RaftState ProgressEntry Engine LeaderTime.
From stdpp Require Import base numbers option list.

Inductive TimeOp :=
| TAck (node time : nat)     (* a reply of [node] to a request sent at [time] is counted *)
| TReport (now : nat).       (* the time is asked for *)
Definition time_step (op : TimeOp) (e : Engine) : res Engine :=
  match op with
  | TAck node t => rh_update_clock node t e
  | TReport now => Ok (quorum_acked now e).1
  end.
Fixpoint time_run (ops : list TimeOp) (e : Engine) : res Engine :=
  match ops with
  | [] => Ok e
  | op :: r => let! e1 := time_step op e in time_run r e1
  end.

(** node [j] vouches for time [t]: it replied to a request sent at [t] or later, or it is the
    leader itself, which was asked at [t] or later *)
Definition vouches (me : nat) (ops : list TimeOp) (t j : nat) : Prop :=
  exists s, t <= s /\ (TAck j s ∈ ops \/ (j = me /\ TReport s ∈ ops)).
