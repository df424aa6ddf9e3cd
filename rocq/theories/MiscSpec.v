(** Vocabulary for the properties of the balancer and the chunked transport. *)
From Verif Require Import Types Runtime Transport.
From stdpp Require Import base list.

(** the adjustments the message loop makes *)
Inductive BalOp := BIncNote | BIncRaft.
Definition bal_op (o : BalOp) (b : Balancer) : Balancer :=
  match o with BIncNote => bal_increase_notification b | BIncRaft => bal_increase_raft_msg b end.

(** faults of a transport that may lose requests and replies but delivers no request of
    this transfer late, i.e. after the sender has given up waiting for it; requests of
    other senders are for other snapshots *)
Definition no_delay (id : nat) (f : Fault) : Prop :=
  match f with FDelayed _ => False | FOther req => ck_id req <> id | _ => True end.
