(** Concrete runs of a node, used to show that the hypotheses of the theorems are met. *)
From Verif Require Import Types LogIdList Quorum Membership Progress RaftState ProgressEntry Engine Store RaftCore NodeSpec.
From stdpp Require Import base option gmap list.

Definition ex_cfg (id : nat) : EngineConfig := mkEC id (Some 4) 1 1 2 10 20 5.
Definition ex_members : gmap nat nat := {[1 := 11; 2 := 12; 3 := 13]}.
(** run [k] commands *)
Definition ex_runs (now k : nat) : list Action := repeat (Act now ERun) k.
(** everything durable and acknowledged *)
Definition ex_settle (now : nat) : list Action :=
  ex_runs now 6 ++ [Act now (EFlush 9); Act now (ECallback 0); Act now ENote; Act now ENote; Act now ENote] ++ ex_runs now 6.
(** node 1 starts, is initialized, and campaigns; its own grant is counted *)
Definition ex_init : list Action := Act 1 (EMsg (MInitialize ex_members 7)) :: ex_settle 1.
Definition ex_vote1 : Vote := mkVote (mkLeaderId 1 1) false.
Definition ex_grant2 : Action := Act 2 (EReply (TagVote ex_vote1 2) (RVote (mkVoteResp ex_vote1 None true))).
Definition ex_stale2 : Action := Act 2 (EReply (TagVote ex_vote1 2) (RVote (mkVoteResp (mkVote (mkLeaderId 0 2) false) None true))).
(** up to the step that makes it leader *)
Definition ex_before_lead : list Action := ex_init ++ [ex_stale2; Act 2 ENote; ex_grant2].
Definition ex_lead : list Action := ex_before_lead ++ [Act 2 ENote].
(** node 1 leading, its blank entry durable *)
Definition ex_leading : list Action := ex_lead ++ ex_settle 2.
Definition ex_node (acts : list Action) : res (Node * list Out) :=
  let! n := node_fresh 0 (ex_cfg 1) in node_run acts n.
(** node 2, following leader 1 *)
Definition ex_lid (t n i : nat) : LogId := mkLogId (mkLeaderId t n) i.
Definition ex_mem : Membership := mkMembership [{[1; 2; 3]}] ex_members.
Definition ex_entries : list Entry :=
  [mkEntry (ex_lid 0 0 0) (PMembership ex_mem); mkEntry (ex_lid 1 1 1) PBlank; mkEntry (ex_lid 1 1 2) (PNormal 5)].
Definition ex_append2 (now : nat) : Action :=
  Act now (EMsg (MAppend (mkVote (mkLeaderId 1 1) true) None ex_entries (Some (ex_lid 1 1 1)) 8)).
Definition ex_follow : list Action := ex_append2 3 :: ex_settle 3.
Definition ex_node2 (acts : list Action) : res (Node * list Out) :=
  let! n := node_fresh 0 (ex_cfg 2) in node_run acts n.

Definition ok_or {A} (d : A) (x : res A) : A := match x with Ok a => a | Panic => d end.
