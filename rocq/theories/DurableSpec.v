(** Vocabulary of the durability property: what a node has promised with an answer, and
    when a disk supports it. *)
From Verif Require Import Types LogIdList Membership RaftState ProgressEntry Engine Store RaftCore NodeSpec LogSpec LogPropSpec.
From stdpp Require Import base numbers option gmap list.

(** the vote a disk holds; a node that never stored one has the initial vote *)
Definition disk_vote (d : Disk) : Vote := default vote_default (dk_vote d).
(** an answer carrying vote [v]: the node does not fall back behind it *)
Definition vote_kept (v : Vote) (d : Disk) : Prop := vote_le v (disk_vote d).
(** a positive answer to the leader of [v] for the entries [es] after [prev]: as long as the
    node has not turned to another leader, the position [prev] and all of the entries are in
    its log, or purged from it *)
Definition append_kept (v : Vote) (prev : option LogId) (es : list Entry) (d : Disk) : Prop :=
  vote_kept v d /\
  (v_leader (disk_vote d) = v_leader v ->
     holds_pos (dk_log d) prev /\
     forall e, e ∈ es -> e ∈ ls_entries (dk_log d) \/ e_index e < next_index (ls_purged (dk_log d))).
(** an instant of a run: [crash_disk k j (nd_store n)] is what a crash leaves when [k] of the
    writes in progress, and [j] entries of the next one, have reached the disk *)
Definition at_any_crash (n : Node) (P : Disk -> Prop) : Prop := forall k j, P (crash_disk k j (nd_store n)).
(** no snapshot is sent to the node *)
Definition no_snapshots (acts : list Action) : Prop := forall now v sn tx, Act now (EMsg (MSnapshot v sn tx)) ∉ acts.
