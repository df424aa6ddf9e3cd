(** Concrete histories for the theorems about the quorum-acknowledged time. *)
From Verif Require Import Types LogIdList Quorum QuorumSpec Membership Progress ProgressSpec RaftState ProgressEntry Engine Store RaftCore
  NodeSpec NodeExamples LeaderTime TimeSpec.
From stdpp Require Import base numbers option gmap list.

(** node 1, leading voters 1, 2, 3; a heartbeat is asked for at 40 and sent to node 2... *)
Definition tx_sent : list Action :=
  ex_leading ++ [Act 40 (EMsg MHeartbeat); Act 40 ERun; Act 40 ERun; Act 40 (EHeartbeatSend 2)].
Definition tx_vote : Vote := mkVote (mkLeaderId 1 1) true.
Definition tx_session : SessionId := mkSession tx_vote (Some (ex_lid 0 0 0)).
Definition tx_tag : Tag := TagHeartbeat tx_session 40 2.
(** ... which rejects it: it has seen the vote of a later leader *)
Definition tx_later : Vote := mkVote (mkLeaderId 2 3) true.
Definition tx_rejected : list Action :=
  [Act 50 (EReply tx_tag (RAppend (AHigherVote tx_later))); Act 50 ENote].
Definition tx_time (now : nat) (acts : list Action) : option (option nat) :=
  match ex_node acts with Ok (n, _) => Some (quorum_acked now (nd_eng n)).2 | Panic => None end.
Definition tx_outs (acts : list Action) : list Out :=
  match ex_node acts with Ok (_, o) => o | Panic => [] end.

(** a leader of three voters and some replies *)
Definition tx_engine (e : Engine) : Engine :=
  set_leader (Some (leader_new 5 tx_vote [{[1; 2; 3]}] [7] [])) e.
Definition tx_ops : list TimeOp := [TAck 2 10; TAck 7 90; TReport 20; TAck 3 15; TAck 2 12].
Definition tx_start : Engine := tx_engine (mkEngine (ex_cfg 1) rs_default false None None []).
