(** Model of the time a leader reports as last acknowledged by a quorum,
    [proposer/leader.rs:last_quorum_acked_time]. *)
From Verif Require Import Types LogIdList Quorum Membership Progress RaftState ProgressEntry Engine.
From stdpp Require Import base numbers option list.

(** [Leader::last_quorum_acked_time], [proposer/leader.rs:198-222]: the leader first counts
    itself with its own time, also when it is not a voter (then the call changes nothing that is
    counted; the [Err] of an unknown node is ignored) *)
Definition ld_quorum_acked (now : nat) (l : Leader) : Leader * option nat :=
  let c := (vp_increase_to onat_leb (fun x : option nat => x) (fun a b => onat_ltb b a)
              (ld_clock l) (li_node (v_leader (ld_vote l))) (Some now)).1 in
  (ld_set_clock c l, vp_granted c).

(** [RaftCore::last_quorum_acked_time], [core/raft_core.rs:728-731]: [None] on a node that does
    not lead *)
Definition quorum_acked (now : nat) (e : Engine) : Engine * option nat :=
  match en_leader e with
  | None => (e, None)
  | Some l => let '(l', t) := ld_quorum_acked now l in (set_leader (Some l') e, t)
  end.
