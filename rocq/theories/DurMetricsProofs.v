(** The vote a node reports is on its disk (C23). *)
From Coq Require Import Bool Lia ZifyBool ZifyNat.
From stdpp Require Import base numbers option gmap relations list.
From Verif Require Import Types TypesProofs LogIdList LogIdListProofs Quorum Membership Progress RaftState
  ProgressEntry Engine EnginePrims Store RaftCore NodeSpec NodePrims KindProofs VoteNodeProofs LogSpec LogProofs WalkProofs
  EngLogProofs NodeLogProofs StepLogProofs LogPropSpec LogStateProofs LeadProofs OwnProofs ClNodeProofs ClStepProofs ClientProofs
  DurIoProofs DurProofs DurStepProofs DurNodeProofs DurableSpec DurableProofs Metrics ClVoteProofs ClCoreProofs.
Import NodeSpec.

Theorem reported_vote_kept E me now0 cfg n0 acts n outs : env_ok E -> node_fresh now0 cfg = Ok n0 -> ec_id cfg = me -> run_fits E acts n0 -> no_snapshots acts ->
  node_run acts n0 = Ok (n, outs) ->
  at_any_crash n (fun d => leader_leb (v_leader (mt_vote (node_metrics n))) (v_leader (disk_vote d)) = true /\
    (li_node (v_leader (mt_vote (node_metrics n))) <> me -> li_term (v_leader (mt_vote (node_metrics n))) <> 0 -> vote_kept (mt_vote (node_metrics n)) d)).
Proof.
  intros HE Hfr Hme Hf Hns Hr k j. destruct (run_di_all E me HE _ _ _ _ _ _ Hfr Hme Hf Hns Hr) as (A & R & K & _).
  cbn [node_metrics mt_vote]. pose proof (di_fl _ _ _ _ _ _ K) as Hfl. unfold nd_state. destruct (io_flushed (rs_io (en_state (nd_eng n)))) as [i|]; cbn [from_option].
  2:{ split; [|intros _ []; reflexivity]. destruct (disk_vote _) as [[t m] b]. cbn. clear. destruct t, m; reflexivity. }
  pose proof (crash_cov E me HE k j _ _ (di_pend _ _ _ _ _ _ K) (Hfl i eq_refl)) as [C1 C2]. split; [exact C1|]. intros Hne Ht.
  destruct i as [v|v x]; cbn [io_vote] in *; [|apply C2; split; assumption].
  unfold vote_kept, vl in *. change (dvote (crash_disk k j (nd_store n))) with (disk_vote (crash_disk k j (nd_store n))) in C1. destruct v as [L b]. cbn in C1, C2. subst b.
  destruct (disk_vote _) as [L' b']. cbn in C1. clear - C1. vord. lia.
Qed.
