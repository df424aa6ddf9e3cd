(** C42: commands are executed in the order they were produced, each exactly when its
    condition holds. *)
From Coq Require Import Bool Lia ZifyBool ZifyNat.
From stdpp Require Import base numbers option gmap list.
From Verif Require Import Types LogIdList Membership RaftState ProgressEntry Engine Store RaftCore NodeSpec
  NodeExamples CommandProofs.

(** Over any run without a crash: what was queued, followed by what was produced, is what
    was executed, followed by what is still queued.  So nothing is dropped, repeated or
    reordered. *)
Theorem C42_in_order : forall evs n n' outs,
  node_run (acts_of evs) n = Ok (n', outs) ->
  en_out (nd_eng n) ++ (run_commands evs n).2 = (run_commands evs n).1 ++ en_out (nd_eng n').
Proof. exact run_queue. Qed.
Print Assumptions C42_in_order.

(** A command is executed only when its condition holds, and only as the oldest one. *)
Theorem C42_only_when_met : forall ev n c,
  c ∈ step_executed ev n -> met c n /\ ev = ERun /\ head (en_out (nd_eng n)) = Some c.
Proof. exact step_executed_met. Qed.
Print Assumptions C42_only_when_met.

(** A waiting oldest command blocks all others; once its condition holds the next run step
    executes it, and until then no other step touches the queue or undoes the condition. *)
Theorem C42_blocks_then_runs : forall now ev n n' outs c r,
  en_out (nd_eng n) = c :: r -> node_step now ev n = Ok (n', outs) ->
  (~ met c n -> step_executed ev n = [] /\ exists cs, en_out (nd_eng n') = c :: r ++ cs) /\
  (met c n -> ev = ERun -> en_out (nd_eng n') = r) /\
  (met c n -> ev <> ERun -> en_out (nd_eng n') = c :: r /\ met c n').
Proof. exact head_blocks. Qed.
Print Assumptions C42_blocks_then_runs.

(** Node 2 accepts three entries: the reply waits until the entries are on disk, and the
    commit that follows it in the queue waits behind it. *)
Definition ex_cmds (evs : list (nat * Event)) : res (list Command * list Command * list Command) :=
  let! n := node_fresh 0 (ex_cfg 2) in
  let! x := node_run (acts_of evs) n in
  Ok ((run_commands evs n).1, (run_commands evs n).2, en_out (nd_eng x.1)).
Definition ex_cmd_kind (c : Command) : nat :=
  match c with
  | SaveVote _ => 1 | AppendInputEntries _ _ => 2 | Respond _ _ _ => 3
  | SaveCommitted _ => 4 | CmdApply _ _ => 5 | _ => 9
  end.
Definition ex_evs (sync : bool) : list (nat * Event) :=
  (3, EMsg (MAppend (mkVote (mkLeaderId 1 1) true) None ex_entries (Some (ex_lid 1 1 1)) 8)) ::
  repeat (3, ERun) 4 ++ (if sync then [(3, EFlush 9); (3, ECallback 0); (3, ENote); (3, ENote); (3, ENote); (3, ERun); (3, ERun)] else []).
Example C42_ex :
  (exists a b c, ex_cmds (ex_evs false) = Ok (a, b, c) /\
     map ex_cmd_kind a = [1; 2] /\ map ex_cmd_kind b = [1; 2; 3; 4; 5] /\ map ex_cmd_kind c = [3; 4; 5]) /\
  (exists a b c, ex_cmds (ex_evs true) = Ok (a, b, c) /\
     map ex_cmd_kind a = [1; 2; 3; 4] /\ map ex_cmd_kind c = [5]).
Proof.
  split; eexists _, _, _; (split; [vm_compute; reflexivity|]); vm_compute; auto.
Qed.
