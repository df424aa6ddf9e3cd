(** Concrete runs for the properties about roles, starts and own proposals. *)
From stdpp Require Import base numbers option gmap list.
From Verif Require Import Types LogIdList Membership Progress RaftState ProgressEntry Engine Store RaftCore NodeSpec NodeExamples
  LogSpec LogPropSpec LogExamples RoleSpec HonestSpec.

(** Leader 1 of a cluster of nodes 1 and 2 replaces the voters by {2}: first the joint
    configuration, then the final one, which does not contain node 1. *)
Definition rm_two : gmap nat nat := {[1 := 1; 2 := 2]}.
Definition rm_joint : Membership := mkMembership [{[1; 2]}; {[2]}] rm_two.
Definition rm_end : Membership := mkMembership [{[2]}] {[2 := 2]}.
Definition rm_log : list Entry :=
  [mkEntry (ex_lid 0 0 0) (PMembership (mkMembership [dom rm_two] rm_two)); mkEntry (ex_lid 1 1 1) PBlank;
   mkEntry (ex_lid 1 1 2) (PMembership rm_joint); mkEntry (ex_lid 1 1 3) (PMembership rm_end)].
Definition rm_env : Env := mk_env [rm_log] [(mkLeaderId 1 1, ex_lid 1 1 3)].
Lemma rm_env_ok : env_ok rm_env.
Proof. apply env_okb_ok. vm_compute. reflexivity. Qed.
Definition rm_lead : list Action :=
  (Act 1 (EMsg (MInitialize rm_two 7)) :: ex_settle 1) ++ [ex_grant2; Act 2 ENote] ++ ex_settle 2.
Definition rm_sent (rid k : nat) : list Action :=
  [Act 4 (EStreamSend 0 k rid); Act 4 (EReply (TagStream 2 rid) (RAppend ASuccess)); Act 4 ENote] ++ ex_settle 4 ++
  [Act 4 ESm; Act 4 ENote; Act 4 ENote] ++ ex_runs 4 6.
Definition rm_change : Event := EMsg (MChange (ReplaceAllVoters {[2]}) false 8).
Definition rm_before : list Action := rm_lead ++ rm_sent 1 2 ++ [Act 5 rm_change] ++ ex_settle 5 ++ rm_sent 2 1 ++ rm_sent 3 1.
Definition rm_gone : list Action := rm_before ++ [Act 6 rm_change].
Definition rm_committed : list Action := rm_gone ++ ex_settle 6 ++ rm_sent 4 1 ++ rm_sent 5 1.
Definition rm_tick : Event := ETick 3 true true.
Lemma rm_before_fits : ex_fits rm_env (ex_cfg 1) rm_before = true.
Proof. vm_compute. reflexivity. Qed.
Lemma rm_gone_fits : ex_fits rm_env (ex_cfg 1) rm_gone = true.
Proof. vm_compute. reflexivity. Qed.
Lemma rm_committed_fits : ex_fits rm_env (ex_cfg 1) rm_committed = true.
Proof. vm_compute. reflexivity. Qed.
(** Node 1 crashes while campaigning. *)
Definition rc_crash : list Action := ex_init ++ [Crash 9 9 9 9].
Lemma rc_crash_fits : ex_fits ex_env (ex_cfg 1) rc_crash = true.
Proof. vm_compute. reflexivity. Qed.
(** The step in which node 1 becomes leader. *)
Lemma ex_before_lead_fits : ex_fits ex_env (ex_cfg 1) ex_before_lead = true.
Proof. vm_compute. reflexivity. Qed.
(** Node 2 crashes after following two leaders with nothing applied durably. *)
Definition rs_crash : Action := Crash 50 9 9 0.

(** deciding [run_honest] *)
Definition honestb (n : Node) (ev : Event) : bool :=
  match ev with
  | EMsg (MVote req _) => negb (v_committed (vq_vote req))
  | EReply (TagStream t _) (RAppend (AHigherVote v)) =>
      forallb (fun s => negb (st_target s =? t) || vote_gtb v (ss_vote (st_session s))) (nd_streams n)
  | EReply (TagRead tx _) (RAppend (AHigherVote v)) =>
      forallb (fun rd => negb (rd_tx rd =? tx) || vote_gtb v (rd_vote rd)) (nd_reads n)
  | _ => true
  end.
Lemma honestb_ok n ev : honestb n ev = true -> honest_event n ev.
Proof.
  unfold honestb, honest_event. destruct ev as [|m| | | | | | | | | | | |tag r]; try done.
  - destruct m; try done. destruct (v_committed _); done.
  - destruct tag; try done; destruct r; try done; destruct r; try done; intros H.
    + intros s w Hs Ht _ _. rewrite forallb_forall in H. specialize (H s ltac:(by apply elem_of_list_In)). subst. by rewrite Nat.eqb_refl in H.
    + intros rd Hs Ht. rewrite forallb_forall in H. specialize (H rd ltac:(by apply elem_of_list_In)). subst. by rewrite Nat.eqb_refl in H.
Qed.
Fixpoint run_honestb (acts : list Action) (n : Node) : bool :=
  match acts with
  | [] => true
  | a :: r => match a with Act _ ev => honestb n ev | Crash _ _ _ _ => true end &&
              match node_act a n with Ok x => run_honestb r x.1 | Panic => true end
  end.
Lemma run_honestb_ok acts : forall n, run_honestb acts n = true -> run_honest acts n.
Proof.
  induction acts as [|a r IH]; intros n; cbn [run_honestb run_honest]; [done|]. rewrite andb_true_iff. intros [H1 H2]. split.
  - destruct a; [by apply honestb_ok|done].
  - destruct (node_act a n); [auto|done].
Qed.
Definition ex_honest (E : Env) (cfg : EngineConfig) (acts : list Action) : bool :=
  match node_fresh 0 cfg with Ok n0 => fitsb E acts n0 && run_honestb acts n0 | Panic => false end.
Lemma ex_honest_reach E cfg acts n outs : ex_honest E cfg acts = true -> ex_end cfg acts = Ok (n, outs) -> honest_reachable E cfg n.
Proof.
  unfold ex_honest, ex_end. intros Hf He. destruct (node_fresh 0 cfg) as [n0|] eqn:Hn; [|discriminate].
  apply andb_true_iff in Hf as [Hf Hm]. exists 0, n0, acts, outs. split; [exact Hn|]. split; [by apply fitsb_ok|]. split; [by apply run_honestb_ok|exact He].
Qed.
(** before the last write of the run above reaches storage, node 2 refuses with a vote of term 2 *)
Definition rm_refused : list Action := rm_before ++ [Act 7 rm_change] ++ ex_settle 7 ++
  [Act 7 (EStreamSend 0 1 4); Act 7 (EReply (TagStream 2 4) (RAppend (AHigherVote (vote_new 2 2))))].
Lemma rm_refused_honest : ex_honest rm_env (ex_cfg 1) rm_refused = true.
Proof. vm_compute. reflexivity. Qed.
Lemma rm_committed_honest : ex_honest rm_env (ex_cfg 1) rm_committed = true.
Proof. vm_compute. reflexivity. Qed.
