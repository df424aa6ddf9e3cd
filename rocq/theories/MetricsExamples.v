(** A node whose own snapshot is finished after a newer one has been installed. *)
From stdpp Require Import base numbers option gmap list.
From Verif Require Import Types LogIdList Membership Progress RaftState ProgressEntry Engine Store RaftCore NodeSpec NodeExamples LogSpec LogPropSpec LogExamples Metrics.

(** node 2 has applied index 1 and starts to build a snapshot *)
Definition qx_build : list Action := ex_f1 ++ [Act 40 (EMsg MTriggerSnapshot)] ++ ex_runs 40 2 ++ [Act 40 ESm].
(** leader 3's snapshot up to index 3 is installed meanwhile *)
Definition qx_installed : list Action :=
  qx_build ++ [Act 41 ex_install] ++ ex_runs 41 9 ++ [Act 41 ESm] ++ ex_settle 41 ++ [Act 41 ENote; Act 41 ENote].
(** the build is done *)
Definition qx_late : list Action := qx_installed ++ [Act 42 (EBuildDone 0)].
Definition qx_indexes (n : Node) : list (option nat) :=
  let m := node_metrics n in [mt_last_log m; lid_index <$> mt_applied m; lid_index <$> mt_snapshot m; lid_index <$> mt_purged m].
Definition qx_check (acts : list Action) (l : list (option nat)) : bool :=
  match ex_end (ex_cfg 2) acts with Ok x => bool_decide (qx_indexes x.1 = l) | Panic => false end.
Lemma qx_installed_ok : ex_fits ex_env (ex_cfg 2) qx_installed = true /\ qx_check qx_installed [Some 3; Some 3; Some 3; Some 3] = true.
Proof. split; vm_compute; reflexivity. Qed.

(** one more event of node 2 *)
Definition qx_step (acts : list Action) (now : nat) (ev : Event) (f : Node -> Node -> bool) : bool :=
  match ex_end (ex_cfg 2) acts with
  | Ok x => match node_step now ev x.1 with Ok y => act_fitsb ex_env (Act now ev) x.1 y.1 && f x.1 y.1 | Panic => false end
  | Panic => false
  end.
Lemma qx_step_ok acts now ev f : ex_fits ex_env (ex_cfg 2) acts = true -> qx_step acts now ev f = true ->
  exists n n' outs, fits_step ex_env (ex_cfg 2) now ev n n' outs /\ f n n' = true.
Proof.
  unfold qx_step. intros Hf Hs. destruct (ex_end (ex_cfg 2) acts) as [[n o]|] eqn:He; [|discriminate]. cbn [fst] in Hs.
  destruct (node_step now ev n) as [[n' o']|] eqn:Hn; [|discriminate]. cbn [fst] in Hs. apply andb_true_iff in Hs as [H1 H2].
  exists n, n', o'. split; [|exact H2]. apply act_fitsb_ok in H1 as [B1 B2]. split; [eapply ex_reach; eassumption|]. split; [exact Hn|]. split; [exact B1|exact B2].
Qed.
Lemma qx_back : exists n n' outs, fits_step ex_env (ex_cfg 2) 42 ENote n n' outs /\
  ologid_ltb (mt_snapshot (node_metrics n')) (mt_snapshot (node_metrics n)) && ologid_ltb (mt_snapshot (node_metrics n')) (mt_purged (node_metrics n')) = true.
Proof. apply (qx_step_ok qx_late 42 ENote (fun n n' => _)); vm_compute; reflexivity. Qed.
