(** Runs of a leader with a waiting client, used to show that the hypotheses of the client
    theorems are met. *)
From stdpp Require Import base numbers option gmap list.
From Verif Require Import Types LogIdList Membership RaftState ProgressEntry Engine Store RaftCore NodeSpec NodeExamples LogSpec LogExamples ClientSpec.

(** leader 1 writes 5 for the client on channel 20; the entry gets index 2 *)
Definition wx_write : list Action := ex_lead2 ++ [Act 5 (EMsg (MWrite 5 20))] ++ ex_settle 5.
(** node 2 has it too, it is committed and applied, and the state machine's report waits *)
Definition wx_done : list Action := wx_write ++ ex_sent 3 ++ ex_runs 5 6 ++ [Act 5 ESm; Act 5 ESm; Act 5 ESm; Act 5 ENote].
(** leader 3 of a later term instead replaces the entry, and what replaces it is applied *)
Definition wx_lost : list Action := wx_write ++ [Act 40 ex_replace] ++ ex_settle 40 ++ [Act 41 ESm; Act 41 ENote; Act 41 ESm; Act 41 ENote].
Lemma wx_done_fits : ex_fits ex_env (ex_cfg 1) wx_done = true.
Proof. vm_compute. reflexivity. Qed.
Lemma wx_lost_fits : ex_fits ex_env (ex_cfg 1) wx_lost = true.
Proof. vm_compute. reflexivity. Qed.
Definition client_outs (o : list Out) : list Out := filter (fun x => answered [x] <> []) o.
Definition wx_summary (acts : list Action) :=
  match ex_end (ex_cfg 1) acts with
  | Ok (n, o) => Some (client_outs o, rs_committed (nd_state n), sm_applied (nd_sm n), map_to_list (nd_clients n), length (nd_notes n))
  | Panic => None
  end.

(** An administrator triggers an election on leader 1; before the votes arrive leader 1
    still accepts a write; then it leads term 2 (finding F2). *)
Definition wx_vote2 : Vote := mkVote (mkLeaderId 2 1) false.
Definition wx_elect : list Action :=
  ex_lead2 ++ [Act 5 (EMsg MElect)] ++ ex_settle 5 ++ [Act 6 (EMsg (MWrite 5 20))] ++ ex_settle 6 ++
  [Act 6 (EReply (TagVote wx_vote2 2) (RVote (mkVoteResp wx_vote2 None true))); Act 6 ENote] ++ ex_settle 6.
Definition wx_mine : Entry := mkEntry (ex_lid 1 1 2) (PNormal 5).
Definition wx_blank : Entry := mkEntry (ex_lid 2 1 2) PBlank.
Definition wx_check (n : Node) : bool :=
  bool_decide (wx_mine ∈ ls_entries (dk_log (so_disk (nd_store n)))) && bool_decide (wx_blank ∈ ls_entries (dk_log (so_disk (nd_store n)))) &&
  bool_decide (nd_clients n !! 2 = Some 20).
Lemma elect_refuted : exists acts n0 n outs x y tx,
  node_fresh 0 (ex_cfg 1) = Ok n0 /\ node_run acts n0 = Ok (n, outs) /\
  x ∈ ls_entries (dk_log (so_disk (nd_store n))) /\ y ∈ ls_entries (dk_log (so_disk (nd_store n))) /\ e_index x = e_index y /\ x <> y /\
  Act 6 (EMsg (MWrite 5 tx)) ∈ acts /\ e_payload x = PNormal 5 /\ e_payload y = PBlank /\
  nd_clients n !! e_index y = Some tx /\ OClient tx (CWriteOk (e_log_id y) (e_payload y)) ∈ (apply_results [y] (nd_clients n)).2.
Proof.
  assert (Hx : match ex_end (ex_cfg 1) wx_elect with Ok (n, _) => wx_check n | Panic => false end = true) by (vm_compute; reflexivity).
  unfold ex_end in Hx. destruct (node_fresh 0 (ex_cfg 1)) as [n0|] eqn:H0; [|discriminate]. cbn [res_bind] in Hx.
  destruct (node_run wx_elect n0) as [[n outs]|] eqn:Hr; [|discriminate]. unfold wx_check in Hx.
  apply andb_true_iff in Hx as [Hx H3]. apply andb_true_iff in Hx as [H1 H2].
  apply bool_decide_eq_true in H1. apply bool_decide_eq_true in H2. apply bool_decide_eq_true in H3.
  exists wx_elect, n0, n, outs, wx_mine, wx_blank, 20. split; [reflexivity|]. split; [exact Hr|]. split; [exact H1|]. split; [exact H2|].
  split; [reflexivity|]. split; [discriminate|]. split; [|split; [reflexivity|split; [reflexivity|split; [exact H3|]]]].
  - unfold wx_elect. apply elem_of_app. right. apply elem_of_app. right. apply elem_of_app. right. left.
  - cbn [apply_results]. change (e_index wx_blank) with 2. rewrite H3. left.
Qed.
