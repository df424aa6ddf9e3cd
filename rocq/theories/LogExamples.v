(** Concrete histories and runs that fit them, used to show that the hypotheses of the
    theorems about logs are met.  [fitsb] decides whether a concrete run fits. *)
From Coq Require Import Bool Lia ZifyBool ZifyNat.
From stdpp Require Import base numbers option gmap relations list.
From Verif Require Import Types TypesProofs LogIdList Quorum Membership Progress RaftState ProgressEntry Engine Store RaftCore
  NodeSpec NodeExamples LogSpec LogPropSpec.

(** ** Deciding *)
Fixpoint pfxb (H : Hist) (fuel : nat) (a b : option LogId) : bool :=
  bool_decide (a = b) ||
  match fuel, b with
  | S k, Some y => match H y with Some (p, _) => pfxb H k a p | None => false end
  | _, _ => false
  end.
Lemma pfxb_ok H fuel : forall a b, pfxb H fuel a b = true -> pfx H a b.
Proof.
  induction fuel as [|k IH]; intros a b; cbn [pfxb]; rewrite orb_true_iff, bool_decide_eq_true; (intros [->|Hb]; [constructor|]); [discriminate|].
  destruct b as [y|]; [|discriminate]. destruct (H y) as [[p pl]|] eqn:Hy; [|discriminate]. econstructor; eauto.
Qed.
Definition pfxd (H : Hist) (a b : option LogId) : bool := pfxb H (next_index b) a b.
Lemma pfxd_ok H a b : pfxd H a b = true -> pfx H a b.
Proof. apply pfxb_ok. Qed.
Fixpoint chainb (H : Hist) (p : option LogId) (es : list Entry) : bool :=
  match es with
  | [] => true
  | e :: r => bool_decide (H (e_log_id e) = Some (p, e_payload e)) && chainb H (Some (e_log_id e)) r
  end.
Lemma chainb_ok H es : forall p, chainb H p es = true -> chain H p es.
Proof.
  induction es as [|e r IH]; intros p; cbn [chainb chain]; [auto|]. rewrite andb_true_iff, bool_decide_eq_true. intros [H1 H2]. auto.
Qed.
Definition knownb (n : Node) (v : Vote) : bool :=
  negb (li_node (v_leader v) =? nd_id n) || (vote_geb (rs_v (nd_state n)) v && vote_geb (stored_vote n) (mkVote (v_leader v) false)).
Lemma knownb_ok n v : knownb n v = true -> own_vote_known n v.
Proof.
  unfold knownb, own_vote_known. intros Hb Hn. rewrite Hn, Nat.eqb_refl in Hb. apply andb_true_iff in Hb. exact Hb.
Qed.
Definition leader_fitsb (E : Env) (n : Node) (v : Vote) : bool :=
  v_committed v && negb (li_node (v_leader v) =? nd_id n) &&
  (negb (vote_geb v (rs_v (nd_state n))) || pfxd (ev_hist E) (rs_committed (nd_state n)) (ev_tip E (v_leader v))).
Lemma leader_fitsb_ok E n v : leader_fitsb E n v = true -> leader_fits E n v.
Proof.
  unfold leader_fitsb, leader_fits. rewrite !andb_true_iff. intros [[H1 H2] H3]. split; [exact H1|]. split; [lia|].
  unfold vote_le. intros Hv. rewrite Hv in H3. apply pfxd_ok. exact H3.
Qed.
Definition msg_fitsb (E : Env) (n : Node) (m : Msg) : bool :=
  let H := ev_hist E in
  match m with
  | MAppend v prev es lc _ =>
      leader_fitsb E n v && chainb H prev es && pfxd H None prev &&
      pfxd H (es_last prev es) (ev_tip E (v_leader v)) && pfxd H lc (ev_tip E (v_leader v))
  | MSnapshot v sn _ =>
      leader_fitsb E n v && chainb H None (sn_data sn) && bool_decide (sm_last (sn_meta sn) = es_last None (sn_data sn)) &&
      bool_decide (sm_mem (sn_meta sn) = mem_of (sn_data sn)) && pfxd H (sm_last (sn_meta sn)) (ev_tip E (v_leader v))
  | MVote req _ => knownb n (vq_vote req)
  | MTransfer req => negb (li_node (v_leader (tq_from req)) =? nd_id n)
  | MInitialize ms _ =>
      rs_is_initialized (nd_state n) ||
      bool_decide (H (mkLogId (mkLeaderId 0 0) 0) = Some (None, PMembership (mkMembership [dom ms] ms)))
  | MElect => match en_leader (nd_eng n) with None => true | Some _ => false end
  | _ => true
  end.
Lemma msg_fitsb_ok E n m : msg_fitsb E n m = true -> msg_fits E n m.
Proof.
  destruct m; cbn [msg_fitsb msg_fits]; try (intros _; exact I).
  - rewrite !andb_true_iff. intros [[[[H1 H2] H3] H4] H5]. split; [apply leader_fitsb_ok; exact H1|]. split; [apply chainb_ok; exact H2|].
    split; [apply pfxd_ok; exact H3|]. split; apply pfxd_ok; assumption.
  - apply knownb_ok.
  - rewrite !andb_true_iff, !bool_decide_eq_true. intros [[[[H1 H2] H3] H4] H5]. split; [apply leader_fitsb_ok; exact H1|].
    split; [split; [apply chainb_ok; exact H2|auto]|apply pfxd_ok; exact H5].
  - intros Hb. lia.
  - rewrite orb_true_iff, bool_decide_eq_true. intros [H1|H1] H2; [congruence|exact H1].
  - destruct (en_leader (nd_eng n)); [discriminate|reflexivity].
Qed.
Definition event_fitsb (E : Env) (n : Node) (ev : Event) : bool :=
  match ev with
  | EMsg m => msg_fitsb E n m
  | EReply _ r => forallb (knownb n) (resp_votes r)
  | _ => true
  end.
Lemma event_fitsb_ok E n ev : event_fitsb E n ev = true -> event_fits E n ev.
Proof.
  destruct ev; cbn [event_fitsb event_fits]; try (intros _; exact I); [apply msg_fitsb_ok|].
  intros Hb. apply Forall_forall. intros v Hv. rewrite forallb_forall in Hb. apply knownb_ok. apply Hb. apply elem_of_list_In. exact Hv.
Qed.
Definition own_fitsb (E : Env) (id : nat) (lst : option LogId) (cs : list Command) : bool :=
  forallb (fun c => match c with
                    | AppendInputEntries v es => negb (li_node (v_leader v) =? id) || chainb (ev_hist E) lst es
                    | _ => true
                    end) cs.
Lemma own_fitsb_ok E id lst cs : own_fitsb E id lst cs = true -> own_fits E id lst cs.
Proof.
  unfold own_fitsb, own_fits. rewrite forallb_forall. intros Hb v es Hin Hv. specialize (Hb (AppendInputEntries v es) ltac:(apply elem_of_list_In; exact Hin)).
  cbn in Hb. rewrite Hv, Nat.eqb_refl in Hb. apply chainb_ok. exact Hb.
Qed.
Definition crash_fitsb (E : Env) (d : Disk) (sm : StateMachine) : bool :=
  pfxd (ev_hist E) (sm_applied sm) (ls_last (dk_log d)) ||
  ((match sm_snapshot sm with None => true | Some _ => bool_decide (snap_last sm = sm_applied sm) end) &&
   ologid_ltb (ls_last (dk_log d)) (sm_applied sm) && (next_index (ls_last (dk_log d)) <=? next_index (sm_applied sm))).
Lemma crash_fitsb_ok E d sm : crash_fitsb E d sm = true -> crash_fits E d sm.
Proof.
  unfold crash_fitsb, crash_fits. rewrite orb_true_iff, !andb_true_iff. intros [H1|[[H1 H2] H3]]; [left; apply pfxd_ok; exact H1|right].
  split; [|split; [exact H2|lia]]. destruct (sm_snapshot sm); [right; apply bool_decide_eq_true in H1; exact H1|left; reflexivity].
Qed.
Definition act_fitsb (E : Env) (a : Action) (n n' : Node) : bool :=
  match a with
  | Act _ ev => event_fitsb E n ev && own_fitsb E (nd_id n) (rs_last (nd_state n)) (step_produced ev n n')
  | Crash _ k j keep =>
      crash_fitsb E (crash_disk k j (nd_store n)) (sm_crash keep (nd_sm n)) &&
      own_fitsb E (nd_id n) (ls_last (dk_log (so_disk (nd_store n')))) (en_out (nd_eng n'))
  end.
Lemma act_fitsb_ok E a n n' : act_fitsb E a n n' = true -> act_fits E a n n'.
Proof.
  destruct a; cbn [act_fitsb act_fits]; rewrite andb_true_iff; intros [H1 H2].
  - split; [apply event_fitsb_ok; exact H1|apply own_fitsb_ok; exact H2].
  - split; [apply crash_fitsb_ok; exact H1|apply own_fitsb_ok; exact H2].
Qed.
Fixpoint fitsb (E : Env) (acts : list Action) (n : Node) : bool :=
  match acts with
  | [] => true
  | a :: r => match node_act a n with Ok x => act_fitsb E a n x.1 && fitsb E r x.1 | Panic => true end
  end.
Lemma fitsb_ok E acts : forall n, fitsb E acts n = true -> run_fits E acts n.
Proof.
  induction acts as [|a r IH]; intros n; cbn [fitsb run_fits]; [auto|]. destruct (node_act a n) as [x|]; [|auto].
  rewrite andb_true_iff. intros [H1 H2]. split; [apply act_fitsb_ok; exact H1|apply IH; exact H2].
Qed.
(** a run from a fresh node, and one further step *)
Definition ex_fits (E : Env) (cfg : EngineConfig) (acts : list Action) : bool :=
  match node_fresh 0 cfg with
  | Ok n0 => fitsb E acts n0 && match node_run acts n0 with Ok _ => true | Panic => false end
  | Panic => false
  end.
Definition ex_end (cfg : EngineConfig) (acts : list Action) : res (Node * list Out) :=
  let! n0 := node_fresh 0 cfg in node_run acts n0.
Lemma ex_reach E cfg acts n outs : ex_fits E cfg acts = true -> ex_end cfg acts = Ok (n, outs) -> fits_reachable E cfg n.
Proof.
  unfold ex_fits, ex_end. intros Hf He. destruct (node_fresh 0 cfg) as [n0|] eqn:Hn; [|discriminate].
  apply andb_true_iff in Hf as [Hf _]. exists 0, n0, acts, outs. split; [exact Hn|]. split; [apply fitsb_ok; exact Hf|exact He].
Qed.
Lemma ex_step E cfg acts now ev n o n' outs : ex_fits E cfg acts = true -> ex_end cfg acts = Ok (n, o) ->
  node_step now ev n = Ok (n', outs) -> act_fitsb E (Act now ev) n n' = true -> fits_step E cfg now ev n n' outs.
Proof.
  intros Hf He Hs Ha. split; [eapply ex_reach; eauto|]. split; [exact Hs|]. apply act_fitsb_ok in Ha. exact Ha.
Qed.

(** ** A history *)

(** a history given by the logs of its leaders *)
Fixpoint hist_of (p : option LogId) (es : list Entry) : list (LogId * (option LogId * Payload)) :=
  match es with [] => [] | e :: r => (e_log_id e, (p, e_payload e)) :: hist_of (Some (e_log_id e)) r end.
Fixpoint hlookup (l : list (LogId * (option LogId * Payload))) (x : LogId) : option (option LogId * Payload) :=
  match l with [] => None | (y, v) :: r => if bool_decide (y = x) then Some v else hlookup r x end.
Definition hist_okb (l : list (LogId * (option LogId * Payload))) : bool :=
  forallb (fun '(y, (p, _)) => (lid_index y =? next_index p) &&
    match p with
    | Some x => leader_leb (lid_leader x) (lid_leader y) && match hlookup l x with Some _ => true | None => false end
    | None => true
    end) l.
Lemma hlookup_in l x v : hlookup l x = Some v -> (x, v) ∈ l.
Proof.
  induction l as [|[y w] r IH]; cbn; [discriminate|]. case_bool_decide as Hy; [intros [= ->]; subst; left|intros H; right; auto].
Qed.
Lemma hist_okb_ok l : hist_okb l = true -> hist_ok (hlookup l).
Proof.
  unfold hist_okb. rewrite forallb_forall. intros Hb y p pl Hy. apply hlookup_in in Hy.
  specialize (Hb _ (proj1 (elem_of_list_In _ _) Hy)). cbn in Hb. apply andb_true_iff in Hb as [H1 H2]. split; [lia|].
  destruct p as [x|]; [|exact I]. apply andb_true_iff in H2 as [H2 H3]. split; [exact H2|]. destruct (hlookup l x); [eauto|discriminate].
Qed.
(** the last positions of some leaders, all others having nothing *)
Fixpoint tlookup (l : list (LeaderId * LogId)) (L : LeaderId) : option LogId :=
  match l with [] => None | (y, v) :: r => if bool_decide (y = L) then Some v else tlookup r L end.
Definition mk_env (logs : list (list Entry)) (tips : list (LeaderId * LogId)) : Env :=
  mkEnv (hlookup (flat_map (hist_of None) logs)) (tlookup tips).
Definition env_okb (logs : list (list Entry)) (tips : list (LeaderId * LogId)) : bool :=
  let l := flat_map (hist_of None) logs in
  hist_okb l && forallb (fun '(L, t) => pfxd (hlookup l) None (Some t) && leader_leb (lid_leader t) L) tips.
Lemma env_okb_ok logs tips : env_okb logs tips = true -> env_ok (mk_env logs tips).
Proof.
  unfold env_okb. rewrite andb_true_iff, forallb_forall. intros [H1 H2]. split; [apply hist_okb_ok; exact H1|].
  intros L. cbn [mk_env ev_tip ev_hist]. assert (Hc : tlookup tips L = None \/ exists t, tlookup tips L = Some t /\ (L, t) ∈ tips).
  { clear. induction tips as [|[y w] r IH]; cbn; [auto|]. case_bool_decide as Hy; [right; exists w; subst; split; [reflexivity|left]|].
    destruct IH as [IH|(t & IH & Hin)]; [auto|]. right. exists t. split; [exact IH|right; exact Hin]. }
  destruct Hc as [->|(t & -> & Hin)]; [split; [constructor|exact I]|].
  specialize (H2 _ (proj1 (elem_of_list_In _ _) Hin)). cbn in H2. apply andb_true_iff in H2 as [H3 H4]. split; [apply pfxd_ok; exact H3|exact H4].
Qed.

(** leader 1 of term 1 writes indexes 1-5; leader 3 of term 2 has only seen index 1 *)
Definition ex_log1 : list Entry :=
  ex_entries ++ [mkEntry (ex_lid 1 1 3) (PNormal 6); mkEntry (ex_lid 1 1 4) (PNormal 7); mkEntry (ex_lid 1 1 5) (PNormal 8)].
Definition ex_log3 : list Entry :=
  take 2 ex_entries ++ [mkEntry (ex_lid 2 3 2) PBlank; mkEntry (ex_lid 2 3 3) (PNormal 9); mkEntry (ex_lid 2 3 4) (PNormal 10)].
Definition ex_logs := [ex_log1; ex_log3].
Definition ex_tips : list (LeaderId * LogId) := [(mkLeaderId 1 1, ex_lid 1 1 5); (mkLeaderId 2 3, ex_lid 2 3 4)].
Definition ex_env : Env := mk_env ex_logs ex_tips.
Lemma ex_env_ok : env_ok ex_env.
Proof. apply env_okb_ok. vm_compute. reflexivity. Qed.

Definition ex_v1 : Vote := mkVote (mkLeaderId 1 1) true.
Definition ex_v3 : Vote := mkVote (mkLeaderId 2 3) true.
(** node 2 accepts three entries of leader 1, the first two committed, and applies them *)
Definition ex_f1 : list Action := ex_follow ++ [Act 3 ESm; Act 3 ENote].
(** then leader 3 replaces index 2 *)
Definition ex_replace : Event :=
  EMsg (MAppend ex_v3 (Some (ex_lid 1 1 1)) (drop 2 ex_log3) (Some (ex_lid 2 3 3)) 9).
(** and all of it is durable and applied *)
Definition ex_f2 : list Action := ex_f1 ++ [Act 40 ex_replace] ++ ex_settle 40 ++ [Act 41 ESm; Act 41 ENote].
(** a snapshot of leader 3's log up to index 3 *)
Definition ex_snap : Snapshot := mkSnapshot (mkSnapMeta (Some (ex_lid 2 3 3)) (mkEM (Some (ex_lid 0 0 0)) ex_mem) 1) (take 4 ex_log3).
Definition ex_install : Event := EMsg (MSnapshot ex_v3 ex_snap 10).
Lemma ex_f1_fits : ex_fits ex_env (ex_cfg 2) ex_f1 = true.
Proof. vm_compute. reflexivity. Qed.
Lemma ex_f2_fits : ex_fits ex_env (ex_cfg 2) ex_f2 = true.
Proof. vm_compute. reflexivity. Qed.
(** node 1 leads with its blank entry durable *)
Lemma ex_leading_fits : ex_fits ex_env (ex_cfg 1) ex_leading = true.
Proof. vm_compute. reflexivity. Qed.
(** leader 1 sends node 2 one entry and handles its success *)
Definition ex_sent (rid : nat) : list Action :=
  [Act 4 (EStreamSend 0 1 rid); Act 4 (EReply (TagStream 2 rid) (RAppend ASuccess)); Act 4 ENote; Act 4 ENote].
Definition ex_lead1 : list Action := ex_leading ++ ex_sent 1 ++ ex_runs 4 6.
Definition ex_lead2 : list Action := ex_lead1 ++ ex_sent 2 ++ ex_runs 4 6.
Lemma ex_lead2_fits : ex_fits ex_env (ex_cfg 1) ex_lead2 = true.
Proof. vm_compute. reflexivity. Qed.
(** node 2 has built a snapshot up to index 3 *)
Definition ex_f3 : list Action := ex_f2 ++ [Act 42 ESm; Act 42 (EBuildDone 0)].
Lemma ex_f3_fits : ex_fits ex_env (ex_cfg 2) ex_f3 = true.
Proof. vm_compute. reflexivity. Qed.
(** node 2 with two ranges waiting for its state machine *)
Definition ex_f4 : list Action :=
  ex_follow ++ [Act 4 (EMsg (MAppend ex_v1 (Some (ex_lid 1 1 2)) [] (Some (ex_lid 1 1 2)) 9))] ++ ex_runs 4 6.
Lemma ex_f4_fits : ex_fits ex_env (ex_cfg 2) ex_f4 = true.
Proof. vm_compute. reflexivity. Qed.
