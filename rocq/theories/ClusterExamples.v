(** Concrete runs of a cluster of three nodes. *)
From Coq Require Import Bool Lia.
From stdpp Require Import base numbers option gmap list.
From Verif Require Import Types LogIdList Quorum QuorumSpec QuorumProofs Membership Progress RaftState ProgressEntry Engine Store RaftCore NodeSpec NodeExamples LogSpec
  Cluster ClusterSpec.

Definition cx_node (i : nat) : Node :=
  match node_fresh 0 (ex_cfg i) with Ok n => n | Panic => mkNode (engine_new rs_default (ex_cfg i)) (mkStore disk_empty [] []) sm_empty [] [] [] ∅ [] None [] [] end.
Definition cx_cl0 : Cluster := mkCluster cx_node [] [].
Definition cx_runs (i now k : nat) : list CAct := repeat (CLocal i now ERun) k.
(** node [i] runs its commands, its writes become durable, and it takes its notes *)
Definition cx_settle (i now : nat) : list CAct :=
  cx_runs i now 7 ++ [CLocal i now (EFlush 9); CLocal i now (ECallback 0); CLocal i now (ECallback 0); CLocal i now (ECallback 0)] ++
  repeat (CLocal i now ENote) 5 ++ cx_runs i now 7.
Definition cx_init : list CAct := CLocal 1 1 (EMsg (MInitialize ex_members 7)) :: cx_settle 1 1.
Definition cx_lead : list CAct := cx_init ++ [CRequest 0 2] ++ cx_settle 2 2 ++ [CReply 1 2] ++ cx_settle 1 2.
(** node 1 replicates its log to node 2 and commits; then a client writes 5 *)
Definition cx_commit : list CAct := cx_lead ++ cx_settle 1 2 ++ [CLocal 1 2 (EStreamSend 0 10 2); CRequest 2 2] ++ cx_settle 2 2 ++ [CReply 2 2] ++ cx_settle 1 2 ++
  cx_settle 1 2.
(** Finding F3: the leader sends an entry it has not yet stored, crashes, and gives its
    log id to another entry. *)
Definition cx_f3a : list CAct := cx_commit ++ [CLocal 1 2 ESm; CLocal 1 3 (EMsg (MWrite 5 30))] ++ cx_runs 1 3 9 ++ [CLocal 1 3 (EStreamSend 0 10 3); CRequest 3 3] ++
  cx_settle 2 3.
Definition cx_f3b : list CAct := cx_f3a ++ [CCrash 1 4 0 0 9] ++ cx_settle 1 5 ++ [CLocal 1 5 (EStreamSend 0 10 4); CRequest 4 5] ++ cx_settle 2 5 ++ [CReply 4 5] ++
  cx_settle 1 5 ++ cx_settle 1 5 ++ [CLocal 1 6 (EMsg (MWrite 6 31))] ++ cx_settle 1 6 ++ [CLocal 1 6 (EStreamSend 0 10 5); CRequest 5 6] ++ cx_settle 2 6 ++ [CReply 5 6] ++
  cx_settle 1 6 ++ cx_settle 1 6 ++ [CLocal 1 6 ESm; CLocal 1 6 (EStreamSend 0 10 6); CRequest 6 6] ++ cx_settle 2 6 ++ [CLocal 2 6 ESm; CLocal 2 6 ESm; CLocal 2 6 ESm].
(** Without the crash: the entry is stored by nodes 1 and 2 and committed, and node 2 is
    elected by nodes 2 and 3. *)
Definition cx_good1 : list CAct := cx_commit ++ [CLocal 1 2 ESm; CLocal 1 3 (EMsg (MWrite 5 30))] ++ cx_settle 1 3 ++ [CLocal 1 3 (EStreamSend 0 10 3); CRequest 3 3] ++
  cx_settle 2 3 ++ [CReply 3 3] ++ cx_settle 1 3 ++ cx_settle 1 3 ++ [CLocal 1 3 ESm].
Definition cx_good2 : list CAct := [CLocal 2 90 (EMsg MElect)] ++ cx_settle 2 90 ++ [CRequest 5 90] ++ cx_settle 3 90 ++ [CReply 4 90] ++ cx_settle 2 90 ++ cx_settle 2 90.

(** ** Deciding the restrictions on concrete runs *)
Definition eq_vote (v v' : Vote) : bool := bool_decide (v = v').
Definition plain_eventb (m0 : gmap nat nat) (n : Node) (ev : Event) : bool :=
  match ev with
  | EMsg (MSnapshot _ _ _) => false
  | EMsg (MInitialize ms _) => bool_decide (ms = m0)
  | EMsg MElect => match en_leader (nd_eng n) with None => true | Some _ => false end
  | EMsg (MTransfer req) => negb (li_node (v_leader (tq_from req)) =? nd_id n)
  | EStreamSend i _ _ =>
      match nd_streams n !! i with
      | Some s => eq_vote (ss_vote (st_session s)) (rs_v (nd_state n)) &&
          match st_action (stream_drain s) with
          | Some (DLogs rng) => next_index (ls_purged (so_log (nd_store n))) <=? next_index (lr_prev rng)
          | _ => true
          end
      | None => true
      end
  | EHeartbeatSend _ => match nd_hb n with Some (ss, _, _) => eq_vote (ss_vote ss) (rs_v (nd_state n)) | None => true end
  | _ => true
  end.
Definition same_votersb (V : gset nat) (n : Node) : bool :=
  let cs := m_configs (em_mem (rs_eff (nd_state n))) in bool_decide (cs = []) || bool_decide (cs = [V]).
Definition countedb (V : gset nat) (n n' : Node) : bool :=
  match en_leader (nd_eng n') with
  | None => true
  | Some l => bool_decide (rs_committed (nd_state n') = rs_committed (nd_state n)) ||
      let ids := remove_dups (map fst (filter (fun x => ologid_leb (rs_committed (nd_state n')) (pe_matching x.2) = true) (vp_vec (ld_progress l)))) in
      joint_is_quorum [V] ids
  end.
Definition plain_actb (m0 : gmap nat nat) (cl : Cluster) (a : CAct) (cl' : Cluster) : bool :=
  match cl_event a cl with
  | Some (i, now, ev) => plain_eventb m0 (cl_node cl i) ev && same_votersb (dom m0) (cl_node cl' i) && countedb (dom m0) (cl_node cl i) (cl_node cl' i)
  | None => false
  end.
Fixpoint plain_runb (m0 : gmap nat nat) (acts : list CAct) (cl : Cluster) : option Cluster :=
  match acts with
  | [] => Some cl
  | a :: r => match cl_act a cl with
              | Ok cl' => if plain_actb m0 cl a cl' then plain_runb m0 r cl' else None
              | Panic => None
              end
  end.
Lemma plain_event_dec m0 n ev : plain_eventb m0 n ev = true -> plain_event m0 n ev.
Proof.
  destruct ev as [|m| | | | | | | |i ? ?| | | |]; cbn; intros Hb; try exact I.
  - destruct m; cbn in *; try exact I; try done.
    + apply negb_true_iff, Nat.eqb_neq in Hb. done.
    + by apply bool_decide_eq_true in Hb.
    + by destruct (en_leader _).
  - intros s Hs. rewrite Hs in Hb. apply andb_prop in Hb as [Ha Hb]. split; [by apply bool_decide_eq_true in Ha|].
    intros rng Hr. rewrite Hr in Hb. by apply Nat.leb_le in Hb.
  - intros ss c t0 Hh. rewrite Hh in Hb. by apply bool_decide_eq_true in Hb.
Qed.
Lemma counted_dec V n n' : countedb V n n' = true -> counted V n n'.
Proof.
  unfold countedb. intros Hb l Hl Hne. rewrite Hl in Hb.
  apply orb_prop in Hb as [Hb|Hb]; [by apply bool_decide_eq_true in Hb|].
  apply joint_is_quorum_spec in Hb; [|apply NoDup_remove_dups].
  eexists. split; [exact Hb|]. intros t Ht. apply elem_of_list_to_set, elem_of_remove_dups, elem_of_list_fmap in Ht as ([t' e]&->&He).
  apply elem_of_list_filter in He as [He Hin]. exists (pe_matching e). split; [|exact He]. by exists e.
Qed.
Lemma plain_run_dec' m0 cl0 acts : forall cl cl', plain_run m0 cl0 cl -> plain_runb m0 acts cl = Some cl' -> plain_run m0 cl0 cl'.
Proof.
  induction acts as [|a r IH]; cbn; intros cl cl' Hr Hb; [by simplify_eq|].
  destruct (cl_act a cl) as [cl1|] eqn:Ea; [|done]. destruct (plain_actb _ _ _ _) eqn:Eb; [|done].
  refine (IH _ _ _ Hb). eapply plr_step; [exact Hr|exact Ea|]. unfold plain_act, plain_actb in *.
  destruct (cl_event a cl) as [[[i now] ev]|]; [|done]. apply andb_prop in Eb as [Eb E3]. apply andb_prop in Eb as [E1 E2].
  split; [by apply plain_event_dec|split; [|by apply counted_dec]].
  unfold same_votersb in E2. apply orb_prop in E2 as [E|E]; apply bool_decide_eq_true in E; [by left|by right].
Qed.
Lemma plain_run_dec m0 acts cl cl' : plain_runb m0 acts cl = Some cl' -> plain_run m0 cl cl'.
Proof. apply plain_run_dec'. apply plr_nil. Qed.
Lemma cx_start : cl_start ex_cfg cx_cl0.
Proof.
  split; [done|split; [done|]]. intros i. split; [done|]. exists 0. unfold cx_cl0, cx_node. cbn [cl_node].
  destruct (node_fresh 0 (ex_cfg i)) eqn:E; [done|]. exfalso. revert E. by vm_compute.
Qed.
(** final states *)
Definition cx_end (acts : list CAct) : Cluster := match cl_run acts cx_cl0 with Ok cl => cl | Panic => cx_cl0 end.
Definition cx_pend (acts : list CAct) (cl : Cluster) : Cluster := match plain_runb ex_members acts cl with Some cl' => cl' | None => cl end.
(** after [cx_f3b] node 2 is elected by nodes 2 and 3 *)
Definition cx_f3c : list CAct := [CLocal 2 90 (EMsg MElect)] ++ cx_settle 2 90 ++ [CRequest 8 90] ++ cx_settle 3 90 ++ [CReply 7 90] ++ cx_settle 2 90 ++ cx_settle 2 90.

(** ** The refutations *)
Definition cx_e5 : Entry := mkEntry (mkLogId (mkLeaderId 1 1) 2) (PNormal 5).
Definition cx_e6 : Entry := mkEntry (mkLogId (mkLeaderId 1 1) 2) (PNormal 6).
Definition cx_at (f : Node -> list Entry) (acts : list CAct) (i : nat) : list Entry := f (cl_node (cx_end acts) i).
Definition cx_ok (acts : list CAct) : bool := match cl_run acts cx_cl0 with Ok _ => true | Panic => false end.
Lemma cx_ok_run acts : cx_ok acts = true -> cl_run acts cx_cl0 = Ok (cx_end acts).
Proof. unfold cx_ok, cx_end. by destruct (cl_run acts cx_cl0). Qed.
Lemma cl_run_app a b : forall c d, cl_run (a ++ b) c = Ok d -> exists m, cl_run a c = Ok m /\ cl_run b m = Ok d.
Proof.
  induction a as [|x a IH]; intros c d H; [by exists c|]. cbn in *. destruct (cl_act x c) as [c1|]; [|done]. cbn in *. by apply IH.
Qed.
Lemma cx_end_app a b : cx_ok (a ++ b) = true -> cl_run b (cx_end a) = Ok (cx_end (a ++ b)) /\ cl_run a cx_cl0 = Ok (cx_end a).
Proof.
  intros H. apply cx_ok_run in H. destruct (cl_run_app _ _ _ _ H) as (m&Ha&Hb).
  assert (cx_end a = m) as Hm by (unfold cx_end; by rewrite Ha). rewrite Hm. done.
Qed.
Lemma matching_refuted : exists cfg cl0 acts cl i j x y, cl_start cfg cl0 /\ cl_run acts cl0 = Ok cl /\
  x ∈ ls_entries (dk_log (so_disk (nd_store (cl_node cl i)))) /\ y ∈ ls_entries (dk_log (so_disk (nd_store (cl_node cl j)))) /\
  e_log_id x = e_log_id y /\ x <> y.
Proof.
  exists ex_cfg, cx_cl0, cx_f3b, (cx_end cx_f3b), 1, 2, cx_e6, cx_e5. split; [apply cx_start|].
  split; [apply cx_ok_run; by vm_compute|].
  split; [|split; [|split; [done|discriminate]]]; (eapply elem_of_list_lookup_2 with (i := 2); by vm_compute).
Qed.
Lemma agree_refuted : exists cfg cl0 acts cl i j x y, cl_start cfg cl0 /\ cl_run acts cl0 = Ok cl /\
  x ∈ sm_entries (nd_sm (cl_node cl i)) /\ y ∈ sm_entries (nd_sm (cl_node cl j)) /\ e_index x = e_index y /\ x <> y.
Proof.
  exists ex_cfg, cx_cl0, cx_f3b, (cx_end cx_f3b), 1, 2, cx_e6, cx_e5. split; [apply cx_start|].
  split; [apply cx_ok_run; by vm_compute|].
  split; [|split; [|split; [done|discriminate]]]; (eapply elem_of_list_lookup_2 with (i := 2); by vm_compute).
Qed.
Lemma reuse_refuted : exists cfg cl0 acts cl now k q keep acts' cl' i j x y, cl_start cfg cl0 /\ cl_run acts cl0 = Ok cl /\
  cl_run (CCrash i now k q keep :: acts') cl = Ok cl' /\
  x ∈ ls_entries (planned_log (cl_node cl i)) /\ x ∈ ls_entries (planned_log (cl_node cl j)) /\ y ∈ ls_entries (planned_log (cl_node cl' i)) /\
  e_log_id x = e_log_id y /\ x <> y.
Proof.
  set (b := drop (length (cx_f3a)) cx_f3b). 
  exists ex_cfg, cx_cl0, cx_f3a, (cx_end cx_f3a), 4, 0, 0, 9, (tail b), (cx_end cx_f3b), 1, 2, cx_e5, cx_e6. split; [apply cx_start|].
  destruct (cx_end_app cx_f3a b) as [H1 H2]; [by vm_compute|].
  assert (Hab : cx_f3a ++ b = cx_f3b) by by vm_compute. rewrite Hab in H1.
  assert (Hb : CCrash 1 4 0 0 9 :: tail b = b) by by vm_compute. rewrite Hb.
  split; [exact H2|]. split; [exact H1|]. clear H1 H2 Hab Hb b.
  split; [|split; [|split; [|split; [done|discriminate]]]]; (eapply elem_of_list_lookup_2 with (i := 2); by vm_compute).
Qed.
Lemma complete_refuted : exists cfg cl0 acts cl acts' cl' i j e l, cl_start cfg cl0 /\ cl_run acts cl0 = Ok cl /\ cl_run acts' cl = Ok cl' /\
  has_committed (cl_node cl i) e /\ en_leader (nd_eng (cl_node cl' j)) = Some l /\
  vote_le (rs_v (nd_state (cl_node cl i))) (ld_vote l) /\ ~ holds_entry (planned_log (cl_node cl' j)) e.
Proof.
  destruct (en_leader (nd_eng (cl_node (cx_end (cx_f3b ++ cx_f3c)) 2))) as [l|] eqn:El.
  2: { exfalso. revert El. by vm_compute. }
  exists ex_cfg, cx_cl0, cx_f3b, (cx_end cx_f3b), cx_f3c, (cx_end (cx_f3b ++ cx_f3c)), 1, 2, cx_e6, l.
  split; [apply cx_start|].
  destruct (cx_end_app cx_f3b cx_f3c) as [H1 H2]; [by vm_compute|].
  split; [exact H2|]. split; [exact H1|]. clear H1 H2.
  split; [right; eapply elem_of_list_lookup_2 with (i := 2); by vm_compute|].
  split; [exact El|]. split.
  - assert (Hv : (ld_vote <$> en_leader (nd_eng (cl_node (cx_end (cx_f3b ++ cx_f3c)) 2))) = Some (mkVote (mkLeaderId 2 2) true)) by by vm_compute.
    rewrite El in Hv. cbn in Hv. injection Hv as ->. by vm_compute.
  - clear El l. intros [H|H].
    + assert (Hn : bool_decide (cx_e6 ∈ ls_entries (planned_log (cl_node (cx_end (cx_f3b ++ cx_f3c)) 2))) = false) by by vm_compute.
      by apply bool_decide_eq_false in Hn.
    + assert (Hn : next_index (ls_purged (planned_log (cl_node (cx_end (cx_f3b ++ cx_f3c)) 2))) = 0) by by vm_compute.
      rewrite Hn in H. cbn in H. lia.
Qed.

(** ** The examples *)
Definition cx_g0 := cx_pend cx_commit cx_cl0.
Definition cx_g1 := cx_pend cx_good1 cx_cl0.
Definition cx_g2 := cx_pend cx_good2 cx_g1.
Definition cx_pok acts cl : bool := match plain_runb ex_members acts cl with Some _ => true | None => false end.
Lemma cx_pok_run acts cl : cx_pok acts cl = true -> plain_run ex_members cl (cx_pend acts cl).
Proof. unfold cx_pok, cx_pend. destruct (plain_runb _ _ _) eqn:E; [|done]. intros _. by apply plain_run_dec in E. Qed.
Lemma cx_g1_reachable : plain_reachable ex_members ex_cfg cx_g1.
Proof. exists cx_cl0. split; [apply cx_start|]. apply cx_pok_run. by vm_compute. Qed.
Lemma cx_g2_run : plain_run ex_members cx_g1 cx_g2.
Proof. apply cx_pok_run. by vm_compute. Qed.
(** node 1 has committed the entry in [cx_g1], and node 2, the leader of a later term in [cx_g2], holds it *)
Lemma cx_g_facts :
  (has_committed (cl_node cx_g1 1) cx_e5 /\ has_committed (cl_node cx_g2 1) cx_e5) /\
  (exists l, en_leader (nd_eng (cl_node cx_g2 2)) = Some l /\ ld_vote l = mkVote (mkLeaderId 2 2) true) /\
  rs_v (nd_state (cl_node cx_g1 1)) = mkVote (mkLeaderId 1 1) true /\
  cx_e5 ∈ ls_entries (planned_log (cl_node cx_g2 2)) /\ ls_purged (planned_log (cl_node cx_g2 2)) = None /\
  rs_committed (nd_state (cl_node cx_g2 2)) = Some (mkLogId (mkLeaderId 1 1) 1).
Proof.
  split; [split; right; eapply elem_of_list_lookup_2 with (i := 2); by vm_compute|].
  split.
  { destruct (en_leader (nd_eng (cl_node cx_g2 2))) as [l|] eqn:El; [|exfalso; revert El; by vm_compute].
    exists l. split; [done|]. assert (Hv : (ld_vote <$> en_leader (nd_eng (cl_node cx_g2 2))) = Some (mkVote (mkLeaderId 2 2) true)) by by vm_compute.
    rewrite El in Hv. cbn in Hv. by injection Hv. }
  split; [by vm_compute|]. split; [eapply elem_of_list_lookup_2 with (i := 2); by vm_compute|].
  split; by vm_compute.
Qed.
