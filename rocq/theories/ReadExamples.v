(** A read in a cluster of three nodes. *)
From Coq Require Import Bool Lia.
From stdpp Require Import base numbers option gmap list.
From Verif Require Import Types LogIdList Quorum QuorumSpec Membership Progress RaftState ProgressEntry Engine Store RaftCore NodeSpec NodeExamples LogSpec
  Cluster ClusterSpec ClusterExamples ReadSpec.

Lemma plain_act_dec m0 cl a cl' : plain_actb m0 cl a cl' = true -> plain_act m0 cl a cl'.
Proof.
  unfold plain_act, plain_actb. intros Eb.
  destruct (cl_event a cl) as [[[i now] ev]|]; [|done]. apply andb_prop in Eb as [Eb E3]. apply andb_prop in Eb as [E1 E2].
  split; [by apply plain_event_dec|split; [|by apply counted_dec]].
  unfold same_votersb in E2. apply orb_prop in E2 as [E|E]; apply bool_decide_eq_true in E; [by left|by right].
Qed.
Lemma plain_acts_dec' m0 cl0 acts : forall pre cl cl', plain_acts m0 cl0 pre cl -> plain_runb m0 acts cl = Some cl' -> plain_acts m0 cl0 (pre ++ acts) cl'.
Proof.
  induction acts as [|a r IH]; cbn; intros pre cl cl' Hr Hb; [rewrite app_nil_r; by simplify_eq|].
  destruct (cl_act a cl) as [cl1|] eqn:Ea; [|done]. destruct (plain_actb _ _ _ _) eqn:Eb; [|done].
  replace (pre ++ a :: r) with ((pre ++ [a]) ++ r) by (rewrite <- app_assoc; done). refine (IH _ _ _ _ Hb).
  eapply pla_snoc; [exact Hr|exact Ea|]. by apply plain_act_dec.
Qed.
Lemma plain_acts_dec m0 acts cl cl' : plain_runb m0 acts cl = Some cl' -> plain_acts m0 cl acts cl'.
Proof. intros H. apply (plain_acts_dec' m0 cl acts [] cl cl'); [constructor|exact H]. Qed.
Definition asks_readb (i tx : nat) (a : CAct) : bool :=
  match a with CLocal j _ (EMsg (MRead t)) => (j =? i) && (t =? tx) | _ => false end.
Lemma asks_read_dec i tx l : forallb (fun a => negb (asks_readb i tx a)) l = true -> forall a, a ∈ l -> ~ asks_read i tx a.
Proof.
  intros H a Ha (now & ->). rewrite forallb_forall in H. apply elem_of_list_In in Ha. specialize (H _ Ha). cbn in H. by rewrite !Nat.eqb_refl in H.
Qed.
Definition givesb (i : nat) (cl : Cluster) (a : CAct) : list (nat * option LogId * option LogId) :=
  match cl_event a cl with
  | Some (j, now, ev) => if decide (j = i) then
      match node_step now ev (cl_node cl i) with
      | Ok (_, outs) => omap (fun o => match o with OClient tx (CReadOk x y) => Some (tx, x, y) | _ => None end) outs
      | Panic => []
      end else []
  | None => []
  end.
Lemma gives_dec i cl a tx x y : (tx, x, y) ∈ givesb i cl a -> gives i cl a tx (CReadOk x y).
Proof.
  unfold givesb, gives. destruct (cl_event a cl) as [[[j now] ev]|]; [|intros H; by apply elem_of_nil in H].
  destruct (decide (j = i)) as [->|]; [|intros H; by apply elem_of_nil in H].
  destruct (node_step now ev (cl_node cl i)) as [[n' outs]|] eqn:Hn; [|intros H; by apply elem_of_nil in H].
  intros H. apply elem_of_list_omap in H as (o & Ho & Hx). exists now, ev, n', outs. split; [done|]. split; [exact Hn|].
  destruct o as [| |tx' []]; try discriminate Hx; by simplify_eq.
Qed.

(** After [cx_good1] node 1 leads and has committed a client's entry at index 2.  A client asks it for a read; node 2 answers the check of the leadership,
    node 3 does not. *)
Definition rx_acts : list CAct := [CLocal 1 4 (EMsg (MRead 40)); CRequest 4 4] ++ cx_settle 2 4.
Definition rx_last : CAct := CReply 4 4.
Definition rx_cl : Cluster := cx_g1.
Definition rx_check : bool :=
  match plain_runb ex_members cx_good1 cx_cl0 with
  | Some cl => match plain_runb ex_members rx_acts cl with
      | Some clr => bool_decide ((40, Some (mkLogId (mkLeaderId 1 1) 2), Some (mkLogId (mkLeaderId 1 1) 1)) ∈ givesb 1 clr rx_last) &&
                    negb (bool_decide (m_configs (em_mem (rs_eff (nd_state (cl_node cl 1)))) = []))
      | None => false
      end
  | None => false
  end.
Lemma rx_read : rx_check = true -> read_answered ex_members ex_cfg 1 40 rx_cl (Some (mkLogId (mkLeaderId 1 1) 2)) (Some (mkLogId (mkLeaderId 1 1) 1)) /\
  m_configs (em_mem (rs_eff (nd_state (cl_node rx_cl 1)))) <> [].
Proof.
  unfold rx_check, rx_cl, cx_g1, cx_pend. destruct (plain_runb ex_members cx_good1 cx_cl0) as [cl|] eqn:E1; [|done].
  destruct (plain_runb ex_members rx_acts cl) as [clr|] eqn:E2; [|done]. intros H. apply andb_prop in H as [H1 H2].
  apply bool_decide_eq_true in H1. apply negb_true_iff, bool_decide_eq_false in H2. split; [|exact H2].
  exists cx_cl0, cx_good1, rx_acts, rx_last, clr. split; [apply cx_start|]. split; [by apply plain_acts_dec|].
  split; [apply asks_read_dec; by vm_compute|]. split; [by apply plain_acts_dec|]. split; [|by apply gives_dec].
  eexists _, _. split; [reflexivity|]. split; [by eexists|]. apply asks_read_dec. by vm_compute.
Qed.
Lemma rx_ok : rx_check = true.
Proof. vm_compute. reflexivity. Qed.
Lemma rx_committed : has_committed (cl_node rx_cl 1) cx_e5.
Proof. exact (proj1 (proj1 cx_g_facts)). Qed.

(** Node 1 handles the report of its state machine after the read is answered. *)
Definition rx_done : list CAct := rx_acts ++ [rx_last] ++ cx_settle 1 4 ++ [CLocal 1 4 ENote; CLocal 1 4 ENote].
Definition rx_cl' : Cluster := cx_pend rx_done rx_cl.
Lemma rx_done_run : plain_run ex_members rx_cl rx_cl'.
Proof. apply cx_pok_run. vm_compute. reflexivity. Qed.

(** Node 1 tells the writer first; then the read finds the entry applied and does not wait. *)
Definition rx_tell : CAct := CLocal 1 3 ENote.
Definition rx_told : Cluster := cx_pend [rx_tell] rx_cl.
Definition written (outs : list Out) : list (nat * LogId * nat) :=
  omap (fun o => match o with OClient tx (CWriteOk l (PNormal d)) => Some (tx, l, d) | _ => None end) outs.
Lemma written_in tx l d outs : (tx, l, d) ∈ written outs -> OClient tx (CWriteOk l (PNormal d)) ∈ outs.
Proof.
  intros H. apply elem_of_list_omap in H as (o & Ho & Hx). destruct o as [| |tx' []]; try discriminate Hx. destruct payload; try discriminate Hx. by simplify_eq.
Qed.
Definition tell_check (cl : Cluster) : bool :=
  match node_step 3 ENote (cl_node cl 1) with Ok (_, outs) => bool_decide ((30, e_log_id cx_e5, 5) ∈ written outs) | Panic => false end.
Lemma tell_gives cl : tell_check cl = true -> gives 1 cl rx_tell 30 (CWriteOk (e_log_id cx_e5) (e_payload cx_e5)).
Proof.
  unfold tell_check. intros H. exists 3, ENote. destruct (node_step 3 ENote (cl_node cl 1)) as [[n' outs]|]; [|discriminate]. exists n', outs.
  split; [reflexivity|]. split; [reflexivity|]. apply (written_in 30 (e_log_id cx_e5) 5). by apply bool_decide_eq_true in H.
Qed.
Definition told_check : bool :=
  tell_check rx_cl && match plain_runb ex_members cx_good1 cx_cl0 with
  | Some c => match plain_runb ex_members [rx_tell] c with
      | Some cl => match plain_runb ex_members rx_acts cl with
          | Some clr => bool_decide ((40, Some (e_log_id cx_e5), Some (e_log_id cx_e5)) ∈ givesb 1 clr rx_last)
          | None => false
          end
      | None => false
      end
  | None => false
  end.
Lemma told_facts : told_check = true ->
  gives 1 rx_cl rx_tell 30 (CWriteOk (e_log_id cx_e5) (e_payload cx_e5)) /\
  (cl_act rx_tell rx_cl = Ok rx_told /\ plain_act ex_members rx_cl rx_tell rx_told) /\
  read_answered ex_members ex_cfg 1 40 rx_told (Some (e_log_id cx_e5)) (Some (e_log_id cx_e5)).
Proof.
  unfold told_check. intros H. apply andb_prop in H as [H1 H2]. split.
  { apply tell_gives, H1. }
  clear H1. unfold rx_told, rx_cl, cx_g1, cx_pend. destruct (plain_runb ex_members cx_good1 cx_cl0) as [c|] eqn:E1; [|done].
  destruct (plain_runb ex_members [rx_tell] c) as [cl|] eqn:E2; [|done]. destruct (plain_runb ex_members rx_acts cl) as [clr|] eqn:E3; [|done].
  apply bool_decide_eq_true in H2. split.
  { cbn [plain_runb] in E2. destruct (cl_act rx_tell c) as [c1|] eqn:E4; [|done]. destruct (plain_actb _ _ _ _) eqn:E5; [|done]. injection E2 as ->.
    split; [reflexivity|]. by apply plain_act_dec. }
  exists cx_cl0, (cx_good1 ++ [rx_tell]), rx_acts, rx_last, clr. split; [apply cx_start|].
  split; [eapply plain_acts_dec'; [by apply plain_acts_dec|exact E2]|].
  split; [apply asks_read_dec; by vm_compute|]. split; [by apply plain_acts_dec|]. split; [|by apply gives_dec].
  eexists _, _. split; [reflexivity|]. split; [by eexists|]. apply asks_read_dec. by vm_compute.
Qed.
Lemma told_ok : told_check = true.
Proof. vm_compute. reflexivity. Qed.
