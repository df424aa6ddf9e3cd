(** Proofs about the role of a node and about the end of a leadership. *)
From Coq Require Import Bool Lia ZifyBool ZifyNat.
From stdpp Require Import base numbers option gmap relations list.
From Verif Require Import Types TypesProofs LogIdList Membership Progress RaftState ProgressEntry Engine Store RaftCore.
From Verif Require Import EnginePrims NodeSpec NodePrims LogSpec LogPropSpec KindProofs NodeLogProofs StepLogProofs EngLogProofs LogStateProofs RoleSpec.
From Verif Require VoteNodeProofs ElectProofs VoteNodeProofs.

Definition isS {A} (o : option A) : bool := match o with Some _ => true | None => false end.
(** what the role depends on *)
Definition rk (e : Engine) : EngineConfig * Vote * EffMem * ServerState * bool * bool :=
  (en_cfg e, rs_v (en_state e), rs_eff (en_state e), rs_server (en_state e), isS (en_leader e), isS (en_cand e)).
Definition k_role (k : Kind) : bool :=
  match k with
  | KVote | KInitVote | KServer | KLeaderFresh | KEstablish | KFollow | KCandNew | KCandDrop
  | KLeadAppend | KFollowAppend | KTruncate | KInstall => true
  | _ => false
  end.
Lemma rs_eff_commit s c : rs_eff (set_mem (ms_commit (rs_mem s) c) (set_committed c s)) = rs_eff s.
Proof. unfold rs_eff. cbn. unfold ms_commit. destruct (_ : bool); reflexivity. Qed.
Lemma prim_rk k e e' : prim k e e' -> k_role k = false -> rk e' = rk e.
Proof.
  intros Hp Hk. unfold rk. destruct Hp; try discriminate; try (cbn; acc; cbn; repeat (rewrite ?H); reflexivity).
  - cbn. rewrite rs_eff_commit. reflexivity.
  - cbn. rewrite rs_eff_commit. reflexivity.
  - rewrite sh_trigger_eq by assumption. reflexivity.
  - rewrite logh_purge_eq. destruct (rs_purge_upto _); [|reflexivity]. destruct (ologid_leb _ _); reflexivity.
Qed.
Definition prims_rk := prims_field _ _ prim_rk.

(** the calculated role, and the invariant *)
Definition rcalc (e : Engine) : ServerState := rs_calc_server (en_state e) (en_id e).
Definition RI (e : Engine) : Prop :=
  (rs_is_leader (en_state e) (en_id e) = true -> isS (en_leader e) = true) /\
  (rs_server (en_state e) = rcalc e \/
   (isS (en_leader e) = true /\ rs_server (en_state e) = SLeader /\ m_contains (em_mem (rs_eff (en_state e))) (en_id e) = false) \/
   (isS (en_leader e) = false /\ isS (en_cand e) = false /\ rcalc e = SCandidate)).
Lemma rk_RI e e' : rk e' = rk e -> RI e -> RI e'.
Proof.
  unfold rk, RI, rcalc, rs_calc_server, rs_is_leader, rs_is_leading, rs_is_voter, en_id.
  intros [= -> -> -> -> -> ->]. auto.
Qed.
Ltac quiet H := apply (prims_rk _ _ _ H); reflexivity.

Lemma ssh_update_rk e : rk (ssh_update e) = (en_cfg e, rs_v (en_state e), rs_eff (en_state e), rcalc e, isS (en_leader e), isS (en_cand e)).
Proof.
  unfold ssh_update, rk, rcalc. destruct (bool_decide_reflect (rs_server (en_state e) = rs_calc_server (en_state e) (en_id e))) as [Hb|Hb].
  - rewrite Hb. reflexivity.
  - reflexivity.
Qed.
Lemma ssh_update_RI e : (rs_is_leader (en_state e) (en_id e) = true -> isS (en_leader e) = true) -> RI (ssh_update e).
Proof.
  pose proof (ssh_update_rk e) as Hrk. unfold RI, rcalc, rs_calc_server, rs_is_leader, rs_is_leading, rs_is_voter, en_id in *.
  unfold rk in Hrk. injection Hrk as -> -> -> -> -> ->. auto.
Qed.

Lemma last_membership_app a b d : last_membership (a ++ b) d = last_membership b (last_membership a d).
Proof. revert d. induction a as [|x a IH]; intros d; cbn; [reflexivity|]. destruct (e_payload x); apply IH. Qed.
(** an entry that is no membership leaves the role alone *)
Lemma lh_append_one p e e' : lh_append [p] e = Ok e' ->
  en_cfg e' = en_cfg e /\ rs_v (en_state e') = rs_v (en_state e) /\ rs_server (en_state e') = rs_server (en_state e) /\
  isS (en_leader e) = true /\ isS (en_leader e') = true /\ isS (en_cand e') = isS (en_cand e) /\
  ((forall m, p <> PMembership m) -> rs_eff (en_state e') = rs_eff (en_state e)).
Proof.
  unfold lh_append. destruct (en_leader e) as [l|] eqn:Hl; [|discriminate]. cbv zeta. intros H. rok H.
  pose proof (rh_initiate_prims _ _ H) as Hi. apply prims_rk in Hi; [|reflexivity].
  cbn [assign_ids last_membership e_payload] in Hx.
  match type of Hx with context [rh_append_membership _ _ ?e3] => set (e3' := e3) in * end.
  assert (H3 : rk e3' = rk e).
  { unfold e3', rk. cbn. acc. cbn. rewrite Hl. reflexivity. }
  assert (Hm : (forall m, p <> PMembership m) -> rk x = rk e3').
  { intros Hm. destruct p; try (injection Hx as <-; reflexivity). exfalso. eapply Hm. reflexivity. }
  assert (Hg : exists eff, rk x = (en_cfg e3', rs_v (en_state e3'), eff, rs_server (en_state e3'), isS (en_leader e3'), isS (en_cand e3'))).
  { destruct p; try (injection Hx as <-; eexists; reflexivity).
    unfold rh_append_membership in Hx. cbv zeta in Hx. rok Hx. rok Hx.
    apply rh_rebuild_progresses_prims, prims_rk in Hx0; [|reflexivity].
    apply rh_rebuild_streams_prims, prims_rk in Hx1; [|reflexivity].
    apply rh_initiate_prims, prims_rk in Hx; [|reflexivity].
    eexists. rewrite Hx, Hx1, Hx0. reflexivity. }
  destruct Hg as (eff & Hg).
  assert (Hle : isS (en_leader e') = true).
  { assert (Q : isS (en_leader e') = isS (en_leader e3')) by (unfold rk in *; congruence). rewrite Q. reflexivity. }
  unfold rk in *. repeat split; try congruence. intros Hp. specialize (Hm Hp). congruence.
Qed.

Lemma become_leader_rk now e e' : rs_is_leader (en_state e) (en_id e) = true -> vh_become_leader now e = Ok e' ->
  rk e' = (en_cfg e, rs_v (en_state e), rs_eff (en_state e), SLeader, true, isS (en_cand e)).
Proof.
  intros Hlead. unfold vh_become_leader. cbv zeta.
  assert (Hc : forall f, rs_calc_server (en_state e) (en_id e) = f -> f = SLeader).
  { intros f <-. unfold rs_calc_server. rewrite Hlead. reflexivity. }
  set (fresh := res_bind _ _).
  assert (Hfresh : fresh = Ok e' -> rk e' = (en_cfg e, rs_v (en_state e), rs_eff (en_state e), SLeader, true, isS (en_cand e))).
  { subst fresh. intros H. rok H. apply rh_rebuild_streams_prims, prims_rk in Hx; [|reflexivity].
    rewrite ssh_update_rk in Hx. cbn [push upd en_cfg en_state set_leader en_leader en_cand isS] in Hx.
    unfold rcalc, rs_calc_server, rs_is_leader, rs_is_leading, rs_is_voter, en_id in Hx. cbn in Hx.
    revert Hx. acc. cbn. unfold rs_is_leader, rs_is_leading, voted_for, rs_eff, rs_v, en_id in *. cbn. rewrite Hlead. intros Hx.
    destruct (ologid_ltb _ _) in H.
    - apply lh_append_one in H as (A1 & A2 & A3 & A4 & A5 & A6 & A7). specialize (A7 ltac:(discriminate)).
      unfold rk, rs_v, rs_eff in *. congruence.
    - apply rh_initiate_prims, prims_rk in H; [|reflexivity]. rewrite H, Hx. reflexivity. }
  destruct (en_leader e) as [l|] eqn:Hl; [|exact Hfresh].
  destruct (leader_eqb _ _); [|exact Hfresh]. intros [= <-]. rewrite ssh_update_rk. cbn.
  unfold rcalc. cbn. unfold en_id. cbn. f_equal. f_equal. f_equal. apply (Hc _ eq_refl).
Qed.

(** [update_internal] *)
Lemma update_internal_cases now e e' : vh_update_internal now e = Ok e' ->
  (rs_is_leader (en_state e) (en_id e) = true /\ rk e' = (en_cfg e, rs_v (en_state e), rs_eff (en_state e), SLeader, true, isS (en_cand e))) \/
  (rcalc e = SCandidate /\ e' = e) \/
  (rs_is_leading (en_state e) (en_id e) = false /\ rk e' = (en_cfg e, rs_v (en_state e), rs_eff (en_state e), rcalc e, false, false)).
Proof.
  unfold vh_update_internal. destruct (rs_is_leader _ _) eqn:Hl; [intros H; left; split; [reflexivity|eapply become_leader_rk; eassumption]|].
  destruct (rs_is_leading _ _) eqn:Hg; intros [= <-].
  - right. left. split; [|reflexivity]. unfold rcalc, rs_calc_server. rewrite Hl, Hg. reflexivity.
  - right. right. split; [reflexivity|]. unfold vh_become_following. rewrite ssh_update_rk. reflexivity.
Qed.
Lemma RI_of_rk e cfg v eff sv l c : rk e = (cfg, v, eff, sv, l, c) ->
  let leading := m_contains (em_mem eff) (ec_id cfg) && (li_node (v_leader v) =? ec_id cfg) in
  let calc := if leading && v_committed v then SLeader else if leading then SCandidate
              else if m_is_voter (em_mem eff) (ec_id cfg) then SFollower else SLearner in
  ((leading && v_committed v = true -> l = true) /\
   (sv = calc \/ (l = true /\ sv = SLeader /\ m_contains (em_mem eff) (ec_id cfg) = false) \/ (l = false /\ c = false /\ calc = SCandidate))) <-> RI e.
Proof.
  intros H. unfold rk in H. injection H as <- <- <- <- <- <-. unfold RI, rcalc, rs_calc_server, rs_is_leader, rs_is_leading, rs_is_voter, en_id, voted_for.
  cbv zeta. split; intros X; exact X.
Qed.
Lemma update_internal_RI now e e' : RI e -> vh_update_internal now e = Ok e' -> RI e'.
Proof.
  intros HR H. destruct (update_internal_cases _ _ _ H) as [(Hl & Hk)|[(Hc & ->)|(Hl & Hk)]]; [|exact HR|].
  - apply (RI_of_rk _ _ _ _ _ _ _ Hk). unfold rs_is_leader, rs_is_leading, voted_for, en_id in Hl. rewrite Hl. cbn. auto.
  - apply (RI_of_rk _ _ _ _ _ _ _ Hk). unfold rs_is_leader, rs_is_leading, voted_for, en_id in Hl. unfold rcalc, rs_calc_server, rs_is_leader, rs_is_leading, voted_for, rs_is_voter, en_id.
    rewrite Hl. cbn. split; [discriminate|]. left. reflexivity.
Qed.
(** [update_vote]: only the node's own election may raise an own, uncommitted vote *)
Lemma update_vote_RI now v e x : RI e -> vh_update_vote now v e = Ok x ->
  (li_node (v_leader v) = en_id e -> vote_gtb v (rs_v (en_state e)) = true -> v_committed v = true) -> RI x.1.
Proof.
  intros HR. unfold vh_update_vote. destruct (negb _); [intros [= <-] _; exact HR|]. cbv zeta. intros H Hown. rok H. injection H as <-. cbn [fst].
  destruct (vote_gtb v (rs_v (en_state e))) eqn:Hgt.
  - destruct (update_internal_cases _ _ _ Hx) as [(Hl & Hk)|[(Hc & ->)|(Hl & Hk)]].
    + apply (RI_of_rk _ _ _ _ _ _ _ Hk). unfold rs_is_leader, rs_is_leading, voted_for, en_id in Hl. rewrite Hl. cbn. auto.
    + exfalso. unfold rcalc, rs_calc_server, rs_is_leader, rs_is_leading, voted_for, en_id in Hc. cbn in Hc. revert Hc. acc. cbn.
      destruct (m_contains _ _); cbn; [|destruct (rs_is_voter _ _); discriminate].
      destruct (li_node (v_leader v) =? ec_id (en_cfg e)) eqn:Hn; cbn; [|destruct (rs_is_voter _ _); discriminate].
      rewrite Hown; [discriminate| |reflexivity]. apply Nat.eqb_eq. exact Hn.
    + apply (RI_of_rk _ _ _ _ _ _ _ Hk). unfold rs_is_leader, rs_is_leading, voted_for, en_id in Hl. unfold rcalc, rs_calc_server, rs_is_leader, rs_is_leading, voted_for, rs_is_voter, en_id.
      rewrite Hl. cbn. split; [discriminate|]. left. reflexivity.
  - eapply update_internal_RI; [|exact Hx]. eapply rk_RI; [|exact HR]. reflexivity.
Qed.
Lemma elect_RI now e e' : en_elect now e = Ok e' -> RI e'.
Proof.
  intros H. pose proof (ElectProofs.elect_spec _ _ _ H) as (Hv & _). revert H. unfold en_elect. cbv zeta. intros H. rok H.
  destruct (x.2); [|discriminate]. injection H as He'. rewrite <- He'. apply ssh_update_RI. intros Hld. exfalso.
  assert (Hv2 : rs_v (en_state (push (SendVote (mkVoteReq (vote_new (S (li_term (v_leader (rs_v (en_state e))))) (en_id e)) (rs_last (en_state e)))) x.1)) = rs_v (en_state e')).
  { rewrite <- He'. pose proof (ssh_update_rk (push (SendVote (mkVoteReq (vote_new (S (li_term (v_leader (rs_v (en_state e))))) (en_id e)) (rs_last (en_state e)))) x.1)) as Q.
    unfold rk in Q. congruence. }
  unfold rs_is_leader in Hld. rewrite Hv2, Hv in Hld. cbn in Hld. rewrite andb_false_r in Hld. discriminate.
Qed.

(** ** Following *)
Definition foreign (e : Engine) : Prop := li_node (v_leader (rs_v (en_state e))) <> en_id e.
Lemma foreign_not_leader e : foreign e -> rs_is_leader (en_state e) (en_id e) = true -> isS (en_leader e) = true.
Proof.
  unfold foreign, rs_is_leader, rs_is_leading, voted_for. intros Hf Hl. exfalso. apply Hf.
  apply andb_true_iff in Hl as [Hl _]. apply andb_true_iff in Hl as [_ Hl]. apply Nat.eqb_eq. exact Hl.
Qed.
Lemma rk_foreign e e' : rk e' = rk e -> foreign e -> foreign e'.
Proof. unfold rk, foreign, en_id. intros [= -> -> _ _ _ _]. auto. Qed.
Lemma ssh_foreign e : foreign e -> foreign (ssh_update e).
Proof. pose proof (ssh_update_rk e) as H. unfold rk in H. unfold foreign, en_id. injection H as -> -> _ _ _ _. auto. Qed.
Lemma ssh_foreign_RI e : foreign e -> foreign (ssh_update e) /\ RI (ssh_update e).
Proof. intros Hf. split; [apply ssh_foreign; exact Hf|]. apply ssh_update_RI. apply foreign_not_leader. exact Hf. Qed.
Lemma truncate_RI since e : foreign e -> RI e -> foreign (fh_truncate since e) /\ RI (fh_truncate since e).
Proof.
  intros Hf HR. unfold fh_truncate. destruct (rs_get_log_id _ _); [|auto]. cbv zeta. destruct (onat_leb _ _).
  - apply ssh_foreign_RI. exact Hf.
  - split; [eapply rk_foreign; [|exact Hf]|eapply rk_RI; [|exact HR]]; reflexivity.
Qed.
Lemma do_append_RI lv es e : foreign e -> RI e -> foreign (fh_do_append lv es e) /\ RI (fh_do_append lv es e).
Proof.
  intros Hf HR. unfold fh_do_append.
  set (e1 := fh_append_membership es (upd (rs_extend es) e)).
  enough (Q : foreign e1 /\ RI e1).
  { destruct Q as [Q1 Q2]. split; [eapply rk_foreign; [|exact Q1]|eapply rk_RI; [|exact Q2]]; reflexivity. }
  unfold e1, fh_append_membership. destruct (last_two_memberships es).
  - split; [eapply rk_foreign; [|exact Hf]|eapply rk_RI; [|exact HR]]; reflexivity.
  - apply ssh_foreign_RI. exact Hf.
Qed.
Lemma update_vote_v' now v e x : vh_update_vote now v e = Ok x -> x.2 = true -> rs_v (en_state x.1) = v /\ en_cfg x.1 = en_cfg e.
Proof.
  intros H Hb. destruct (ElectProofs.update_vote_v _ _ _ _ H) as (H1 & H2 & H3). split; [auto|].
  apply vh_update_vote_prims in H. revert H. generalize x.1. clear. intros e' Hp. revert e e' Hp. apply prims_ind_rel; [reflexivity|congruence|].
  intros k a b _ Hp. eapply ElectProofs.prim_cfg. exact Hp.
Qed.
Ltac rkq := (eapply rk_RI; [|eassumption]); reflexivity.
Lemma core_append_RI now v prev es c tx e e' : li_node (v_leader v) <> en_id e -> RI e -> core_append now v prev es c tx e = Ok e' -> RI e'.
Proof.
  intros Hne HR. unfold core_append. intros H. rok H. injection H as <-.
  assert (Q : RI x.1).
  { unfold en_append_entries in Hx. rok Hx. 
    assert (Q0 : RI x0.1).
    { unfold en_append in Hx0. rok Hx0. pose proof (update_vote_RI _ _ _ _ HR Hx1 ltac:(congruence)) as R1.
      destruct (x1.2) eqn:Hb; cbn [negb] in Hx0; [|injection Hx0 as <-; exact R1].
      destruct (update_vote_v' _ _ _ _ Hx1 Hb) as [Hv Hcfg].
      assert (Hf : foreign x1.1) by (unfold foreign, en_id in *; rewrite Hv, Hcfg; exact Hne).
      assert (Q2 : foreign (fh_ensure_consecutive prev x1.1).1 /\ RI (fh_ensure_consecutive prev x1.1).1).
      { unfold fh_ensure_consecutive. destruct prev; [|auto]. destruct (rs_has_log_id _ _); [auto|]. apply truncate_RI; assumption. }
      destruct (fh_ensure_consecutive prev x1.1) as [e2 []]; cbn [fst] in Q2; destruct Q2 as [Q2 Q3]; [|injection Hx0 as <-; exact Q3].
      injection Hx0 as <-. cbn [fst]. unfold fh_append_entries. cbv zeta.
      set (e1 := upd (rs_accept_io _) e2).
      assert (F1 : foreign e1 /\ RI e1).
      { assert (rk e1 = rk e2) by (unfold rk, e1; cbn; acc; reflexivity). split; [eapply rk_foreign|eapply rk_RI]; eassumption. }
      destruct F1 as [F1 F2]. destruct (drop _ es) as [|y r].
      - destruct (some_io_leb _ _); [exact F2|]. rkq.
      - apply do_append_RI; apply truncate_RI; assumption. }
    repeat case_match; simplify_eq; cbn [fst]; try exact Q0; rkq. }
  destruct (x.2); [|exact Q]. unfold en_commit_entries. eapply rk_RI; [|exact Q].
  quiet (fh_commit_prims c x.1).
Qed.
Lemma install_RI lv sn e : foreign e -> RI e -> RI (fh_install lv sn e).1.
Proof.
  intros Hf HR. unfold fh_install. destruct (ologid_leb _ _); [exact HR|]. destruct (sm_last _) as [sl|]; [|exact HR].
  unfold sh_update. destruct (ologid_leb _ _); [exact HR|]. cbv zeta. cbn [fst].
  set (e2 := match rs_get_log_id _ _ with Some _ => _ | None => _ end).
  assert (F2 : foreign e2).
  { assert (Hf1 : foreign (upd (set_snap (sn_meta sn)) e)) by (eapply rk_foreign; [|exact Hf]; reflexivity).
    assert (HR1 : RI (upd (set_snap (sn_meta sn)) e)) by (eapply rk_RI; [|exact HR]; reflexivity).
    unfold e2. destruct (rs_get_log_id _ _); [|exact Hf1]. destruct (logid_eqb _ _); [exact Hf1|]. apply truncate_RI; assumption. }
  set (e3 := upd _ e2).
  assert (F3 : foreign e3).
  { eapply rk_foreign; [|exact F2]. unfold rk, e3. cbn. acc. reflexivity. }
  set (e4 := fh_update_committed_membership (sm_mem (sn_meta sn)) e3).
  assert (R4 : RI e4) by (apply ssh_foreign_RI; exact F3).
  match goal with |- RI (logh_purge ?x) => set (e5 := x) end.
  assert (R5 : RI e5) by (eapply rk_RI; [|exact R4]; reflexivity).
  eapply rk_RI; [|exact R5]. rewrite logh_purge_eq. destruct (rs_purge_upto _); [|reflexivity]. destruct (ologid_leb _ _); reflexivity.
Qed.
Lemma install_snapshot_RI now v sn tx e e' : li_node (v_leader v) <> en_id e -> RI e -> en_install_snapshot now v sn tx e = Ok e' -> RI e'.
Proof.
  intros Hne HR. unfold en_install_snapshot, vh_accept_vote. intros H. rok H. rok Hx.
  pose proof (update_vote_RI _ _ _ _ HR Hx0 ltac:(congruence)) as R1.
  destruct (x0.2) eqn:Hb; injection Hx as <-.
  - rewrite Hb in H. cbn [negb] in H. destruct (update_vote_v' _ _ _ _ Hx0 Hb) as [Hv Hcfg].
    pose proof (install_RI (fh_vote x0.1) sn x0.1) as Q. destruct (fh_install _ _ _) as [e2 cond]. injection H as <-.
    cbn [fst] in Q. eapply rk_RI; [|apply Q; [unfold foreign, en_id in *; rewrite Hv, Hcfg; exact Hne|exact R1]]. reflexivity.
  - cbn in H. injection H as <-. eapply rk_RI; [|exact R1]. reflexivity.
Qed.

(** ** Steps *)
Lemma leader_RI E me D e : ei E me D e -> isS (en_leader e) = true -> RI e.
Proof.
  intros I Hl. destruct (en_leader e) as [l|] eqn:Hld; [|discriminate].
  destruct (ei_el _ _ _ _ I l Hld) as (E1 & E2 & E3 & _ & _ & _ & E7). pose proof (ei_id _ _ _ _ I) as Hid.
  unfold RI. rewrite Hld. split; [auto|]. destruct (m_contains (em_mem (rs_eff (en_state e))) (en_id e)) eqn:Hm; [|auto].
  left. unfold rcalc, rs_calc_server, rs_is_leader, rs_is_leading, voted_for. rewrite Hm, E7. cbn.
  assert (Q : (li_node (v_leader (rs_v (en_state e))) =? en_id e) = true) by (apply Nat.eqb_eq; congruence).
  rewrite Q, <- E1, E2. reflexivity.
Qed.
Lemma quiet_RI ks e e' : prims ks e e' -> existsb k_role ks = false -> RI e -> RI e'.
Proof. intros H Hk. apply rk_RI. apply (prims_rk _ _ _ H Hk). Qed.
Lemma own_not_gt v w id : (li_node (v_leader v) = id -> vote_le v w) -> li_node (v_leader v) = id -> vote_gtb v w = true -> v_committed v = true.
Proof. intros H1 H2 Hgt. specialize (H1 H2). exfalso. clear -H1 Hgt. unfold vote_le in *. ord. Qed.
Lemma tick_RI now hb ee eh e e' : RI e -> handle_tick now hb ee eh e = Ok e' -> RI e'.
Proof.
  intros HR. unfold handle_tick. intros H. rok H.
  assert (R1 : RI x).
  { apply ElectProofs.tick_election_spec in Hx as [(_ & Hx)|(_ & ->)]; [|exact HR]. eapply elect_RI. exact Hx. }
  set (e2 := match en_leader x with Some _ => _ | None => _ end) in H.
  assert (R2 : RI e2).
  { eapply rk_RI; [|exact R1]. unfold e2. destruct (en_leader x) as [l|] eqn:Hl; [|reflexivity]. destruct (_ <=? _); [|reflexivity].
    destruct eh; unfold rk; cbn; rewrite ?Hl; [|reflexivity]. unfold core_heartbeat. rewrite Hl. destruct (ld_transfer l); cbn; rewrite ?Hl; reflexivity. }
  destruct (ologid_leb _ _); [|injection H as <-; exact R2].
  unfold en_step_down in H. destruct (ologid_leb _ _); [|injection H as <-; exact R2]. eapply update_internal_RI; eassumption.
Qed.
Lemma write_leader p tx n x : core_write p tx n = Ok x -> x.1 = n \/ isS (en_leader (nd_eng x.1)) = true.
Proof.
  unfold core_write. destruct (en_leader (nd_eng n)) as [l|]; [|intros [= <-]; auto].
  destruct (ld_transfer l); [intros [= <-]; auto|]. intros H. rok H. destruct (rs_last _); [|discriminate]. injection H as <-. right. cbn.
  apply lh_append_one in Hx. tauto.
Qed.
Lemma start_RI now e e' : en_leader e = None -> en_cand e = None -> en_startup now e = Ok e' -> RI e'.
Proof.
  intros Hl Hc. unfold en_startup. destruct (rs_is_leader _ _) eqn:Hld.
  - intros H. destruct (update_internal_cases _ _ _ H) as [(_ & Hk)|[(Hcc & ->)|(Hl2 & Hk)]].
    + apply (RI_of_rk _ _ _ _ _ _ _ Hk). unfold rs_is_leader, rs_is_leading, voted_for, en_id in Hld. rewrite Hld. cbn. auto.
    + unfold rcalc, rs_calc_server in Hcc. rewrite Hld in Hcc. discriminate.
    + unfold rs_is_leader in Hld. rewrite Hl2 in Hld. discriminate.
  - intros [= <-]. unfold RI, rcalc, rs_calc_server, en_id, rs_is_leader, rs_is_leading, rs_is_voter, rs_eff, rs_v, voted_for in *. cbn in Hld. cbn. rewrite Hl, Hc, Hld. cbn. split; [discriminate|].
    destruct (m_contains _ _ && _) eqn:Hlg.
    + right. right. auto.
    + left. reflexivity.
Qed.
Lemma en_new_RI now s cfg e : en_startup now (engine_new s cfg) = Ok e -> RI e.
Proof. apply start_RI; reflexivity. Qed.
Lemma node_start_RI now cfg d sm n : node_start now cfg d sm = Ok n -> RI (nd_eng n).
Proof. unfold node_start. intros H. rok H. destruct x as [[s d1] sm1]. rok H. injection H as <-. cbn [nd_eng]. eapply en_new_RI. exact Hx0. Qed.

Section role.
  Context (E : Env) (cfg : EngineConfig) (HE : env_ok E).
  Notation me := (ec_id cfg).
  Lemma stored_le n : node_inv E me n -> vote_le (stored_vote n) (rs_v (nd_state n)).
  Proof. intros (w0 & pcs & wv & D & N). destruct (n_v _ _ _ _ _ _ _ N) as (_ & Hv). eapply VoteNodeProofs.vchain_le. exact Hv. Qed.
  Lemma msg_RI now m n x : node_inv E me n -> node_inv E me x.1 -> msg_fits E n m -> RI (nd_eng n) -> handle_msg now m n = Ok x -> RI (nd_eng x.1).
  Proof using HE.
    intros In In' Hf HR H. pose proof (node_ei E me _ In) as I. pose proof (node_ei E me _ In') as I'.
    pose proof (ei_id _ _ _ _ I) as Hid. unfold nd_id in *.
    destruct m; cbn [handle_msg] in H; cbn [msg_fits] in Hf;
      try (apply lift_prims in H as (e' & H & ->); cbn [fst nd_set_eng nd_eng]).
    - destruct Hf as ((_ & Hne & _) & _). eapply core_append_RI; eassumption.
    - unfold core_vote in H. rok H. injection H as <-. eapply (rk_RI x.1); [reflexivity|].
      unfold en_vote_req in Hx. destruct (_ && _); [injection Hx as <-; exact HR|]. destruct (negb _); [injection Hx as <-; exact HR|].
      rok Hx. injection Hx as <-. cbn [fst]. eapply update_vote_RI; [exact HR|exact Hx0|]. apply own_not_gt.
      intros Ho. apply Hf. exact Ho.
    - destruct Hf as ((_ & Hne & _) & _). eapply install_snapshot_RI; eassumption.
    - unfold core_transfer in H. destruct (vote_eqb _ _); [|injection H as <-; exact HR]. cbv zeta in H.
      destruct (en_id _ =? _); [eapply elect_RI; exact H|]. injection H as <-. eapply rk_RI; [|exact HR]. reflexivity.
    - unfold core_initialize in H. rok H. injection H as <-. eapply (rk_RI x.1); [reflexivity|].
      unfold en_initialize in Hx. destruct (rs_is_initialized _); [injection Hx as <-; exact HR|].
      destruct (negb _); [injection Hx as <-; exact HR|]. cbv zeta in Hx. rok Hx. injection Hx as <-. cbn [fst]. eapply elect_RI. exact Hx0.
    - destruct (write_leader _ _ _ _ H) as [->|Hl]; [exact HR|]. eapply leader_RI; eassumption.
    - unfold core_change in H. destruct (ms_change _ _ _).
      + destruct (write_leader _ _ _ _ H) as [->|Hl]; [exact HR|]. eapply leader_RI; eassumption.
      + injection H as <-. exact HR.
    - unfold core_read in H. repeat case_match; try discriminate; injection H as <-; exact HR.
    - destruct (rs_is_voter _ _); [|injection H as <-; exact HR]. eapply elect_RI. exact H.
    - injection H as <-. eapply quiet_RI; [apply core_heartbeat_prims|reflexivity|exact HR].
    - injection H as <-. eapply quiet_RI; [apply sh_trigger_prims with (ks := [KBuild]); reflexivity|reflexivity|exact HR].
    - eapply quiet_RI; [eapply en_trigger_purge_prims; exact H|reflexivity|exact HR].
    - injection H as <-. eapply quiet_RI; [apply en_trigger_transfer_prims|reflexivity|exact HR].
  Qed.
  Lemma upd_io_RI f n : RI (nd_eng n) -> RI (nd_eng (nd_upd_io f n)).
  Proof. apply rk_RI. reflexivity. Qed.
  Lemma note_RI now x r n y : node_inv E me n -> node_inv E me y.1 -> nd_notes n = x :: r -> RI (nd_eng n) ->
    handle_note now x (nd_set_notes r n) = Ok y -> RI (nd_eng y.1).
  Proof using HE.
    intros In In' Hn HR H. pose proof (node_ei E me _ In) as I. pose proof (node_ei E me _ In') as I'.
    pose proof (ei_id _ _ _ _ I) as Hid.
    assert (HR0 : RI (nd_eng (nd_set_notes r n))) by exact HR.
    assert (Hni : match x with NVoteResp _ resp _ => li_node (v_leader (vr_vote resp)) = me -> vote_le (vr_vote resp) (rs_v (nd_state n))
                  | NHigherVote v _ => li_node (v_leader v) = me -> vote_le v (rs_v (nd_state n)) | _ => True end).
    { pose proof (stored_le n In) as Hle. destruct In as (w0 & pcs & wv & D & N). pose proof (n_notes _ _ _ _ _ _ _ N) as HN. rewrite Hn in HN. apply Forall_cons_1 in HN as [HN _].
      destruct x; cbn in HN; try exact Logic.I; intros Ho; (apply HN; exact Ho). }
    rewrite <- Hid in Hni.
    destruct x; cbn [handle_note] in H; cbn [nd_eng nd_set_notes] in H.
    - destruct (en_cand (nd_eng n)) as [c|] eqn:Hc; [|injection H as <-; exact HR].
      destruct (vote_matches _ _); [|injection H as <-; exact HR].
      apply lift_prims in H as (e' & H & ->). cbn [fst nd_set_eng nd_eng]. cbn [fst nd_set_eng nd_eng] in I'.
      unfold en_vote_resp in H. rewrite Hc in H. destruct (_ && _).
      + rok H. cbv zeta in H. destruct (x.2) eqn:Hx2.
        * unfold en_establish in H. cbn [en_cand set_cand] in H. destruct (eh_establish _ _ _) as [e1|] eqn:He.
          -- cbv zeta in H. rok H. rok H. apply lh_append_one in H. eapply leader_RI; [exact I'|]. tauto.
          -- exfalso. unfold eh_establish in He. cbn in He.
             destruct (ei_cl _ _ _ _ I c Hc) as (_ & _ & _ & _ & Hln). rewrite Hln in He. discriminate.
        * injection H as <-. eapply rk_RI; [|exact HR]. unfold rk. cbn. rewrite Hc. reflexivity.
      + cbv zeta in H. rok H. injection H as <-. eapply update_vote_RI; [|exact Hx|].
        * eapply rk_RI; [|exact HR]. destruct (ologid_ltb _ _); reflexivity.
        * assert (Q : forall b, rs_v (en_state (if b : bool then set_greater true (nd_eng n) else nd_eng n)) = rs_v (nd_state n)) by (intros []; reflexivity).
          assert (Q2 : forall b, en_id (if b : bool then set_greater true (nd_eng n) else nd_eng n) = en_id (nd_eng n)) by (intros []; reflexivity).
          rewrite Q, Q2. apply own_not_gt. exact Hni.
    - destruct (vote_matches _ _); [|injection H as <-; exact HR]. apply lift_prims in H as (e' & H & ->). rok H. injection H as <-.
      eapply update_vote_RI; [exact HR|exact Hx|]. apply own_not_gt. exact Hni.
    - destruct io as [|v lid]; [injection H as <-; apply upd_io_RI; exact HR|].
      match type of H with context [nd_upd_io ?f ?m] => set (n1 := nd_upd_io f m) in * end. assert (HR1 : RI (nd_eng n1)) by (apply upd_io_RI; exact HR).
      destruct (en_leader (nd_eng n1)); [|injection H as <-; exact HR1]. destruct (vote_matches _ _); [|injection H as <-; exact HR1].
      apply lift_prims in H as (e' & H & ->). eapply quiet_RI; [eapply rh_update_local_prims; exact H|reflexivity|exact HR1].
    - destruct (session_matches _ _); [|injection H as <-; exact HR]. apply lift_prims in H as (e' & H & ->).
      eapply quiet_RI; [eapply rh_update_progress_prims; exact H|reflexivity|exact HR].
    - destruct (session_matches _ _); [|injection H as <-; exact HR]. apply lift_prims in H as (e' & H & ->).
      eapply quiet_RI; [eapply rh_update_clock_prims; exact H|reflexivity|exact HR].
    - destruct r0.
      + rok H. injection H as <-. apply upd_io_RI. eapply quiet_RI; [eapply en_finish_building_prims; exact Hx|reflexivity|exact HR].
      + injection H as <-. apply upd_io_RI. exact HR.
      + destruct (apply_results _ _). injection H as <-. exact (upd_io_RI _ _ HR).
  Qed.
  Lemma step_RI now ev n n' outs : node_inv E me n -> node_inv E me n' -> event_fits E n ev -> RI (nd_eng n) ->
    node_step now ev n = Ok (n', outs) -> RI (nd_eng n').
  Proof using HE.
    intros In In' Hf HR Hs. destruct (node_step_cases now ev n n' outs Hs) as [H1 H2|c r H1 H2 H3 H4|H1 H2 H3 H4 H5 H6|t c x r H1 H2 H3 H4 H5 H6 H7|H1 H2 H3].
    - subst n'. exact HR.
    - destruct (run_cmd_eng _ _ _ _ H4) as (io & He & _). cbn [fst] in He. rewrite He. eapply rk_RI; [|exact HR]. reflexivity.
    - destruct ev; cbn [node_step] in Hs; unfold when_idle in Hs; rewrite ?H2 in Hs; try (exfalso; congruence).
      + eapply (msg_RI now m n (n', outs)); eassumption.
      + destruct (nd_notes n) as [|x r] eqn:Hn; [injection Hs as <- <-; exact HR|]. eapply (note_RI now x r n (n', outs)); eassumption.
      + apply lift_prims in Hs as (e' & Hs & Hp). injection Hp as -> ->. eapply tick_RI; [exact HR|exact Hs].
      + destruct (en_leader (nd_eng n)); [|injection Hs as <- <-; exact HR]. apply lift_prims in Hs as (e' & Hs & Hp). injection Hp as -> ->.
        eapply quiet_RI; [eapply rh_initiate_prims; exact Hs|reflexivity|exact HR].
      + injection Hs as <- <-. exact HR.
      + destruct (_ !! _); injection Hs as <- <-; exact HR.
      + rok Hs. injection Hs as <- <-. apply sm_step_eng in Hx as [-> _]. exact HR.
      + injection Hs as <- <-. unfold build_done. destruct (nd_builds n !! i); exact HR.
      + apply stream_send_eng in Hs as [Hs _]. cbn in Hs. rewrite Hs. exact HR.
      + injection Hs as <- <-. rewrite (proj1 (stream_fail_eng _ _)). exact HR.
      + injection Hs as <- <-. unfold stream_snap_reply. repeat case_match; exact HR.
      + injection Hs as Hs. assert (Q : nd_eng n' = nd_eng n) by (revert Hs; unfold hb_send; repeat case_match; intros [= <- <-]; reflexivity). rewrite Q. exact HR.
      + injection Hs as Hs. pose proof (proj1 (handle_reply_eng tag r n)) as Q. rewrite Hs in Q. cbn in Q. rewrite Q. exact HR.
    - subst ev. cbn [node_step] in Hs. unfold when_idle in Hs. rewrite H2, H3 in Hs. eapply (note_RI now x r n (n', outs)); eassumption.
    - rewrite H1. exact HR.
  Qed.
  Lemma act_RI a n x : node_inv E me n -> node_inv E me x.1 -> act_fits E a n x.1 -> RI (nd_eng n) -> node_act a n = Ok x -> RI (nd_eng x.1).
  Proof using HE.
    intros In In' Hf HR H. destruct a as [now ev|now k j keep]; cbn [node_act] in H.
    - destruct x as [n' outs]. destruct Hf as (Hf & _). exact (step_RI now ev n n' outs In In' Hf HR H).
    - rok H. injection H as <-. cbn [fst]. eapply node_start_RI. exact Hx.
  Qed.
  Lemma run_RI acts : forall n x, node_inv E me n -> nd_id n = me -> RI (nd_eng n) -> run_fits E acts n -> node_run acts n = Ok x -> RI (nd_eng x.1).
  Proof using HE.
    induction acts as [|a acts IH]; intros n x In Hid HR Hf H; cbn [node_run] in H.
    - injection H as <-. exact HR.
    - rok H. rok H. injection H as <-. cbn [fst]. cbn [run_fits] in Hf. rewrite Hx in Hf. destruct Hf as [Hf Hfr].
      destruct (node_act_inv E me HE a n _ Hx Hf Hid In) as [In' Hid'].
      eapply IH; [exact In'|exact Hid'| |exact Hfr|exact Hx0]. exact (act_RI a n x0 In In' Hf HR Hx).
  Qed.
  Lemma reach_RI n : fits_reachable E cfg n -> RI (nd_eng n).
  Proof using HE.
    intros (now & n0 & acts & outs & Hf & Hr & Hrun). destruct (fresh_inv E me HE now cfg n0 Hf eq_refl) as [In Hid].
    eapply (run_RI acts n0 (n, outs)); try eassumption.
    eapply node_start_RI. exact Hf.
  Qed.

  (** C30 *)
  Lemma calc_role s id : role_of id (rs_v s) (em_mem (rs_eff s)) (rs_calc_server s id).
  Proof.
    unfold role_of, rs_calc_server, rs_is_leader, rs_is_leading, rs_is_voter, voted_for.
    destruct (m_contains (em_mem (rs_eff s)) id) eqn:Hm; cbn; [|destruct (m_is_voter _ _); (split; [intros [_ ?]; discriminate|reflexivity])].
    destruct (li_node (v_leader (rs_v s)) =? id) eqn:Hi; cbn.
    - apply Nat.eqb_eq in Hi. destruct (v_committed (rs_v s)); auto.
    - apply Nat.eqb_neq in Hi. destruct (m_is_voter _ _); (split; [intros [? _]; congruence|reflexivity]).
  Qed.
  Lemma role n : fits_reachable E cfg n ->
    role_of me (rs_v (nd_state n)) (nd_mem n) (rs_server (nd_state n)) \/
    (rs_server (nd_state n) = SLeader /\ li_node (v_leader (rs_v (nd_state n))) = me /\ v_committed (rs_v (nd_state n)) = true /\
     m_contains (nd_mem n) me = false /\ en_leader (nd_eng n) <> None) \/
    (li_node (v_leader (rs_v (nd_state n))) = me /\ v_committed (rs_v (nd_state n)) = false /\
     m_contains (nd_mem n) me = true /\ en_leader (nd_eng n) = None /\ en_cand (nd_eng n) = None).
  Proof using HE.
    intros Hr. pose proof (reach_RI n Hr) as (_ & HR). pose proof (reach_inv E cfg HE n Hr) as In. pose proof (node_id E me n In) as Hid.
    unfold nd_id in Hid. unfold nd_mem, nd_state in *. rewrite <- Hid.
    destruct HR as [HR|[(H1 & H2 & H3)|(H1 & H2 & H3)]].
    - left. rewrite HR. apply calc_role.
    - right. left. destruct (en_leader (nd_eng n)) as [l|] eqn:Hl; [|discriminate].
      destruct (leader_own E cfg HE n l Hr Hl) as (L1 & L2 & L3). unfold nd_state in *. rewrite Hid in *. repeat split; auto; discriminate.
    - right. right. destruct (en_leader (nd_eng n)); [discriminate|]. destruct (en_cand (nd_eng n)); [discriminate|].
      pose proof (calc_role (en_state (nd_eng n)) (en_id (nd_eng n))) as Q. unfold rcalc in H3. rewrite H3 in Q. destruct Q as [[Q1 Q2] Q3]. auto 10.
  Qed.
  Lemma forward n to x : fits_reachable E cfg n -> rs_forward (nd_state n) = Some (to, x) ->
    v_committed (rs_v (nd_state n)) = true /\ to = li_node (v_leader (rs_v (nd_state n))) /\ m_nodes (nd_mem n) !! to = Some x /\
    (to = me -> en_leader (nd_eng n) <> None).
  Proof using HE.
    intros Hr. unfold rs_forward. destruct (v_committed _) eqn:Hc; [|discriminate]. unfold rs_new_forward. intros H.
    destruct (m_nodes _ !! _) as [y|] eqn:Hm; [|discriminate]. injection H as <- <-. repeat split; try assumption.
    intros Hto. pose proof (reach_RI n Hr) as (HR & _). pose proof (reach_inv E cfg HE n Hr) as In. pose proof (node_id E me n In) as Hid. unfold nd_id in Hid.
    unfold rs_is_leader, rs_is_leading, voted_for, m_contains in HR. unfold nd_state in *.
    rewrite Hid, <- Hto, Hc in HR. unfold nd_mem, nd_state in *. rewrite Hm in HR. rewrite Nat.eqb_refl in HR.
    intros Hn. rewrite Hn in HR. specialize (HR ltac:(reflexivity)). discriminate.
  Qed.

  (** C29 *)
  Lemma update_vote_leader now v e x : vh_update_vote now v e = Ok x -> isS (en_leader e) = true -> isS (en_leader x.1) = false ->
    rs_v (en_state x.1) = v.
  Proof.
    intros H H1 H2. destruct (ElectProofs.update_vote_v _ _ _ _ H) as (_ & H3 & H4). destruct (x.2); [auto|]. rewrite H3 in H2; congruence.
  Qed.
  Lemma quiet_leader ks e e' : prims ks e e' -> existsb k_changes_leader ks = false -> isS (en_leader e') = isS (en_leader e).
  Proof. intros H Hk. f_equal. revert Hk. revert e e' H. intros e e' H Hk. apply (prims_field _ _ prim_leader_same _ _ _ H Hk). Qed.
  Lemma rk_leader e e' : rk e' = rk e -> isS (en_leader e') = isS (en_leader e).
  Proof. unfold rk. congruence. Qed.
  Lemma quiet_leader' ks e e' : prims ks e e' -> existsb k_role ks = false -> isS (en_leader e') = isS (en_leader e).
  Proof. intros H Hk. apply rk_leader. apply (prims_rk _ _ _ H Hk). Qed.
  Definition loss (n n' : Node) (ev : Event) : Prop :=
    rs_v (nd_state n') <> rs_v (nd_state n) \/ rs_v (nd_state n) ∈ carried_votes ev n \/
    ((exists hb ee eh, ev = ETick hb ee eh) /\ m_contains (nd_mem n) me = false /\
     ologid_leb (em_log_id (rs_eff (nd_state n))) (rs_committed (nd_state n)) = true /\
     ologid_leb (em_log_id (rs_eff (nd_state n))) (io_applied (rs_io (nd_state n))) = true).
  Lemma append_loss now v prev es c tx e e' : core_append now v prev es c tx e = Ok e' ->
    isS (en_leader e) = true -> isS (en_leader e') = false -> rs_v (en_state e') = v.
  Proof.
    unfold core_append. intros H H1 H2. rok H. injection H as <-. unfold en_append_entries, en_append in Hx. rok Hx. rok Hx0.
    assert (Q : exists ks, prims ks x1.1 (if x.2 then en_commit_entries c x.1 else x.1) /\
       existsb k_changes_leader ks = false /\ existsb k_changes_vote ks = false).
    { exists (KRespond :: KBuild :: KFollowCommit :: ks_append). split; [|split; reflexivity].
      assert (P1 : prims ks_append x1.1 x0.1).
      { destruct (negb _); [injection Hx0 as <-; apply prims_refl|].
        pose proof (fh_ensure_consecutive_prims prev x1.1) as Pe.
        destruct (fh_ensure_consecutive prev x1.1) as [e2 []]; injection Hx0 as <-; cbn [fst] in *.
        - eapply prims_trans; [pw Pe|pw fh_append_entries_prims].
        - pw Pe. }
      assert (P2 : prims (KRespond :: KBuild :: KFollowCommit :: ks_append) x1.1 x.1).
      { eapply prims_trans; [pw P1|]. destruct x0 as [e1 r]. cbn [fst snd] in *. destruct r.
        - destruct (io_accepted (rs_io (en_state e1))) eqn:Hacc; [|discriminate]. injection Hx as <-. cbn [fst].
          pone pr_respond. cbn. eauto.
        - injection Hx as <-. cbn [fst]. pone pr_respond. destruct (x1.2); cbn [negb] in Hx0; [destruct (fh_ensure_consecutive _ _) as [? []]; discriminate|].
          injection Hx0 as <- <-. reflexivity.
        - injection Hx as <-. pone pr_respond. exact Logic.I. }
      destruct (x.2); [|exact P2]. eapply prims_trans; [exact P2|pw fh_commit_prims]. }
    destruct Q as (ks & Q1 & Q2 & Q3). rewrite (prims_vote_same _ _ _ Q1 Q3). rewrite (quiet_leader _ _ _ Q1 Q2) in H2.
    eapply update_vote_leader; eassumption.
  Qed.
  Lemma install_loss now v sn tx e e' : en_install_snapshot now v sn tx e = Ok e' ->
    isS (en_leader e) = true -> isS (en_leader e') = false -> rs_v (en_state e') = v.
  Proof.
    unfold en_install_snapshot, vh_accept_vote. intros H H1 H2. rok H. rok Hx.
    assert (Q : exists ks, prims ks x0.1 e' /\ existsb k_changes_leader ks = false /\ existsb k_changes_vote ks = false).
    { exists [KInstall; KRespond]. split; [|split; reflexivity]. destruct x0 as [e1 ok]. cbn [fst snd] in *.
      destruct ok; injection Hx as <-; cbn [fst snd negb] in H.
      - destruct (fh_install (fh_vote e1) sn e1) as [e2 cond] eqn:Hi. injection H as <-.
        eapply prims_trans; [|pone pr_respond; reflexivity].
        pose proof (pr_install (fh_vote e1) sn e1) as Hp. rewrite Hi in Hp. eapply prims_one'; [exact Hp|reflexivity].
      - injection H as <-. pone pr_respond; reflexivity. }
    destruct Q as (ks & Q1 & Q2 & Q3). rewrite (prims_vote_same _ _ _ Q1 Q3). rewrite (quiet_leader _ _ _ Q1 Q2) in H2.
    eapply update_vote_leader; eassumption.
  Qed.
  Lemma elect_vote_changes now e e' : en_elect now e = Ok e' -> rs_v (en_state e') <> rs_v (en_state e).
  Proof.
    intros H Heq. apply ElectProofs.elect_spec in H as (Hv & _). rewrite Heq in Hv.
    pose proof (ElectProofs.next_vote_gt e (en_id e)) as Hg. rewrite <- Hv in Hg. rewrite vote_gtb_negb, vote_geb_refl in Hg. discriminate.
  Qed.
  Lemma tick_loss now hb ee eh e e' : rs_server (en_state e) = SLeader -> isS (en_leader e) = true ->
    handle_tick now hb ee eh e = Ok e' ->
    (isS (en_leader e') = false ->
     rs_is_leading (en_state e) (en_id e) = false /\
     ologid_leb (em_log_id (rs_eff (en_state e))) (rs_committed (en_state e)) = true /\
     ologid_leb (em_log_id (rs_eff (en_state e))) (io_applied (rs_io (en_state e))) = true) /\
    (rs_is_leading (en_state e) (en_id e) = false ->
     ologid_leb (em_log_id (rs_eff (en_state e))) (rs_committed (en_state e)) = true ->
     ologid_leb (em_log_id (rs_eff (en_state e))) (io_applied (rs_io (en_state e))) = true ->
     isS (en_leader e') = false /\ isS (en_cand e') = false /\ rs_server (en_state e') = (if rs_is_voter (en_state e) (en_id e) then SFollower else SLearner)).
  Proof.
    intros Hs Hl H. unfold handle_tick in H. rok H.
    assert (x = e) as ->.
    { unfold tick_election in Hx. rewrite Hs in Hx. rewrite bool_decide_eq_true_2 in Hx by reflexivity. congruence. }
    destruct (en_leader e) as [l|] eqn:Hld; [|discriminate].
    set (e2 := if ld_next_heartbeat l <=? now then _ else _) in H.
    assert (Q : en_state e2 = en_state e /\ en_cfg e2 = en_cfg e /\ isS (en_leader e2) = true).
    { unfold e2. destruct (_ <=? _); [|rewrite Hld; auto]. unfold core_heartbeat. rewrite Hld. destruct eh; [destruct (ld_transfer l)|]; auto. }
    destruct Q as (Q1 & Q2 & Q3). clearbody e2. unfold en_step_down, en_id in *. rewrite Q1 in H.
    destruct (ologid_leb _ (io_applied _)) eqn:H1.
    2: { injection H as <-. split; [congruence|]. intros; discriminate. }
    destruct (ologid_leb _ (rs_committed _)) eqn:H2.
    2: { injection H as <-. split; [congruence|]. intros; discriminate. }
    destruct (update_internal_cases _ _ _ H) as [(Hc & Hk)|[(Hc & ->)|(Hc & Hk)]].
    - split; [unfold rk in Hk; congruence|]. unfold rs_is_leader, en_id in Hc. rewrite Q1, Q2 in Hc. intros Hn. rewrite Hn in Hc. discriminate.
    - split; [congruence|]. unfold rcalc, rs_calc_server, rs_is_leader, en_id in Hc. rewrite Q1, Q2 in Hc. intros Hn. rewrite Hn in Hc. cbn in Hc.
      destruct (rs_is_voter _ _); discriminate.
    - unfold en_id in Hc. rewrite Q1, Q2 in Hc. split; [auto|]. intros _ _ _. unfold rk in Hk. injection Hk as _ _ _ K1 K2 K3.
      split; [exact K2|]. split; [exact K3|]. rewrite K1. unfold rcalc, rs_calc_server, rs_is_leader, en_id. rewrite Q1, Q2, Hc. reflexivity.
  Qed.
  Lemma leader_lost now ev n n' outs : fits_step E cfg now ev n n' outs ->
    en_leader (nd_eng n) <> None -> en_leader (nd_eng n') = None -> loss n n' ev.
  Proof using HE.
    intros Hst H1 H2. destruct (step_inv E cfg HE _ _ _ _ _ Hst) as [In In']. destruct Hst as (Hr & Hs & Hf & _).
    pose proof (node_ei E me _ In) as I. pose proof (ei_id _ _ _ _ I) as Hid.
    assert (L1 : isS (en_leader (nd_eng n)) = true) by (destruct (en_leader (nd_eng n)); [reflexivity|congruence]).
    assert (L2 : isS (en_leader (nd_eng n')) = false) by (rewrite H2; reflexivity).
    destruct (en_leader (nd_eng n)) as [l|] eqn:Hl; [|congruence]. destruct (leader_own E cfg HE n l Hr Hl) as (O1 & O2 & O3).
    destruct (ei_el _ _ _ _ I l Hl) as (_ & _ & _ & _ & _ & _ & E7).
    assert (Hno : forall e, en_leader e = en_leader (nd_eng n) -> isS (en_leader e) = false -> loss n n' ev) by (intros e He Hx; congruence).
    assert (Heq : isS (en_leader (nd_eng n')) = isS (en_leader (nd_eng n)) -> loss n n' ev) by (rewrite Hl, L2; discriminate).
    destruct (decide (rs_v (nd_state n') = rs_v (nd_state n))) as [Hv|Hv]; [|left; exact Hv].
    assert (Hcv : rs_v (nd_state n') ∈ carried_votes ev n -> loss n n' ev) by (rewrite Hv; intros Hin; right; left; exact Hin).
    unfold nd_state in Hv.
    destruct ev; cbn [node_step] in Hs; unfold when_idle in Hs; try (destruct (runnable n) eqn:Hrun; [injection Hs as <- <-; apply Heq; reflexivity|]).
    - unfold run_one in Hs. destruct (en_out (nd_eng n)) as [|c r]; [injection Hs as <- <-; apply Heq; reflexivity|].
      destruct (cond_ok _ _); [|injection Hs as <- <-; apply Heq; reflexivity].
      destruct (run_cmd_eng _ _ _ _ Hs) as (io & He & _). cbn [fst] in He. apply Heq. rewrite He. reflexivity.
    - destruct m; cbn [handle_msg] in Hs;
        try (apply lift_prims in Hs as (e' & Hs & Hp); injection Hp as -> ->; cbn [nd_set_eng nd_eng] in * ).
      + apply Hcv. cbn. apply elem_of_list_singleton. eapply append_loss; [exact Hs|rewrite Hl; reflexivity|exact L2].
      + unfold core_vote in Hs. rok Hs. injection Hs as <-. cbn [push en_leader] in *.
        unfold en_vote_req in Hx. destruct (_ && _); [injection Hx as <-; apply Heq; reflexivity|]. destruct (negb _); [injection Hx as <-; apply Heq; reflexivity|].
        rok Hx. injection Hx as <-. apply Hcv. cbn. apply elem_of_list_singleton. eapply update_vote_leader; [exact Hx0|rewrite Hl; reflexivity|exact L2].
      + apply Hcv. cbn. apply elem_of_list_singleton. eapply install_loss; [exact Hs|rewrite Hl; reflexivity|exact L2].
      + unfold core_transfer in Hs. destruct (vote_eqb _ _); [|injection Hs as <-; apply Heq; reflexivity]. cbv zeta in Hs.
        destruct (en_id _ =? _); [|injection Hs as <-; apply Heq; reflexivity]. exfalso. apply elect_vote_changes in Hs. apply Hs. exact Hv.
      + unfold core_initialize in Hs. rok Hs. injection Hs as <-. unfold en_initialize in Hx.
        destruct (rs_is_initialized _) eqn:Hi; [injection Hx as <-; apply Heq; reflexivity|].
        exfalso. unfold nd_state in *. rewrite (VoteNodeProofs.uninit_vote _ Hi) in O2. discriminate.
      + destruct (write_leader _ _ _ _ Hs) as [Hw|Hw]; cbn [fst] in Hw; [subst n'; apply Heq; reflexivity|congruence].
      + unfold core_change in Hs. destruct (ms_change _ _ _); [|injection Hs as <- <-; apply Heq; reflexivity].
        destruct (write_leader _ _ _ _ Hs) as [Hw|Hw]; cbn [fst] in Hw; [subst n'; apply Heq; reflexivity|congruence].
      + assert (Q : nd_eng n' = nd_eng n) by (unfold core_read in Hs; repeat case_match; try discriminate; injection Hs as <- <-; reflexivity).
        apply Heq. rewrite Q. reflexivity.
      + cbn [event_fits msg_fits] in Hf. congruence.
      + injection Hs as <-. apply Heq. apply (quiet_leader' _ _ _ (core_heartbeat_prims _)). reflexivity.
      + injection Hs as <-. apply Heq. apply (quiet_leader' [KBuild]); [apply sh_trigger_prims; reflexivity|reflexivity].
      + apply Heq. apply (quiet_leader' _ _ _ (en_trigger_purge_prims _ _ _ Hs)). reflexivity.
      + injection Hs as <-. apply Heq. apply (quiet_leader' _ _ _ (en_trigger_transfer_prims _ _)). reflexivity.
    - destruct (nd_notes n) as [|x r] eqn:Hn; [injection Hs as <- <-; apply Heq; reflexivity|].
      destruct x; cbn [handle_note] in Hs; cbn [nd_eng nd_set_notes] in Hs.
      + destruct (en_cand (nd_eng n)) as [c|] eqn:Hc; [|injection Hs as <- <-; apply Heq; reflexivity].
        destruct (ei_cl _ _ _ _ I c Hc) as (_ & _ & _ & _ & Hln). congruence.
      + destruct (vote_matches _ _); [|injection Hs as <- <-; apply Heq; reflexivity]. apply lift_prims in Hs as (e' & Hs & Hp). injection Hp as -> ->. rok Hs. injection Hs as <-.
        apply Hcv. cbn. unfold note_taken. rewrite Hrun, Hn. apply elem_of_list_singleton. eapply update_vote_leader; [exact Hx|rewrite Hl; reflexivity|exact L2].
      + destruct io as [|v lid]; [injection Hs as <- <-; apply Heq; reflexivity|].
        match type of Hs with context [nd_upd_io ?f ?m] => set (n1 := nd_upd_io f m) in * end.
        destruct (en_leader (nd_eng n1)); [|injection Hs as <- <-; apply Heq; reflexivity]. destruct (vote_matches _ _); [|injection Hs as <- <-; apply Heq; reflexivity].
        apply lift_prims in Hs as (e' & Hs & Hp). injection Hp as -> ->. apply Heq. apply (quiet_leader' _ _ _ (rh_update_local_prims _ _ _ Hs)). reflexivity.
      + destruct (session_matches _ _); [|injection Hs as <- <-; apply Heq; reflexivity]. apply lift_prims in Hs as (e' & Hs & Hp). injection Hp as -> ->.
        apply Heq. apply (quiet_leader' _ _ _ (rh_update_progress_prims _ _ _ _ Hs)). reflexivity.
      + destruct (session_matches _ _); [|injection Hs as <- <-; apply Heq; reflexivity]. apply lift_prims in Hs as (e' & Hs & Hp). injection Hp as -> ->.
        apply Heq. apply (quiet_leader' _ _ _ (rh_update_clock_prims _ _ _ _ Hs)). reflexivity.
      + destruct r0.
        * rok Hs. injection Hs as <- <-. apply Heq. apply (quiet_leader' _ _ _ (en_finish_building_prims _ _ _ Hx)). reflexivity.
        * injection Hs as <- <-. apply Heq. reflexivity.
        * destruct (apply_results _ _). injection Hs as <- <-. apply Heq. reflexivity.
    - apply lift_prims in Hs as (e' & Hs & Hp). injection Hp as -> ->. cbn [nd_set_eng nd_eng] in *.
      destruct (tick_loss _ _ _ _ _ _ E7 ltac:(rewrite Hl; reflexivity) Hs) as [Q _]. destruct (Q L2) as (Q1 & Q2 & Q3).
      right. right. split; [eauto|]. split; [|auto]. unfold rs_is_leading, voted_for in Q1. unfold nd_mem, nd_state in *.
      rewrite O3, Hid, Nat.eqb_refl, andb_true_r in Q1. exact Q1.
    - rewrite Hl in Hs. apply lift_prims in Hs as (e' & Hs & Hp). injection Hp as -> ->.
      apply Heq. apply (quiet_leader' _ _ _ (rh_initiate_prims _ _ Hs)). reflexivity.
    - injection Hs as <- <-. apply Heq. reflexivity.
    - destruct (_ !! _); injection Hs as <- <-; apply Heq; reflexivity.
    - rok Hs. injection Hs as <- <-. apply sm_step_eng in Hx as [Q _]. apply Heq. rewrite Q. reflexivity.
    - injection Hs as <- <-. apply Heq. unfold build_done. destruct (nd_builds n !! i); reflexivity.
    - apply stream_send_eng in Hs as [Q _]. cbn in Q. apply Heq. rewrite Q. reflexivity.
    - injection Hs as <- <-. apply Heq. rewrite (proj1 (stream_fail_eng _ _)). reflexivity.
    - injection Hs as <- <-. apply Heq. unfold stream_snap_reply. repeat case_match; reflexivity.
    - injection Hs as Hs. assert (Q : nd_eng n' = nd_eng n) by (revert Hs; unfold hb_send; repeat case_match; intros [= <- <-]; reflexivity). apply Heq. rewrite Q. reflexivity.
    - injection Hs as Hs. pose proof (proj1 (handle_reply_eng tag r n)) as Q. rewrite Hs in Q. cbn in Q. apply Heq. rewrite Q. reflexivity.
  Qed.
  Lemma leader_steps_down now hb ee eh n n' outs : fits_reachable E cfg n ->
    node_step now (ETick hb ee eh) n = Ok (n', outs) -> runnable n = false -> en_leader (nd_eng n) <> None ->
    m_contains (nd_mem n) me = false ->
    ologid_leb (em_log_id (rs_eff (nd_state n))) (rs_committed (nd_state n)) = true ->
    ologid_leb (em_log_id (rs_eff (nd_state n))) (io_applied (rs_io (nd_state n))) = true ->
    en_leader (nd_eng n') = None /\ en_cand (nd_eng n') = None /\
    rs_server (nd_state n') = if m_is_voter (nd_mem n) me then SFollower else SLearner.
  Proof using HE.
    intros Hr Hs Hrun Hl Hm Hc Ha. pose proof (reach_inv E cfg HE n Hr) as In. pose proof (node_ei E me _ In) as I. pose proof (ei_id _ _ _ _ I) as Hid.
    destruct (en_leader (nd_eng n)) as [l|] eqn:Hld; [|congruence]. destruct (ei_el _ _ _ _ I l Hld) as (_ & _ & _ & _ & _ & _ & E7).
    cbn [node_step] in Hs. unfold when_idle in Hs. rewrite Hrun in Hs. apply lift_prims in Hs as (e' & Hs & Hp). injection Hp as -> ->.
    destruct (tick_loss _ _ _ _ _ _ E7 ltac:(rewrite Hld; reflexivity) Hs) as [_ Q]. unfold nd_mem, nd_state in *. cbn [nd_set_eng nd_eng] in *.
    destruct Q as (Q1 & Q2 & Q3); [|assumption|assumption|].
    - unfold rs_is_leading. rewrite Hid, Hm. reflexivity.
    - unfold rs_is_voter in Q3. rewrite Hid in Q3. destruct (en_leader e'); [discriminate|]. destruct (en_cand e'); [discriminate|]. auto.
  Qed.
End role.
