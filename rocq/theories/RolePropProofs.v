(** Final forms of the properties about leadership, start, initialization and own proposals. *)
From Coq Require Import Bool Lia ZifyBool ZifyNat.
From stdpp Require Import base numbers option gmap relations list.
From Verif Require Import Types TypesProofs LogIdList Quorum QuorumSpec QuorumProofs Membership Progress RaftState ProgressEntry Engine Store RaftCore.
From Verif Require Import VoteSpec VoteProofs EnginePrims NodeSpec NodePrims LogSpec LogPropSpec KindProofs NodeLogProofs StepLogProofs EngLogProofs LogStateProofs RoleSpec RoleProofs OwnProofs.
From Verif Require LeadProofs.
Import NodeSpec.

(** C07 *)
Lemma one_leader_per_id now1 cfg1 f1 acts1 n1 o1 now2 cfg2 f2 acts2 n2 o2 L :
  node_fresh now1 cfg1 = Ok f1 -> node_run acts1 f1 = Ok (n1, o1) ->
  node_fresh now2 cfg2 = Ok f2 -> node_run acts2 f2 = Ok (n2, o2) ->
  leads n1 L -> leads n2 L -> ec_id cfg1 = ec_id cfg2.
Proof.
  intros F1 R1 F2 R2 L1 L2. destruct (LeadProofs.run_committed _ _ _ _ _ _ L F1 R1) as [_ H1]. destruct (LeadProofs.run_committed _ _ _ _ _ _ L F2 R2) as [_ H2].
  destruct (H1 L1) as [<- _]. destruct (H2 L2) as [<- _]. reflexivity.
Qed.
Lemma std_one_per_term (v0 : nat -> StdVote) (reqs : nat -> list StdVote) qs q1 q2 a b :
  qs <> [] -> quorum qs q1 -> quorum qs q2 ->
  (forall x, x ∈ q1 -> a ∈ std_adopted (v0 x) (reqs x)) -> (forall x, x ∈ q2 -> b ∈ std_adopted (v0 x) (reqs x)) ->
  sv_committed a = false -> sv_committed b = false -> sl_voted (sv_leader a) <> None -> sl_voted (sv_leader b) <> None ->
  sl_term (sv_leader a) = sl_term (sv_leader b) -> sv_leader a = sv_leader b.
Proof.
  intros Hne Q1 Q2 H1 H2 Ca Cb Va Vb Ht. destruct (quorum_intersect_same qs q1 q2 Hne Q1 Q2) as (x & c & _ & _ & X1 & X2).
  eapply (std_adopted_promise (v0 x) (reqs x)); eauto.
Qed.

(** C25 *)
Lemma initialize_step now ms tx n n' outs : node_step now (EMsg (MInitialize ms tx)) n = Ok (n', outs) -> runnable n = false ->
  let s := nd_state n in let s' := nd_state n' in
  (rs_last s = None /\ rs_v s = vote_default /\ nd_id n ∈ dom ms ->
     let m := mkMembership [dom ms] ms in let v1 := mkVote (mkLeaderId 1 (nd_id n)) false in let l0 := mkLogId (mkLeaderId 0 0) 0 in
     step_produced (EMsg (MInitialize ms tx)) n n' =
       [AppendInputEntries (mkVote (mkLeaderId 0 0) true) [mkEntry l0 (PMembership m)]; SaveVote v1; SendVote (mkVoteReq v1 (Some l0));
        Respond (Some (LogFlushed (Some l0))) (RInitialize None) tx] /\
     rs_v s' = v1 /\ rs_last s' = Some l0 /\ rs_eff s' = mkEM (Some l0) m /\ rs_server s' = SCandidate /\ campaigns n' v1 [dom ms] /\
     rs_committed s' = rs_committed s) /\
  (~ (rs_last s = None /\ rs_v s = vote_default /\ nd_id n ∈ dom ms) ->
     exists err, n' = nd_set_eng (push (Respond None (RInitialize (Some err)) tx) (nd_eng n)) n /\
      (err = NotAllowed (rs_last s) (rs_v s) /\ (rs_last s <> None \/ rs_v s <> vote_default) \/
       err = NotInMembers /\ rs_last s = None /\ rs_v s = vote_default /\ nd_id n ∉ dom ms)) /\
  outs = [].
Proof.
  intros H Hr s s'. cbn [node_step] in H. unfold when_idle in H. rewrite Hr in H. cbn [handle_msg] in H. apply lift_prims in H as (e' & H & Hp).
  injection Hp as -> ->. split; [|split; [|reflexivity]].
  - intros (H1 & H2 & H3). cbv zeta. subst s s'. destruct (initialize_ok _ _ _ _ _ H1 H2 H3 H) as (A1 & A2 & A3 & A4 & A5 & A6 & A7 & A8 & _).
    unfold step_produced, nd_state, campaigns. cbn [nd_eng nd_set_eng]. rewrite A1, drop_app. repeat (split; [reflexivity||assumption|]). exact A8.
  - intros Hno. destruct (initialize_refused _ _ _ _ _ H Hno) as (err & -> & He). eauto.
Qed.

Section fit.
  Context (E : Env) (cfg : EngineConfig) (HE : env_ok E).
  (** C39 *)
  Lemma own_entries now ev n n' outs : fits_step E cfg now ev n n' outs ->
    let ps := proposals (ec_id cfg) (step_produced ev n n') in
    length ps <= 1 /\
    (en_leader (nd_eng n) = None -> en_leader (nd_eng n') <> None -> ps <> []) /\
    forall v es, (v, es) ∈ ps ->
     (exists p, es = [mkEntry (mkLogId (v_leader v) (next_index (rs_last (nd_state n)))) p] /\
        v = rs_v (nd_state n') /\ v_committed v = true /\ li_node (v_leader v) = ec_id cfg /\ en_leader (nd_eng n') <> None /\
        rs_last (nd_state n') = Some (mkLogId (v_leader v) (next_index (rs_last (nd_state n)))) /\
        ((en_leader (nd_eng n) <> None /\ rs_v (nd_state n) = v /\
          ((exists d tx, ev = EMsg (MWrite d tx) /\ p = PNormal d) \/ (exists ch rt tx m, ev = EMsg (MChange ch rt tx) /\ p = PMembership m))) \/
         (en_leader (nd_eng n) = None /\ rs_v (nd_state n) = mkVote (v_leader v) false /\ p = PBlank))) \/
     (exists ms tx, ev = EMsg (MInitialize ms tx) /\ rs_last (nd_state n) = None /\ es = [mkEntry (mkLogId (mkLeaderId 0 0) 0) (PMembership (mkMembership [dom ms] ms))]).
  Proof using HE.
    intros Hst. pose proof (step_inv E cfg HE _ _ _ _ _ Hst) as [In _]. destruct Hst as (Hr & Hs & Hf & _).
    pose proof (own_step E (ec_id cfg) now ev n n' outs In (reach_RI E cfg HE n Hr) Hf Hs) as Ho. rewrite (node_id E (ec_id cfg) n In) in Ho.
    assert (IL : forall x : option Leader, (isS x = true <-> x <> None) /\ (isS x = false <-> x = None)) by (intros [?|]; cbn; split; split; congruence).
    cbv zeta. destruct Ho as [(Hp & Hl)|[(p & Hp & Hla & Hl' & Hid & Hc & Hcase)|(ms & tx & Hev & Hid & Hdom & Hla & Hv & Hp)]]; rewrite Hp.
    - split; [cbn; lia|]. split; [|intros v es H0; apply elem_of_nil in H0 as []]. intros H1 H2 _. apply IL in H2. apply Hl, IL in H2. contradiction.
    - split; [cbn; lia|]. split; [discriminate|]. intros v es Hin. apply elem_of_list_singleton in Hin. injection Hin as -> ->. left. exists p.
      split; [reflexivity|]. split; [reflexivity|]. split; [exact Hc|]. split; [rewrite Hid; apply (node_id E (ec_id cfg) n In)|]. split; [apply IL; exact Hl'|]. split; [exact Hla|].
      destruct Hcase as [(A1 & A2 & A3)|(A1 & A2 & A3 & A4)].
      + left. split; [apply IL; exact A1|]. split; [symmetry; exact A2|]. destruct A3 as [A3|(ch & rt & tx & m & -> & -> & _)]; [left; exact A3|right; eauto 10].
      + right. split; [apply IL; exact A1|]. split; [exact A4|exact A2].
    - split; [cbn; lia|]. split; [discriminate|]. intros v es Hin. apply elem_of_list_singleton in Hin. injection Hin as -> ->. right. eauto.
  Qed.
End fit.
