(** Reads. *)
From Coq Require Import Bool Lia ZifyBool ZifyNat.
From stdpp Require Import base numbers option gmap relations sorting list.
From Verif Require Import Types TypesProofs LogIdList Quorum QuorumSpec QuorumProofs Membership Progress RaftState ProgressEntry Engine Store RaftCore
  EnginePrims NodeSpec NodePrims VoteNodeProofs ElectProofs KindProofs LogSpec LogProofs EngLogProofs WalkProofs NodeLogProofs
  StepLogProofs LogPropSpec RoleSpec RoleProofs LogStateProofs LeadProofs OwnProofs ProtoProofs Cluster ClusterSpec ClNodeProofs ClLogProofs
  ClVoteProofs ClCoreProofs ClStepProofs ClGrowProofs ClItemProofs ClusterProofs ReadSpec.
Import NodeSpec.

(** ** Steps *)

Definition read_resp (l : Leader) (n : Node) : option LogId * option LogId := (lh_read_log_id l (nd_eng n), io_applied (rs_io (nd_state n))).
Definition read_new (tx : nat) (l : Leader) (n : Node) : Read :=
  mkRead tx (rs_v (nd_state n)) (m_configs (em_mem (rs_eff (nd_state n)))) [nd_id n] (read_resp l n).
Inductive reads_step (ev : Event) (n : Node) (rd' : Read) : Prop :=
| rs_old : rd' ∈ nd_reads n -> reads_step ev n rd'
| rs_new tx l : ev = EMsg (MRead tx) -> en_leader (nd_eng n) = Some l -> rd' = read_new tx l n -> reads_step ev n rd'
| rs_more t a rd : ev = EReply (TagRead (rd_tx rd) t) (RAppend a) -> (forall v, a <> AHigherVote v) -> rd ∈ nd_reads n ->
    rd' = mkRead (rd_tx rd) (rd_vote rd) (rd_qs rd) (rd_grant (rd_granted rd) t) (rd_resp rd) -> reads_step ev n rd'.
Lemma read_index_tx tx rs i rd : read_index tx rs = Some i -> rs !! i = Some rd -> rd_tx rd = tx.
Proof.
  unfold read_index. destruct (list_find _ _) as [[j s0]|] eqn:Hf; [|discriminate]. intros [= ->] Hi.
  apply list_find_Some in Hf as (Hj & Ht & _). congruence.
Qed.
Lemma elem_of_delete {A} (x : A) (i : nat) (l : list A) : x ∈ delete i l -> x ∈ l.
Proof. revert i. induction l as [|y l IH]; intros [|i]; cbn; auto; rewrite ?elem_of_cons; intros H; [auto|]. destruct H as [H|H]; [auto|right; eapply IH, H]. Qed.
Lemma elem_of_insert {A} (x y : A) (i : nat) (l : list A) : x ∈ <[i := y]> l -> x = y \/ x ∈ l.
Proof. revert i. induction l as [|z l IH]; intros [|i]; cbn; rewrite ?elem_of_cons; intros H; auto; destruct H as [H|H]; auto. destruct (IH _ H); auto. Qed.
Lemma same_reads ev n rd n' : nd_reads n' = nd_reads n -> rd ∈ nd_reads n' -> reads_step ev n rd.
Proof. intros -> H. apply rs_old, H. Qed.
Lemma reads_stays ev n n' : (nd_reads n' = nd_reads n) -> forall rd, rd ∈ nd_reads n' -> reads_step ev n rd.
Proof. intros H rd Hr. eapply same_reads; eauto. Qed.
Ltac dmatch Hs := repeat match type of Hs with context [match ?t with _ => _ end] => destruct t eqn:?; try discriminate Hs end.
Lemma step_reads now ev n n' outs : node_step now ev n = Ok (n', outs) ->
  forall rd, rd ∈ nd_reads n' -> reads_step ev n rd.
Proof.
  intros Hs. destruct ev; cbn [node_step] in Hs; unfold when_idle in Hs.
  - apply reads_stays. unfold run_one in Hs. destruct (en_out (nd_eng n)) as [|c r] eqn:Ho; [injection Hs as <- _; auto|].
    destruct (cond_ok _ _); [|injection Hs as <- _; auto].
    destruct c; cbn [run_cmd] in Hs; cbv zeta in Hs; dmatch Hs; injection Hs as <- _; reflexivity.
  - destruct (runnable n); [injection Hs as <- _; apply reads_stays; reflexivity|].
    destruct m; cbn [handle_msg] in Hs; unfold lift in Hs; try (rok Hs; injection Hs as <- _; apply reads_stays; reflexivity).
    + apply reads_stays. unfold core_write in Hs. dmatch Hs; try (rok Hs; dmatch Hs); injection Hs as <- _; reflexivity.
    + apply reads_stays. unfold core_change, core_write in Hs. dmatch Hs; try (rok Hs; dmatch Hs); injection Hs as <- _; reflexivity.
    + unfold core_read in Hs. cbv zeta in Hs. destruct (en_leader (nd_eng n)) as [l|] eqn:Hl; [|injection Hs as <- _; apply reads_stays; reflexivity].
      destruct (joint_is_quorum _ _); [injection Hs as <- _; apply reads_stays; reflexivity|]. destruct (forallb _ _); [|discriminate]. injection Hs as <- _.
      intros rd Hr. cbn in Hr. apply elem_of_app in Hr as [Hr|Hr]; [apply rs_old, Hr|]. apply elem_of_list_singleton in Hr. eapply rs_new; [reflexivity|exact Hl|exact Hr].
  - apply reads_stays. destruct (runnable n); [injection Hs as <- _; auto|]. destruct (nd_notes n) as [|y r] eqn:Hn; [injection Hs as <- _; auto|].
    destruct y as [| | | | |[]]; cbn [handle_note] in Hs; unfold lift in Hs; cbv zeta in Hs; dmatch Hs; try (rok Hs); try (injection Hs as <- _); try reflexivity.
  - apply reads_stays. destruct (runnable n); [injection Hs as <- _; auto|]. unfold lift in Hs. rok Hs. injection Hs as <- _. auto.
  - apply reads_stays. destruct (runnable n); [injection Hs as <- _; auto|]. destruct (en_leader _); [|injection Hs as <- _; auto]. unfold lift in Hs. rok Hs. injection Hs as <- _. auto.
  - apply reads_stays. injection Hs as <- _. auto.
  - apply reads_stays. destruct (_ !! _); [|injection Hs as <- _; auto]. injection Hs as <- _. reflexivity.
  - apply reads_stays. rok Hs. injection Hs as <- _. unfold sm_step in Hx. cbv zeta in Hx. dmatch Hx; injection Hx as <-; reflexivity.
  - apply reads_stays. injection Hs as <- _. unfold build_done. repeat case_match; reflexivity.
  - apply reads_stays. unfold stream_send in Hs. cbv zeta in Hs. dmatch Hs; injection Hs as <- _; auto.
  - apply reads_stays. injection Hs as <- _. unfold stream_fail. repeat case_match; reflexivity.
  - apply reads_stays. injection Hs as <- _. unfold stream_snap_reply. repeat case_match; reflexivity.
  - apply reads_stays. injection Hs as Hs. unfold hb_send in Hs. repeat case_match; injection Hs as <- _; auto.
  - injection Hs as Hs. destruct tag, r; cbn [handle_reply] in Hs; try (injection Hs as <- _; apply reads_stays; reflexivity);
      try (apply reads_stays; unfold stream_reply, stream_snap_reply in Hs; repeat case_match; injection Hs as <- _; reflexivity).
    unfold read_reply in Hs. destruct (read_index tx (nd_reads n)) as [j|] eqn:Hj; [|injection Hs as <- _; apply reads_stays; reflexivity].
    destruct (nd_reads n !! j) as [rd0|] eqn:Hrd; [|injection Hs as <- _; apply reads_stays; reflexivity].
    pose proof (read_index_tx _ _ _ _ Hj Hrd) as Htx. pose proof (elem_of_list_lookup_2 _ _ _ Hrd) as Hin0.
    assert (Hdel : forall rd, rd ∈ delete j (nd_reads n) -> reads_step (EReply (TagRead tx target) (RAppend r)) n rd) by (intros rd Hr; apply rs_old; eapply elem_of_delete, Hr).
    destruct r as [|v|]; cbv zeta in Hs.
    all: try (injection Hs as <- _; cbn [nd_reads note nd_set_notes nd_set_reads]; exact Hdel).
    all: destruct (joint_is_quorum _ _); injection Hs as <- _; cbn [nd_reads nd_set_reads]; [exact Hdel|];
      intros rd Hr; apply elem_of_insert in Hr as [Hr|Hr]; [|apply rs_old, Hr]; rewrite <- Htx in Hr |- *;
      eapply rs_more; [reflexivity|discriminate|exact Hin0|exact Hr].
Qed.
Inductive read_ok (ev : Event) (n : Node) (tx : nat) (r : option LogId * option LogId) : Prop :=
| ro_now l : ev = EMsg (MRead tx) -> en_leader (nd_eng n) = Some l -> r = read_resp l n ->
    joint_is_quorum (m_configs (em_mem (rs_eff (nd_state n)))) [nd_id n] = true -> read_ok ev n tx r
| ro_later t a rd : ev = EReply (TagRead tx t) (RAppend a) -> (forall v, a <> AHigherVote v) -> rd ∈ nd_reads n -> rd_tx rd = tx ->
    joint_is_quorum (rd_qs rd) (rd_grant (rd_granted rd) t) = true -> r = rd_resp rd -> read_ok ev n tx r.
Lemma apply_results_reads es : forall cl tx a b, OClient tx (CReadOk a b) ∉ (apply_results es cl).2.
Proof.
  induction es as [|e es IH]; intros cl tx a b; cbn; [apply not_elem_of_nil|].
  destruct (cl !! e_index e); cbn.
  - pose proof (IH (delete (e_index e) cl) tx a b) as IH'. destruct (apply_results es (delete (e_index e) cl)) as [c2 o2]. cbn in *.
    intros H. apply elem_of_cons in H as [H|H]; [discriminate|]. contradiction.
  - specialize (IH cl tx a b). destruct (apply_results es cl). exact IH.
Qed.
Ltac noout H := repeat (apply elem_of_cons in H as [H|H]; [discriminate H|]); apply elem_of_nil in H as [].
Lemma step_read_ok now ev n n' outs : node_step now ev n = Ok (n', outs) ->
  forall tx a b, OClient tx (CReadOk a b) ∈ outs -> read_ok ev n tx (a, b).
Proof.
  intros Hs tx a b Ho. destruct ev; cbn [node_step] in Hs; unfold when_idle in Hs.
  - exfalso. unfold run_one in Hs. destruct (en_out (nd_eng n)) as [|c r] eqn:Hout; [injection Hs as _ <-; noout Ho|].
    destruct (cond_ok _ _); [|injection Hs as _ <-; noout Ho].
    destruct c; cbn [run_cmd] in Hs; cbv zeta in Hs; dmatch Hs; injection Hs as _ <-; try noout Ho.
    all: try (apply elem_of_list_fmap in Ho as (? & ? & _); discriminate).
  - destruct (runnable n); [injection Hs as _ <-; noout Ho|].
    destruct m; cbn [handle_msg] in Hs; unfold lift in Hs; try (rok Hs; injection Hs as _ <-; noout Ho).
    + exfalso. unfold core_write in Hs. dmatch Hs; try (rok Hs; dmatch Hs); injection Hs as _ <-; noout Ho.
    + exfalso. unfold core_change, core_write in Hs. dmatch Hs; try (rok Hs; dmatch Hs); injection Hs as _ <-; noout Ho.
    + unfold core_read in Hs. cbv zeta in Hs. destruct (en_leader (nd_eng n)) as [l|] eqn:Hl; [|injection Hs as _ <-; noout Ho].
      destruct (joint_is_quorum _ _) eqn:Hq.
      * injection Hs as _ <-. apply elem_of_list_singleton in Ho. injection Ho as -> -> ->. eapply ro_now; [reflexivity|exact Hl|reflexivity|exact Hq].
      * destruct (forallb _ _); [|discriminate]. injection Hs as _ <-. apply elem_of_list_fmap in Ho as (? & ? & _). discriminate.
  - exfalso. destruct (runnable n); [injection Hs as _ <-; noout Ho|]. destruct (nd_notes n) as [|y r] eqn:Hn; [injection Hs as _ <-; noout Ho|].
    destruct y as [| | | | |[]]; cbn [handle_note] in Hs; unfold lift in Hs; cbv zeta in Hs; dmatch Hs; try (rok Hs); try (injection Hs as _ <-); try noout Ho.
    match type of Heqp with apply_results ?es ?c = _ => apply (apply_results_reads es c tx a b); rewrite Heqp; exact Ho end.
  - destruct (runnable n); [injection Hs as _ <-; noout Ho|]. unfold lift in Hs. rok Hs. injection Hs as _ <-. noout Ho.
  - destruct (runnable n); [injection Hs as _ <-; noout Ho|]. destruct (en_leader _); [|injection Hs as _ <-; noout Ho]. unfold lift in Hs. rok Hs. injection Hs as _ <-. noout Ho.
  - injection Hs as _ <-. noout Ho.
  - destruct (_ !! _); injection Hs as _ <-; noout Ho.
  - rok Hs. injection Hs as _ <-. noout Ho.
  - injection Hs as _ <-. noout Ho.
  - exfalso. unfold stream_send in Hs. cbv zeta in Hs. dmatch Hs; injection Hs as _ <-; noout Ho.
  - injection Hs as _ <-. noout Ho.
  - injection Hs as _ <-. noout Ho.
  - exfalso. injection Hs as Hs. unfold hb_send in Hs. repeat case_match; injection Hs as _ <-; noout Ho.
  - injection Hs as Hs. destruct tag, r; cbn [handle_reply] in Hs; try (injection Hs as _ <-; noout Ho);
      try (exfalso; unfold stream_reply, stream_snap_reply in Hs; repeat case_match; injection Hs as _ <-; noout Ho).
    unfold read_reply in Hs. destruct (read_index tx0 (nd_reads n)) as [j|] eqn:Hj; [|injection Hs as _ <-; noout Ho].
    destruct (nd_reads n !! j) as [rd0|] eqn:Hrd; [|injection Hs as _ <-; noout Ho].
    pose proof (read_index_tx _ _ _ _ Hj Hrd) as Htx. pose proof (elem_of_list_lookup_2 _ _ _ Hrd) as Hin0.
    destruct r as [|v|]; cbv zeta in Hs; [|injection Hs as _ <-; noout Ho|].
    all: destruct (joint_is_quorum _ _) eqn:Hq; injection Hs as _ <-; [|noout Ho]; apply elem_of_list_singleton in Ho; injection Ho as -> -> ->;
      eapply ro_later; [reflexivity|discriminate|exact Hin0|exact Htx|exact Hq|destruct (rd_resp rd0); reflexivity].
Qed.

(** ** The steps of a run *)

Lemma act_step a cl cl' m0 : cl_act a cl = Ok cl' -> plain_act m0 cl a cl' ->
  exists i now ev n' outs, cl_event a cl = Some (i, now, ev) /\ node_step now ev (cl_node cl i) = Ok (n', outs) /\ cl' = cl_set i n' outs cl.
Proof.
  intros Ha Hp. unfold plain_act in Hp. destruct (cl_event a cl) as [[[i now] ev]|] eqn:He; [|destruct Hp].
  assert (Hs : cl_step i now ev cl = Ok cl').
  { destruct a; cbn [cl_act] in Ha; try (rewrite He in Ha; exact Ha). discriminate He. }
  unfold cl_step in Hs. destruct (node_step now ev (cl_node cl i)) as [[n' outs]|] eqn:Hn; [|discriminate]. cbn in Hs. injection Hs as <-.
  exists i, now, ev, n', outs. auto.
Qed.
(** where an event comes from *)
Lemma event_local a cl i now ev : cl_event a cl = Some (i, now, ev) -> local_event (length (cl_sent cl)) ev = true -> a = CLocal i now ev.
Proof.
  destruct a as [i0 now0 ev0|k now0|m now0|]; cbn [cl_event]; [| | |discriminate].
  - destruct (local_event _ ev0); [|discriminate]. intros [= -> -> ->] _. reflexivity.
  - destruct (cl_sent cl !! k) as [p|]; [|discriminate]. destruct (_ =? _); [discriminate|]. intros [= <- <- <-]. destruct (pk_rpc p); discriminate.
  - destruct (cl_replied cl !! m) as [[[j k] r]|]; [|discriminate]. destruct (cl_sent cl !! k) as [p|]; [|discriminate]. destruct (_ =? _); [|discriminate]. intros [= <- <- <-]. discriminate.
Qed.
Lemma event_append a cl i now v prev es lc tx : cl_event a cl = Some (i, now, EMsg (MAppend v prev es lc tx)) ->
  exists p, cl_sent cl !! tx = Some p /\ pk_to p = i /\ pk_rpc p = RpcAppend v prev es lc.
Proof.
  destruct a as [i0 now0 ev0|k now0|m now0|]; cbn [cl_event]; [| | |discriminate].
  - destruct (local_event _ ev0) eqn:Hl; [|discriminate]. intros [= -> -> ->]. discriminate Hl.
  - destruct (cl_sent cl !! k) as [p|] eqn:Hp; [|discriminate]. destruct (_ =? _); [discriminate|]. intros [= <- <- He].
    destruct (pk_rpc p) eqn:Hr; try discriminate He. cbn in He. injection He as -> -> -> -> ->. eauto.
  - destruct (cl_replied cl !! m) as [[[j k] r]|]; [|discriminate]. destruct (cl_sent cl !! k) as [p|]; [|discriminate]. destruct (_ =? _); discriminate.
Qed.
Lemma event_reply a cl i now tag r : cl_event a cl = Some (i, now, EReply tag r) ->
  exists k p, (pk_to p, k, r) ∈ cl_replied cl /\ cl_sent cl !! k = Some p /\ pk_from p = i /\ pk_tag p = tag.
Proof.
  destruct a as [i0 now0 ev0|k now0|m now0|]; cbn [cl_event]; [| | |discriminate].
  - destruct (local_event _ ev0) eqn:Hl; [|discriminate]. intros [= -> -> ->]. discriminate Hl.
  - destruct (cl_sent cl !! k) as [p|] eqn:Hp; [|discriminate]. destruct (_ =? _); [discriminate|]. intros [= <- <- He].
  - destruct (cl_replied cl !! m) as [[[j k] r0]|] eqn:Hm; [|discriminate]. destruct (cl_sent cl !! k) as [p|] eqn:Hk; [|discriminate].
    destruct (Nat.eqb_spec (pk_to p) j) as [<-|]; [|discriminate]. intros [= <- <- <- <-]. exists k, p. split; [eapply elem_of_list_lookup_2, Hm|auto].
Qed.

Lemma acts_run m0 cl0 acts cl : plain_acts m0 cl0 acts cl -> plain_run m0 cl0 cl.
Proof. induction 1; [constructor|econstructor; eauto]. Qed.
Lemma run_trans m0 a b c : plain_run m0 a b -> plain_run m0 b c -> plain_run m0 a c.
Proof. intros H1 H2. induction H2; [exact H1|econstructor; eauto]. Qed.

(** ** The replies a read counts *)

Section read.
  Context (m0 : gmap nat nat) (i tx : nat) (cls : Cluster) (v : Vote) (qs : list (gset nat)) (resp : option LogId * option LogId).
  (** the vote of node [t] when the read began *)
  Let sv (t : nat) : Vote := rs_v (nd_state (cl_node cls t)).
  (** a reply to a request sent since then: the node's vote was not greater *)
  Definition agreed (sent : list Packet) (t k : nat) (a : AppendResp) : Prop :=
    (forall w, a <> AHigherVote w) ->
    exists p, sent !! k = Some p /\ (length (cl_sent cls) <= k -> forall w prev es lc, pk_rpc p = RpcAppend w prev es lc -> vote_le (sv t) w).
  Record rinv (cl : Cluster) : Prop := {
    ri_vote : forall t, vote_le (sv t) (rs_v (nd_state (cl_node cl t)));
    ri_sent : length (cl_sent cls) <= length (cl_sent cl);
    ri_out : forall t c a k, Respond c (RAppend a) k ∈ en_out (nd_eng (cl_node cl t)) -> agreed (cl_sent cl) t k a;
    ri_replied : forall t k a, (t, k, RAppend a) ∈ cl_replied cl -> agreed (cl_sent cl) t k a;
    ri_pk : forall k p t, cl_sent cl !! k = Some p -> pk_from p = i -> pk_tag p = TagRead tx t ->
      length (cl_sent cls) <= k /\ pk_to p = t /\ exists prev es lc, pk_rpc p = RpcAppend v prev es lc;
    ri_read : forall rd, rd ∈ nd_reads (cl_node cl i) -> rd_tx rd = tx ->
      rd_qs rd = qs /\ rd_resp rd = resp /\ NoDup (rd_granted rd) /\ forall t, t ∈ rd_granted rd -> vote_le (sv t) v;
  }.
  Lemma agreed_more sent more t k a : agreed sent t k a -> agreed (sent ++ more) t k a.
  Proof. intros H Ha. destruct (H Ha) as (p & Hp & Hq). exists p. split; [apply lookup_app_l_Some, Hp|exact Hq]. Qed.
  (** the answer, if this step gives it *)
  Lemma rinv_answer a cl : rinv cl -> forall rl ap, gives i cl a tx (CReadOk rl ap) -> ~ asks_read i tx a ->
    (rl, ap) = resp /\ exists G, NoDup G /\ joint_is_quorum qs G = true /\ forall t, t ∈ G -> vote_le (sv t) v.
  Proof.
    intros R rl ap (now & ev & n' & outs & He & Hs & Ho) Hna. destruct (step_read_ok _ _ _ _ _ Hs _ _ _ Ho) as [l E1 E2 E3 E4|t r rd E1 E2 E3 E4 E5 E6].
    - destruct Hna. exists now. subst ev. apply (event_local _ _ _ _ _ He). reflexivity.
    - subst ev. destruct (ri_read _ R _ E3 E4) as (R1 & R2 & R3 & R4). split; [congruence|]. exists (rd_grant (rd_granted rd) t). rewrite R1 in E5.
      destruct (event_reply _ _ _ _ _ _ He) as (k & p & P1 & P2 & P3 & P4). destruct (ri_pk _ R _ _ _ P2 P3 P4) as (Q1 & Q2 & prev & es & lc & Q3).
      assert (Ht : vote_le (sv t) v).
      { destruct (ri_replied _ R _ _ _ P1 E2) as (p' & P' & Hp'). assert (p' = p) as -> by congruence. rewrite <- Q2. eapply Hp'; eauto. }
      unfold rd_grant in *. case_bool_decide as Hin; split; try assumption; [split; assumption| |split; [assumption|]].
      + apply NoDup_app. split; [exact R3|]. split; [|apply NoDup_singleton]. intros x Hx Hx'. apply elem_of_list_singleton in Hx' as ->. contradiction.
      + intros x Hx. apply elem_of_app in Hx as [Hx|Hx]; [auto|]. apply elem_of_list_singleton in Hx as ->. exact Ht.
  Qed.
  Lemma rinv_step a cl cl' : rinv cl -> cl_act a cl = Ok cl' -> plain_act m0 cl a cl' ->
    (asks_read i tx a -> cl = cls /\ rs_v (nd_state (cl_node cl i)) = v /\ nd_id (cl_node cl i) = i /\
       m_configs (em_mem (rs_eff (nd_state (cl_node cl i)))) = qs /\ forall l, en_leader (nd_eng (cl_node cl i)) = Some l -> resp = read_resp l (cl_node cl i)) ->
    rinv cl'.
  Proof.
    intros R Ha Hp Hask. destruct (act_step _ _ _ _ Ha Hp) as (j & now & ev & n' & outs & He & Hs & ->).
    set (n := cl_node cl j) in *.
    assert (Hni : cl_node (cl_set j n' outs cl) j = n') by (cbn; rewrite decide_True by reflexivity; reflexivity).
    assert (Hnj : forall t, t <> j -> cl_node (cl_set j n' outs cl) t = cl_node cl t) by (intros t Ht; cbn; rewrite decide_False by exact Ht; reflexivity).
    assert (Hsent : cl_sent (cl_set j n' outs cl) = cl_sent cl ++ omap (out_packet j) outs) by reflexivity.
    assert (Hrep : cl_replied (cl_set j n' outs cl) = cl_replied cl ++ omap (out_reply j) outs) by reflexivity.
    set (cl' := cl_set j n' outs cl) in *. clearbody cl'.
    assert (Hread : forall tx', j = i -> tx' = tx -> ev = EMsg (MRead tx') -> asks_read i tx a).
    { intros tx' -> -> ->. exists now. apply (event_local _ _ _ _ _ He). reflexivity. }
    constructor.
    - intros t. destruct (decide (t = j)) as [->|Ht]; [rewrite Hni|rewrite Hnj by exact Ht; apply R].
      eapply vle_trans; [apply R|]. apply (step_vote _ _ _ _ _ Hs).
    - rewrite Hsent, app_length. pose proof (ri_sent _ R). lia.
    - intros t c r k Hin. rewrite Hsent. apply agreed_more. destruct (decide (t = j)) as [->|Ht]; [rewrite Hni in Hin|rewrite Hnj in Hin by exact Ht; eapply R, Hin].
      destruct (out_split _ _ _ _ _ _ Hs Hin) as [H|H]; [eapply R, H|]. pose proof (step_responds _ _ _ _ _ Hs c _ k H) as Q. unfold responds in Q.
      destruct ev as [|m| | | | | | | | | | | |]; try destruct Q. destruct m; try destruct Q.
      + destruct H1 as (a0 & Ea & Hv). injection Ea as <-. subst k. intros Hna. destruct (event_append _ _ _ _ _ _ _ _ _ He) as (p & P1 & P2 & P3).
        exists p. split; [exact P1|]. intros _ w prev' es' lc' Hw. rewrite P3 in Hw. injection Hw as <- _ _ _. eapply vle_trans; [apply R|]. exact (Hv Hna).
      + destruct H1 as (? & ? & E & _). discriminate E.
      + exfalso. unfold plain_act in Hp. rewrite He in Hp. apply Hp.
      + discriminate H0.
    - intros t k r Hin. rewrite Hsent. apply agreed_more. rewrite Hrep in Hin. apply elem_of_app in Hin as [Hin|Hin]; [exact (ri_replied _ R _ _ _ Hin)|].
      apply elem_of_list_omap in Hin as (o & Ho & Hor). destruct o as [| |]; try discriminate Hor. injection Hor as <- -> ->.
      destruct (step_replies _ _ _ _ _ Hs _ _ Ho) as (_ & c & rest & Hout). eapply (ri_out _ R j c). fold n. rewrite Hout. left.
    - intros k p t Hk Hf Htag. rewrite Hsent in Hk. apply lookup_app_Some in Hk as [Hk|[Hge Hk]]; [eapply R; eauto|].
      assert (Hin : p ∈ omap (out_packet j) outs) by (eapply elem_of_list_lookup_2, Hk).
      apply elem_of_list_omap in Hin as (o & Ho & Hop). destruct o as [t' tag rpc| |]; try discriminate Hop. injection Hop as <-. cbn in Hf, Htag |- *. subst tag.
      pose proof (step_sends _ _ _ _ _ Hs _ _ _ Ho) as Hsd. inversion Hsd; subst.
      destruct (Hask (Hread tx eq_refl eq_refl eq_refl)) as (C1 & C2 & _). pose proof (ri_sent _ R). split; [lia|]. split; [reflexivity|].
      fold n in C2. rewrite C2. eauto.
    - intros rd Hrd Htx. destruct (decide (i = j)) as [<-|Hij]; [rewrite Hni in Hrd|rewrite Hnj in Hrd by exact Hij; eapply R; eauto].
      destruct (step_reads _ _ _ _ _ Hs rd Hrd) as [H|tx' l E1 E2 ->|t r rd0 E1 E2 E3 ->]; [eapply R; eauto| |].
      + cbn in Htx. destruct (Hask (Hread tx' eq_refl Htx E1)) as (C1 & C2 & C3 & C4 & C5). cbn. split; [exact C4|]. split; [symmetry; apply C5, E2|].
        split; [apply NoDup_singleton|]. intros t Ht. apply elem_of_list_singleton in Ht as ->. unfold n. rewrite C3. rewrite <- C2, C1. apply vle_refl.
      + cbn in Htx. destruct (ri_read _ R _ E3 Htx) as (R1 & R2 & R3 & R4). cbn. split; [exact R1|]. split; [exact R2|]. subst ev. rewrite Htx in He.
        destruct (event_reply _ _ _ _ _ _ He) as (k & p & P1 & P2 & P3 & P4). destruct (ri_pk _ R _ _ _ P2 P3 P4) as (Q1 & Q2 & prev & es & lc & Q3).
        assert (Ht : vote_le (sv t) v).
        { destruct (ri_replied _ R _ _ _ P1 E2) as (p' & P' & Hp'). assert (p' = p) as -> by congruence. rewrite <- Q2. eapply Hp'; eauto. }
        unfold rd_grant. case_bool_decide as Hin; split; try assumption.
        * apply NoDup_app. split; [exact R3|]. split; [|apply NoDup_singleton]. intros x Hx Hx'. apply elem_of_list_singleton in Hx' as ->. contradiction.
        * intros x Hx. apply elem_of_app in Hx as [Hx|Hx]; [auto|]. apply elem_of_list_singleton in Hx as ->. exact Ht.
  Qed.
End read.

(** ** The first log id of a leader *)

Definition noop_own (e : Engine) : Prop := forall l, en_leader e = Some l -> exists x, ld_noop l = Some x /\ lid_leader x = v_leader (ld_vote l).
Lemma leader_new_noop now v qs ls ids : exists x, ld_noop (leader_new now v qs ls ids) = Some x /\ lid_leader x = v_leader v.
Proof.
  unfold leader_new. cbn [ld_noop]. destruct (head ids) as [f|]; [|eauto].
  destruct (leader_eqb (lid_leader f) (v_leader v)) eqn:He; [|eauto]. exists f. split; [reflexivity|]. ord.
Qed.
Lemma prim_noop k e e' : prim k e e' -> noop_own e -> noop_own e'.
Proof.
  intros Hp Hn. destruct (k_changes_leader k) eqn:Hk; [|unfold noop_own; rewrite (prim_leader_same _ _ _ Hp Hk); exact Hn].
  intros l0 Hl0. destruct Hp; try discriminate Hk; cbn in Hl0.
  1,2: injection Hl0 as <-; destruct (Hn _ H) as (z & X1 & X2); exists z; split; congruence.
  - injection Hl0 as <-. destruct (Hn _ H) as (x & X1 & X2). exists x. cbn. split; congruence.
  - injection Hl0 as <-. apply leader_new_noop.
  - injection Hl0 as <-. apply leader_new_noop.
  - injection Hl0 as <-. destruct (Hn _ H) as (x & X1 & X2). exists x. auto.
  - discriminate.
  - destruct (leader_appended_rest ps l e) as (_ & _ & _ & _ & l1 & L1 & L2 & _ & L4). destruct (Hn _ H) as (x & X1 & X2). exists x. assert (l0 = l1) as -> by congruence. split; congruence.
Qed.
Lemma step_noop now ev n n' outs : node_step now ev n = Ok (n', outs) -> noop_own (nd_eng n) -> noop_own (nd_eng n').
Proof.
  intros Hs. pose proof (node_step_kinds _ _ _ _ Hs) as Hk. cbn [fst] in Hk. revert Hk. generalize (event_kinds ev n). intros ks Hk.
  revert Hk. apply (prims_ind_rel ks (fun e e' => noop_own e -> noop_own e')); auto. intros k a b _ Hp. eapply prim_noop, Hp.
Qed.
Lemma run_noop m0 cl cl' : plain_run m0 cl cl' -> (forall j, noop_own (nd_eng (cl_node cl j))) -> forall j, noop_own (nd_eng (cl_node cl' j)).
Proof.
  intros Hr H0. induction Hr as [|a c c' Hr IH Ha Hp]; [exact H0|]. destruct (act_step _ _ _ _ Ha Hp) as (i & now & ev & n' & outs & He & Hs & ->).
  intros j. cbn. destruct (decide (j = i)) as [->|Hj]; [eapply step_noop; eauto|apply IH].
Qed.

(** ** The read *)

Lemma fresh_reads now cfg n : node_fresh now cfg = Ok n -> nd_reads n = [].
Proof.
  intros H. unfold node_fresh, node_start in H.
  set (x := helper_initial_state now disk_empty sm_empty) in H. vm_compute in x. subst x. cbn [res_bind] in H.
  unfold en_startup, rs_is_leader in H. cbn [engine_new en_state] in H.
  match type of H with context [rs_is_leading ?a ?b && ?c] => change c with false in H; rewrite (andb_false_r (rs_is_leading a b)) in H end.
  injection H as <-. reflexivity.
Qed.
Lemma rinv_start cfg cl i tx v qs resp : cl_start cfg cl -> rinv i tx cl v qs resp cl.
Proof.
  intros (H1 & H2 & H3). constructor.
  - intros t. apply vle_refl.
  - lia.
  - intros t c a k Hin. destruct (H3 t) as (_ & now & Hf). destruct (fresh_facts _ _ _ Hf) as (_ & _ & F3 & _). rewrite F3 in Hin. apply elem_of_nil in Hin as [].
  - intros t k a Hin. rewrite H2 in Hin. apply elem_of_nil in Hin as [].
  - intros k p t Hk. rewrite H1 in Hk. discriminate.
  - intros rd Hr. destruct (H3 i) as (_ & now & Hf). rewrite (fresh_reads _ _ _ Hf) in Hr. apply elem_of_nil in Hr as [].
Qed.
Lemma rinv_before m0 cl0 i tx v qs resp acts cl : rinv i tx cl0 v qs resp cl0 -> plain_acts m0 cl0 acts cl -> (forall a, a ∈ acts -> ~ asks_read i tx a) ->
  rinv i tx cl0 v qs resp cl.
Proof.
  intros H0 Hr. induction Hr as [|acts a cl cl' Hr IH Ha Hp]; intros Hn; [exact H0|].
  eapply rinv_step; [apply IH; intros b Hb; apply Hn, elem_of_app; auto|exact Ha|exact Hp|]. intros Hask. exfalso. eapply Hn; [|exact Hask]. apply elem_of_app. right. left.
Qed.
Lemma rinv_begin m0 cfg cl0 acts cl i tx v qs resp : cl_start cfg cl0 -> plain_acts m0 cl0 acts cl -> (forall a, a ∈ acts -> ~ asks_read i tx a) ->
  rinv i tx cl v qs resp cl.
Proof.
  intros H0 Hr Hn. assert (H : forall v qs resp, rinv i tx cl0 v qs resp cl) by (intros; eapply rinv_before; [eapply rinv_start, H0|exact Hr|exact Hn]).
  pose proof (H v qs resp) as R. constructor.
  - intros t. apply vle_refl.
  - lia.
  - intros t c a k Hin Hna. destruct (ri_out _ _ _ _ _ _ _ R _ _ _ _ Hin Hna) as (p & Hp & _). exists p. split; [exact Hp|]. apply lookup_lt_Some in Hp. lia.
  - intros t k a Hin Hna. destruct (ri_replied _ _ _ _ _ _ _ R _ _ _ Hin Hna) as (p & Hp & _). exists p. split; [exact Hp|]. apply lookup_lt_Some in Hp. lia.
  - intros k p t Hk Hf Ht. exfalso. destruct (ri_pk _ _ _ _ _ _ _ (H vote_default qs resp) _ _ _ Hk Hf Ht) as (_ & _ & ? & ? & ? & E1).
    destruct (ri_pk _ _ _ _ _ _ _ (H (into_committed vote_default) qs resp) _ _ _ Hk Hf Ht) as (_ & _ & ? & ? & ? & E2). rewrite E1 in E2. discriminate E2.
  - intros rd Hr' Ht. exfalso. destruct (ri_read _ _ _ _ _ _ _ (H v qs (None, None)) _ Hr' Ht) as (_ & E1 & _).
    destruct (ri_read _ _ _ _ _ _ _ (H v qs (Some first_id, None)) _ Hr' Ht) as (_ & E2 & _). rewrite E1 in E2. discriminate E2.
Qed.
(** the answer and the votes of a quorum when the read began *)
Lemma read_quorum m0 cfg i tx cl rl ap : read_answered m0 cfg i tx cl rl ap ->
  exists l, en_leader (nd_eng (cl_node cl i)) = Some l /\ (rl, ap) = read_resp l (cl_node cl i) /\
    exists G, NoDup G /\ joint_is_quorum (m_configs (em_mem (rs_eff (nd_state (cl_node cl i))))) G = true /\
      forall t, t ∈ G -> vote_le (rs_v (nd_state (cl_node cl t))) (rs_v (nd_state (cl_node cl i))).
Proof.
  intros (cl0 & before & acts & lst & clr & H0 & Hb & Hnb & Hr & (a & rest & Ea & Hask & Hnr) & Hg).
  assert (Hreach : plain_reachable m0 cfg cl) by (exists cl0; split; [exact H0|eapply acts_run, Hb]).
  destruct (plain_inv _ _ _ Hreach) as (w & I).
  assert (Hid : nd_id (cl_node cl i) = i).
  { apply (ei_id _ _ _ _ (node_ei _ _ _ (f_ninv _ _ _ _ I i))). }
  destruct acts as [|b acts].
  { (* answered at once *)
    cbn in Ea. injection Ea as -> <-. inversion Hr; subst; [|destruct acts; discriminate].
    destruct Hask as (now0 & ->). destruct Hg as (now & ev & n' & outs & He & Hs & Ho). cbn in He. injection He as <- <-.
    destruct (step_read_ok _ _ _ _ _ Hs _ _ _ Ho) as [l E1 E2 E3 E4|t r rd E1]; [|discriminate E1].
    exists l. split; [exact E2|]. split; [exact E3|]. exists [nd_id (cl_node clr i)]. split; [apply NoDup_singleton|]. split; [exact E4|].
    intros t Ht. apply elem_of_list_singleton in Ht as ->. rewrite Hid. apply vle_refl. }
  cbn in Ea. injection Ea as -> <-.
  set (v := rs_v (nd_state (cl_node cl i))). set (qs := m_configs (em_mem (rs_eff (nd_state (cl_node cl i))))).
  assert (Hinv : forall resp, (forall l, en_leader (nd_eng (cl_node cl i)) = Some l -> resp = read_resp l (cl_node cl i)) -> rinv i tx cl v qs resp clr).
  { intros resp Hresp.
    assert (Hgen : forall xs c, plain_acts m0 cl xs c -> forall ys, a :: acts = xs ++ ys -> rinv i tx cl v qs resp c).
    { intros xs c Hx. induction Hx as [|xs x c c' Hx IH Ha Hp]; intros ys E; [eapply rinv_begin; eauto|].
      rewrite <- app_assoc in E. eapply rinv_step; [eapply IH, E|exact Ha|exact Hp|]. intros Hax. destruct xs as [|x0 xs].
      - inversion Hx; subst; [|destruct acts0; discriminate]. split; [reflexivity|]. split; [reflexivity|]. split; [exact Hid|]. split; [reflexivity|exact Hresp].
      - exfalso. cbn in E. injection E as -> E. eapply Hnr; [|exact Hax]. rewrite E. rewrite !elem_of_app. left. right. left. }
    eapply Hgen; [exact Hr|]. rewrite app_nil_r. reflexivity. }
  assert (Hna : ~ asks_read i tx lst) by (apply Hnr, elem_of_app; right; left).
  destruct (en_leader (nd_eng (cl_node cl i))) as [l|] eqn:Hl.
  - destruct (rinv_answer i tx cl v qs (read_resp l (cl_node cl i)) lst clr) with (rl := rl) (ap := ap) as (E & G & HG); [apply Hinv; congruence|exact Hg|exact Hna|].
    exists l. split; [reflexivity|]. split; [exact E|]. exists G. exact HG.
  - exfalso. destruct (rinv_answer i tx cl v qs (rl, ap) lst clr) with (rl := rl) (ap := ap) as (E & _); [apply Hinv; congruence|exact Hg|exact Hna|].
    destruct (rinv_answer i tx cl v qs (match rl with None => Some first_id | Some _ => None end, ap) lst clr) with (rl := rl) (ap := ap) as (E2 & _); [apply Hinv; congruence|exact Hg|exact Hna|].
    destruct rl; discriminate E2.
Qed.
Lemma oleb_max_l a b : ologid_leb a (ologid_max a b) = true.
Proof. unfold ologid_max. destruct (ologid_ltb a b) eqn:H; ord. Qed.
Lemma oleb_max_r a b : ologid_leb b (ologid_max a b) = true.
Proof. unfold ologid_max. destruct (ologid_ltb a b) eqn:H; ord. Qed.
Lemma oleb_trans a b c : ologid_leb a b = true -> ologid_leb b c = true -> ologid_leb a c = true.
Proof. ord. Qed.
Lemma oleb_leader x y : leader_lt (lid_leader x) (lid_leader y) -> ologid_leb (Some x) (Some y) = true.
Proof. unfold leader_lt. destruct x as [a b], y as [c d]. cbn. ord. Qed.
Theorem read_linearizable m0 cfg i tx cl rl ap : read_answered m0 cfg i tx cl rl ap -> m_configs (em_mem (rs_eff (nd_state (cl_node cl i)))) <> [] ->
  exists l, en_leader (nd_eng (cl_node cl i)) = Some l /\
    ologid_leb (rs_committed (nd_state (cl_node cl i))) rl = true /\
    (exists x, ld_noop l = Some x /\ lid_leader x = v_leader (ld_vote l) /\ ologid_leb (Some x) rl = true) /\
    (forall j l', en_leader (nd_eng (cl_node cl j)) = Some l' -> vote_le (ld_vote l') (ld_vote l)) /\
    (forall j e, has_committed (cl_node cl j) e -> ologid_leb (Some (e_log_id e)) rl = true).
Proof.
  intros Hra Hne. destruct (read_quorum _ _ _ _ _ _ _ Hra) as (l & Hl & Hresp & G & HG1 & HG2 & HG3). injection Hresp as -> ->.
  exists l. split; [exact Hl|]. destruct Hra as (cl0 & before & acts & lst & clr & H0 & Hb & _). apply acts_run in Hb.
  assert (Hreach : plain_reachable m0 cfg cl) by (exists cl0; auto). destruct (plain_inv _ _ _ Hreach) as (w & I). pose proof (ci_world _ _ _ _ I) as W.
  destruct (leader_facts _ _ _ _ _ _ I Hl) as (F1 & F2 & F3 & F4).
  assert (Hnoop : noop_own (nd_eng (cl_node cl i))).
  { eapply run_noop; [exact Hb|]. intros j l0 Hl0. destruct H0 as (_ & _ & H0). destruct (H0 j) as (_ & now & Hf). destruct (fresh_facts _ _ _ Hf) as (_ & _ & _ & _ & _ & F6 & _). congruence. }
  destruct (Hnoop l Hl) as (x & X1 & X2).
  split; [apply oleb_max_r|]. split; [exists x; split; [exact X1|]; split; [exact X2|]; unfold lh_read_log_id; rewrite X1; apply oleb_max_l|].
  (* the quorum *)
  assert (Hmem : m_configs (em_mem (rs_eff (nd_state (cl_node cl i)))) = [dom m0]).
  { destruct (it_mem _ _ _ _ _ _ (ci_item _ _ _ _ I i)) as [E|E]; [contradiction|exact E]. }
  rewrite Hmem in HG2. apply joint_is_quorum_spec in HG2; [|exact HG1].
  assert (Hmeet : forall A, quorum [dom m0] A -> exists t, t ∈ A /\ t ∈ G).
  { intros A QA. destruct (quorum_intersect_same [dom m0] A (list_to_set G) ltac:(discriminate) QA HG2) as (t & c & _ & _ & T1 & T2). exists t. split; [exact T1|]. apply elem_of_list_to_set in T2. exact T2. }
  rewrite <- F3 in HG3. destruct (ld_vote l) as [Lv cv] eqn:Hv. cbn in F1, F2, F4, X2. subst cv. split.
  - intros j l' Hl'. destruct (leader_facts _ _ _ _ _ _ I Hl') as (G1 & G2 & G3 & G4). destruct (wk_quorum _ _ W _ G1) as (A & QA & HA).
    destruct (Hmeet A QA) as (t & T1 & T2). destruct (HA t T1) as (g & Hg & _). pose proof (c_grant _ _ _ _ _ (f_core _ _ _ _ I t) _ _ Hg) as Hv1.
    pose proof (vle_trans _ _ _ Hv1 (HG3 t T2)) as Hv2. destruct (ld_vote l') as [L' c']. cbn in *. subst c'. apply vle_leader in Hv2. cbn in Hv2. clear - Hv2. vord. lia.
  - intros j e He. destruct (f_com _ _ _ _ I j e He) as (P1 & q & Q). destruct (c_com _ _ _ _ _ (f_core _ _ _ _ I j)) as [E|(L & z & C1 & C2 & C3)].
    { rewrite E in P1. apply pfx_none_inv in P1. discriminate. }
    pose proof (pfx_trans _ _ _ _ P1 C2) as P2. apply (pfx_le (wh w) (proj1 (wk_env _ _ W))) in P2.
    eapply oleb_trans; [exact P2|]. destruct (wk_com _ _ W _ _ C1) as (HeL & Hlx & Hxt & A & QA & HA).
    assert (Hle : leader_leb L Lv = true).
    { destruct (Hmeet A QA) as (t & T1 & T2). destruct (c_ack _ _ _ _ _ (f_core _ _ _ _ I t) _ _ (HA t T1)) as [Hv1 _].
      pose proof (vle_trans _ _ _ Hv1 (HG3 t T2)) as Hv2. apply vle_leader in Hv2. exact Hv2. }
    destruct (leader_leb Lv L) eqn:Hle'.
    + (* committed under this very leadership *)
      pose proof (leader_ord_antisym _ _ Hle Hle') as ->.
      eapply oleb_trans; [|apply oleb_max_r]. apply (c_mine _ _ _ _ _ (f_core _ _ _ _ I i) Lv); [|exact C1].
      destruct (ei_el _ _ _ _ (node_ei _ _ _ (f_ninv _ _ _ _ I i)) l Hl) as (_ & _ & E3 & _). rewrite Hv in E3. exact E3.
    + eapply oleb_trans; [|apply oleb_max_l]. rewrite X1. apply oleb_leader. rewrite X2, Hlx. exact Hle'.
Qed.
