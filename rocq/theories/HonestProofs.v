(** The end of a leadership when the other nodes are honest. *)
From Coq Require Import Bool Lia ZifyBool ZifyNat.
From stdpp Require Import base numbers option gmap relations list.
From Verif Require Import Types TypesProofs LogIdList Quorum Membership Progress RaftState ProgressEntry Engine Store RaftCore.
From Verif Require Import EnginePrims NodeSpec NodePrims LogSpec LogPropSpec KindProofs NodeLogProofs StepLogProofs EngLogProofs LogStateProofs RoleSpec
  RoleProofs ClStepProofs ClNodeProofs StartProofs MemProofs HonestSpec ClItemProofs.
Import NodeSpec.

Definition higher (x : Note) : Prop :=
  match x with NHigherVote v sv => vote_gtb v sv = true | _ => True end.
Definition notes_higher (n : Node) : Prop := forall x, x ∈ nd_notes n -> higher x.

Lemma reply_higher tag r n : honest_event n (EReply tag r) -> notes_higher n -> notes_higher (handle_reply tag r n).1.
Proof.
  intros Hh Hn x Hin. destruct tag, r; cbn [handle_reply] in Hin; try (exact (Hn _ Hin)).
  - destruct (stream_index _ _) as [i|] eqn:Hi; [|exact (Hn _ Hin)]. destruct (nd_streams n !! i) as [s|] eqn:Hsi; cbn in Hin; [|exact (Hn _ Hin)].
    destruct (st_wait s) as [w|] eqn:Hw; [|exact (Hn _ Hin)]. destruct (sw_rid w =? rid) eqn:Hr; [|exact (Hn _ Hin)]. cbn [fst] in Hin.
    pose proof (stream_index_target _ _ _ _ Hi Hsi) as Ht.
    unfold stream_reply in Hin. rewrite Hsi, Hw in Hin. destruct r.
    + destruct (sw_payload w); repeat (apply note_in in Hin as [Hin|Hin]); try (exact (Hn _ Hin)); subst x; exact Logic.I.
    + apply note_in in Hin as [Hin|Hin]; [exact (Hn _ Hin)|]. subst x. cbn [higher]. cbn [honest_event] in Hh.
      apply elem_of_list_lookup_2 in Hsi. apply Nat.eqb_eq in Hr. eapply Hh; eassumption.
    + destruct (lr_prev _); [|exact (Hn _ Hin)]. destruct (sw_payload w); repeat (apply note_in in Hin as [Hin|Hin]); try (exact (Hn _ Hin)); subst x; exact Logic.I.
  - destruct (stream_index _ _) as [i|] eqn:Hi; [|exact (Hn _ Hin)]. destruct (nd_streams n !! i) as [s|] eqn:Hsi; cbn in Hin; [|exact (Hn _ Hin)].
    destruct (st_snap s) as [[[meta time] rr]|] eqn:Hw; [|exact (Hn _ Hin)]. destruct (rr =? rid) eqn:Hr; [|exact (Hn _ Hin)]. cbn [fst] in Hin.
    unfold stream_snap_reply in Hin. rewrite Hsi, Hw in Hin. destruct (vote_gtb _ _) eqn:Hg.
    + apply note_in in Hin as [Hin|Hin]; [exact (Hn _ Hin)|]. subst x. exact Hg.
    + repeat (apply note_in in Hin as [Hin|Hin]); try (exact (Hn _ Hin)); subst x; exact Logic.I.
  - cbn [fst] in Hin. apply note_in in Hin as [Hin|Hin]; [exact (Hn _ Hin)|]. subst x. exact Logic.I.
  - cbn [fst] in Hin. apply note_in in Hin as [Hin|Hin]; [exact (Hn _ Hin)|]. subst x. exact Logic.I.
  - unfold read_reply in Hin. destruct (read_index _ _) as [i|] eqn:Hi; [|exact (Hn _ Hin)]. destruct (nd_reads n !! i) as [rd|] eqn:Hrd; [|exact (Hn _ Hin)].
    destruct r; try (destruct (joint_is_quorum _ _); exact (Hn _ Hin); fail).
    cbn [fst] in Hin. apply note_in in Hin as [Hin|Hin]; [exact (Hn _ Hin)|]. subst x. cbn [higher]. cbn [honest_event] in Hh.
    apply Hh; [eapply elem_of_list_lookup_2; exact Hrd|].
    unfold read_index in Hi. destruct (list_find _ _) as [[j y]|] eqn:Hf; [|discriminate]. injection Hi as ->.
    apply list_find_Some in Hf as (Hj & Ht & _). congruence.
Qed.
Lemma step_higher now ev n n' outs : node_step now ev n = Ok (n', outs) -> honest_event n ev -> notes_higher n -> notes_higher n'.
Proof.
  intros Hs Hh Hn.
  assert (Hrep : (exists tag r, ev = EReply tag r) \/ forall tag r, ev <> EReply tag r) by (destruct ev; eauto; right; congruence).
  destruct Hrep as [(tag & r & ->)|Hne].
  - cbn [node_step] in Hs. injection Hs as Hs. pose proof (reply_higher tag r n Hh Hn) as H. rewrite Hs in H. exact H.
  - intros x Hin. destruct (step_notes _ _ _ _ _ Hs x Hin) as [H|H]; [exact (Hn _ H)|].
    destruct x; try exact Logic.I. destruct H as (tag & r & -> & _). destruct (Hne tag r eq_refl).
Qed.
Lemma start_notes now cfg d sm n : node_start now cfg d sm = Ok n -> nd_notes n = [].
Proof. unfold node_start. intros H. rok H. destruct x as [[s d1] sm1]. rok H. injection H as <-. reflexivity. Qed.
Lemma run_higher acts : forall n x, node_run acts n = Ok x -> run_honest acts n -> notes_higher n -> notes_higher x.1.
Proof.
  induction acts as [|a r IH]; intros n x Hr; cbn [node_run run_honest] in *.
  - injection Hr as <-. auto.
  - rok Hr. rok Hr. injection Hr as <-. intros [Hh Hhr] Hn. cbn [fst]. apply (IH _ _ Hx0 Hhr).
    destruct a as [now ev|now k j keep]; cbn [node_act] in Hx.
    + destruct x0 as [n1 o1]. eapply step_higher; eassumption.
    + rok Hx. injection Hx as <-. unfold node_restart in Hx1. apply start_notes in Hx1. cbn [fst]. intros y Hy. rewrite Hx1 in Hy. apply elem_of_nil in Hy as [].
Qed.
Lemma honest_inv E cfg n : honest_reachable E cfg n -> fits_reachable E cfg n /\ notes_higher n.
Proof.
  intros (now & n0 & acts & outs & Hf & Hr & Hh & Hrun). split; [exists now, n0, acts, outs; auto|].
  apply (run_higher acts n0 (n, outs) Hrun Hh). unfold node_fresh in Hf. apply start_notes in Hf. intros y Hy. rewrite Hf in Hy. apply elem_of_nil in Hy as [].
Qed.

Section honest.
  Variable E : Env.
  Variable cfg : EngineConfig.
  Hypothesis HE : env_ok E.
  Local Notation me := (ec_id cfg).

  Lemma honest_loss now ev n n' outs : honest_reachable E cfg n -> honest_event n ev -> fits_step E cfg now ev n n' outs ->
    en_leader (nd_eng n) <> None -> en_leader (nd_eng n') = None ->
    rs_v (nd_state n') <> rs_v (nd_state n) \/
    ((exists hb ee eh, ev = ETick hb ee eh) /\ m_contains (nd_mem n) me = false /\
     ologid_leb (em_log_id (rs_eff (nd_state n))) (rs_committed (nd_state n)) = true /\
     ologid_leb (em_log_id (rs_eff (nd_state n))) (io_applied (rs_io (nd_state n))) = true).
  Proof using HE.
    intros Hh Hev Hst H1 H2. destruct (honest_inv _ _ _ Hh) as [Hr Hn].
    destruct (leader_lost E cfg HE _ _ _ _ _ Hst H1 H2) as [H|[H|H]]; [left; exact H| |right; exact H]. exfalso.
    pose proof (step_inv E cfg HE _ _ _ _ _ Hst) as [In _]. pose proof (node_ei E me _ In) as I. pose proof (node_id E me _ In) as Hid.
    destruct Hst as (_ & Hs & Hf & _).
    destruct (en_leader (nd_eng n)) as [l|] eqn:Hl; [|congruence]. destruct (leader_own E cfg HE n l Hr Hl) as (O1 & O2 & O3).
    destruct ev; cbn [carried_votes] in H; try (apply elem_of_nil in H as []; fail).
    - destruct m; cbn [msg_carries] in H; try (apply elem_of_nil in H as []; fail); apply elem_of_list_singleton in H; cbn [event_fits msg_fits honest_event] in *.
      + destruct Hf as ((_ & Hf & _) & _). apply Hf. rewrite <- H. congruence.
      + rewrite <- H in Hev. congruence.
      + destruct Hf as ((_ & Hf & _) & _). apply Hf. rewrite <- H. congruence.
    - cbn [node_step] in Hs. unfold when_idle in Hs. unfold note_taken in H. destruct (runnable n) eqn:Hrun; [apply elem_of_nil in H as []|].
      destruct (nd_notes n) as [|x r] eqn:Hnn; [apply elem_of_nil in H as []|]. assert (Hx : higher x) by (apply Hn; rewrite Hnn; left).
      destruct x; cbn [note_carries] in H; try (apply elem_of_nil in H as []; fail); apply elem_of_list_singleton in H; cbn [handle_note] in Hs; cbn [nd_eng nd_set_notes] in Hs.
      + destruct (en_cand (nd_eng n)) as [c|] eqn:Hc; [|injection Hs as <- <-; cbn in H2; congruence].
        destruct (ei_cl _ _ _ _ I c Hc) as (_ & _ & _ & _ & Hln). congruence.
      + cbn [higher] in Hx. destruct (vote_matches _ _) eqn:Hm; [|injection Hs as <- <-; cbn in H2; congruence].
        unfold vote_matches in Hm. cbn [nd_eng nd_set_notes] in Hm. rewrite Hl in Hm.
        destruct (v_committed sender_vote) eqn:Hcm.
        * apply vote_eqb_true in Hm. rewrite Hm, <- H, O1, vote_gtb_negb, vote_geb_refl in Hx. discriminate.
        * destruct (en_cand (nd_eng n)) as [c|] eqn:Hc; [|discriminate]. destruct (ei_cl _ _ _ _ I c Hc) as (_ & _ & _ & _ & Hln). congruence.
  Qed.
End honest.

(** ** The nodes are honest *)

Definition asks_open (e : Engine) : Prop := forall req, SendVote req ∈ en_out e -> v_committed (vq_vote req) = false.
Lemma step_open now ev n n' outs : node_step now ev n = Ok (n', outs) -> asks_open (nd_eng n) -> asks_open (nd_eng n').
Proof.
  intros Hs Ho req Hin. destruct (out_split _ _ _ _ _ _ Hs Hin) as [H|H]; [exact (Ho _ H)|].
  destruct (step_asks _ _ _ _ _ Hs _ H) as (_ & _ & ->). reflexivity.
Qed.
Lemma start_open now cfg d sm n : node_start now cfg d sm = Ok n -> asks_open (nd_eng n).
Proof.
  unfold node_start. intros H. rok H. destruct x as [[s d1] sm1]. rok H. injection H as <-. cbn [nd_eng].
  unfold en_startup in Hx0. destruct (rs_is_leader _ _); [|injection Hx0 as <-; intros req Hin; apply elem_of_nil in Hin as []].
  pose proof (vh_update_internal_prims _ _ _ Hx0) as Hp. destruct (prims_no_ask _ _ _ Hp) as (cs & Ho & Hc); [notin|notin|].
  intros req Hin. rewrite Ho in Hin. cbn in Hin. apply Hc in Hin as [].
Qed.
Lemma run_open acts : forall n x, node_run acts n = Ok x -> asks_open (nd_eng n) -> asks_open (nd_eng x.1).
Proof.
  induction acts as [|a r IH]; intros n x Hr; cbn [node_run] in *.
  - injection Hr as <-. auto.
  - rok Hr. rok Hr. injection Hr as <-. intros Hn. cbn [fst]. apply (IH _ _ Hx0).
    destruct a as [now ev|now k j keep]; cbn [node_act] in Hx.
    + destruct x0 as [n1 o1]. eapply step_open; eassumption.
    + rok Hx. injection Hx as <-. eapply start_open. exact Hx1.
Qed.
(** a vote request a node sends asks with an uncommitted vote *)
Lemma requests_open cfg n now ev n' outs t tag req : reachable cfg n -> node_step now ev n = Ok (n', outs) ->
  OSend t tag (RpcVote req) ∈ outs -> v_committed (vq_vote req) = false.
Proof.
  intros (nw & n0 & acts & o & Hf & Hr) Hs Hin. pose proof (step_sends _ _ _ _ _ Hs _ _ _ Hin) as H. inversion H as [req' r H1 H2| | | | |]; subst.
  assert (Ho : asks_open (nd_eng n)) by (eapply (run_open acts n0 (n, o)); [exact Hr|eapply start_open; exact Hf]).
  apply Ho. rewrite H2. left.
Qed.
(** an append it refuses is answered with a greater vote *)
Lemma refusals_higher now v prev es lc tx n n' outs w v' tx' : node_step now (EMsg (MAppend v prev es lc tx)) n = Ok (n', outs) ->
  Respond w (RAppend (AHigherVote v')) tx' ∈ step_produced (EMsg (MAppend v prev es lc tx)) n n' ->
  tx' = tx /\ vote_gtb v' v = true.
Proof.
  intros Hs Hin. assert (He : EMsg (MAppend v prev es lc tx) <> ERun) by discriminate.
  cbn [node_step] in Hs. unfold when_idle in Hs. destruct (runnable n).
  { exfalso. injection Hs as <- _. rewrite (produced_app _ n n [] He) in Hin by (rewrite app_nil_r; reflexivity). apply elem_of_nil in Hin as []. }
  cbn [handle_msg] in Hs; unfold lift in Hs; rok Hs; injection Hs as <- _.
  unfold core_append in Hx. rok Hx. injection Hx as <-. unfold en_append_entries in Hx0. rok Hx0.
  pose proof (en_append_prims' _ _ _ _ _ _ Hx) as Hap. destruct (no_respond _ _ _ Hap) as (cs & Ho & Hc); [notin|notin|].
  assert (Hx0' : exists b cc a, x0 = (push (Respond cc (RAppend a) tx) x.1, b) /\ a = x.2).
  { destruct x.2; [destruct (io_accepted _); [|discriminate]|..]; injection Hx0 as <-; eauto. }
  assert (Ha : forall a, a = x.2 -> a = AHigherVote v' -> vote_gtb v' v = true).
  { intros a -> Ha. unfold en_append in Hx. rok Hx. unfold vh_update_vote in Hx1. destruct (vote_geb v (rs_v (en_state (nd_eng n)))) eqn:Hge; cbn [negb] in Hx1.
    - rok Hx1. injection Hx1 as <-. cbn [snd negb] in Hx. exfalso.
      destruct (fh_ensure_consecutive _ _) as [e2 []]; injection Hx as <-; discriminate Ha.
    - injection Hx1 as <-. cbn in Hx. injection Hx as <-. cbn in Ha. injection Ha as <-. rewrite vote_gtb_negb. cbn. rewrite Hge. reflexivity. }
  destruct Hx0' as (b & cc & a & -> & Hax). specialize (Ha a Hax). cbn [fst snd] in *.
  destruct (no_respond _ _ _ (fh_commit_prims lc (push (Respond cc (RAppend a) tx) x.1))) as (c2 & Ho2 & Hc2); [notin|notin|].
  assert (Hin' : Respond w (RAppend (AHigherVote v')) tx' ∈ cs ++ [Respond cc (RAppend a) tx] ++ c2 \/ Respond w (RAppend (AHigherVote v')) tx' ∈ cs ++ [Respond cc (RAppend a) tx]).
  { destruct b; [left|right].
    - rewrite (produced_app _ _ _ (cs ++ [Respond cc (RAppend a) tx] ++ c2) He) in Hin; [exact Hin|].
      cbn [nd_eng nd_set_eng]. unfold en_commit_entries. rewrite Ho2. cbn [push en_out]. rewrite Ho, <- !app_assoc. reflexivity.
    - rewrite (produced_app _ _ _ (cs ++ [Respond cc (RAppend a) tx]) He) in Hin; [exact Hin|].
      cbn [nd_eng nd_set_eng push en_out]. rewrite Ho, <- !app_assoc. reflexivity. }
  assert (Hin2 : Respond w (RAppend (AHigherVote v')) tx' = Respond cc (RAppend a) tx).
  { destruct Hin' as [Hin'|Hin']; rewrite ?elem_of_app, ?elem_of_list_singleton in Hin'; destruct Hin' as [Hx'|Hx']; try (exfalso; eapply Hc, Hx'; fail); auto.
    destruct Hx' as [?|Hx']; [assumption|]. exfalso. eapply Hc2, Hx'. }
  injection Hin2 as _ Heq ->. split; [reflexivity|]. apply Ha. congruence.
Qed.
