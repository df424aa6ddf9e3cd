(** What the queued commands, streams and heartbeats of one node say about its log. *)
From Coq Require Import Bool Lia ZifyBool ZifyNat.
From stdpp Require Import base numbers option gmap relations sorting list.
From Verif Require Import Types TypesProofs LogIdList Quorum Membership Progress RaftState ProgressEntry Engine Store RaftCore
  EnginePrims NodeSpec NodePrims VoteNodeProofs ElectProofs KindProofs LogSpec LogProofs EngLogProofs WalkProofs NodeLogProofs
  StepLogProofs LogPropSpec RoleSpec LogStateProofs LeadProofs OwnProofs ClNodeProofs ClStepProofs.
Import NodeSpec.

(** a command in the queue was there before or has just been put there *)
Lemma out_split now ev n n' outs c : node_step now ev n = Ok (n', outs) -> c ∈ en_out (nd_eng n') ->
  c ∈ en_out (nd_eng n) \/ c ∈ step_produced ev n n'.
Proof.
  intros Hs Hin. destruct (is_run ev) as [->|He].
  - left. destruct (node_step_cases _ _ _ _ _ Hs) as [H1 H2|c0 r H1 H2 H3 H4|H1 H2 H3 H4 H5 H6|t c0 y r H1 H2 H3 H4 H5 H6 H7|H1 H2 H3]; try congruence.
    assert (Hout : en_out (nd_eng n') = r).
    { destruct c0; cbn [run_cmd] in H4;
        repeat match type of H4 with context [match ?t with _ => _ end] => destruct t eqn:?; try discriminate H4 end; injection H4 as <- _; reflexivity. }
    rewrite H2. right. rewrite <- Hout. exact Hin.
  - destruct (step_saved _ _ _ _ _ He Hs) as (vs & _).
    assert (Hcs : exists cs, en_out (nd_eng n') = en_out (nd_eng n) ++ cs).
    { destruct (node_step_srel _ _ _ _ _ He Hs) as [(_ & cs & Ho & _)|(t & resp & sv & c1 & c' & _ & _ & _ & _ & _ & _ & cs & Ho & _)]; exists cs; exact Ho. }
    destruct Hcs as (cs & Ho). rewrite (produced_app _ _ _ _ He Ho). rewrite Ho in Hin. apply elem_of_app in Hin. exact Hin.
Qed.
(** a step saves at most one vote, and it is the node's vote after the step *)
Lemma event_votes_one ev n a b : a ∈ event_votes ev n -> b ∈ event_votes ev n -> a = b.
Proof.
  intros Ha Hb. assert (Hl : exists x, forall y, y ∈ event_votes ev n -> y = x).
  { assert (H1 : forall x : Vote, exists x0, forall y, y ∈ [x] -> y = x0) by (intros x; exists x; intros y Hy; inversion Hy as [|? ? ? Hn]; [reflexivity|inversion Hn]).
    assert (H0 : exists x0 : Vote, forall y, y ∈ (@nil Vote) -> y = x0) by (exists vote_default; intros y Hy; inversion Hy).
    destruct ev as [|m| | | | | | | | | | | |]; cbn [event_votes]; auto.
    - destruct m; cbn [msg_votes]; auto.
    - destruct (note_taken ENote n) as [[]|]; cbn [note_votes]; auto. destruct (en_cand _); auto. destruct (_ && _); auto. }
  destruct Hl as (x & Hx). rewrite (Hx _ Ha), (Hx _ Hb). reflexivity.
Qed.
Lemma saved_one now ev n n' outs : ev <> ERun -> node_step now ev n = Ok (n', outs) ->
  exists vs, saved_votes (en_out (nd_eng n')) = saved_votes (en_out (nd_eng n)) ++ vs /\
    forall v, v ∈ vs -> v ∈ event_votes ev n /\ v = rs_v (nd_state n').
Proof.
  intros He Hs. destruct (step_saved _ _ _ _ _ He Hs) as (vs & H1 & H2 & H3). exists vs. split; [exact H1|].
  destruct (step_vote _ _ _ _ _ Hs) as (_ & _ & H4). destruct (H4 He) as (vs' & H5 & H6 & H7).
  rewrite H1 in H5. apply app_inv_head in H5. subst vs'. rewrite Forall_forall in H3.
  destruct vs as [|a vs]; [intros v []%elem_of_nil|]. destruct vs as [|b vs].
  - intros v Hv. apply elem_of_list_singleton in Hv. subst v. split; [apply H3; left|]. cbn in H2. congruence.
  - exfalso. apply StronglySorted_inv in H7 as [H7 _]. apply StronglySorted_inv in H7 as [_ H7]. inversion H7 as [|? ? Hab _]; subst.
    rewrite (event_votes_one ev n a b) in Hab; [apply vote_lt_irrefl in Hab; exact Hab|apply H3; left|apply H3; right; left].
Qed.

Section item.
  Context (E : Env) (cfg : EngineConfig) (HE : env_ok E).
  Notation H := (ev_hist E).
  Notation me := (ec_id cfg).
  Let Hok : hist_ok H := proj1 HE.
  Context (n : Node) (Hn : fits_reachable E cfg n).
  Let HN := reach_inv E cfg HE n Hn.

  Lemma i_vinv : vinv n.
  Proof using HE Hn. destruct HN as (w0 & pcs & wv & D & N). apply N. Qed.
  Lemma i_stored : li_node (v_leader (rs_v (nd_state n))) = me -> v_committed (rs_v (nd_state n)) = true -> v_leader (stored_vote n) = v_leader (rs_v (nd_state n)).
  Proof using HE Hn. destruct HN as (w0 & pcs & wv & D & N). apply N. Qed.
  Lemma i_last : rs_last (nd_state n) = dlast (planned n).
  Proof using HE Hn. apply (ec_last _ _ _ (node_ec E me n HN)). Qed.
  Lemma head_committed c r : en_out (nd_eng n) = ReplicateCommitted c :: r -> pfx H c (rs_committed (nd_state n)).
  Proof using HE Hn.
    intros Ho. destruct HN as (w0 & pcs & wv & D & N). pose proof (ninv_posv E me HE _ _ _ _ _ N) as P. pose proof (n_w2 _ _ _ _ _ _ _ N) as W2.
    rewrite Ho in W2. destruct W2 as [K W2]. destruct c as [c|]; [|destruct K].
    destruct (walk_cur E me Hok _ _ _ (wok_pos E me Hok _ _ P K) W2) as [_ Hb]. exact Hb.
  Qed.
  Lemma head_heartbeat ss c r : en_out (nd_eng n) = BroadcastHeartbeat ss c :: r ->
    pfx H c (rs_committed (nd_state n)) /\ v_committed (ss_vote ss) = true /\ li_node (v_leader (ss_vote ss)) = me.
  Proof using HE Hn.
    intros Ho. destruct HN as (w0 & pcs & wv & D & N). pose proof (ninv_posv E me HE _ _ _ _ _ N) as P. pose proof (n_w2 _ _ _ _ _ _ _ N) as W2.
    rewrite Ho in W2. destruct W2 as [(K1 & K2 & -> & K4 & K5) W2]. split; [apply (cur_committed E me HE _ _ _ _ _ N)|auto].
  Qed.
  Lemma head_sendvote req r : en_out (nd_eng n) = SendVote req :: r -> vq_vote req = stored_vote n.
  Proof using HE Hn. intros Ho. destruct i_vinv as [_ Hc]. rewrite Ho in Hc. apply Hc. Qed.

  (** what a stream of the current leadership reads *)
  Lemma stream_chain s i rng limit es sent : nd_streams n !! i = Some s -> ss_vote (st_session s) = rs_v (nd_state n) ->
    li_node (v_leader (rs_v (nd_state n))) = me ->
    (st_action (stream_drain s) = Some (DLogs rng) /\ next_index (ls_purged (so_log (nd_store n))) <= next_index (lr_prev rng) \/
     st_action (stream_drain s) = Some DCommitted /\ rng = mkRange (st_matching (stream_drain s)) (st_matching (stream_drain s))) ->
    stream_read limit rng (so_log (nd_store n)) = Some (es, sent) ->
    chain H (lr_prev sent) es /\ pfx H None (lr_prev sent) /\ pfx H (es_last (lr_prev sent) es) (rs_last (nd_state n)).
  Proof using HE Hn.
    intros Hi Hv Hown Ha Hr. rewrite i_last.
    destruct HN as (w0 & pcs & wv & D & N). pose proof (ninv_posv E me HE _ _ _ _ _ N) as P.
    pose proof (Forall_lookup_1 _ _ _ _ (n_streams _ _ _ _ _ _ _ N) Hi) as Hs0. apply drain_claims in Hs0. destruct Hs0 as [Hc Hcl].
    destruct (drain_facts s) as (_ & D2 & _). rewrite D2, Hv in *. destruct (claims_parts _ _ Hcl) as (C1 & C2 & C3 & C4 & C5).
    pose proof (ninv_planned _ _ _ _ _ _ _ N) as HD. subst D.
    assert (Hcom : v_committed (rs_v (nd_state n)) = true) by exact Hc.
    assert (Hcp : forall x, claim E me (planned n) (nd_state n) (rs_v (nd_state n)) x -> pfx H x (dlast (planned n))).
    { intros x [_ Hx]. apply Hx; [exact Hown|reflexivity]. }
    assert (Hview : forall x, pfx H x (dlast (w_d wv)) -> pfx H x (dlast (planned n))).
    { intros x. apply (view_to_end E me HE _ _ _ _ _ N); [|exact Hown]. unfold vl. rewrite (view_vote _ _ _ _ _ _ _ N). apply i_stored; assumption. }
    assert (Hprev : pfx H (lr_prev rng) (dlast (planned n))).
    { destruct Ha as [[Ha _]|[_ ->]]; [|apply Hcp, C2]. rewrite Ha in C3. cbn in C3. inversion C3 as [|? ? C _]; subst. apply Hcp, C. }
    assert (Hroot : pfx H None (lr_prev rng)).
    { eapply pfx_rooted; [|exact Hprev]. apply (log_ok_root _), (p_log _ _ (node_pos E me HE n HN)). }
    unfold so_log in *. rewrite <- (ninv_view _ _ _ _ _ _ _ N) in *. set (l := dk_log (w_d wv)) in *.
    pose proof (p_log _ _ P) as Hl. fold l in Hl.
    unfold stream_read in Hr. destruct (_ =? _) eqn:Heq.
    { injection Hr as <- <-. cbn. auto. }
    destruct (last (take limit (ls_read (next_index (lr_prev rng)) (next_index (lr_last rng)) l))) as [e|] eqn:Hlast; [|discriminate].
    injection Hr as <- <-. cbn [lr_prev].
    assert (Hpg : next_index (ls_purged l) <= next_index (lr_prev rng)).
    { destruct Ha as [[_ Ha]|[_ ->]]; [exact Ha|]. cbn in Heq. rewrite Nat.eqb_refl in Heq. discriminate. }
    assert (Hes : exists k m, k = next_index (lr_prev rng) - next_index (ls_purged l) /\
       take limit (ls_read (next_index (lr_prev rng)) (next_index (lr_last rng)) l) = take m (drop k (ls_entries l))).
    { unfold ls_read. rewrite (filter_chain_range H Hok _ _ _ _ (proj2 Hl)), take_take. eexists _, _. split; reflexivity. }
    destruct Hes as (k & m & Hk & Hes). rewrite Hes in Hlast |- *.
    pose proof (proj2 Hl) as Hch. rewrite <- (take_drop k (ls_entries l)) in Hch. apply chain_app in Hch as [Hc1 Hc2].
    assert (Hlen : length (take k (ls_entries l)) = k).
    { rewrite take_length. destruct (decide (k <= length (ls_entries l))) as [?|?]; [lia|]. exfalso.
      rewrite drop_ge in Hlast by lia. rewrite take_nil in Hlast. discriminate. }
    assert (Hlen2 : k <= length (ls_entries l)) by (rewrite take_length in Hlen; lia).
    assert (Hll : ls_last l = es_last (ls_purged l) (ls_entries l)) by apply ls_last_es.
    assert (Hpp : pfx H (es_last (ls_purged l) (take k (ls_entries l))) (ls_last l)).
    { rewrite Hll. rewrite <- (take_drop k (ls_entries l)) at 2. rewrite es_last_app. apply chain_pfx. exact Hc2. }
    assert (Heq2 : es_last (ls_purged l) (take k (ls_entries l)) = lr_prev rng).
    { eapply (pfx_same_idx H Hok); [apply Hview, Hpp|exact Hprev|]. rewrite (chain_length H Hok _ _ Hc1), Hlen. lia. }
    rewrite Heq2 in Hc2. split; [apply chain_take; exact Hc2|]. split; [exact Hroot|]. apply Hview. fold l.
    rewrite Hll. rewrite <- (take_drop k (ls_entries l)) at 2. rewrite es_last_app, Heq2.
    rewrite <- (take_drop m (drop k (ls_entries l))) at 2. rewrite es_last_app. apply chain_pfx.
    rewrite <- (take_drop m (drop k (ls_entries l))) in Hc2. apply chain_app in Hc2 as [_ Hc2]. exact Hc2.
  Qed.
End item.
