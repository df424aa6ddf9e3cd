(** The cluster: nodes, requests and replies under way agree with the record of the run. *)
From Coq Require Import Bool Lia ZifyBool ZifyNat.
From stdpp Require Import base numbers option gmap relations sorting list.
From Verif Require Import Types TypesProofs LogIdList Quorum QuorumSpec QuorumProofs Membership Progress RaftState ProgressEntry Engine Store RaftCore
  EnginePrims NodeSpec NodePrims VoteNodeProofs ElectProofs KindProofs LogSpec LogProofs EngLogProofs WalkProofs NodeLogProofs
  StepLogProofs LogPropSpec RoleSpec RoleProofs LogStateProofs LeadProofs OwnProofs ProtoProofs Cluster ClusterSpec ClNodeProofs ClLogProofs
  ClVoteProofs ClCoreProofs ClStepProofs ClGrowProofs ClItemProofs.
Import NodeSpec.

(** ** What is known of votes, requests and replies *)

(** the node whose vote this is has stored that it stands for election with it; [st] are
    the votes the nodes have stored *)
Definition KK (st : nat -> Vote) (v : Vote) : Prop :=
  v = vote_default \/ vote_le (mkVote (v_leader v) false) (st (li_node (v_leader v))).
Definition VO (st : nat -> Vote) (i : nat) (v : Vote) : Prop := li_node (v_leader v) = i \/ KK st v.

Definition pk_ok (w : World) (st : nat -> Vote) (k : nat) (p : Packet) : Prop :=
  match pk_tag p with
  | TagStream t rid => rid = k /\ pk_to p = t
  | TagVote _ t => pk_to p = t
  | _ => True
  end /\
  match pk_rpc p with
  | RpcAppend v prev es lc =>
      v_committed v = true /\ li_node (v_leader v) = pk_from p /\ wd_elec w (v_leader v) /\ KK st v /\
      chain (wh w) prev es /\ pfx (wh w) None prev /\ pfx (wh w) (es_last prev es) (wtip w (v_leader v)) /\ CO w lc v
  | RpcVote req =>
      v_committed (vq_vote req) = false /\ li_node (v_leader (vq_vote req)) = pk_from p /\ wd_cand w (v_leader (vq_vote req)) /\
      KK st (vq_vote req) /\ wd_init w (v_leader (vq_vote req)) = vq_last req
  | _ => True
  end.
(** a reply of node [i] to request [tx] *)
Definition ro (w : World) (sent : list Packet) (i tx : nat) (r : Resp) : Prop :=
  match r with
  | RVote resp => vr_granted resp = true ->
      exists p req g, sent !! tx = Some p /\ pk_rpc p = RpcVote req /\ vr_vote resp = vq_vote req /\
        wd_grant w i (v_leader (vq_vote req)) g /\ ologid_leb g (vq_last req) = true
  | RAppend ASuccess => exists p v prev es lc, sent !! tx = Some p /\ pk_rpc p = RpcAppend v prev es lc /\
        ackc w i (v_leader v) (es_last prev es)
  | RSnapshot _ => False
  | _ => True
  end.
Definition reply_ok (w : World) (st : nat -> Vote) (sent : list Packet) (i tx : nat) (r : Resp) : Prop :=
  ro w sent i tx r /\ forall v, v ∈ resp_votes r -> VK w v /\ KK st v.
(** a note at node [i] *)
Definition note_ok (w : World) (st : nat -> Vote) (i : nat) (x : Note) : Prop :=
  match x with
  | NHigherVote v _ => VK w v /\ VO st i v
  | NVoteResp t resp _ => VK w (vr_vote resp) /\ VO st i (vr_vote resp) /\
      (vr_granted resp = true -> li_node (v_leader (vr_vote resp)) = i -> wd_cand w (v_leader (vr_vote resp)) ->
       exists g, wd_grant w t (v_leader (vr_vote resp)) g /\ ologid_leb g (wd_init w (v_leader (vr_vote resp))) = true)
  | NReplProgress ss t (RRMatching m) => m = None \/ ackc w t (v_leader (ss_vote ss)) m
  | _ => True
  end.
Record stream_ok (w : World) (sent : list Packet) (i : nat) (v : Vote) (s : Stream) : Prop := {
  so_own : li_node (v_leader (ss_vote (st_session s))) = i;
  so_lead : v_committed (ss_vote (st_session s)) = true;
  so_com : forall c, stream_commit s c -> CO w c v;
  so_wait : forall wt, st_wait s = Some wt -> exists p prev es lc, sent !! sw_rid wt = Some p /\
     pk_rpc p = RpcAppend (ss_vote (st_session s)) prev es lc /\ pk_to p = st_target s /\ es_last prev es = lr_last (sw_range wt);
}.
Record item (V : gset nat) (w : World) (st : nat -> Vote) (sent : list Packet) (i : nat) (n : Node) : Prop := {
  it_votes : forall v, v ∈ stored_vote n :: saved_votes (en_out (nd_eng n)) -> VK w v /\ VO st i v;
  it_notes : forall x, x ∈ nd_notes n -> note_ok w st i x;
  it_asks : forall req, SendVote req ∈ en_out (nd_eng n) ->
     v_committed (vq_vote req) = false /\ li_node (v_leader (vq_vote req)) = i /\ wd_cand w (v_leader (vq_vote req)) /\
     wd_init w (v_leader (vq_vote req)) = vq_last req;
  it_resp : forall c r tx, Respond c r tx ∈ en_out (nd_eng n) -> ro w sent i tx r;
  it_cand : exists h, cinv h n /\ forall x, x ∈ h -> note_ok w st i x;
  it_qs : forall c, en_cand (nd_eng n) = Some c -> cd_qs c = [] \/ cd_qs c = [V];
  it_cterm : forall c, en_cand (nd_eng n) = Some c -> li_term (v_leader (cd_vote c)) <> 0;
  it_mem : same_voters V n;
  it_streams : forall s, s ∈ nd_streams n -> stream_ok w sent i (rs_v (nd_state n)) s;
  it_hb : forall ss c t, nd_hb n = Some (ss, c, t) -> v_committed (ss_vote ss) = true /\ li_node (v_leader (ss_vote ss)) = i /\ CO w c (rs_v (nd_state n));
}.

(** ** These facts persist *)

Definition st_le (st st' : nat -> Vote) : Prop := forall j, vote_le (st j) (st' j).
Definition sent_le (a b : list Packet) : Prop := forall k p, a !! k = Some p -> b !! k = Some p.
Lemma KK_mono st st' v : st_le st st' -> KK st v -> KK st' v.
Proof. intros Hs [->|Hv]; [left; reflexivity|right]. eapply vle_trans; [exact Hv|apply Hs]. Qed.
Lemma VO_mono st st' i v : st_le st st' -> VO st i v -> VO st' i v.
Proof. intros Hs [Hv|Hv]; [left; exact Hv|right; eapply KK_mono; eauto]. Qed.
Section mono.
  Context (j : nat) (w w' : World) (Hl : wle j w w') (st st' : nat -> Vote) (Hst : st_le st st') (sent sent' : list Packet) (Hse : sent_le sent sent').
  Lemma pk_mono k p : pk_ok w st k p -> pk_ok w' st' k p.
  Proof using Hl Hst.
    intros [H1 H2]. split; [exact H1|]. destruct (pk_rpc p); auto.
    - destruct H2 as (A & B & C & D & E & F & G & I). split; [exact A|]. split; [exact B|]. split; [apply Hl, C|]. split; [eapply KK_mono; eauto|].
      split; [eapply chain_mono; [apply Hl|exact E]|]. split; [eapply wle_pfx; eauto|].
      split; [eapply pfx_trans; [eapply wle_pfx; eauto|apply Hl]|eapply CO_mono; eauto].
    - destruct H2 as (A & B & C & D & E). split; [exact A|]. split; [exact B|]. split; [apply Hl, C|]. split; [eapply KK_mono; eauto|].
      rewrite (wl_init _ _ _ Hl _ C). exact E.
  Qed.
  Lemma ro_mono i tx r : ro w sent i tx r -> ro w' sent' i tx r.
  Proof using Hl Hse.
    destruct r as [resp|a|v|x]; cbn; auto.
    - intros Hr Hg. destruct (Hr Hg) as (p & req & g & H1 & H2 & H3 & H4 & H5). exists p, req, g. split; [apply Hse, H1|]. split; [exact H2|]. split; [exact H3|].
      split; [apply (wl_grant _ _ _ Hl), H4|exact H5].
    - destruct a; auto. intros (p & v & prev & es & lc & H1 & H2 & H3). exists p, v, prev, es, lc. split; [apply Hse, H1|]. split; [exact H2|eapply wle_ackc; eauto].
  Qed.
  Lemma reply_mono i tx r : reply_ok w st sent i tx r -> reply_ok w' st' sent' i tx r.
  Proof using Hl Hst Hse.
    intros [H1 H2]. split; [apply ro_mono, H1|]. intros v Hv. destruct (H2 v Hv) as [A B]. split; [eapply VK_mono; eauto|eapply KK_mono; eauto].
  Qed.
  Lemma stream_mono i v v' s : vote_le v v' -> stream_ok w sent i v s -> stream_ok w' sent' i v' s.
  Proof using Hl Hse.
    intros Hv [A A' B C]. constructor; [exact A|exact A'| |].
    - intros c Hc. eapply CO_vote; [exact Hv|]. eapply CO_mono; [exact Hl|auto].
    - intros wt Hw. destruct (C wt Hw) as (p & prev & es & lc & H1 & H2). exists p, prev, es, lc. split; [apply Hse, H1|exact H2].
  Qed.
  Context (qs : list (gset nat)) (W : world_ok qs w) (W' : world_ok qs w').
  (* candidates of the old record; new ones are not concerned *)
  Lemma note_mono i x : note_ok w st i x -> note_ok w' st' i x.
  Proof using Hl Hst W'.
    destruct x as [t resp sv|v sv|io|ss t [m| |]| |]; cbn; auto.
    - intros (A & B & C). split; [eapply VK_mono; eauto|]. split; [eapply VO_mono; eauto|]. intros Hg Ho Hc.
      destruct A as [A|[A _]].
      + exfalso. rewrite A in Hc. apply (wk_cand _ _ W') in Hc as [Hc _]. apply Hc. reflexivity.
      + destruct (C Hg Ho A) as (g & G1 & G2). exists g. split; [apply (wl_grant _ _ _ Hl), G1|]. rewrite (wl_init _ _ _ Hl _ A). exact G2.
    - intros [A B]. split; [eapply VK_mono; eauto|eapply VO_mono; eauto].
    - intros [A|A]; [auto|right; eapply wle_ackc; eauto].
  Qed.
  Lemma item_mono V i n : item V w st sent i n -> item V w' st' sent' i n.
  Proof using Hl Hst Hse W'.
    intros I. constructor.
    - intros v Hv. destruct (it_votes _ _ _ _ _ _ I v Hv) as [A B]. split; [eapply VK_mono; eauto|eapply VO_mono; eauto].
    - intros x Hx. apply note_mono, I, Hx.
    - intros req Hr. destruct (it_asks _ _ _ _ _ _ I req Hr) as (A & B & C & D). split; [exact A|]. split; [exact B|]. split; [apply Hl, C|].
      rewrite (wl_init _ _ _ Hl _ C). exact D.
    - intros c r tx Hr. eapply ro_mono, I, Hr.
    - destruct (it_cand _ _ _ _ _ _ I) as (h & A & B). exists h. split; [exact A|]. intros x Hx. apply note_mono, B, Hx.
    - apply I.
    - apply I.
    - apply I.
    - intros s Hs. eapply stream_mono; [apply vle_refl|apply I, Hs].
    - intros ss c t Hh. destruct (it_hb _ _ _ _ _ _ I ss c t Hh) as (A & B & C). split; [exact A|]. split; [exact B|]. eapply CO_mono; eauto.
  Qed.
End mono.

(** ** Small facts about single steps *)

Lemma prims_cterm ks e e' : prims ks e e' -> forall c', en_cand e' = Some c' ->
  li_term (v_leader (cd_vote c')) <> 0 \/ exists c, en_cand e = Some c /\ cd_vote c' = cd_vote c.
Proof.
  revert e e'. apply (prims_ind_rel ks (fun e e' => forall c', en_cand e' = Some c' -> li_term (v_leader (cd_vote c')) <> 0 \/ exists c, en_cand e = Some c /\ cd_vote c' = cd_vote c)).
  - eauto.
  - intros a b c H1 H2 c' Hc. destruct (H2 c' Hc) as [H|(c1 & Hb & Hv)]; [auto|]. destruct (H1 c1 Hb) as [H|(c0 & Ha & Hv')]; [left; congruence|right; exists c0; split; congruence].
  - intros k a b Hin Hp c' Hc. assert (Hk : en_cand b = en_cand a -> li_term (v_leader (cd_vote c')) <> 0 \/ exists c, en_cand a = Some c /\ cd_vote c' = cd_vote c).
    { intros He. rewrite He in Hc. eauto. }
    destruct Hp; try (apply Hk; reflexivity); try discriminate Hc.
    all: try (apply Hk; first [apply leader_appended_rest|apply fh_do_append_rest|apply fh_truncate_rest|apply sh_trigger_rest|apply logh_purge_rest|apply fh_install_rest]).
    + injection Hc as <-. left. cbn. lia.
    + injection Hc as <-. right. exists c. split; [assumption|]. eapply cand_grant_vote; eauto.
Qed.
Lemma stream_one now i limit rid n n' outs : node_step now (EStreamSend i limit rid) n = Ok (n', outs) -> length outs <= 1.
Proof.
  cbn [node_step]. unfold stream_send. intros Hs.
  repeat match type of Hs with context [match ?t with _ => _ end] => destruct t eqn:?; try discriminate Hs end; injection Hs as _ <-; cbn; lia.
Qed.

(** ** One step of a node *)

(** how an event comes to node [i] *)
Inductive arrives (w : World) (st : nat -> Vote) (sent : list Packet) (i : nat) (ev : Event) : Prop :=
| ar_local : local_event (length sent) ev = true -> arrives w st sent i ev
| ar_request k p : sent !! k = Some p -> pk_to p = i -> pk_from p <> i -> ev = EMsg (rpc_msg k (pk_rpc p)) -> arrives w st sent i ev
| ar_reply k p r : sent !! k = Some p -> pk_from p = i -> reply_ok w st sent (pk_to p) k r -> ev = EReply (pk_tag p) r -> arrives w st sent i ev.

Lemma taken_in ev n x : note_taken ev n = Some x -> x ∈ nd_notes n.
Proof. unfold note_taken. destruct ev; try discriminate. destruct (runnable n); [discriminate|]. destruct (nd_notes n); [discriminate|]. intros [= ->]. left. Qed.
Section step.
  Context (m0 : gmap nat nat) (cfg : EngineConfig) (i : nat) (w : World) (st : nat -> Vote) (sent : list Packet).
  Notation V := (dom m0).
  Context (now : nat) (ev : Event) (n n' : Node) (outs : list Out).
  Context (W : world_ok [V] w) (F : first_ok m0 w) (C : ncore cfg w n) (Hi : ec_id cfg = i) (I : item V w st sent i n) (Hst : st i = stored_vote n).
  Context (Hpk : forall k p, sent !! k = Some p -> pk_ok w st k p) (Ha : arrives w st sent i ev) (Hp : plain_event m0 n ev).
  Context (Hs : node_step now ev n = Ok (n', outs)) (Hct : counted V n n') (Hmem : same_voters V n').
  Let HE : env_ok (wd_env w) := wk_env _ _ W.

  Lemma s_ei : ei (wd_env w) i (planned n) (nd_eng n).
  Proof using W C Hi. rewrite <- Hi. apply node_ei, (reach_inv (wd_env w) cfg HE), C. Qed.
  Lemma s_id : nd_id n = i.
  Proof using W C Hi. apply (ei_id _ _ _ _ s_ei). Qed.
  Lemma s_core : core w i (rs_v (nd_state n)) (rs_committed (nd_state n)) (rs_last (nd_state n)).
  Proof using W C Hi. rewrite <- Hi. apply C. Qed.
  Lemma VK_elec v : wd_elec w (v_leader v) -> VK w v.
  Proof using W. intros He. right. split; [apply (wk_elec _ _ W), He|auto]. Qed.
  Lemma lead_known v : v = rs_v (nd_state n) -> v_committed v = true -> wd_elec w (v_leader v).
  Proof using W C Hi.
    intros -> Hc. destruct (c_v _ _ _ _ _ s_core) as [Hv|[_ Hv]]; [rewrite Hv in Hc; discriminate|]. auto.
  Qed.

  Lemma s_ev_ok : ev_ok m0 w n ev.
  Proof using W C Hi I Hst Hpk Ha Hp Hs.
    unfold ev_ok. destruct Ha as [Hl|k p Hk Ht Hf He|k p r Hk Hf [Hr1 Hr2] He].
    - destruct ev as [|m| | | | | | | | | | | |]; cbn [local_event carried_votes] in *; try discriminate Hl;
        try (split; [intros v Hv; apply elem_of_nil in Hv as []|exact Logic.I]).
      + destruct m; try discriminate Hl; cbn [msg_carries]; (split; [intros v Hv; apply elem_of_nil in Hv as []|]); try exact Logic.I; exact Hp.
      + split.
        * intros v Hv. destruct (note_taken ENote n) as [x|] eqn:Ht; [|apply elem_of_nil in Hv as []].
          assert (Hx : x ∈ nd_notes n). { unfold note_taken in Ht. destruct (runnable n); [discriminate|]. destruct (nd_notes n); [discriminate|]. injection Ht as ->. left. }
          apply (it_notes _ _ _ _ _ _ I) in Hx.
          destruct x; cbn [note_carries note_ok] in *; try (apply elem_of_nil in Hv as []); apply elem_of_list_singleton in Hv as ->; apply Hx.
        * destruct (nd_notes n) as [|x r] eqn:Hn; [exact Logic.I|]. cbn.
          assert (Hx : note_ok w st i x) by (apply (it_notes _ _ _ _ _ _ I); rewrite Hn; left). destruct x as [| | |ss t [m| |]| |]; auto.
    - destruct (Hpk k p Hk) as [_ Ho]. rewrite s_id. rewrite He in *. cbn [carried_votes]. destruct (pk_rpc p) as [v prev es lc|req|v sn|req]; cbn [rpc_msg msg_carries] in *.
      + destruct Ho as (A & B & D & E & G & J & K & L). split.
        * intros v0 Hv. apply elem_of_list_singleton in Hv as ->. apply VK_elec, D.
        * split; [exact A|]. split; [exact D|]. split; [congruence|]. auto.
      + destruct Ho as (A & B & D & E & G). split.
        * intros v0 Hv. apply elem_of_list_singleton in Hv as ->. right. split; [exact D|congruence].
        * split; [exact A|]. split; [exact D|congruence].
      + destruct Hp.
      + split; [intros v Hv; apply elem_of_nil in Hv as []|]. cbn in Hp. rewrite s_id in Hp. exact Hp.
    - rewrite He. cbn [carried_votes]. split; [intros v Hv; apply elem_of_nil in Hv as []|]. apply Forall_forall. intros v Hv Hown. rewrite s_id in Hown.
      destruct (Hr2 v Hv) as [A B]. unfold vote_known. rewrite <- Hst. split.
      + destruct A as [->|[A1 A2]]; [apply vle_min|]. destruct v as [L []]; cbn in *.
        * apply (c_own' _ _ _ _ _ s_core); auto.
        * apply (c_own _ _ _ _ _ s_core); auto.
      + destruct B as [->|B]; [apply vle_min|]. rewrite Hown in B. exact B.
  Qed.
  Lemma s_wins_ok : wins_ok m0 w n ev.
  Proof using W C Hi I.
    intros t resp sv c c' Ht Hc Hg Hv Hcg. destruct (ei_cl _ _ _ _ s_ei c Hc) as (E1 & E2 & E3 & _).
    assert (Hcand : wd_cand w (v_leader (cd_vote c))).
    { destruct (c_v _ _ _ _ _ s_core) as [Hd|[Hd _]].
      - exfalso. apply (it_cterm _ _ _ _ _ _ I c Hc). rewrite E1. unfold nd_state in Hd. rewrite Hd. reflexivity.
      - rewrite E1. exact Hd. }
    split; [exact Hcand|]. destruct (it_cand _ _ _ _ _ _ I) as (h & Hh & Hno). destruct (Hh c Hc) as (_ & G & HG & Hgr).
    destruct (cand_grant_rep _ _ _ _ _ HG Hcg) as (Hj & Hqs & G' & Hin & Hnd & Hq & _). symmetry in Hq. apply joint_is_quorum_spec in Hq; [|exact Hnd].
    destruct (it_qs _ _ _ _ _ _ I c Hc) as [Hq0|Hq0]; rewrite Hq0 in *.
    { exfalso. clear - Hj. cbn in Hj. set_solver. }
    exists (list_to_set G'). split; [exact Hq|]. intros j Hj'. apply elem_of_list_to_set, Hin in Hj' as [Hj'| ->].
    - destruct (Hgr j Hj') as (rs & s & H1 & H2 & H3). apply Hno in H1 as (_ & _ & H1). rewrite H3 in H1. apply H1; auto.
    - apply taken_in, (it_notes _ _ _ _ _ _ I) in Ht as (_ & _ & H1). rewrite Hv in H1. apply H1; auto.
  Qed.

  Lemma n_event v : v ∈ event_votes ev n -> VO st i v.
  Proof using W C Hi I Hst Hpk Ha Hp Hs.
    assert (Hone : own_next_vote n = v -> VO st i v) by (intros <-; left; cbn; apply s_id).
    destruct Ha as [Hlc|k p Hk Ht Hf He|k p r Hk Hf [Hr1 Hr2] He].
    - destruct ev as [|m| | | | | | | | | | | |] eqn:He; cbn [event_votes]; intros Hv; try (apply elem_of_nil in Hv as []; fail).
      + destruct m; try discriminate Hlc; cbn [msg_votes] in Hv; try (apply elem_of_nil in Hv as []; fail); apply elem_of_list_singleton in Hv as ->; apply Hone; reflexivity.
      + destruct (note_taken ENote n) as [x|] eqn:Ht; [|apply elem_of_nil in Hv as []].
        assert (Hx : x ∈ nd_notes n). { unfold note_taken in Ht. destruct (runnable n); [discriminate|]. destruct (nd_notes n); [discriminate|]. injection Ht as ->. left. }
        apply (it_notes _ _ _ _ _ _ I) in Hx.
        destruct x; cbn [note_votes note_ok] in *; try (apply elem_of_nil in Hv as []; fail).
        * destruct (en_cand (nd_eng n)) as [c|] eqn:Hc; [|apply elem_of_nil in Hv as []].
          destruct (_ && _); apply elem_of_list_singleton in Hv as ->; [|apply Hx].
          left. destruct (ei_cl _ _ _ _ s_ei c Hc) as (_ & _ & E3 & _). exact E3.
        * apply elem_of_list_singleton in Hv as ->. apply Hx.
      + apply elem_of_list_singleton in Hv as ->. apply Hone. reflexivity.
    - destruct (Hpk k p Hk) as [_ Ho]. rewrite He in *. cbn [event_votes]. destruct (pk_rpc p) as [v0 prev es lc|req|v0 sn|req]; cbn [rpc_msg msg_votes] in *;
        intros Hv; apply elem_of_list_singleton in Hv as ->.
      + right. apply Ho.
      + right. apply Ho.
      + destruct Hp.
      + apply Hone. reflexivity.
    - rewrite He. intros Hv. apply elem_of_nil in Hv as [].
  Qed.
  Context (w' : World) (W' : world_ok [V] w') (Hl : wle i w w') (C' : ncore cfg w' n') (Hg : gained cfg ev n n' w').
  Context (st' : nat -> Vote) (Hst' : st_le st st') (Hsti : st' i = stored_vote n').
  Notation sent' := (sent ++ omap (out_packet i) outs).
  Lemma n_sent : sent_le sent sent'.
  Proof. intros k p Hk. apply lookup_app_l_Some, Hk. Qed.
  Lemma n_core : core w' i (rs_v (nd_state n')) (rs_committed (nd_state n')) (rs_last (nd_state n')).
  Proof using C' Hi. rewrite <- Hi. apply C'. Qed.
  Lemma s_vinv : vinv n.
  Proof using W C Hi. apply (i_vinv (wd_env w) cfg HE n), C. Qed.
  Lemma n_vote : vote_le (rs_v (nd_state n)) (rs_v (nd_state n')).
  Proof using Hs. apply (step_vote _ _ _ _ _ Hs). Qed.
  Lemma n_votes v : v ∈ stored_vote n' :: saved_votes (en_out (nd_eng n')) -> VK w' v /\ VO st' i v.
  Proof using W C Hi I Hst Hpk Ha Hp Hs Hl C' Hst'.
    intros Hv. assert (Hold : v ∈ stored_vote n :: saved_votes (en_out (nd_eng n)) -> VK w' v /\ VO st' i v).
    { intros H. destruct (it_votes _ _ _ _ _ _ I v H) as [A B]. split; [eapply VK_mono; eauto|eapply VO_mono; eauto]. }
    destruct (is_run ev) as [He|He].
    - pose proof Hs as Hs0. rewrite He in Hs0. apply (run_step_votes _ _ _ _ s_vinv) in Hs0 as [H _]. apply Hold, H, Hv.
    - destruct (saved_one _ _ _ _ _ He Hs) as (vs & H1 & H2). rewrite H1, (other_step_stored _ _ _ _ _ s_vinv He Hs) in Hv.
      rewrite app_comm_cons in Hv. apply elem_of_app in Hv as [Hv|Hv]; [auto|]. destruct (H2 v Hv) as [H3 H4]. split.
      + rewrite H4. apply (c_v _ _ _ _ _ n_core).
      + eapply VO_mono; [exact Hst'|apply n_event, H3].
  Qed.
  Lemma n_note x : new_note ev n x -> note_ok w' st' i x.
  Proof using W C Hi I Hst Hpk Ha Hp Hs Hl C' Hst' W'.
    intros Hx.
    assert (Hrep : forall tag r, ev = EReply tag r -> exists k p, sent !! k = Some p /\ pk_from p = i /\ reply_ok w st sent (pk_to p) k r /\ tag = pk_tag p).
    { intros tag r He. destruct Ha as [Hlc|k p Hk Ht Hf He'|k p r' Hk Hf Hr He']; [rewrite He in Hlc; discriminate|congruence|].
      exists k, p. rewrite He in He'. injection He' as -> ->. auto. }
    assert (Hrv : forall tag r v, ev = EReply tag r -> v ∈ resp_votes r -> VK w v /\ KK st v).
    { intros tag r v He Hv. destruct (Hrep _ _ He) as (k & p & _ & _ & [_ Hr] & _). auto. }
    destruct x as [t resp sv|v sv|io|ss t [m| |]| |]; cbn [new_note note_ok] in *; auto.
    - destruct Hx as [(v & r & He & Ho & -> & ->)|He].
      + cbn [vr_vote vr_granted]. assert (Hv : v ∈ stored_vote n :: saved_votes (en_out (nd_eng n))) by (rewrite Ho; right; cbn; left).
        destruct (it_votes _ _ _ _ _ _ I v Hv) as [A B]. split; [eapply VK_mono; eauto|]. split; [eapply VO_mono; eauto|]. intros _ Hown Hc.
        destruct (wk_cand _ _ W' _ Hc) as (_ & _ & _ & Hgr). rewrite Hown in Hgr. exists (wd_init w' (v_leader v)). split; [rewrite s_id; exact Hgr|]. apply ologid_leb_refl.
      + destruct (Hrv _ _ (vr_vote resp) He) as [A B]; [left|]. split; [eapply VK_mono; eauto|]. split; [right; eapply KK_mono; eauto|].
        intros Hgt Hown Hc. destruct (Hrep _ _ He) as (k & p & Hk & Hf & [Hr _] & Ht). destruct (Hr Hgt) as (p' & req & g & R1 & R2 & R3 & R4 & R5).
        assert (p' = p) as -> by congruence. destruct (Hpk k p Hk) as [P1 P2]. rewrite <- Ht in P1. cbn in P1. rewrite R2 in P2. destruct P2 as (_ & _ & P3 & _ & P4).
        exists g. rewrite R3. split; [apply (wl_grant _ _ _ Hl); rewrite P1 in R4; exact R4|]. rewrite (wl_init _ _ _ Hl _ P3), P4. exact R5.
    - destruct Hx as (tag & r & He & Hv). destruct (Hrv _ _ v He Hv) as [A B]. split; [eapply VK_mono; eauto|right; eapply KK_mono; eauto].
    - destruct Hx as [(rid & s & wt & He & H1 & H2 & H3 & H4 & H5 & H6)|(tag & v & He)].
      + right. destruct (Hrep _ _ He) as (k & p & Hk & Hf & [Hr _] & Ht). destruct Hr as (p' & v & prev & es & lc & R1 & R2 & R3).
        assert (p' = p) as -> by congruence. destruct (Hpk k p Hk) as [P1 _]. rewrite <- Ht in P1. destruct P1 as [P1 P2].
        destruct (so_wait _ _ _ _ _ (it_streams _ _ _ _ _ _ I s H1) wt H2) as (q & prev' & es' & lc' & Q1 & Q2 & Q3 & Q4).
        rewrite H3, P1, Hk in Q1. injection Q1 as <-. rewrite R2 in Q2. injection Q2 as -> -> -> ->. rewrite Q4, P2, H5, <- H6 in R3. eapply wle_ackc; eauto.
      + exfalso. destruct (Hrep _ _ He) as (k & p & _ & _ & [[] _] & _).
  Qed.
  Lemma n_notes x : x ∈ nd_notes n' -> note_ok w' st' i x.
  Proof using W C Hi I Hst Hpk Ha Hp Hs Hl C' Hst' W'.
    intros Hx. destruct (step_notes _ _ _ _ _ Hs x Hx) as [H|H]; [|apply n_note, H]. eapply note_mono; eauto. apply I, H.
  Qed.
  Lemma n_asks req : SendVote req ∈ en_out (nd_eng n') ->
    v_committed (vq_vote req) = false /\ li_node (v_leader (vq_vote req)) = i /\ wd_cand w' (v_leader (vq_vote req)) /\
    wd_init w' (v_leader (vq_vote req)) = vq_last req.
  Proof using W C Hi I Hst Hpk Ha Hp Hs Hl C' Hst' W' Hg Hsti Hmem.
    intros Hin. destruct (out_split _ _ _ _ _ _ Hs Hin) as [H|H].
    - destruct (it_asks _ _ _ _ _ _ I req H) as (A & B & D & E). split; [exact A|]. split; [exact B|]. split; [apply Hl, D|]. rewrite (wl_init _ _ _ Hl _ D). exact E.
    - destruct (step_asks _ _ _ _ _ Hs req H) as (A & B & D). assert (Hterm : li_term (v_leader (vq_vote req)) <> 0) by (rewrite D; cbn; lia).
      assert (Hown : li_node (v_leader (vq_vote req)) = i) by (rewrite D; apply s_id).
      assert (Hun : v_committed (vq_vote req) = false) by (rewrite D; reflexivity).
      assert (Hnd : rs_v (nd_state n') <> vote_default) by (intros E; rewrite A, E in Hterm; apply Hterm; reflexivity).
      split; [exact Hun|]. split; [exact Hown|]. split.
      + rewrite A. destruct (c_v _ _ _ _ _ n_core) as [E|[E _]]; [contradiction|exact E].
      + rewrite B. apply (c_cand _ _ _ _ _ n_core); auto. rewrite <- A. destruct (vq_vote req) as [L b]. cbn in *. congruence.
  Qed.
  Lemma n_resp c r tx : Respond c r tx ∈ en_out (nd_eng n') -> ro w' sent' i tx r.
  Proof using W C Hi I Hst Hpk Ha Hp Hs Hl C' Hst' W' Hg Hsti Hmem.
    intros Hin. destruct (out_split _ _ _ _ _ _ Hs Hin) as [H|H].
    - eapply ro_mono; [exact Hl|apply n_sent|]. eapply it_resp; eauto.
    - pose proof (step_responds _ _ _ _ _ Hs c r tx H) as R. unfold responds in R. unfold gained in Hg.
      destruct Ha as [Hlc|k p Hk Ht Hf He|k p r' Hk Hf Hr He].
      + destruct ev as [|m| | | | | | | | | | | |]; try destruct R. destruct m; try destruct R; try discriminate Hlc. subst r. exact Logic.I.
      + assert (Hk' : sent' !! k = Some p) by (apply n_sent, Hk). rewrite He in R, Hg, H, Hp. destruct (pk_rpc p) as [v0 prev es lc|req|v0 sn|req] eqn:Hrpc; cbn [rpc_msg] in *.
        * destruct R as [-> (a & -> & _)]. destruct a; try exact Logic.I. exists p, v0, prev, es, lc. split; [exact Hk'|]. split; [exact Hrpc|]. rewrite <- Hi. apply Hg. exists c. exact H.
        * destruct R as (-> & resp & e' & -> & R1 & R2). intros Hgr. apply vote_req_spec in R1 as (S1 & S2 & _ & S4 & _).
          exists p, req, (rs_last (nd_state n)). split; [exact Hk'|]. split; [exact Hrpc|]. split; [rewrite S4; apply S2, Hgr|]. split; [|apply S1, Hgr].
          rewrite <- Hi. apply Hg. unfold nd_state. rewrite R2. apply S2, Hgr.
        * destruct Hp.
        * destruct R.
      + rewrite He in R. destruct R.
  Qed.
  Lemma n_cand : exists h, cinv h n' /\ forall x, x ∈ h -> note_ok w' st' i x.
  Proof using W C Hi I Hst Hpk Ha Hp Hs Hl C' Hst' W' Hg Hsti Hmem.
    destruct (it_cand _ _ _ _ _ _ I) as (h & A & B). exists (h ++ taken ev n). split; [eapply node_step_cinv; eauto|].
    intros x Hx. apply elem_of_app in Hx as [Hx|Hx]; [eapply note_mono; eauto|].
    unfold taken in Hx. destruct (note_taken ev n) as [y|] eqn:Hy; cbn in Hx; [|apply elem_of_nil in Hx as []]. apply elem_of_list_singleton in Hx as ->.
    eapply note_mono; eauto. apply I. eapply taken_in; eauto.
  Qed.
  Lemma n_qs c : en_cand (nd_eng n') = Some c -> cd_qs c = [] \/ cd_qs c = [V].
  Proof using W C Hi I Hst Hpk Ha Hp Hs Hl C' Hst' W' Hg Hsti Hmem.
    intros Hc. destruct (step_cands _ _ _ _ _ Hs c Hc) as [(c0 & H1 & ->)|[H|H]].
    - eapply it_qs; eauto.
    - rewrite H. clear - Hp. destruct ev; auto. destruct m; auto. cbn in Hp. rewrite Hp. auto.
    - rewrite H. apply (it_mem _ _ _ _ _ _ I).
  Qed.
  Lemma n_cterm c : en_cand (nd_eng n') = Some c -> li_term (v_leader (cd_vote c)) <> 0.
  Proof using W C Hi I Hst Hpk Ha Hp Hs Hl C' Hst' W' Hg Hsti Hmem.
    intros Hc. destruct (prims_cterm _ _ _ (node_step_kinds _ _ _ _ Hs) c Hc) as [H|(c0 & H1 & ->)]; [exact H|]. eapply it_cterm; eauto.
  Qed.
  Lemma n_com : CO w' (rs_committed (nd_state n)) (rs_v (nd_state n')).
  Proof using W C Hi I Hst Hpk Ha Hp Hs Hl C' Hst' W' Hg Hsti Hmem. eapply CO_vote; [apply n_vote|]. eapply CO_mono; [exact Hl|]. apply (c_com _ _ _ _ _ s_core). Qed.
  Lemma n_com_pfx c : pfx (wh w) c (rs_committed (nd_state n)) -> CO w' c (rs_v (nd_state n')).
  Proof using W C Hi I Hst Hpk Ha Hp Hs Hl C' Hst' W' Hg Hsti Hmem. intros Hc. eapply CO_down; [eapply wle_pfx; [exact Hl|exact Hc]|apply n_com]. Qed.
  Lemma n_streams s : s ∈ nd_streams n' -> stream_ok w' sent' i (rs_v (nd_state n')) s.
  Proof using W C Hi I Hst Hpk Ha Hp Hs Hl C' Hst' W' Hg Hsti Hmem.
    intros Hin. destruct (step_streams _ _ _ _ _ Hs s Hin) as [(s0 & H0 & Ht & Hse & Hc & Hw)|((ts & r & l & He & Ho & Hle & Hse) & Hc & Hw)].
    - destruct (stream_mono _ _ _ Hl _ _ n_sent _ _ _ _ n_vote (it_streams _ _ _ _ _ _ I s0 H0)) as [A A' B D]. constructor.
      + rewrite Hse. exact A.
      + rewrite Hse. exact A'.
      + intros c Hcc. destruct (Hc c Hcc) as [H|(r & He & Ho)]; [auto|]. apply n_com_pfx. apply (head_committed (wd_env w) cfg HE n (nc_fits _ _ _ C) c r Ho).
      + intros wt Hwt. rewrite Hse, Ht. destruct (Hw wt Hwt) as [H|H]; [auto|]. destruct H as (j & limit & es & lc & He & Ho & Hlast).
        destruct Ha as [Hlc|k p Hk Htt Hf He'|k p r' Hk Hf Hr He']; [|congruence|congruence].
        rewrite He in Hlc. cbn in Hlc. apply Nat.eqb_eq in Hlc. rewrite Ho. cbn [omap list_omap out_packet].
        eexists _, _, _, _. split; [rewrite Hlc; apply list_lookup_middle; reflexivity|]. cbn. split; [reflexivity|]. split; [reflexivity|exact Hlast].
    - destruct (ei_el _ _ _ _ s_ei l Hle) as (E1 & E2 & E3 & _). constructor.
      + rewrite Hse. exact E3.
      + rewrite Hse. exact E2.
      + intros c Hcc. rewrite (Hc c Hcc). apply n_com.
      + congruence.
  Qed.
  Lemma n_hb ss c t : nd_hb n' = Some (ss, c, t) -> v_committed (ss_vote ss) = true /\ li_node (v_leader (ss_vote ss)) = i /\ CO w' c (rs_v (nd_state n')).
  Proof using W C Hi I Hst Hpk Ha Hp Hs Hl C' Hst' W' Hg Hsti Hmem.
    intros Hh. destruct (step_hb _ _ _ _ _ Hs) as [H|(ss0 & c0 & r & He & Ho & H)]; rewrite H in Hh.
    - destruct (it_hb _ _ _ _ _ _ I _ _ _ Hh) as (A & B & D). split; [exact A|]. split; [exact B|]. eapply CO_vote; [apply n_vote|]. eapply CO_mono; eauto.
    - injection Hh as -> -> <-. destruct (head_heartbeat (wd_env w) cfg HE n (nc_fits _ _ _ C) _ _ _ Ho) as (A & B & D). split; [exact B|]. split; [rewrite <- Hi; exact D|]. apply n_com_pfx, A.
  Qed.
  Lemma n_item : item V w' st' sent' i n'.
  Proof using W C Hi I Hst Hpk Ha Hp Hs Hl C' Hst' W' Hg Hsti Hmem.
    constructor; [apply n_votes|apply n_notes|apply n_asks|apply n_resp|apply n_cand|apply n_qs|apply n_cterm|exact Hmem|apply n_streams|apply n_hb].
  Qed.
  (** the vote with which the node leads is known to be its own *)
  Lemma s_lead_KK v : v = rs_v (nd_state n) -> v_committed v = true -> li_node (v_leader v) = i -> KK st v.
  Proof using W C Hi Hst.
    intros -> Hc Hown. right. rewrite Hown, Hst.
    assert (E : v_leader (stored_vote n) = v_leader (rs_v (nd_state n))) by (apply (i_stored (wd_env w) cfg HE n (nc_fits _ _ _ C)); congruence).
    rewrite <- E. destruct (stored_vote n) as [L []]; cbn; [apply vle_same|apply vle_refl].
  Qed.
  Lemma s_tip v : v = rs_v (nd_state n) -> v_committed v = true -> li_node (v_leader v) = i -> wtip w (v_leader v) = rs_last (nd_state n).
  Proof using W C Hi. intros Hv Hc Hown. apply (c_lead _ _ _ _ _ s_core); [exact Hown|]. destruct v as [L b]. cbn in *. congruence. Qed.
  Lemma s_append v prev es lc tag t : v = rs_v (nd_state n) -> v_committed v = true -> li_node (v_leader v) = i ->
    chain (wh w) prev es -> pfx (wh w) None prev -> pfx (wh w) (es_last prev es) (wtip w (v_leader v)) -> CO w lc v ->
    forall k, match tag with TagStream t' rid => rid = k /\ t = t' | TagVote _ t' => t = t' | _ => True end ->
    pk_ok w st k (mkPacket i t tag (RpcAppend v prev es lc)).
  Proof using W C Hi Hst.
    intros Hv Hc Hown H1 H2 H3 H4 k Ht. split; [exact Ht|]. cbn. split; [exact Hc|]. split; [exact Hown|]. split; [apply lead_known; assumption|].
    split; [apply s_lead_KK; assumption|]. auto.
  Qed.
  Lemma s_packet t tag rpc k : sends ev n t tag rpc -> (forall a b, tag = TagStream a b -> k = length sent) -> pk_ok w st k (mkPacket i t tag rpc).
  Proof using W C Hi I Hst Hpk Ha Hp Hs Hl C' Hst' W' Hg Hsti Hmem.
    intros Hsd Hk. destruct Hsd as [req r He Ho|req|tx l pe He Hle Hin Hne|j limit rid s rng es snt He Hj Ht Hact Hread|rid v sn|ss c time He Hh].
    - split; [reflexivity|]. cbn. assert (Hin : SendVote req ∈ en_out (nd_eng n)) by (rewrite Ho; left).
      destruct (it_asks _ _ _ _ _ _ I req Hin) as (A & B & D & E). split; [exact A|]. split; [exact B|]. split; [exact D|]. split; [|exact E].
      right. rewrite B, Hst, <- (head_sendvote (wd_env w) cfg HE n (nc_fits _ _ _ C) req r Ho).
      destruct (vq_vote req) as [L b]. cbn in *. rewrite A. apply vle_refl.
    - split; exact Logic.I.
    - destruct (ei_el _ _ _ _ s_ei l Hle) as (E1 & E2 & E3 & _).
      assert (Hm : (t, pe_matching pe) ∈ matched l) by (apply elem_of_list_fmap; exists (t, pe); auto).
      assert (Hmm : pe_matching pe = None \/ ackc w t (v_leader (ld_vote l)) (pe_matching pe)) by (apply (nc_match _ _ _ C l Hle _ _ Hm)).
      apply s_append; [reflexivity| | | | | | |exact Logic.I].
      + cbn. unfold nd_state. rewrite <- E1. exact E2.
      + unfold nd_state. rewrite <- E1. exact E3.
      + constructor.
      + destruct Hmm as [->|(x & X1 & X2)]; [constructor|]. eapply pfx_rooted; [apply HE|]. eapply pfx_trans; [exact X2|apply (wk_ack _ _ W _ _ _ X1)].
      + cbn. unfold nd_state. rewrite <- E1. destruct Hmm as [->|(x & X1 & X2)]; [apply (proj2 HE)|]. eapply pfx_trans; [exact X2|apply (wk_ack _ _ W _ _ _ X1)].
      + apply (c_com _ _ _ _ _ s_core).
    - rewrite He in Hp. cbn in Hp. destruct (Hp s Hj) as [Hv Hpu]. assert (Hins : s ∈ nd_streams n) by (eapply elem_of_list_lookup_2, Hj).
      destruct (it_streams _ _ _ _ _ _ I s Hins) as [A A' B D].
      destruct (stream_chain (wd_env w) cfg HE n (nc_fits _ _ _ C) s j rng limit es snt Hj Hv) as (S1 & S2 & S3).
      { rewrite <- Hv, Hi. exact A. }
      { destruct Hact as [H|H]; [left; split; [exact H|]; apply Hpu, H|right; exact H]. }
      { exact Hread. }
      apply s_append; auto.
      + rewrite (s_tip _ Hv A' A). exact S3.
      + rewrite Hv. apply B. apply (drain_facts s). left. reflexivity.
      + split; [|reflexivity]. rewrite (Hk _ _ eq_refl). destruct Ha as [Hlc|? ? ? ? ? He'|? ? ? ? ? ? He']; [|congruence|congruence].
        rewrite He in Hlc. cbn in Hlc. apply Nat.eqb_eq, Hlc.
    - split; exact Logic.I.
    - rewrite He in Hp. cbn in Hp. pose proof (Hp _ _ _ Hh) as Hv. destruct (it_hb _ _ _ _ _ _ I _ _ _ Hh) as (A & B & D).
      apply s_append; [exact Hv|exact A|exact B| | | | |exact Logic.I].
      + exact Logic.I.
      + constructor.
      + apply (proj2 HE).
      + rewrite Hv. exact D.
  Qed.
  Lemma n_packets k p : sent' !! k = Some p -> pk_ok w' st' k p.
  Proof using W C Hi I Hst Hpk Ha Hp Hs Hl C' Hst' W' Hg Hsti Hmem.
    intros Hk. eapply pk_mono; [exact Hl|exact Hst'|]. apply lookup_app_Some in Hk as [Hk|[Hge Hk]]; [auto|].
    assert (Hin : p ∈ omap (out_packet i) outs) by (eapply elem_of_list_lookup_2, Hk).
    apply elem_of_list_omap in Hin as (o & Ho & Hop). destruct o as [t tag rpc| |]; try discriminate Hop. injection Hop as <-.
    pose proof (step_sends _ _ _ _ _ Hs _ _ _ Ho) as Hsd. apply s_packet; [exact Hsd|].
    intros a b ->. assert (He : exists j limit rid, ev = EStreamSend j limit rid) by (inversion Hsd; subst; eauto).
    destruct He as (j & limit & rid & He). pose proof Hs as Hs1. rewrite He in Hs1. apply stream_one in Hs1.
    assert (length (omap (out_packet i) outs) <= 1).
    { destruct outs as [|o1 [|o2 os]]; cbn in *; try lia. destruct (out_packet i o1); cbn; lia. }
    apply lookup_lt_Some in Hk. lia.
  Qed.
  Lemma n_replies tx r : OReply tx r ∈ outs -> reply_ok w' st' sent' i tx r.
  Proof using W C Hi I Hst Hpk Ha Hp Hs Hl C' Hst' W' Hg Hsti Hmem.
    intros Hin. destruct (step_replies _ _ _ _ _ Hs _ _ Hin) as (He & c & rest & Ho). assert (Hc : Respond c r tx ∈ en_out (nd_eng n)) by (rewrite Ho; left).
    eapply reply_mono; [exact Hl|exact Hst'|apply n_sent|]. split; [eapply it_resp; eauto|]. intros v Hv.
    assert (Hsv : v = stored_vote n).
    { destruct s_vinv as [_ Hch]. rewrite Ho in Hch. destruct Hch as [Hok _]. destruct r as [x|[]|x|x]; cbn in Hv, Hok;
        try (apply elem_of_nil in Hv as []; fail); apply elem_of_list_singleton in Hv; subst v; [apply Hok|exact Hok|exact Hok]. }
    destruct (it_votes _ _ _ _ _ _ I v) as [A B]; [rewrite Hsv; left|]. split; [exact A|]. destruct B as [B|B]; [|exact B].
    right. rewrite B, Hst, <- Hsv. destruct v as [L []]; cbn; [apply vle_same|apply vle_refl].
  Qed.
End step.

(** ** Runs of the cluster *)

Definition stored (cl : Cluster) (j : nat) : Vote := stored_vote (cl_node cl j).
Record clinv (m0 : gmap nat nat) (cfg : nat -> EngineConfig) (w : World) (cl : Cluster) : Prop := {
  ci_world : world_ok [dom m0] w;
  ci_first : first_ok m0 w;
  ci_cfg : forall i, ec_id (cfg i) = i;
  ci_core : forall i, ncore (cfg i) w (cl_node cl i);
  ci_item : forall i, item (dom m0) w (stored cl) (cl_sent cl) i (cl_node cl i);
  ci_sent : forall k p, cl_sent cl !! k = Some p -> pk_ok w (stored cl) k p;
  ci_replied : forall j k r, (j, k, r) ∈ cl_replied cl -> reply_ok w (stored cl) (cl_sent cl) j k r;
}.
Lemma clinv_step m0 cfg w cl a cl' : clinv m0 cfg w cl -> cl_act a cl = Ok cl' -> plain_act m0 cl a cl' ->
  exists i w', wle i w w' /\ clinv m0 cfg w' cl'.
Proof.
  intros I Ha Hp. unfold plain_act in Hp. destruct (cl_event a cl) as [[[i now] ev]|] eqn:He; [|destruct Hp].
  assert (Hs : cl_step i now ev cl = Ok cl').
  { destruct a; cbn [cl_act] in Ha; try (rewrite He in Ha; exact Ha). discriminate He. }
  clear Ha. unfold cl_step in Hs. destruct (node_step now ev (cl_node cl i)) as [[n' outs]|] eqn:Hn; [|discriminate]. cbn in Hs. injection Hs as <-.
  assert (Hni : cl_node (cl_set i n' outs cl) i = n') by (cbn; rewrite decide_True by reflexivity; reflexivity).
  assert (Hnj : forall j, j <> i -> cl_node (cl_set i n' outs cl) j = cl_node cl j) by (intros j Hj; cbn; rewrite decide_False by exact Hj; reflexivity).
  rewrite Hni in Hp. destruct Hp as (P1 & P2 & P3).
  assert (Har : arrives w (stored cl) (cl_sent cl) i ev).
  { destruct a as [i0 now0 ev0|k now0|m now0|]; cbn [cl_event] in He; [| | |discriminate].
    - destruct (local_event _ _) eqn:Hl; [|discriminate]. injection He as -> -> ->. apply ar_local, Hl.
    - destruct (cl_sent cl !! k) as [p|] eqn:Hk; [|discriminate]. destruct (Nat.eqb_spec (pk_from p) (pk_to p)) as [|Hne]; [discriminate|]. injection He as <- <- <-.
      eapply ar_request; eauto.
    - destruct (cl_replied cl !! m) as [[[j k] r]|] eqn:Hm; [|discriminate]. destruct (cl_sent cl !! k) as [p|] eqn:Hk; [|discriminate].
      destruct (Nat.eqb_spec (pk_to p) j) as [Hj|]; [|discriminate]. injection He as <- <- <-. eapply ar_reply; eauto.
      rewrite Hj. apply (ci_replied _ _ _ _ I). eapply elem_of_list_lookup_2, Hm. }
  pose proof (ci_world _ _ _ _ I) as W. pose proof (ci_core _ _ _ _ I i) as C. pose proof (ci_item _ _ _ _ I i) as It. pose proof (ci_cfg _ _ _ _ I) as Hc.
  assert (E1 : ev_ok m0 w (cl_node cl i) ev) by (eapply (s_ev_ok m0 (cfg i) i w (stored cl) (cl_sent cl)); eauto using ci_sent).
  assert (E2 : wins_ok m0 w (cl_node cl i) ev) by (eapply (s_wins_ok m0 (cfg i) i w (stored cl) (cl_sent cl)); eauto).
  destruct (grow m0 (cfg i) w now ev (cl_node cl i) n' outs W (ci_first _ _ _ _ I) C Hn E1 E2 P3) as (w' & W' & Hl & F' & _ & C' & Hg). rewrite Hc in Hl.
  set (cl' := cl_set i n' outs cl) in *.
  assert (Hst : st_le (stored cl) (stored cl')).
  { intros j. unfold stored. destruct (decide (j = i)) as [->|Hj]; [|rewrite Hnj by exact Hj; apply vle_refl]. rewrite Hni.
    apply (node_step_vinv _ _ _ _ _ (s_vinv m0 (cfg i) i w (cl_node cl i) W C (Hc i)) Hn). }
  assert (Hsti : stored cl' i = stored_vote n') by (unfold stored; rewrite Hni; reflexivity).
  assert (Hsl : sent_le (cl_sent cl) (cl_sent cl')) by apply n_sent.
  exists i, w'. split; [exact Hl|]. constructor; [exact W'|exact F'|exact Hc| | | |].
  - intros j. destruct (decide (j = i)) as [->|Hj]; [rewrite Hni; exact C'|]. rewrite Hnj by exact Hj.
    eapply ncore_still; [exact W|exact Hl| |apply I]. rewrite Hc. eapply still_other; eauto.
  - intros j. destruct (decide (j = i)) as [->|Hj].
    + rewrite Hni. eapply (n_item m0 (cfg i) i w (stored cl) (cl_sent cl)); eauto using ci_sent.
    + rewrite Hnj by exact Hj. eapply item_mono; [exact Hl|exact Hst|exact Hsl|exact W'|apply I].
  - eapply (n_packets m0 (cfg i) i w (stored cl) (cl_sent cl)); eauto using ci_sent.
  - intros j k r Hr. apply elem_of_app in Hr as [Hr|Hr].
    + eapply reply_mono; [exact Hl|exact Hst|exact Hsl|]. apply (ci_replied _ _ _ _ I), Hr.
    + apply elem_of_list_omap in Hr as (o & Ho & Hor). destruct o as [| |]; try discriminate Hor. injection Hor as <- <- <-.
      eapply (n_replies m0 (cfg i) i w (stored cl) (cl_sent cl)); eauto using ci_sent.
Qed.

(** *** The start *)
Definition world0 : World := mkWorld (mkEnv (fun _ => None) (fun _ => None)) (fun _ => False) (fun _ => False) (fun _ => None) (fun _ _ _ => False)
  (fun _ _ _ => False) (fun _ _ => False).
Lemma world0_ok qs : world_ok qs world0.
Proof.
  constructor; cbn; try (intros; contradiction).
  - split; [intros y p pl H; discriminate|]. intros L. split; [constructor|exact Logic.I].
  - intros y [x H]. discriminate.
  - auto.
Qed.
Lemma fresh_facts now cfg n : node_fresh now cfg = Ok n ->
  nd_streams n = [] /\ nd_notes n = [] /\ en_out (nd_eng n) = [] /\ nd_hb n = None /\ en_cand (nd_eng n) = None /\ en_leader (nd_eng n) = None /\
  rs_v (nd_state n) = vote_default /\ rs_last (nd_state n) = None /\ rs_committed (nd_state n) = None /\ stored_vote n = vote_default /\
  m_configs (em_mem (rs_eff (nd_state n))) = [].
Proof.
  intros H. unfold node_fresh, node_start in H.
  set (x := helper_initial_state now disk_empty sm_empty) in H. vm_compute in x. subst x. cbn [res_bind] in H.
  unfold en_startup, rs_is_leader in H. cbn [engine_new en_state] in H.
  match type of H with context [rs_is_leading ?a ?b && ?c] => change c with false in H; rewrite (andb_false_r (rs_is_leading a b)) in H end.
  injection H as <-. repeat split; reflexivity.
Qed.
Lemma start_clinv m0 cfg cl : cl_start cfg cl -> clinv m0 cfg world0 cl.
Proof.
  intros (H1 & H2 & H3). constructor.
  - apply world0_ok.
  - left. reflexivity.
  - intros i. apply H3.
  - intros i. destruct (H3 i) as (Hi & now & Hf). destruct (fresh_facts _ _ _ Hf) as (F1 & F2 & F3 & F4 & F5 & F6 & F7 & F8 & F9 & F10 & F11). constructor.
    + rewrite F7, F8, F9. constructor; cbn; try (intros; contradiction).
      * left. reflexivity.
      * left. reflexivity.
      * intros L _ E. discriminate E.
      * intros L m (x & [] & _).
    + exists now, (cl_node cl i), [], []. split; [exact Hf|]. split; [exact Logic.I|reflexivity].
    + intros l Hl. congruence.
  - intros i. destruct (H3 i) as (Hi & now & Hf). destruct (fresh_facts _ _ _ Hf) as (F1 & F2 & F3 & F4 & F5 & F6 & F7 & F8 & F9 & F10 & F11). constructor.
    + rewrite F10, F3. intros v Hv. apply elem_of_list_singleton in Hv as ->. split; [left; reflexivity|right; left; reflexivity].
    + rewrite F2. intros x Hx. apply elem_of_nil in Hx as [].
    + rewrite F3. intros x Hx. apply elem_of_nil in Hx as [].
    + rewrite F3. intros c r tx Hx. apply elem_of_nil in Hx as [].
    + exists []. split; [eapply node_start_cinv; exact Hf|]. intros x Hx. apply elem_of_nil in Hx as [].
    + congruence.
    + congruence.
    + left. exact F11.
    + rewrite F1. intros x Hx. apply elem_of_nil in Hx as [].
    + congruence.
  - rewrite H1. discriminate.
  - rewrite H2. intros j k r Hx. apply elem_of_nil in Hx as [].
Qed.

(** the record only grows *)
Record wlater (w w' : World) : Prop := {
  wt_hist : hist_le (wh w) (wh w');
  wt_com : forall L x, wd_com w L x -> wd_com w' L x;
  wt_elec : forall L, wd_elec w L -> wd_elec w' L;
  wt_init : forall L, wd_elec w L -> wd_init w' L = wd_init w L;
}.
Lemma wlater_refl w : wlater w w.
Proof. constructor; auto. intros y v; auto. Qed.
Lemma plain_clinv m0 cfg w cl cl' : clinv m0 cfg w cl -> plain_run m0 cl cl' -> exists w', clinv m0 cfg w' cl' /\ wlater w w'.
Proof.
  intros I Hr. induction Hr as [|a c c' Hr IH Ha Hp]; [exists w; split; [exact I|apply wlater_refl]|].
  destruct IH as (w1 & I1 & L1). destruct (clinv_step _ _ _ _ _ _ I1 Ha Hp) as (i & w2 & Hl & I2). exists w2. split; [exact I2|]. constructor.
  - intros y v Hy. apply Hl, L1, Hy.
  - intros L x Hx. apply Hl, L1, Hx.
  - intros L Hx. apply Hl, L1, Hx.
  - intros L Hx. rewrite (wl_init _ _ _ Hl), (wt_init _ _ L1 L Hx); [reflexivity|]. apply (wk_elec _ _ (ci_world _ _ _ _ I1)), L1, Hx.
Qed.
Lemma plain_inv m0 cfg cl : plain_reachable m0 cfg cl -> exists w, clinv m0 cfg w cl.
Proof. intros (cl0 & H0 & Hr). destruct (plain_clinv _ _ _ _ _ (start_clinv m0 _ _ H0) Hr) as (w & I & _). eauto. Qed.

(** ** What follows *)

Section facts.
  Context (m0 : gmap nat nat) (cfg : nat -> EngineConfig) (w : World) (cl : Cluster) (I : clinv m0 cfg w cl).
  Let W := ci_world _ _ _ _ I.
  Let HE : env_ok (wd_env w) := wk_env _ _ W.
  Let Hok : hist_ok (wh w) := proj1 HE.
  Lemma f_ninv i : node_inv (wd_env w) i (cl_node cl i).
  Proof using I. pose proof (reach_inv (wd_env w) (cfg i) HE _ (nc_fits _ _ _ (ci_core _ _ _ _ I i))) as H. rewrite (ci_cfg _ _ _ _ I) in H. exact H. Qed.
  Lemma f_core i : core w i (rs_v (nd_state (cl_node cl i))) (rs_committed (nd_state (cl_node cl i))) (rs_last (nd_state (cl_node cl i))).
  Proof using I. pose proof (nc_core _ _ _ (ci_core _ _ _ _ I i)) as H. rewrite (ci_cfg _ _ _ _ I) in H. exact H. Qed.
  Lemma f_log i l : log_of (cl_node cl i) l -> log_ok (wh w) l.
  Proof using I.
    destruct (f_ninv i) as (w0 & pcs & wv & D & N). intros [->|[->| ->]].
    - rewrite <- (n_d0 _ _ _ _ _ _ _ N). apply (n_pos _ _ _ _ _ _ _ N).
    - unfold so_log. rewrite <- (ninv_view _ _ _ _ _ _ _ N). apply (ninv_posv _ _ HE _ _ _ _ _ N).
    - pose proof (node_pos (wd_env w) i HE _ (f_ninv i)) as P. apply (p_log _ _ P).
  Qed.
  Lemma f_com i e : has_committed (cl_node cl i) e ->
    pfx (wh w) (Some (e_log_id e)) (rs_committed (nd_state (cl_node cl i))) /\ exists q, wh w (e_log_id e) = Some (q, e_payload e).
  Proof using I.
    intros [[Hin Hlt]|Hin].
    - destruct (f_log i (planned_log (cl_node cl i))) as [Hr Hc]; [right; right; reflexivity|].
      destruct (chain_elem (wh w) Hok _ _ _ Hc Hin) as (E1 & E2 & E3 & E4 & E5). split; [|exact E5].
      eapply (pfx_of_idx (wh w) Hok); [exact E1| |exact Hlt].
      pose proof (node_ec (wd_env w) i _ (f_ninv i)) as C. apply C.
    - destruct (f_ninv i) as (w0 & pcs & wv & D & N). destruct (chain_elem (wh w) Hok _ _ _ (sm_chain _ _ (n_sm _ _ _ _ _ _ _ N)) Hin) as (E1 & E2 & E3 & E4 & E5).
      split; [|exact E5]. eapply pfx_trans; [|apply (cur_committed _ _ HE _ _ _ _ _ N)].
      eapply pfx_trans; [exact E1|]. rewrite <- (sm_app _ _ (n_sm _ _ _ _ _ _ _ N)). eapply applied_cur. exact N.
  Qed.
End facts.
Lemma log_ok_later w w' l : wlater w w' -> log_ok (wh w) l -> log_ok (wh w') l.
Proof. intros Hl [A B]. split; [eapply pfx_mono; [apply Hl|exact A]|eapply chain_mono; [apply Hl|exact B]]. Qed.
Lemma entry_eq (H : Hist) (a b : Entry) q q' : H (e_log_id a) = Some (q, e_payload a) -> H (e_log_id b) = Some (q', e_payload b) -> e_log_id a = e_log_id b -> a = b.
Proof. destruct a as [x pa], b as [y pb]. cbn. intros H1 H2 ->. congruence. Qed.
Lemma logs_match (H : Hist) a b x y x' y' : hist_ok H -> log_ok H a -> log_ok H b -> x ∈ ls_entries a -> y ∈ ls_entries b -> e_log_id x = e_log_id y ->
  x' ∈ ls_entries a -> y' ∈ ls_entries b -> e_index x' = e_index y' -> e_index x' <= e_index x -> x' = y'.
Proof.
  intros Hok [_ Ca] [_ Cb] Hx Hy Hxy Hx' Hy' Hi Hle.
  destruct (chain_elem H Hok _ _ _ Ca Hx) as (X1 & _). destruct (chain_elem H Hok _ _ _ Cb Hy) as (Y1 & _).
  destruct (chain_elem H Hok _ _ _ Ca Hx') as (X2 & _ & _ & _ & q & Q). destruct (chain_elem H Hok _ _ _ Cb Hy') as (Y2 & _ & _ & _ & q' & Q').
  eapply entry_eq; [exact Q|exact Q'|].
  assert (A : pfx H (Some (e_log_id x')) (Some (e_log_id x))) by (eapply (pfx_of_idx H Hok); [exact X2|exact X1|cbn; unfold e_index in *; lia]).
  assert (B : pfx H (Some (e_log_id y')) (Some (e_log_id x))).
  { rewrite Hxy. eapply (pfx_of_idx H Hok); [exact Y2|exact Y1|]. cbn. rewrite <- Hxy. unfold e_index in *. lia. }
  pose proof (pfx_same_idx H Hok _ _ _ A B) as E. cbn in E. unfold e_index in Hi. assert (E' : Some (e_log_id x') = Some (e_log_id y')) by (apply E; lia).
  congruence.
Qed.
Theorem cluster_matching m0 cfg cl cl' i j a b x y : plain_reachable m0 cfg cl -> plain_run m0 cl cl' ->
  log_of (cl_node cl i) a -> log_of (cl_node cl' j) b -> x ∈ ls_entries a -> y ∈ ls_entries b -> e_log_id x = e_log_id y ->
  forall x' y', x' ∈ ls_entries a -> y' ∈ ls_entries b -> e_index x' = e_index y' -> e_index x' <= e_index x -> x' = y'.
Proof.
  intros Hr Hr' Ha Hb Hx Hy Hxy x' y' Hx' Hy' Hi Hle. destruct (plain_inv _ _ _ Hr) as (w & I). destruct (plain_clinv _ _ _ _ _ I Hr') as (w' & I' & Hl).
  eapply (logs_match (wh w') a b x y); eauto.
  - apply (wk_env _ _ (ci_world _ _ _ _ I')).
  - eapply log_ok_later; [exact Hl|eapply f_log; eauto].
  - eapply f_log; eauto.
Qed.
Lemma com_later m0 cfg w w' cl i e : clinv m0 cfg w cl -> wlater w w' -> has_committed (cl_node cl i) e ->
  exists L x, wd_com w' L x /\ pfx (wh w') (Some (e_log_id e)) (Some x) /\ vote_le (mkVote L true) (rs_v (nd_state (cl_node cl i))) /\
    exists q, wh w' (e_log_id e) = Some (q, e_payload e).
Proof.
  intros I Hl Hc. destruct (f_com _ _ _ _ I i e Hc) as (P1 & q & Q). destruct (c_com _ _ _ _ _ (f_core _ _ _ _ I i)) as [E|(L & x & C1 & C2 & C3)].
  - rewrite E in P1. apply pfx_none_inv in P1. discriminate.
  - exists L, x. split; [apply Hl, C1|]. split; [eapply pfx_mono; [apply Hl|]; eapply pfx_trans; [exact P1|exact C2]|]. split; [exact C3|]. exists q. apply Hl, Q.
Qed.
Theorem cluster_agree m0 cfg cl cl' i j x y : plain_reachable m0 cfg cl -> plain_run m0 cl cl' ->
  has_committed (cl_node cl i) x -> has_committed (cl_node cl' j) y -> e_index x = e_index y -> x = y.
Proof.
  intros Hr Hr' Hx Hy Hi. destruct (plain_inv _ _ _ Hr) as (w & I). destruct (plain_clinv _ _ _ _ _ I Hr') as (w' & I' & Hl).
  pose proof (ci_world _ _ _ _ I') as W'. pose proof (proj1 (wk_env _ _ W')) as Hok.
  destruct (com_later _ _ _ _ _ _ _ I Hl Hx) as (L1 & x1 & C1 & P1 & _ & q1 & Q1). destruct (com_later _ _ _ _ _ _ _ I' (wlater_refl w') Hy) as (L2 & x2 & C2 & P2 & _ & q2 & Q2).
  eapply entry_eq; [exact Q1|exact Q2|].
  assert (E : Some (e_log_id x) = Some (e_log_id y)); [|congruence].
  destruct (commits_agree [dom m0] ltac:(discriminate) w' W' _ _ _ _ C1 C2) as [H|H].
  - eapply (pfx_same_idx (wh w') Hok); [eapply pfx_trans; [exact P1|exact H]|exact P2|]. cbn. unfold e_index in Hi. lia.
  - eapply (pfx_same_idx (wh w') Hok); [exact P1|eapply pfx_trans; [exact P2|exact H]|]. cbn. unfold e_index in Hi. lia.
Qed.
Lemma holds_path (H : Hist) l e q : hist_ok H -> log_ok H l -> pfx H (Some (e_log_id e)) (ls_last l) -> H (e_log_id e) = Some (q, e_payload e) -> holds_entry l e.
Proof.
  intros Hok [Hr Hc] Hp Hq. destruct (decide (e_index e < next_index (ls_purged l))) as [?|Hge]; [right; assumption|left].
  pose proof (pfx_idx H Hok _ _ Hp) as Hi. rewrite (log_ok_length H Hok l) in Hi by (split; assumption). cbn in Hi. unfold e_index in *.
  destruct (ls_entries l !! (lid_index (e_log_id e) - next_index (ls_purged l))) as [z|] eqn:Hz; [|apply lookup_ge_None in Hz; lia].
  pose proof (chain_index H Hok _ _ _ _ Hc Hz) as Hzi. pose proof (chain_lookup H _ _ _ _ Hc Hz) as (Z1 & _ & Z3).
  assert (E : e = z).
  { eapply entry_eq; [exact Hq|exact Z3|]. assert (E : Some (e_log_id e) = Some (e_log_id z)); [|congruence].
    eapply (pfx_same_idx H Hok); [exact Hp|exact Z1|]. cbn. unfold e_index in Hzi. lia. }
  rewrite E. eapply elem_of_list_lookup_2, Hz.
Qed.
Lemma leader_facts m0 cfg w cl j l : clinv m0 cfg w cl -> en_leader (nd_eng (cl_node cl j)) = Some l ->
  wd_elec w (v_leader (ld_vote l)) /\ wtip w (v_leader (ld_vote l)) = ls_last (planned_log (cl_node cl j)) /\
  ld_vote l = rs_v (nd_state (cl_node cl j)) /\ v_committed (ld_vote l) = true.
Proof.
  intros I Hl. pose proof (f_ninv _ _ _ _ I j) as HN. destruct (ei_el _ _ _ _ (node_ei _ _ _ HN) l Hl) as (E1 & E2 & E3 & _).
  pose proof (f_core _ _ _ _ I j) as C. split.
  - destruct (c_v _ _ _ _ _ C) as [H|[_ H]]; unfold nd_state in H; rewrite <- E1 in H; [rewrite H in E2; discriminate|auto].
  - split; [|auto]. assert (E : wtip w (v_leader (ld_vote l)) = rs_last (nd_state (cl_node cl j))).
    { apply (c_lead _ _ _ _ _ C); [exact E3|]. unfold nd_state. rewrite <- E1. destruct (ld_vote l) as [L b]. cbn in *. congruence. }
    rewrite E. apply (ec_last _ _ _ (node_ec _ _ _ HN)).
Qed.
Theorem cluster_complete m0 cfg cl cl' i j e l : plain_reachable m0 cfg cl -> plain_run m0 cl cl' ->
  has_committed (cl_node cl i) e -> en_leader (nd_eng (cl_node cl' j)) = Some l -> vote_le (rs_v (nd_state (cl_node cl i))) (ld_vote l) ->
  holds_entry (planned_log (cl_node cl' j)) e.
Proof.
  intros Hr Hr' He Hl Hv. destruct (plain_inv _ _ _ Hr) as (w & I). destruct (plain_clinv _ _ _ _ _ I Hr') as (w' & I' & Hlt).
  pose proof (ci_world _ _ _ _ I') as W'. pose proof (proj1 (wk_env _ _ W')) as Hok.
  destruct (com_later _ _ _ _ _ _ _ I Hlt He) as (L & x & C1 & P1 & V1 & q & Q). destruct (leader_facts _ _ _ _ _ _ I' Hl) as (E1 & E2 & _).
  eapply (holds_path (wh w')); [exact Hok|eapply f_log; [exact I'|right; right; reflexivity]| |exact Q].
  rewrite <- E2. eapply pfx_trans; [exact P1|]. apply (leader_has [dom m0] ltac:(discriminate) w' W' L); [exact E1|exact C1|].
  apply (vle_leader (mkVote L true)). eapply vle_trans; [exact V1|exact Hv].
Qed.
(** also what is committed under a lower leader only after the leader was elected *)
Theorem cluster_complete' m0 cfg cl cl' i j e l : plain_reachable m0 cfg cl -> plain_run m0 cl cl' ->
  en_leader (nd_eng (cl_node cl j)) = Some l -> has_committed (cl_node cl' i) e ->
  leader_lt (v_leader (rs_v (nd_state (cl_node cl' i)))) (v_leader (ld_vote l)) ->
  holds_entry (planned_log (cl_node cl j)) e.
Proof.
  intros Hr Hr' Hl He Hv. destruct (plain_inv _ _ _ Hr) as (w & I). destruct (plain_clinv _ _ _ _ _ I Hr') as (w' & I' & Hlt).
  pose proof (ci_world _ _ _ _ I) as W. pose proof (ci_world _ _ _ _ I') as W'. pose proof (proj1 (wk_env _ _ W')) as Hok'.
  destruct (com_later _ _ _ _ _ _ _ I' (wlater_refl _) He) as (L & x & C1 & P1 & V1 & q & Q). destruct (leader_facts _ _ _ _ _ _ I Hl) as (E1 & E2 & _).
  eapply (holds_path (wh w')); [exact Hok'|eapply log_ok_later; [exact Hlt|eapply f_log; [exact I|right; right; reflexivity]]| |exact Q].
  rewrite <- E2. eapply pfx_trans; [exact P1|]. assert (HL : leader_lt L (v_leader (ld_vote l))).
  { apply vle_leader in V1. cbn in V1. clear - V1 Hv. vord. lia. }
  eapply pfx_trans; [apply (leader_complete [dom m0] ltac:(discriminate) w' W' _ (wt_elec _ _ Hlt _ E1) L x C1 HL)|].
  rewrite (wt_init _ _ Hlt _ E1). eapply pfx_mono; [apply Hlt|]. apply (wk_elec _ _ W), E1.
Qed.
Theorem cluster_ids m0 cfg cl cl' i j a b x y : plain_reachable m0 cfg cl -> plain_run m0 cl cl' ->
  log_of (cl_node cl i) a -> log_of (cl_node cl' j) b ->
  x ∈ ls_entries a -> y ∈ ls_entries b -> e_log_id x = e_log_id y -> x = y.
Proof.
  intros Hr Hr' Ha Hb Hx Hy He.
  assert (Hi : e_index x = e_index y) by (unfold e_index; by rewrite He).
  exact (cluster_matching m0 cfg cl cl' i j a b x y Hr Hr' Ha Hb Hx Hy He x y Hx Hy Hi (le_n _)).
Qed.
