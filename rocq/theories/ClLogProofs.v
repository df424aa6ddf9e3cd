(** How the last log id of a node changes in one step. *)
From Coq Require Import Bool Lia ZifyBool ZifyNat.
From stdpp Require Import base numbers option gmap relations list.
From Verif Require Import Types TypesProofs LogIdList Quorum Membership Progress RaftState ProgressEntry Engine Store RaftCore
  EnginePrims NodeSpec NodePrims VoteNodeProofs ElectProofs KindProofs LogSpec LogProofs EngLogProofs WalkProofs NodeLogProofs
  StepLogProofs LogPropSpec RoleSpec LogStateProofs LeadProofs OwnProofs ClNodeProofs.
Import NodeSpec.

Lemma commit_log_ids lc e : rs_log_ids (en_state (fh_commit lc e)) = rs_log_ids (en_state e).
Proof.
  unfold fh_commit, rs_update_committed. destruct (ologid_ltb _ _); [|auto].
  destruct (ologid_min _ _) as [c|]; [|auto]. destruct (should_snapshot _ _); [|auto]. unfold sh_trigger. destruct (io_building _); auto.
Qed.

Section last.
  Context (E : Env) (me : nat) (HE : env_ok E).
  Notation H := (ev_hist E).
  Notation tip := (ev_tip E).
  Let Hok : hist_ok H := proj1 HE.

  Lemma en_append_keeps now v prev es D e e' r : ei E me D e -> v_committed v = true -> li_node (v_leader v) <> me ->
    pfx H None prev -> chain H prev es -> pfx H (es_last prev es) (tip (v_leader v)) ->
    (vote_le (rs_v (en_state e)) v -> pfx H (rs_committed (en_state e)) (tip (v_leader v))) ->
    en_append now v prev es e = Ok (e', r) ->
    (e' = e /\ r <> ASuccess) \/
    (rs_v (en_state e') = v /\ vote_le (rs_v (en_state e)) v /\ en_leader e' = None /\ en_cand e' = None /\
     forall y, pfx H y (tip (v_leader v)) -> pfx H y (rs_last (en_state e)) -> pfx H y (rs_last (en_state e'))).
  Proof using HE.
    intros I F1 F2 F3 F4 F5 F6 Ha. destruct (append_runs_op E me HE now v prev es D e e' r I F1 F2 F3 F4 F5 F6 Ha) as (D' & R & I' & C & K).
    rewrite (ec_last E _ _ (ei_ec _ _ _ _ I)), (ec_last E _ _ (ei_ec _ _ _ _ I')).
    unfold en_append in Ha. rok Ha. destruct (update_vote_foreign E me HE now v D e x I F2 Hx) as (D1 & (R1 & I1 & L1 & L2 & L3 & L4 & L5) & Ht).
    destruct (x.2) eqn:H2; cbn [negb] in Ha.
    2:{ left. injection Ha as <- <-. split; [|discriminate]. apply (vote_foreign_rest now v e x Hx); [|exact H2].
        rewrite (ei_id _ _ _ _ I). exact F2. }
    right. destruct (Ht eq_refl) as (T1 & T2 & T3 & T4).
    destruct r.
    - destruct K as (F & K1 & _ & K2). pose proof F as [G1 G2 G3 G4 G5 G6 G7]. split; [exact G2|]. split; [exact T2|]. split; [exact G5|]. split; [exact G6|].
      intros y Hy1 Hy2. destruct K2 as [->|[K2 K3]]; [exact Hy2|]. rewrite K2.
      destruct (pfx_linear H _ _ _ Hy1 F5) as [?|Hb]; [assumption|]. destruct K3. eapply pfx_trans; eassumption.
    - exfalso. destruct (fh_ensure_consecutive prev x.1) as [e2 []]; discriminate.
    - unfold fh_ensure_consecutive in Ha. destruct prev as [p|]; [|discriminate]. destruct (rs_has_log_id _ _) eqn:Hh; [discriminate|].
      injection Ha as <-.
      assert (Hp : pfx H (Some p) (tip (v_leader v))). { eapply pfx_trans; [eapply chain_pfx; exact F4|exact F5]. }
      destruct (fh_truncate_rest (lid_index p) x.1) as (Q1 & Q2 & _ & Q4 & _).
      split. { unfold rs_v. rewrite Q4. exact T1. } split; [exact T2|]. rewrite Q1, Q2. split; [exact T3|]. split; [exact T4|].
      intros y Hy1 Hy2. rewrite <- L1 in Hy2.
      pose proof (lacks_id E HE D1 _ p y _ (ei_ec _ _ _ _ I1) Hp Hh Hy1 Hy2) as Hyi.
      destruct (truncate_runs E me HE (lid_index p) D1 x.1 (ei_ec _ _ _ _ I1)) as (D2 & R2 & C2 & P2 & M2 & _).
      + rewrite T1. exact F2.
      + apply (lacks_id E HE D1 _ p _ (tip (v_leader v)) (ei_ec _ _ _ _ I1) Hp Hh).
        * rewrite L3. auto.
        * apply (ec_last' E _ _ (ei_ec _ _ _ _ I1)).
      + rewrite <- (ec_last E _ _ (ei_ec _ _ _ _ I')), (ec_last E _ _ C2).
        eapply (pfx_of_idx H Hok); [exact Hy2|exact P2|]. rewrite M2. apply (pfx_idx H Hok) in Hy2. lia.
  Qed.

  Lemma walk_quiet w cs w' : pos E w -> walk E me w cs w' -> (forall x, w_must w <> MPurgeTo x) ->
    (forall c, c ∈ cs -> match c with AppendInputEntries _ _ | TruncateLog _ | InstallSnapshot _ _ => False | _ => True end) ->
    dlast (w_d w') = dlast (w_d w).
  Proof using HE.
    revert w. induction cs as [|c r IH]; intros w P Hw Hm Hc; cbn [walk] in Hw; [subst w'; reflexivity|].
    destruct Hw as [K Hw]. pose proof (wok_pos E me Hok _ _ P K) as P'. pose proof (Hc c ltac:(apply elem_of_cons; auto)) as Hq.
    rewrite (IH (wnext w c) P' Hw).
    - destruct w as [d cur m]. destruct P as [Pl Pld Pc Pcl Pcm Pp Pm]. cbn [w_d w_cur w_must] in *.
      destruct c; try contradiction; try reflexivity. unfold wnext, dapply. cbn [cmd_wop w_d wop_apply dk_log].
      cbn [wok w_d w_cur w_must] in K. destruct K as [(-> & K1 & K2)|[-> _]]; [|exfalso; eapply Hm; reflexivity].
      destruct Pm as [Pm1 Pm2]. apply (ls_purge_ok H Hok upto (dk_log d) Pl); [pt|exact K2].
    - destruct w as [d cur m]. destruct c; try contradiction; cbn; try discriminate; try (intros x; apply (Hm x)).
      destruct committed; [discriminate|]. exact Hm.
    - intros c' Hin. apply Hc. apply elem_of_cons. auto.
  Qed.
  Context (cfg : EngineConfig).
  Lemma node_lcown n : ec_id cfg = me -> fits_reachable E cfg n -> lcown (nd_eng n).
  Proof using HE.
    intros Hme Hr. pose proof (reach_inv E cfg HE n Hr) as HN. rewrite Hme in HN. pose proof (node_ei E me _ HN) as I. pose proof (ei_id _ _ _ _ I) as Hid.
    split.
    - intros c Hc. rewrite Hid. apply (ei_cl _ _ _ _ I c Hc).
    - intros l Hl. rewrite Hid. apply (ei_el _ _ _ _ I l Hl).
  Qed.
  Definition log_event (ev : Event) : bool :=
    match ev with EMsg (MAppend _ _ _ _ _) | EMsg (MSnapshot _ _ _) | EMsg (MInitialize _ _) => true | _ => false end.
  Lemma proposals_none id cs v es : proposals id cs = [] -> AppendInputEntries v es ∈ cs -> li_node (v_leader v) <> id.
  Proof.
    induction cs as [|c r IH]; intros Hp Hin; [apply elem_of_nil in Hin as []|]. apply elem_of_cons in Hin as [<-|Hin].
    - cbn in Hp. destruct (li_node (v_leader v) =? id) eqn:Hn; [discriminate|]. lia.
    - apply IH; [|exact Hin]. destruct c; cbn in Hp; try exact Hp. destruct (_ =? _); [discriminate|exact Hp].
  Qed.
  (** nothing but the leader's messages, [initialize] and own proposals moves the end of the log *)
  Lemma step_last now ev n n' outs : ec_id cfg = me -> fits_step E cfg now ev n n' outs -> log_event ev = false ->
    proposals (nd_id n) (step_produced ev n n') = [] -> rs_last (nd_state n') = rs_last (nd_state n).
  Proof using HE.
    intros Hme Hst Hev Hpr. pose proof Hst as (Hr & Hs & _). destruct (step_inv E cfg HE _ _ _ _ _ Hst) as [HN HN']. rewrite Hme in *.
    pose proof (step_w E cfg HE _ _ _ _ _ Hst) as Hw. rewrite Hme in *. pose proof (node_pos E me HE n HN) as P.
    rewrite (ec_last E _ _ (node_ec E me n HN)), (ec_last E _ _ (node_ec E me n' HN')).
    apply (walk_quiet _ _ _ P Hw); [discriminate|]. intros c Hc.
    destruct (is_run ev) as [->|He]; [apply elem_of_nil in Hc as []|].
    pose proof (node_step_kinds _ _ _ _ Hs) as Hk. cbn [fst] in Hk.
    assert (Hno : KPop ∉ event_kinds ev n /\ KFollowAppend ∉ event_kinds ev n /\ KTruncate ∉ event_kinds ev n /\ KInstall ∉ event_kinds ev n).
    { destruct ev as [|m| | | | | | | | | | | |]; try congruence; try (repeat split; cbn; notin).
      - destruct m; try discriminate; repeat split; cbn; notin.
      - cbn [event_kinds]. destruct (nd_notes n) as [|[| | | | |[]] ?]; repeat split; cbn; notin. }
    destruct Hno as (N1 & N2 & N3 & N4).
    destruct (prims_appends _ _ _ Hk N1 N2 (node_lcown n Hme Hr)) as (cs & Ho & Ha).
    destruct (prims_cmds _ _ _ Hk N1) as (cs' & Ho' & Hc'). rewrite Ho in Ho'. apply app_inv_head in Ho' as <-.
    pose proof (produced_app ev _ _ _ He Ho) as Hpc. rewrite Hpc in Hc, Hpr. 
    destruct c; try exact Logic.I.
    - apply (proposals_none _ _ _ _ Hpr Hc). apply (Ha _ _ Hc).
    - destruct (Hc' _ Hc) as (k & a & b & Hkin & Hkk). cbn in Hkk. destruct Hkk as [[->| ->] _]; contradiction.
    - destruct (Hc' _ Hc) as (k & a & b & Hkin & Hkk). cbn in Hkk. subst k. contradiction.
  Qed.
  Lemma append_case now v prev es lc tx n n' outs : ec_id cfg = me -> fits_step E cfg now (EMsg (MAppend v prev es lc tx)) n n' outs ->
    (rs_last (nd_state n') = rs_last (nd_state n) /\ rs_v (nd_state n') = rs_v (nd_state n) /\
     rs_committed (nd_state n') = rs_committed (nd_state n) /\ en_leader (nd_eng n') = en_leader (nd_eng n) /\ en_cand (nd_eng n') = en_cand (nd_eng n) /\
     ~ answers_success (EMsg (MAppend v prev es lc tx)) n n' tx) \/
    (rs_v (nd_state n') = v /\ vote_le (rs_v (nd_state n)) v /\ en_leader (nd_eng n') = None /\ en_cand (nd_eng n') = None /\
     forall y, pfx H y (tip (v_leader v)) -> pfx H y (rs_last (nd_state n)) -> pfx H y (rs_last (nd_state n'))).
  Proof using HE.
    intros Hme Hst. pose proof Hst as (Hr & Hs & Hf & _). destruct (step_inv E cfg HE _ _ _ _ _ Hst) as [HN HN']. rewrite Hme in *.
    pose proof (node_ei E me n HN) as I. pose proof (node_id E me n HN) as Hid.
    set (ev := EMsg (MAppend v prev es lc tx)) in *. assert (Hev : ev <> ERun) by discriminate.
    cbn [node_step ev] in Hs. unfold when_idle in Hs. destruct (runnable n).
    { left. injection Hs as <- _. repeat split; try reflexivity. intros [w Hw]. rewrite (produced_app ev n n [] Hev) in Hw by (rewrite app_nil_r; reflexivity).
      apply elem_of_nil in Hw as []. }
    cbn [handle_msg] in Hs. unfold lift in Hs. rok Hs. injection Hs as Hn' _. subst n'.
    unfold core_append in Hx. rok Hx. injection Hx as <-. unfold en_append_entries in Hx0. rok Hx0.
    destruct Hf as ((F1 & F2 & F3) & F4 & F5 & F6 & F7). rewrite Hid in F2. destruct x as [e1 r]. cbn [fst snd] in Hx0.
    unfold nd_state in *. cbn [nd_eng nd_set_eng] in *.
    destruct (en_append_keeps now v prev es _ _ e1 r I F1 F2 F5 F4 F6 F3 Hx) as [[-> Hns]|(V & Vle & Lr & Cd & K)].
    - left. destruct r; [congruence| |]; injection Hx0 as <-; cbn [fst snd push en_state en_leader en_cand]; repeat split; try reflexivity;
        intros [w Hw]; (rewrite (produced_app ev _ _ [_] Hev) in Hw by reflexivity); apply elem_of_list_singleton in Hw; discriminate.
    - right. assert (Hx0' : exists b c, x0 = (push c e1, b)).
      { destruct r; [destruct (io_accepted _); [|discriminate]|..]; injection Hx0 as <-; eauto. }
      destruct Hx0' as (b & c & ->). cbn [fst snd]. destruct b; [|cbn [push en_state en_leader en_cand]; auto].
      unfold en_commit_entries. destruct (commit_rest lc (push c e1)) as (Q1 & Q2 & Q3 & _). rewrite Q1, Q2, Q3. cbn [push en_state en_leader en_cand]. repeat split; auto.
      intros y Y1 Y2. unfold rs_last. rewrite commit_log_ids. apply (K y Y1 Y2).
  Qed.
End last.
