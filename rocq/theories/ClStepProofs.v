(** What a step of one node puts into its queues and onto the network. *)
From Coq Require Import Bool Lia ZifyBool ZifyNat.
From stdpp Require Import base numbers option gmap relations list.
From Verif Require Import Types TypesProofs LogIdList Quorum Membership Progress RaftState ProgressEntry Engine Store RaftCore
  EnginePrims NodeSpec NodePrims VoteNodeProofs ElectProofs KindProofs LogSpec LogProofs EngLogProofs WalkProofs NodeLogProofs
  StepLogProofs LogPropSpec RoleSpec LogStateProofs LeadProofs OwnProofs ClNodeProofs.
Import NodeSpec.

Ltac inl H := repeat (apply elem_of_cons in H as [H|H]; [try discriminate H; try (injection H as H; subst)|]); try (apply elem_of_nil in H as []).

(** ** Responses *)

Lemma no_respond ks e e' : prims ks e e' -> KPop ∉ ks -> KRespond ∉ ks ->
  exists cs, en_out e' = en_out e ++ cs /\ forall w r tx, Respond w r tx ∉ cs.
Proof.
  intros Hp H1 H2. destruct (OwnProofs.prims_cmds _ _ _ Hp H1) as (cs & Ho & Hc). exists cs. split; [exact Ho|].
  intros w r tx Hin. destruct (Hc _ Hin) as (k & a & b & Hk & Hkk). cbn in Hkk. subst k. contradiction.
Qed.
Definition responds (ev : Event) (now : nat) (n n' : Node) (w : option Condition) (r : Resp) (tx : nat) : Prop :=
  match ev with
  | EMsg (MAppend v prev es lc tx') => tx = tx' /\ exists a, r = RAppend a /\ ((forall v', a <> AHigherVote v') -> vote_le (rs_v (nd_state n)) v)
  | EMsg (MVote req tx') => tx = tx' /\ exists resp e', r = RVote resp /\ en_vote_req now req (nd_eng n) = Ok (e', resp) /\
      en_state (nd_eng n') = en_state e'
  | EMsg (MSnapshot _ _ _) => True
  | EMsg (MInitialize _ _) => exists x, r = RInitialize x
  | _ => False
  end.
Lemma step_responds now ev n n' outs : node_step now ev n = Ok (n', outs) ->
  forall w r tx, Respond w r tx ∈ step_produced ev n n' -> responds ev now n n' w r tx.
Proof.
  intros Hs w r tx Hin. destruct (is_run ev) as [->|He]; [apply elem_of_nil in Hin as []|].
  pose proof (node_step_kinds _ _ _ _ Hs) as Hk. cbn [fst] in Hk.
  assert (Hq : KPop ∉ event_kinds ev n -> KRespond ∉ event_kinds ev n -> responds ev now n n' w r tx).
  { intros N1 N2. exfalso. destruct (no_respond _ _ _ Hk N1 N2) as (cs & Ho & Hc). rewrite (produced_app _ _ _ _ He Ho) in Hin. eapply Hc, Hin. }
  destruct ev as [|m| | | | | | | | | | | |]; try congruence; try (apply Hq; cbn; notin).
  - destruct m; try (apply Hq; cbn; notin); cbn [responds]; try exact Logic.I; clear Hq Hk;
      cbn [node_step] in Hs; unfold when_idle in Hs; destruct (runnable n);
      try (exfalso; injection Hs as <- _; rewrite (produced_app _ n n [] He) in Hin by (rewrite app_nil_r; reflexivity); apply elem_of_nil in Hin as []; fail);
      cbn [handle_msg] in Hs; unfold lift in Hs; rok Hs; injection Hs as <- _.
    + unfold core_append in Hx. rok Hx. injection Hx as <-. unfold en_append_entries in Hx0. rok Hx0.
      pose proof (en_append_prims' _ _ _ _ _ _ Hx) as Hap. destruct (no_respond _ _ _ Hap) as (cs & Ho & Hc); [notin|notin|].
      assert (Hx0' : exists b cc a, x0 = (push (Respond cc (RAppend a) tx0) x.1, b) /\ a = x.2).
      { destruct x.2; [destruct (io_accepted _); [|discriminate]|..]; injection Hx0 as <-; eauto. }
      assert (Ha : forall a, a = x.2 -> (forall v', a <> AHigherVote v') -> vote_le (rs_v (nd_state n)) v).
      { intros a -> Hna. unfold en_append in Hx. rok Hx. unfold vh_update_vote in Hx1. destruct (vote_geb v (rs_v (en_state (nd_eng n)))) eqn:Hge; [exact Hge|].
        cbn in Hx1. injection Hx1 as <-. cbn in Hx. injection Hx as <-. cbn in Hna. destruct (Hna _ eq_refl). }
      destruct Hx0' as (b & cc & a & -> & Hax). specialize (Ha a Hax). cbn [fst snd] in *.
      destruct (no_respond _ _ _ (fh_commit_prims committed (push (Respond cc (RAppend a) tx0) x.1))) as (c2 & Ho2 & Hc2); [notin|notin|].
      assert (Hin' : Respond w r tx ∈ cs ++ [Respond cc (RAppend a) tx0] ++ c2 \/ Respond w r tx ∈ cs ++ [Respond cc (RAppend a) tx0]).
      { destruct b; [left|right].
        - rewrite (produced_app _ _ _ (cs ++ [Respond cc (RAppend a) tx0] ++ c2) He) in Hin; [exact Hin|].
          cbn [nd_eng nd_set_eng]. unfold en_commit_entries. rewrite Ho2. cbn [push en_out]. rewrite Ho, <- !app_assoc. reflexivity.
        - rewrite (produced_app _ _ _ (cs ++ [Respond cc (RAppend a) tx0]) He) in Hin; [exact Hin|].
          cbn [nd_eng nd_set_eng push en_out]. rewrite Ho, <- !app_assoc. reflexivity. }
      assert (Hin2 : Respond w r tx = Respond cc (RAppend a) tx0).
      { destruct Hin' as [Hin'|Hin']; rewrite ?elem_of_app, ?elem_of_list_singleton in Hin'; destruct Hin' as [Hx'|Hx']; try (exfalso; eapply Hc, Hx'; fail); auto.
        destruct Hx' as [?|Hx']; [assumption|]. exfalso. eapply Hc2, Hx'. }
      injection Hin2 as -> -> ->. split; [reflexivity|]. exists a. split; [reflexivity|]. exact Ha.
    + unfold core_vote in Hx. rok Hx. injection Hx as <-. destruct x0 as [e' resp]. cbn [fst snd] in *.
      destruct (no_respond _ _ _ (en_vote_req_prims _ _ _ _ Hx0)) as (cs & Ho & Hc); [cbn; notin|cbn; notin|]. cbn [fst] in Ho.
      rewrite (produced_app _ _ _ (cs ++ [Respond (Some (IOFlushed (io_new (rs_v (en_state e'))))) (RVote resp) tx0]) He) in Hin.
      2:{ cbn [nd_eng nd_set_eng push en_out]. rewrite Ho, <- app_assoc. reflexivity. }
      apply elem_of_app in Hin as [Hin|Hin]; [exfalso; eapply Hc, Hin|]. apply elem_of_list_singleton in Hin. injection Hin as -> -> ->.
      split; [reflexivity|]. exists resp, e'. auto.
    + destruct (decide (rs_last (en_state (nd_eng n)) = None /\ rs_v (en_state (nd_eng n)) = vote_default /\ en_id (nd_eng n) ∈ dom members)) as [(I1 & I2 & I3)|Hn].
      * destruct (initialize_ok _ _ _ _ _ I1 I2 I3 Hx) as (Ho & _). rewrite (produced_app _ n (nd_set_eng x n) _ He Ho) in Hin. inl Hin. eauto.
      * destruct (initialize_refused _ _ _ _ _ Hx Hn) as (err & -> & _). rewrite (produced_app _ n (nd_set_eng (push _ _) n) [_] He eq_refl) in Hin. inl Hin. eauto.
  - apply Hq; cbn [event_kinds]; destruct (nd_notes n) as [|[| | | | |[]] ?]; cbn; notin.
Qed.

(** ** Notes *)

Lemma note_in x y n : x ∈ nd_notes (note y n) -> x ∈ nd_notes n \/ x = y.
Proof. cbn. rewrite elem_of_app, elem_of_list_singleton. auto. Qed.
Definition new_note (ev : Event) (n : Node) (x : Note) : Prop :=
  match x with
  | NVoteResp t resp sv =>
      (exists v r, ev = ERun /\ en_out (nd_eng n) = SaveVote v :: r /\ t = nd_id n /\ resp = mkVoteResp v None true) \/
      ev = EReply (TagVote sv t) (RVote resp)
  | NHigherVote v sv => exists tag r, ev = EReply tag r /\ v ∈ resp_votes r
  | NReplProgress ss t (RRMatching m) =>
      (exists rid s w, ev = EReply (TagStream t rid) (RAppend ASuccess) /\ s ∈ nd_streams n /\ st_wait s = Some w /\ sw_rid w = rid /\
         st_target s = t /\ st_session s = ss /\ m = lr_last (sw_range w)) \/
      (exists tag v, ev = EReply tag (RSnapshot v))
  | _ => True
  end.
Lemma stream_index_target t ss i s : stream_index t ss = Some i -> ss !! i = Some s -> st_target s = t.
Proof.
  unfold stream_index. destruct (list_find _ _) as [[j s0]|] eqn:Hf; [|discriminate]. intros [= ->] Hi.
  apply list_find_Some in Hf as (Hj & Ht & _). congruence.
Qed.
Lemma step_notes now ev n n' outs : node_step now ev n = Ok (n', outs) ->
  forall x, x ∈ nd_notes n' -> x ∈ nd_notes n \/ new_note ev n x.
Proof.
  intros Hs x Hin.
  destruct (node_step_cases now ev n n' outs Hs) as [H1 H2|c r H1 H2 H3 H4|H1 H2 H3 H4 H5 H6|t c y r H1 H2 H3 H4 H5 H6 H7|H1 H2 H3].
  - subst n'. auto.
  - subst ev. destruct c; cbn [run_cmd] in H4; cbv zeta in H4;
      repeat match type of H4 with context [match ?t with _ => _ end] => destruct t eqn:?; try discriminate H4 end;
      injection H4 as <- _; try (left; exact Hin); repeat (apply note_in in Hin as [Hin|Hin]); try (left; exact Hin); subst x; right; cbn; try exact Logic.I.
    left. exists v, r. auto.
  - left. destruct H5 as [He|[y He]]; rewrite He in *; [exact Hin|apply elem_of_cons; auto].
  - left. rewrite H6 in Hin. cbn in Hin. rewrite H3. apply elem_of_cons. auto.
  - destruct ev; cbn [node_step] in Hs; unfold when_idle in Hs.
    + unfold run_one in Hs. destruct (en_out (nd_eng n)) as [|c r] eqn:Ho; [injection Hs as <- _; auto|].
      destruct (cond_ok _ _); [|injection Hs as <- _; auto].
      destruct c; cbn [run_cmd] in Hs; cbv zeta in Hs;
      repeat match type of Hs with context [match ?t with _ => _ end] => destruct t eqn:?; try discriminate Hs end;
      injection Hs as <- _; try (left; exact Hin); repeat (apply note_in in Hin as [Hin|Hin]); try (left; exact Hin); subst x; right; cbn; try exact Logic.I.
      left. exists v, r. auto.
    + destruct (runnable n); [injection Hs as <- _; auto|]. left.
      destruct m; cbn [handle_msg] in Hs; unfold lift in Hs; try (rok Hs; injection Hs as <- _; exact Hin).
      * unfold core_write in Hs. repeat match type of Hs with context [match ?t with _ => _ end] => destruct t eqn:?; try discriminate Hs end; try (rok Hs; repeat match type of Hs with context [match ?t with _ => _ end] => destruct t eqn:?; try discriminate Hs end); injection Hs as <- _; exact Hin.
      * unfold core_change, core_write in Hs. repeat match type of Hs with context [match ?t with _ => _ end] => destruct t eqn:?; try discriminate Hs end; try (rok Hs; repeat match type of Hs with context [match ?t with _ => _ end] => destruct t eqn:?; try discriminate Hs end); injection Hs as <- _; exact Hin.
      * unfold core_read in Hs. cbv zeta in Hs. repeat match type of Hs with context [match ?t with _ => _ end] => destruct t eqn:?; try discriminate Hs end; injection Hs as <- _; exact Hin.
    + destruct (runnable n); [injection Hs as <- _; auto|]. destruct (nd_notes n) as [|y r] eqn:Hn; [injection Hs as <- _; rewrite Hn in Hin; auto|]. left.
      assert (Hn' : nd_notes n' = r).
      { destruct y as [| | | | |[]]; cbn [handle_note] in Hs; unfold lift in Hs; cbv zeta in Hs;
        repeat (match type of Hs with context [match ?t with _ => _ end] => destruct t eqn:?; try discriminate Hs end);
        try (rok Hs); try (injection Hs as <- _); try reflexivity. }
      rewrite Hn' in Hin. apply elem_of_cons. auto.
    + destruct (runnable n); [injection Hs as <- _; auto|]. unfold lift in Hs. rok Hs. injection Hs as <- _. auto.
    + destruct (runnable n); [injection Hs as <- _; auto|]. destruct (en_leader _); [|injection Hs as <- _; auto]. unfold lift in Hs. rok Hs. injection Hs as <- _. auto.
    + injection Hs as <- _. auto.
    + destruct (_ !! _); [|injection Hs as <- _; auto]. injection Hs as <- _. apply note_in in Hin as [Hin|Hin]; [auto|]. subst x. right. exact Logic.I.
    + rok Hs. injection Hs as <- _. unfold sm_step in Hx. destruct (nd_smq n) as [|[] ?]; [injection Hx as <-; auto|..].
      * cbv zeta in Hx. destruct (_ =? _); [|discriminate]. injection Hx as <-. apply note_in in Hin as [Hin|Hin]; [auto|]. subst x. right. exact Logic.I.
      * injection Hx as <-. auto.
      * injection Hx as <-. apply note_in in Hin as [Hin|Hin]; [auto|]. subst x. right. exact Logic.I.
    + injection Hs as <- _. unfold build_done in Hin. destruct (_ !! _); [|auto]. apply note_in in Hin as [Hin|Hin]; [auto|]. subst x. right. exact Logic.I.
    + unfold stream_send in Hs. cbv zeta in Hs. repeat match type of Hs with context [match ?t with _ => _ end] => destruct t eqn:?; try discriminate Hs end; injection Hs as <- _; auto.
    + injection Hs as <- _. unfold stream_fail in Hin. destruct (_ !! _); [|auto]. destruct (st_wait _); [|auto]. destruct (sw_payload _); [|auto].
      apply note_in in Hin as [Hin|Hin]; [auto|]. subst x. right. exact Logic.I.
    + injection Hs as <- _. unfold stream_snap_reply in Hin. destruct (_ !! _); [|auto]. destruct (st_snap _) as [[[] ?]|]; [|auto].
      apply note_in in Hin as [Hin|Hin]; [auto|]. subst x. right. exact Logic.I.
    + injection Hs as Hs. unfold hb_send in Hs. repeat case_match; injection Hs as <- _; auto.
    + injection Hs as Hs. destruct tag, r; cbn [handle_reply] in Hs; try (injection Hs as <- _; auto; fail).
      * destruct (stream_index _ _) as [i|] eqn:Hi; [|injection Hs as <- _; auto]. destruct (nd_streams n !! i) as [s|] eqn:Hsi; cbn in Hs; [|injection Hs as <- _; auto].
        destruct (st_wait s) as [w|] eqn:Hw; [|injection Hs as <- _; auto]. destruct (sw_rid w =? rid) eqn:Hr; [|injection Hs as <- _; auto]. injection Hs as <- _.
        pose proof (stream_index_target _ _ _ _ Hi Hsi) as Ht.
        unfold stream_reply in Hin. rewrite Hsi, Hw in Hin. destruct r.
        -- destruct (sw_payload w); repeat (apply note_in in Hin as [Hin|Hin]); auto; subst x; right; cbn; try exact Logic.I.
           left. exists rid, s, w. apply elem_of_list_lookup_2 in Hsi. apply Nat.eqb_eq in Hr. subst rid target. repeat split; auto.
        -- apply note_in in Hin as [Hin|Hin]; [auto|]. subst x. right. eexists _, _. split; [reflexivity|]. cbn. left.
        -- destruct (lr_prev _); [|auto]. destruct (sw_payload w); repeat (apply note_in in Hin as [Hin|Hin]); auto; subst x; right; cbn; exact Logic.I.
      * destruct (stream_index _ _) as [i|] eqn:Hi; [|injection Hs as <- _; auto]. destruct (nd_streams n !! i) as [s|] eqn:Hsi; cbn in Hs; [|injection Hs as <- _; auto].
        destruct (st_snap s) as [[[meta time] rr]|] eqn:Hw; [|injection Hs as <- _; auto]. destruct (rr =? rid) eqn:Hr; [|injection Hs as <- _; auto]. injection Hs as <- _.
        unfold stream_snap_reply in Hin. rewrite Hsi, Hw in Hin. destruct (vote_gtb _ _).
        -- apply note_in in Hin as [Hin|Hin]; [auto|]. subst x. right. eexists _, _. split; [reflexivity|]. cbn. left.
        -- repeat (apply note_in in Hin as [Hin|Hin]); auto; subst x; right; cbn; try exact Logic.I. right. eauto.
      * injection Hs as <- _. apply note_in in Hin as [Hin|Hin]; [auto|]. subst x. right. right. reflexivity.
      * injection Hs as <- _. apply note_in in Hin as [Hin|Hin]; [auto|]. subst x. right. exact Logic.I.
      * unfold read_reply in Hs. destruct (read_index _ _); [|injection Hs as <- _; auto]. destruct (nd_reads n !! _); [|injection Hs as <- _; auto].
        destruct r; try (destruct (joint_is_quorum _ _); injection Hs as <- _; auto; fail).
        injection Hs as <- _. apply note_in in Hin as [Hin|Hin]; [auto|]. subst x. right. eexists _, _. split; [reflexivity|]. cbn. left.
Qed.

(** ** Streams *)

Definition stream_commit (s : Stream) (c : option LogId) : Prop := c = st_committed s \/ SECommitted c ∈ st_queue s.
Lemma foldl_event q : forall s, let s' := foldl stream_event s q in
  st_target s' = st_target s /\ st_session s' = st_session s /\ st_queue s' = st_queue s /\ st_wait s' = st_wait s /\
  (st_committed s' = st_committed s \/ SECommitted (st_committed s') ∈ q).
Proof.
  induction q as [|x q IH]; intros s s'; [repeat split; auto|]. subst s'. cbn [foldl].
  destruct (IH (stream_event s x)) as (H1 & H2 & H3 & H4 & H5).
  destruct x; cbn in *; rewrite H1, H2, H3, H4; repeat split; auto.
  - right. destruct H5 as [->|H5]; [left|right; exact H5].
  - destruct H5 as [->|H5]; [auto|right; right; exact H5].
Qed.
Lemma drain_facts s : st_target (stream_drain s) = st_target s /\ st_session (stream_drain s) = st_session s /\ st_wait (stream_drain s) = st_wait s /\
  forall c, stream_commit (stream_drain s) c -> stream_commit s c.
Proof.
  unfold stream_drain. set (s0 := mkStream _ _ _ _ _ _ _ _). destruct (foldl_event (st_queue s) s0) as (H1 & H2 & H3 & H4 & H5).
  repeat split; [exact H1|exact H2|exact H4|]. intros c [->|Hc].
  - destruct H5 as [->|H5]; [left; reflexivity|right; exact H5].
  - rewrite H3 in Hc. apply elem_of_nil in Hc as [].
Qed.
Lemma read_range limit rng l es sent : stream_read limit rng l = Some (es, sent) -> lr_prev sent = lr_prev rng /\ es_last (lr_prev sent) es = lr_last sent.
Proof.
  unfold stream_read. destruct (_ =? _); [intros [= <- <-]; auto|]. destruct (last _) as [e|] eqn:He; [|discriminate].
  intros [= <- <-]. split; [reflexivity|]. unfold es_last. rewrite He. reflexivity.
Qed.
Definition stream_from (ev : Event) (n : Node) (outs : list Out) (s s' : Stream) : Prop :=
  st_target s' = st_target s /\ st_session s' = st_session s /\
  (forall c, stream_commit s' c -> stream_commit s c \/ exists r, ev = ERun /\ en_out (nd_eng n) = ReplicateCommitted c :: r) /\
  (forall w, st_wait s' = Some w -> st_wait s = Some w \/
     exists i limit es lc, ev = EStreamSend i limit (sw_rid w) /\
       outs = [OSend (st_target s) (TagStream (st_target s) (sw_rid w)) (RpcAppend (ss_vote (st_session s)) (lr_prev (sw_range w)) es lc)] /\
       es_last (lr_prev (sw_range w)) es = lr_last (sw_range w)).
Definition stream_fresh (ev : Event) (n : Node) (s' : Stream) : Prop :=
  (exists ts r l, ev = ERun /\ en_out (nd_eng n) = RebuildReplicationStreams ts :: r /\ en_leader (nd_eng n) = Some l /\
     st_session s' = mkSession (ld_vote l) (em_log_id (rs_eff (nd_state n)))) /\
  (forall c, stream_commit s' c -> c = rs_committed (nd_state n)) /\ st_wait s' = None.
Lemma stream_from_refl ev n outs s : stream_from ev n outs s s.
Proof. repeat split; auto. Qed.
Lemma stream_from_set ev n outs s a w x m : (w = None \/ w = st_wait s) ->
  stream_from ev n outs s (mkStream (st_target s) (st_session s) (st_committed s) m (st_queue s) a w x).
Proof.
  intros Hw. repeat split; [intros c Hc; left; exact Hc|]. cbn. intros w' Hw'. left. destruct Hw; congruence.
Qed.
Lemma in_insert {A} (i : nat) (x y : A) (l : list A) : y ∈ <[i := x]> l -> y = x \/ y ∈ l.
Proof.
  intros (j & Hj)%elem_of_list_lookup. destruct (decide (j = i)) as [->|Hn].
  - destruct (decide (i < length l)) as [Hl|Hl].
    + rewrite list_lookup_insert in Hj by exact Hl. injection Hj as ->. auto.
    + rewrite list_insert_ge in Hj by lia. right. eapply elem_of_list_lookup_2. exact Hj.
  - rewrite list_lookup_insert_ne in Hj by congruence. right. eapply elem_of_list_lookup_2. exact Hj.
Qed.
Lemma in_delete {A} (i : nat) (y : A) (l : list A) : y ∈ delete i l -> y ∈ l.
Proof. intros Hy. eapply elem_of_submseteq; [exact Hy|]. apply sublist_submseteq, sublist_delete. Qed.
Lemma in_alter {A} (f : A -> A) (i : nat) (y : A) (l : list A) : y ∈ alter f i l -> y ∈ l \/ exists x, x ∈ l /\ y = f x.
Proof.
  intros (j & Hj)%elem_of_list_lookup. destruct (decide (j = i)) as [->|Hn].
  - rewrite list_lookup_alter in Hj. destruct (l !! i) as [x|] eqn:Hx; [|discriminate]. injection Hj as <-. right. exists x.
    split; [eapply elem_of_list_lookup_2; exact Hx|reflexivity].
  - rewrite list_lookup_alter_ne in Hj by congruence. left. eapply elem_of_list_lookup_2. exact Hj.
Qed.
Lemma run_streams now c r n n' outs : en_out (nd_eng n) = c :: r -> run_cmd now c (nd_set_eng (popped (nd_eng n) r) n) = Ok (n', outs) ->
  forall s', s' ∈ nd_streams n' -> (exists s, s ∈ nd_streams n /\ stream_from ERun n outs s s') \/ stream_fresh ERun n s'.
Proof.
  intros Ho Hs s' Hin.
  assert (Hsame : s' ∈ nd_streams n -> (exists s, s ∈ nd_streams n /\ stream_from ERun n outs s s') \/ stream_fresh ERun n s').
  { intros Hi. left. exists s'. split; [exact Hi|apply stream_from_refl]. }
  destruct c; cbn [run_cmd] in Hs; cbv zeta in Hs.
  all: try (repeat match type of Hs with context [match ?t with _ => _ end] => destruct t eqn:?; try discriminate Hs end;
      injection Hs as <- _; apply Hsame; exact Hin).
  - injection Hs as <- _. cbn in Hin. apply elem_of_list_fmap in Hin as (s & -> & Hi). left. exists s. split; [exact Hi|].
    split; [reflexivity|]. split; [reflexivity|]. split; [|auto]. intros c [->|Hc]; [left; left; reflexivity|].
    cbn in Hc. apply elem_of_app in Hc as [Hc|Hc]; [left; right; exact Hc|]. apply elem_of_list_singleton in Hc. injection Hc as ->. right. eauto.
  - destruct (stream_index _ _); [|discriminate]. injection Hs as <- _. cbn in Hin. apply in_alter in Hin as [Hin|(s & Hi & ->)]; [auto|].
    left. exists s. split; [exact Hi|]. split; [reflexivity|]. split; [reflexivity|]. split; [|auto]. intros c [->|Hc]; [left; left; reflexivity|].
    cbn in Hc. apply elem_of_app in Hc as [Hc|Hc]; [left; right; exact Hc|]. apply elem_of_list_singleton in Hc. discriminate.
  - destruct (en_leader _) as [l|] eqn:Hl.
    + destruct (forallb _ _); [|discriminate]. injection Hs as <- _. cbn in Hin. apply elem_of_list_fmap in Hin as (x & -> & Hi). right.
      split; [exists targets, r, l; cbn in Hl; auto|]. split; [|reflexivity]. intros c [->|Hc]; [reflexivity|]. apply elem_of_nil in Hc as [].
    + destruct (bool_decide _); [|discriminate]. injection Hs as <- _. apply elem_of_nil in Hin as [].
Qed.
Lemma send_streams now limit rid i n n' outs : stream_send now limit rid i n = Ok (n', outs) ->
  forall s', s' ∈ nd_streams n' -> exists s, s ∈ nd_streams n /\ stream_from (EStreamSend i limit rid) n outs s s'.
Proof.
  intros Hs s' Hin.
  assert (Hsame : s' ∈ nd_streams n -> exists s, s ∈ nd_streams n /\ stream_from (EStreamSend i limit rid) n outs s s').
  { intros Hi. exists s'. split; [exact Hi|apply stream_from_refl]. }
  unfold stream_send in Hs. cbv zeta in Hs. destruct (nd_streams n !! i) as [s0|] eqn:H0; [|injection Hs as <- _; auto].
  destruct (st_wait s0) eqn:Hw0; [injection Hs as <- _; auto|].
  destruct (drain_facts s0) as (D1 & D2 & D3 & D4). set (s := stream_drain s0) in *.
  assert (Hi0 : s0 ∈ nd_streams n) by (eapply elem_of_list_lookup_2; exact H0).
  assert (Hsend : forall rng p, match stream_read limit rng (so_log (nd_store n)) with
            | None => Ok (nd_set_streams (delete i (nd_streams n)) n, [])
            | Some (es, sent) =>
                Ok (nd_set_stream i (stream_set None (Some (mkWait sent rng p now rid)) (st_snap s) s) n,
                    [OSend (st_target s) (TagStream (st_target s) rid)
                       (RpcAppend (ss_vote (st_session s)) (lr_prev sent) es (st_committed s))])
            end = Ok (n', outs) -> exists s, s ∈ nd_streams n /\ stream_from (EStreamSend i limit rid) n outs s s').
  { intros rng p Hx. destruct (stream_read limit rng (so_log (nd_store n))) as [[es sent]|] eqn:Hr; injection Hx as <- <-.
    - apply in_insert in Hin as [->|Hin]; [|auto]. exists s0. split; [exact Hi0|].
      split; [exact D1|]. split; [exact D2|]. split; [intros c Hc; left; apply D4; exact Hc|].
      cbn. intros w [= <-]. cbn. right. exists i, limit, es, (st_committed s). destruct (read_range _ _ _ _ _ Hr) as [_ Hr2].
      rewrite D1, D2. auto.
    - apply Hsame. eapply in_delete. exact Hin. }
  destruct (st_action s) as [[| |]|] eqn:Ha.
  - eapply Hsend. exact Hs.
  - eapply Hsend. exact Hs.
  - destruct (sm_snapshot _); [|discriminate]. injection Hs as <- _. apply in_insert in Hin as [->|Hin]; [|auto]. exists s0. split; [exact Hi0|].
    split; [exact D1|]. split; [exact D2|]. split; [intros c Hc; left; apply D4; exact Hc|]. cbn. discriminate.
  - injection Hs as <- _. apply in_insert in Hin as [->|Hin]; [|auto]. exists s0. split; [exact Hi0|].
    split; [exact D1|]. split; [exact D2|]. split; [intros c Hc; left; apply D4; exact Hc|]. intros w Hw. congruence.
Qed.
Lemma reply_streams a i n s' : s' ∈ nd_streams (stream_reply i a n) -> forall ev outs, exists s, s ∈ nd_streams n /\ stream_from ev n outs s s'.
Proof.
  intros Hin ev outs.
  assert (Hsame : s' ∈ nd_streams n -> exists s, s ∈ nd_streams n /\ stream_from ev n outs s s').
  { intros Hi. exists s'. split; [exact Hi|apply stream_from_refl]. }
  unfold stream_reply in Hin. destruct (nd_streams n !! i) as [s|] eqn:Hs; [|auto]. destruct (st_wait s); [|auto].
  assert (Hi0 : s ∈ nd_streams n) by (eapply elem_of_list_lookup_2; exact Hs).
  destruct a; [destruct (sw_payload _)| |destruct (lr_prev _); [destruct (sw_payload _)|]]; cbn in Hin.
  all: try (apply in_delete in Hin; auto; fail).
  all: apply in_insert in Hin as [->|Hin]; [|auto]; exists s; split; [exact Hi0|]; unfold stream_set_matching, stream_set; cbn [st_target st_session st_committed st_matching st_queue st_action st_wait st_snap]; apply stream_from_set; auto.
Qed.
Lemma snap_streams a i n s' : s' ∈ nd_streams (stream_snap_reply i a n) -> forall ev outs, exists s, s ∈ nd_streams n /\ stream_from ev n outs s s'.
Proof.
  intros Hin ev outs.
  assert (Hsame : s' ∈ nd_streams n -> exists s, s ∈ nd_streams n /\ stream_from ev n outs s s').
  { intros Hi. exists s'. split; [exact Hi|apply stream_from_refl]. }
  unfold stream_snap_reply in Hin. destruct (nd_streams n !! i) as [s|] eqn:Hs; [|auto]. destruct (st_snap s) as [[[] ?]|]; [|auto].
  assert (Hi0 : s ∈ nd_streams n) by (eapply elem_of_list_lookup_2; exact Hs).
  destruct a; [destruct (vote_gtb _ _)|]; cbn in Hin.
  all: try (apply in_delete in Hin; auto; fail).
  all: apply in_insert in Hin as [->|Hin]; [|auto]; exists s; split; [exact Hi0|]; unfold stream_set_matching, stream_set; cbn [st_target st_session st_committed st_matching st_queue st_action st_wait st_snap]; apply stream_from_set; auto.
Qed.
Lemma step_streams now ev n n' outs : node_step now ev n = Ok (n', outs) ->
  forall s', s' ∈ nd_streams n' -> (exists s, s ∈ nd_streams n /\ stream_from ev n outs s s') \/ stream_fresh ev n s'.
Proof.
  intros Hs s' Hin.
  assert (Hsame : s' ∈ nd_streams n -> (exists s, s ∈ nd_streams n /\ stream_from ev n outs s s') \/ stream_fresh ev n s').
  { intros Hi. left. exists s'. split; [exact Hi|apply stream_from_refl]. }
  destruct (node_step_cases now ev n n' outs Hs) as [H1 H2|c r H1 H2 H3 H4|H1 H2 H3 H4 H5 H6|t c y r H1 H2 H3 H4 H5 H6 H7|H1 H2 H3].
  - subst n'. auto.
  - subst ev. eapply run_streams; eassumption.
  - destruct H4 as (_ & _ & _ & _ & Hst & _). rewrite Hst in Hin. auto.
  - rewrite H6 in Hin. auto.
  - destruct ev; cbn [node_step] in Hs; unfold when_idle in Hs.
    + unfold run_one in Hs. destruct (en_out (nd_eng n)) as [|c r] eqn:Ho; [injection Hs as <- _; auto|].
      destruct (cond_ok _ _); [|injection Hs as <- _; auto]. eapply run_streams; eassumption.
    + apply Hsame. destruct (runnable n); [injection Hs as <- _; auto|].
      destruct m; cbn [handle_msg] in Hs; unfold lift in Hs; try (rok Hs; injection Hs as <- _; exact Hin).
      * unfold core_write in Hs. repeat match type of Hs with context [match ?t with _ => _ end] => destruct t eqn:?; try discriminate Hs end; try (rok Hs; repeat match type of Hs with context [match ?t with _ => _ end] => destruct t eqn:?; try discriminate Hs end); injection Hs as <- _; exact Hin.
      * unfold core_change, core_write in Hs. repeat match type of Hs with context [match ?t with _ => _ end] => destruct t eqn:?; try discriminate Hs end; try (rok Hs; repeat match type of Hs with context [match ?t with _ => _ end] => destruct t eqn:?; try discriminate Hs end); injection Hs as <- _; exact Hin.
      * unfold core_read in Hs. cbv zeta in Hs. repeat match type of Hs with context [match ?t with _ => _ end] => destruct t eqn:?; try discriminate Hs end; injection Hs as <- _; exact Hin.
    + apply Hsame. destruct (runnable n); [injection Hs as <- _; auto|]. destruct (nd_notes n) as [|y r] eqn:Hn; [injection Hs as <- _; auto|].
      assert (Hn' : nd_streams n' = nd_streams n).
      { destruct y as [| | | | |[]]; cbn [handle_note] in Hs; unfold lift in Hs; cbv zeta in Hs;
        repeat (match type of Hs with context [match ?t with _ => _ end] => destruct t eqn:?; try discriminate Hs end);
        try (rok Hs); try (injection Hs as <- _); try reflexivity. }
      rewrite Hn' in Hin. exact Hin.
    + destruct (runnable n); [injection Hs as <- _; auto|]. unfold lift in Hs. rok Hs. injection Hs as <- _. auto.
    + destruct (runnable n); [injection Hs as <- _; auto|]. destruct (en_leader _); [|injection Hs as <- _; auto]. unfold lift in Hs. rok Hs. injection Hs as <- _. auto.
    + injection Hs as <- _. auto.
    + destruct (_ !! _); injection Hs as <- _; auto.
    + rok Hs. injection Hs as <- _. unfold sm_step in Hx. destruct (nd_smq n) as [|[] ?]; [injection Hx as <-; auto|..].
      * cbv zeta in Hx. destruct (_ =? _); [|discriminate]. injection Hx as <-. auto.
      * injection Hx as <-. auto.
      * injection Hx as <-. auto.
    + injection Hs as <- _. unfold build_done in Hin. destruct (_ !! _); auto.
    + left. eapply send_streams; eassumption.
    + injection Hs as <- _. unfold stream_fail in Hin. destruct (nd_streams n !! i) as [s|] eqn:Hi; [|auto]. destruct (st_wait s); [|auto].
      assert (Hi0 : s ∈ nd_streams n) by (eapply elem_of_list_lookup_2; exact Hi). cbv zeta in Hin.
      destruct (sw_payload _); cbn in Hin; (apply in_insert in Hin as [->|Hin]; [|auto]); left; exists s; (split; [exact Hi0|]); unfold stream_set_matching, stream_set; cbn [st_target st_session st_committed st_matching st_queue st_action st_wait st_snap]; apply stream_from_set; auto.
    + injection Hs as <- _. left. eapply snap_streams. exact Hin.
    + injection Hs as Hs. unfold hb_send in Hs. repeat case_match; injection Hs as <- _; auto.
    + injection Hs as Hs. destruct tag, r; cbn [handle_reply] in Hs; try (injection Hs as <- _; auto; fail).
      * destruct (stream_index _ _) as [i|] eqn:Hi; [|injection Hs as <- _; auto]. destruct (nd_streams n !! i) as [s|] eqn:Hsi; cbn in Hs; [|injection Hs as <- _; auto].
        destruct (st_wait s) as [w|] eqn:Hw; [|injection Hs as <- _; auto]. destruct (sw_rid w =? rid) eqn:Hr; [|injection Hs as <- _; auto]. injection Hs as <- _.
        left. eapply reply_streams. exact Hin.
      * destruct (stream_index _ _) as [i|] eqn:Hi; [|injection Hs as <- _; auto]. destruct (nd_streams n !! i) as [s|] eqn:Hsi; cbn in Hs; [|injection Hs as <- _; auto].
        destruct (st_snap s) as [[[meta time] rr]|] eqn:Hw; [|injection Hs as <- _; auto]. destruct (rr =? rid) eqn:Hr; [|injection Hs as <- _; auto]. injection Hs as <- _.
        left. eapply snap_streams. exact Hin.
      * unfold read_reply in Hs. destruct (read_index _ _); [|injection Hs as <- _; auto]. destruct (nd_reads n !! _); [|injection Hs as <- _; auto].
        destruct r; try (destruct (joint_is_quorum _ _); injection Hs as <- _; auto; fail).
        injection Hs as <- _. auto.
Qed.

(** ** Heartbeats *)

Lemma step_hb now ev n n' outs : node_step now ev n = Ok (n', outs) ->
  nd_hb n' = nd_hb n \/ exists ss c r, ev = ERun /\ en_out (nd_eng n) = BroadcastHeartbeat ss c :: r /\ nd_hb n' = Some (ss, c, now).
Proof.
  intros Hs. destruct (is_run ev) as [->|He].
  - cbn [node_step] in Hs. unfold run_one in Hs. destruct (en_out (nd_eng n)) as [|c r] eqn:Ho; [injection Hs as <- _; auto|].
    destruct (cond_ok _ _); [|injection Hs as <- _; auto].
    destruct c; cbn [run_cmd] in Hs; cbv zeta in Hs;
      repeat match type of Hs with context [match ?t with _ => _ end] => destruct t eqn:?; try discriminate Hs end; injection Hs as <- _; auto.
    right. eexists _, _, _. eauto.
  - left. destruct ev; try congruence; clear He; cbn [node_step] in Hs; unfold when_idle in Hs.
    + destruct (runnable n); [injection Hs as <- _; auto|].
      destruct m; cbn [handle_msg] in Hs; unfold lift in Hs; try (rok Hs; injection Hs as <- _; reflexivity).
      * unfold core_write in Hs. repeat match type of Hs with context [match ?t with _ => _ end] => destruct t eqn:?; try discriminate Hs end; try (rok Hs; repeat match type of Hs with context [match ?t with _ => _ end] => destruct t eqn:?; try discriminate Hs end); injection Hs as <- _; reflexivity.
      * unfold core_change, core_write in Hs. repeat match type of Hs with context [match ?t with _ => _ end] => destruct t eqn:?; try discriminate Hs end; try (rok Hs; repeat match type of Hs with context [match ?t with _ => _ end] => destruct t eqn:?; try discriminate Hs end); injection Hs as <- _; reflexivity.
      * unfold core_read in Hs. cbv zeta in Hs. repeat match type of Hs with context [match ?t with _ => _ end] => destruct t eqn:?; try discriminate Hs end; injection Hs as <- _; reflexivity.
    + destruct (runnable n); [injection Hs as <- _; auto|]. destruct (nd_notes n) as [|y r] eqn:Hn; [injection Hs as <- _; auto|].
      destruct y as [| | | | |[]]; cbn [handle_note] in Hs; unfold lift in Hs; cbv zeta in Hs;
        repeat (match type of Hs with context [match ?t with _ => _ end] => destruct t eqn:?; try discriminate Hs end);
        try (rok Hs); try (injection Hs as <- _); try reflexivity.
    + destruct (runnable n); [injection Hs as <- _; auto|]. unfold lift in Hs. rok Hs. injection Hs as <- _. auto.
    + destruct (runnable n); [injection Hs as <- _; auto|]. destruct (en_leader _); [|injection Hs as <- _; auto]. unfold lift in Hs. rok Hs. injection Hs as <- _. auto.
    + injection Hs as <- _. auto.
    + destruct (_ !! _); injection Hs as <- _; auto.
    + rok Hs. injection Hs as <- _. unfold sm_step in Hx. destruct (nd_smq n) as [|[] ?]; [injection Hx as <-; auto|..].
      * cbv zeta in Hx. destruct (_ =? _); [|discriminate]. injection Hx as <-. auto.
      * injection Hx as <-. auto.
      * injection Hx as <-. auto.
    + injection Hs as <- _. unfold build_done. destruct (_ !! _); auto.
    + unfold stream_send in Hs. cbv zeta in Hs. repeat match type of Hs with context [match ?t with _ => _ end] => destruct t eqn:?; try discriminate Hs end; injection Hs as <- _; auto.
    + injection Hs as <- _. unfold stream_fail. repeat case_match; reflexivity.
    + injection Hs as <- _. unfold stream_snap_reply. repeat case_match; reflexivity.
    + injection Hs as Hs. unfold hb_send in Hs. repeat case_match; injection Hs as <- _; auto.
    + injection Hs as Hs. unfold handle_reply, read_reply, stream_reply, stream_snap_reply in Hs. repeat case_match; injection Hs as <- _; reflexivity.
Qed.

(** ** Requests and replies sent *)

Inductive sends (ev : Event) (n : Node) (t : nat) : Tag -> Rpc -> Prop :=
| sd_vote req r : ev = ERun -> en_out (nd_eng n) = SendVote req :: r -> sends ev n t (TagVote (vq_vote req) t) (RpcVote req)
| sd_transfer req : sends ev n t TagNone (RpcTransfer req)
| sd_read tx l pe : ev = EMsg (MRead tx) -> en_leader (nd_eng n) = Some l -> (t, pe) ∈ vp_vec (ld_progress l) -> t <> nd_id n ->
    sends ev n t (TagRead tx t) (RpcAppend (rs_v (nd_state n)) (pe_matching pe) [] (rs_committed (nd_state n)))
| sd_stream i limit rid s rng es sent : ev = EStreamSend i limit rid -> nd_streams n !! i = Some s -> st_target s = t ->
    (st_action (stream_drain s) = Some (DLogs rng) \/
     st_action (stream_drain s) = Some DCommitted /\ rng = mkRange (st_matching (stream_drain s)) (st_matching (stream_drain s))) ->
    stream_read limit rng (so_log (nd_store n)) = Some (es, sent) ->
    sends ev n t (TagStream t rid) (RpcAppend (ss_vote (st_session s)) (lr_prev sent) es (st_committed (stream_drain s)))
| sd_snap rid v sn : sends ev n t (TagStreamSnap t rid) (RpcSnapshot v sn)
| sd_hb ss c time : ev = EHeartbeatSend t -> nd_hb n = Some (ss, c, time) -> sends ev n t (TagHeartbeat ss time t) (RpcAppend (ss_vote ss) None [] c).
Lemma apply_results_sends es : forall cl t tag r, OSend t tag r ∉ (apply_results es cl).2.
Proof.
  induction es as [|e es IH]; intros cl t tag r; cbn; [apply not_elem_of_nil|].
  destruct (cl !! e_index e); cbn.
  - specialize (IH (delete (e_index e) cl) t tag r). destruct (apply_results es _) as [c2 o2]. cbn in *. intros Hin.
    apply elem_of_cons in Hin as [Hin|Hin]; [discriminate|]. contradiction.
  - specialize (IH cl t tag r). destruct (apply_results es _) as [c2 o2]. cbn in *. exact IH.
Qed.
Lemma step_sends now ev n n' outs : node_step now ev n = Ok (n', outs) ->
  forall t tag rpc, OSend t tag rpc ∈ outs -> sends ev n t tag rpc.
Proof.
  intros Hs t tag rpc Hin.
  assert (Hnil : OSend t tag rpc ∈ (@nil Out) -> sends ev n t tag rpc) by (intros []%elem_of_nil).
  destruct ev; cbn [node_step] in Hs; unfold when_idle in Hs.
  - unfold run_one in Hs. destruct (en_out (nd_eng n)) as [|c r] eqn:Ho; [injection Hs as _ <-; auto|].
    destruct (cond_ok _ _); [|injection Hs as _ <-; auto].
    destruct c; cbn [run_cmd] in Hs; cbv zeta in Hs;
      try (repeat match type of Hs with context [match ?t with _ => _ end] => destruct t eqn:?; try discriminate Hs end; injection Hs as _ <-; auto; fail).
    + destruct (other_voters _ _); [|discriminate]. injection Hs as _ <-. apply elem_of_list_fmap in Hin as (y & Hy & _). injection Hy as -> -> ->. constructor.
    + destruct (other_voters _ _); [|discriminate]. injection Hs as _ <-. apply elem_of_list_fmap in Hin as (y & Hy & _). injection Hy as -> -> ->. econstructor; eauto.
    + injection Hs as _ <-. apply elem_of_list_fmap in Hin as (y & Hy & _). discriminate.
    + injection Hs as _ <-. apply elem_of_list_singleton in Hin. discriminate.
  - destruct (runnable n); [injection Hs as _ <-; auto|].
    destruct m; cbn [handle_msg] in Hs; unfold lift in Hs; try (rok Hs; injection Hs as _ <-; auto; fail).
    + unfold core_write in Hs. repeat match type of Hs with context [match ?t with _ => _ end] => destruct t eqn:?; try discriminate Hs end; try (rok Hs; repeat match type of Hs with context [match ?t with _ => _ end] => destruct t eqn:?; try discriminate Hs end); injection Hs as _ <-; auto; apply elem_of_list_singleton in Hin; discriminate.
    + unfold core_change, core_write in Hs. repeat match type of Hs with context [match ?t with _ => _ end] => destruct t eqn:?; try discriminate Hs end; try (rok Hs; repeat match type of Hs with context [match ?t with _ => _ end] => destruct t eqn:?; try discriminate Hs end); injection Hs as _ <-; auto; apply elem_of_list_singleton in Hin; discriminate.
    + unfold core_read in Hs. cbv zeta in Hs. destruct (en_leader _) as [l|] eqn:Hl; [|injection Hs as _ <-; apply elem_of_list_singleton in Hin; discriminate].
      destruct (joint_is_quorum _ _); [injection Hs as _ <-; apply elem_of_list_singleton in Hin; discriminate|]. destruct (forallb _ _); [|discriminate].
      injection Hs as _ <-. apply elem_of_list_fmap in Hin as ([y pe] & Hy & Hf). injection Hy as -> -> ->.
      apply elem_of_list_filter in Hf as [[_ Hf] Hf']. cbn in *. econstructor; eauto.
  - destruct (runnable n); [injection Hs as _ <-; auto|]. destruct (nd_notes n) as [|y r] eqn:Hn; [injection Hs as _ <-; auto|].
    destruct y as [| | | | |[]]; cbn [handle_note] in Hs; unfold lift in Hs; cbv zeta in Hs.
    8:{ destruct (apply_results _ _) as [c o] eqn:Ha. injection Hs as _ <-. exfalso. eapply (apply_results_sends entries). rewrite Ha. exact Hin. }
    all: repeat (match type of Hs with context [match ?t with _ => _ end] => destruct t eqn:?; try discriminate Hs end);
        try (rok Hs); try (injection Hs as _ <-); auto.
  - destruct (runnable n); [injection Hs as _ <-; auto|]. unfold lift in Hs. rok Hs. injection Hs as _ <-. auto.
  - destruct (runnable n); [injection Hs as _ <-; auto|]. destruct (en_leader _); [|injection Hs as _ <-; auto]. unfold lift in Hs. rok Hs. injection Hs as _ <-. auto.
  - injection Hs as _ <-. auto.
  - destruct (_ !! _); injection Hs as _ <-; auto.
  - rok Hs. injection Hs as _ <-. auto.
  - injection Hs as _ <-. auto.
  - unfold stream_send in Hs. cbv zeta in Hs. destruct (nd_streams n !! i) as [s0|] eqn:H0; [|injection Hs as _ <-; auto].
    destruct (st_wait s0) eqn:Hw0; [injection Hs as _ <-; auto|]. destruct (drain_facts s0) as (D1 & D2 & _ & _).
    destruct (st_action (stream_drain s0)) as [[| |]|] eqn:Ha.
    + destruct (stream_read _ _ _) as [[es sent]|] eqn:Hr; injection Hs as _ <-; [|auto]. apply elem_of_list_singleton in Hin. rewrite D1, D2 in Hin. injection Hin as -> -> ->. econstructor; eauto.
    + destruct (stream_read _ _ _) as [[es sent]|] eqn:Hr; injection Hs as _ <-; [|auto]. apply elem_of_list_singleton in Hin. rewrite D1, D2 in Hin. injection Hin as -> -> ->. econstructor; eauto.
    + destruct (sm_snapshot _); [|discriminate]. injection Hs as _ <-. apply elem_of_list_singleton in Hin. injection Hin as -> -> ->. constructor.
    + injection Hs as _ <-. auto.
  - injection Hs as _ <-. auto.
  - injection Hs as _ <-. auto.
  - injection Hs as Hs. unfold hb_send in Hs. destruct (bool_decide _); [|injection Hs as _ <-; auto]. destruct (nd_hb n) as [[[]]|] eqn:Hh; injection Hs as _ <-; [|auto].
    apply elem_of_list_singleton in Hin. injection Hin as -> -> ->. constructor; auto.
  - injection Hs as Hs. unfold handle_reply, read_reply in Hs. repeat case_match; injection Hs as _ <-; auto; apply elem_of_list_singleton in Hin; discriminate.
Qed.
Lemma step_replies now ev n n' outs : node_step now ev n = Ok (n', outs) ->
  forall tx r, OReply tx r ∈ outs -> ev = ERun /\ exists w rest, en_out (nd_eng n) = Respond w r tx :: rest.
Proof.
  intros Hs tx r Hin.
  destruct (node_step_cases now ev n n' outs Hs) as [H1 H2|c rr H1 H2 H3 H4|H1 H2 H3 H4 H5 H6|t c y rr H1 H2 H3 H4 H5 H6 H7|H1 H2 H3].
  - subst outs. apply elem_of_nil in Hin as [].
  - split; [exact H1|]. destruct c; cbn [run_cmd] in H4; cbv zeta in H4;
      try (repeat match type of H4 with context [match ?t with _ => _ end] => destruct t eqn:?; try discriminate H4 end; injection H4 as _ <-; apply elem_of_nil in Hin as []; fail).
    + destruct (other_voters _ _); [|discriminate]. injection H4 as _ <-. apply elem_of_list_fmap in Hin as (y & Hy & _). discriminate.
    + destruct (other_voters _ _); [|discriminate]. injection H4 as _ <-. apply elem_of_list_fmap in Hin as (y & Hy & _). discriminate.
    + injection H4 as _ <-. apply elem_of_list_fmap in Hin as (y & Hy & _). discriminate.
    + injection H4 as _ <-. apply elem_of_list_singleton in Hin. injection Hin as -> ->. eauto.
  - exfalso. exact (proj1 (Forall_forall _ _) H6 _ Hin).
  - subst outs. apply elem_of_nil in Hin as [].
  - exfalso. exact (proj1 (Forall_forall _ _) H3 _ Hin).
Qed.
