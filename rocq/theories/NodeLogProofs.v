(** The log of a node: disk, pending writes and queued commands, the state machine's
    queue, and the positions other tasks know of are kept in step with the engine. *)
From Coq Require Import Bool Lia ZifyBool ZifyNat.
From stdpp Require Import base numbers option gmap relations list.
From Verif Require Import Types TypesProofs LogIdList LogIdSpec LogIdListProofs LogIdLoadProofs Quorum Membership Progress RaftState
  ProgressEntry Engine Store RaftCore EnginePrims NodeSpec NodePrims StoreProofs VoteNodeProofs ElectProofs LogSpec LogProofs
  WalkProofs EngLogProofs.

Definition lrange (r : LogIdRange) : list (option LogId) := [lr_prev r; lr_last r].
Definition data_claims (d : SData) : list (option LogId) := match d with DLogs r => lrange r | _ => [] end.
Definition event_claims (ev : SEvent) : list (option LogId) :=
  match ev with SECommitted c => [c] | SEData d => data_claims d end.
Definition wait_claims (w : SWait) : list (option LogId) := lrange (sw_range w) ++ lrange (sw_todo w).
(** positions a replication stream knows of *)
Definition stream_claims (s : Stream) : list (option LogId) :=
  [st_committed s; st_matching s] ++ flat_map event_claims (st_queue s) ++
  from_option data_claims [] (st_action s) ++ from_option wait_claims [] (st_wait s) ++
  from_option (fun x : SnapshotMeta * nat * nat => [sm_last x.1.1]) [] (st_snap s).

Section tasks.
  Context (P : Vote -> option LogId -> Prop).
  Definition note_inv (K : Vote -> Prop) (me : nat) (H : Hist) (sl : option LogId) (x : Note) : Prop :=
    match x with
    | NVoteResp _ resp _ => li_node (v_leader (vr_vote resp)) = me -> K (vr_vote resp)
    | NHigherVote v _ => li_node (v_leader v) = me -> K v
    | NLocalIO (IOLog v x) => P v x
    | NReplProgress ss _ (RRMatching m) => P (ss_vote ss) m
    | NSm (SRBuild meta) | NSm (SRInstall _ meta) => pfx H (sm_last meta) sl
    | _ => True
    end.
  Definition io_inv (io : IOId) : Prop := match io with IOLog v x => P v x | IOVote _ => True end.
  Definition stream_inv (s : Stream) : Prop :=
    v_committed (ss_vote (st_session s)) = true /\ Forall (P (ss_vote (st_session s))) (stream_claims s).
End tasks.
Lemma note_inv_mono (P Q : Vote -> option LogId -> Prop) (K K' : Vote -> Prop) me H sl sl' x :
  (forall v x, P v x -> Q v x) -> (forall v, K v -> K' v) -> pfx H sl sl' -> note_inv P K me H sl x -> note_inv Q K' me H sl' x.
Proof.
  intros HP Hv Hs. destruct x as [| |[]|? ? []| |[]]; cbn; auto.
  - intros Hx. eapply pfx_trans; eauto.
  - intros Hx. eapply pfx_trans; eauto.
Qed.
Lemma io_inv_mono (P Q : Vote -> option LogId -> Prop) io : (forall v x, P v x -> Q v x) -> io_inv P io -> io_inv Q io.
Proof. intros HP. destruct io; cbn; auto. Qed.
Lemma stream_inv_mono (P Q : Vote -> option LogId -> Prop) s : (forall v x, P v x -> Q v x) -> stream_inv P s -> stream_inv Q s.
Proof. intros HP [H1 H2]. split; [exact H1|]. eapply Forall_impl; [exact H2|]. intros x. apply HP. Qed.

Section node.
  Context (E : Env) (me : nat) (HE : env_ok E).
  Notation H := (ev_hist E).
  Let Hok : hist_ok H := proj1 HE.

  (** the state machine's queue leads from one applied position to another *)
  Fixpoint smwalk (cur : option LogId) (q : list SmCmd) (cur' : option LogId) : Prop :=
    match q with
    | [] => cur' = cur
    | SmApply f l :: r =>
        lid_index f = next_index cur /\ pfx H cur (Some f) /\ pfx H (Some f) (Some l) /\ smwalk (Some l) r cur'
    | SmBuild :: r => smwalk cur r cur'
    | SmInstall sn _ :: r =>
        snap_ok H sn /\ pfx H cur (sm_last (sn_meta sn)) /\ smwalk (sm_last (sn_meta sn)) r cur'
    end.
  Record sm_ok (sm : StateMachine) : Prop := {
    sm_chain : chain H None (sm_entries sm);
    sm_app : sm_applied sm = es_last None (sm_entries sm);
    sm_memb : sm_membership sm = mem_of (sm_entries sm);
    sm_sn : forall sn, sm_snapshot sm = Some sn -> snap_ok H sn /\ pfx H (sm_last (sn_meta sn)) (sm_applied sm);
  }.
  Definition build_ok (sm : StateMachine) (sn : Snapshot) : Prop :=
    snap_ok H sn /\ pfx H (sm_last (sn_meta sn)) (sm_applied sm).
  Definition store_ios (s : Store) : list IOId := omap snd (so_pending s) ++ so_callbacks s.

  Record ninv (w0 : W) (pcs : list Command) (wv : W) (D : Disk) (n : Node) : Prop := {
    n_d0 : w_d w0 = so_disk (nd_store n);
    n_pend : omap cmd_wop pcs = map fst (so_pending (nd_store n));
    n_pos : pos E w0;
    n_w1 : walk E me w0 pcs wv;
    n_w2 : walk E me wv (en_out (nd_eng n)) (mkW D (rs_committed (nd_state n)) MNone);
    n_ei : ei E me D (nd_eng n);
    n_sm : sm_ok (nd_sm n);
    n_smq : smwalk (sm_applied (nd_sm n)) (nd_smq n) (w_cur wv);
    n_smlast : forall f l, SmApply f l ∈ nd_smq n -> pfx H (Some l) (dlast (w_d wv));
    n_purged : pfx H (ls_purged (dk_log (w_d wv))) (snap_last (nd_sm n));
    n_iosnap : pfx H (io_snapshot (rs_io (nd_state n))) (snap_last (nd_sm n));
    n_builds : Forall (build_ok (nd_sm n)) (nd_builds n);
    n_notes : Forall (note_inv (claim E me D (nd_state n)) (vote_known n) me H (snap_last (nd_sm n))) (nd_notes n);
    n_ios : Forall (io_inv (claim E me D (nd_state n))) (store_ios (nd_store n));
    n_streams : Forall (stream_inv (claim E me D (nd_state n))) (nd_streams n);
    n_sess : Forall (fun s => vote_le (ss_vote (st_session s)) (rs_v (nd_state n))) (nd_streams n);
    n_stored : li_node (v_leader (rs_v (nd_state n))) = me -> v_committed (rs_v (nd_state n)) = true ->
               v_leader (stored_vote n) = v_leader (rs_v (nd_state n));
    n_v : vinv n;
  }.
  Definition node_inv (n : Node) : Prop := exists w0 pcs wv D, ninv w0 pcs wv D n.

  (** ** Walks and stores *)

  Lemma walk_view cs : forall w w', walk E me w cs w' -> w_d w' = foldl wop_apply (w_d w) (omap cmd_wop cs).
  Proof.
    induction cs as [|c r IH]; intros w w'; cbn [walk]; [intros ->; reflexivity|]. intros [_ Hw]. rewrite (IH _ _ Hw).
    cbn [omap list_omap wnext w_d]. unfold dapply. destruct (cmd_wop c); reflexivity.
  Qed.
  Lemma ninv_view w0 pcs wv D n : ninv w0 pcs wv D n -> w_d wv = so_view (nd_store n).
  Proof. intros N. rewrite (walk_view _ _ _ (n_w1 _ _ _ _ _ N)), (n_pend _ _ _ _ _ N), (n_d0 _ _ _ _ _ N). reflexivity. Qed.
  Lemma ninv_posv w0 pcs wv D n : ninv w0 pcs wv D n -> pos E wv.
  Proof using HE. intros N. eapply walk_pos; [exact Hok|apply N|apply N]. Qed.
  Lemma omap_split {A B} (f : A -> option B) (l : list A) : forall a b, omap f l = a ++ b ->
    exists l1 l2, l = l1 ++ l2 /\ omap f l1 = a /\ omap f l2 = b.
  Proof.
    induction l as [|x r IH]; intros a b Hl.
    - cbn in Hl. symmetry in Hl. apply app_nil in Hl as [-> ->]. exists [], []. auto.
    - cbn in Hl. destruct (f x) as [y|] eqn:Hf.
      + destruct a as [|y' a].
        * exists [], (x :: r). split; [reflexivity|]. split; [reflexivity|]. cbn. rewrite Hf. exact Hl.
        * injection Hl as -> Hl. destruct (IH a b Hl) as (l1 & l2 & -> & H1 & H2).
          exists (x :: l1), l2. split; [reflexivity|]. split; [cbn; rewrite Hf; f_equal; exact H1|exact H2].
      + destruct (IH a b Hl) as (l1 & l2 & -> & H1 & H2). exists (x :: l1), l2.
        split; [reflexivity|]. split; [cbn; rewrite Hf; exact H1|exact H2].
  Qed.
  Lemma view_vote w0 pcs wv D n : ninv w0 pcs wv D n -> dvote (w_d wv) = stored_vote n.
  Proof.
    intros N. rewrite (ninv_view _ _ _ _ _ N). unfold dvote, stored_vote, so_view.
    destruct (n_v _ _ _ _ _ N) as [Hnw _]. f_equal. apply foldl_no_wvote. rewrite Forall_map. exact Hnw.
  Qed.
  (** the purge position only grows *)
  Lemma wok_purged w c : pos E w -> wok E me w c -> pfx H (ls_purged (dk_log (w_d w))) (ls_purged (dk_log (w_d (wnext w c)))).
  Proof using HE.
    intros P K. destruct w as [d cur m]. destruct P as [Pl Pld Pc Pcl Pcm Pp Pm]. cbn [w_d w_cur w_must] in *.
    destruct c; unfold wnext, dapply; cbn [cmd_wop w_d w_cur w_must wok wop_apply dk_log ls_purged] in *; try constructor.
    cbn [ls_purge ls_purged]. destruct K as [(-> & K1 & K2)|(-> & K1)].
    - eapply (pfx_of_idx H Hok); [exact Pp|exact K1|]. cbn. exact K2.
    - destruct Pm as (-> & _). exact Pp.
  Qed.
  Lemma walk_purged cs : forall w w', pos E w -> walk E me w cs w' -> pfx H (ls_purged (dk_log (w_d w))) (ls_purged (dk_log (w_d w'))).
  Proof using HE.
    induction cs as [|c r IH]; intros w w' Hp; cbn [walk]; [intros ->; constructor|]. intros [Hw1 Hw2].
    eapply pfx_trans; [apply (wok_purged _ c Hp Hw1)|]. eapply IH; [|exact Hw2]. eapply wok_pos; eauto.
  Qed.

  (** ** Claims *)

  Lemma claim_runs D e D' e' v x : ei E me D e -> ei E me D' e' -> runs E me D e D' e' ->
    claim E me D (en_state e) v x -> claim E me D' (en_state e') v x.
  Proof using HE.
    intros I I' (_ & Hle & cs & _ & Hw) [C1 C2].
    assert (Hlle : leader_leb (v_leader (rs_v (en_state e))) (v_leader (rs_v (en_state e'))) = true)
      by (revert Hle; clear; unfold vote_le; ord).
    split; [eapply leader_leb_trans; eauto|]. intros Hm Hv.
    assert (Heq : v_leader (rs_v (en_state e)) = v_leader (rs_v (en_state e'))).
    { rewrite <- Hv in Hlle |- *. revert C1 Hlle. clear. ord. }
    eapply pfx_trans; [apply C2; congruence|].
    pose proof (walk_own E me Hok _ _ _ (ec_pos E HE _ _ (ei_ec _ _ _ _ I)) Hw) as Ho. cbn [w_d] in Ho.
    apply Ho; rewrite ?(ec_vl _ _ _ (ei_ec _ _ _ _ I)), ?(ec_vl _ _ _ (ei_ec _ _ _ _ I')); congruence.
  Qed.

  Section at_node.
    Context (w0 : W) (pcs : list Command) (wv : W) (D : Disk) (n : Node) (N : ninv w0 pcs wv D n).
    Notation cl' := (claim E me D (nd_state n)).

    Lemma view_to_end x : vl (w_d wv) = v_leader (rs_v (nd_state n)) -> li_node (v_leader (rs_v (nd_state n))) = me ->
      pfx H x (dlast (w_d wv)) -> pfx H x (dlast D).
    Proof using HE N.
      intros Hv Hm Hx. eapply pfx_trans; [exact Hx|].
      pose proof (walk_own E me Hok _ _ _ (ninv_posv _ _ _ _ _ N) (n_w2 _ _ _ _ _ N)) as Ho. cbn [w_d] in Ho.
      pose proof (ec_vl _ _ _ (ei_ec _ _ _ _ (n_ei _ _ _ _ _ N))) as Hd.
      unfold nd_state in *. apply Ho; congruence.
    Qed.
    Lemma view_leader_le : leader_leb (vl (w_d wv)) (v_leader (rs_v (nd_state n))) = true.
    Proof using N.
      pose proof (walk_vote E me _ _ _ (n_w2 _ _ _ _ _ N)) as Hw. cbn [w_d] in Hw.
      rewrite (ec_vl _ _ _ (ei_ec _ _ _ _ (n_ei _ _ _ _ _ N))) in Hw. exact Hw.
    Qed.
    (** claims about the log readers see *)
    Lemma view_claim v x : v_leader v = vl (w_d wv) -> pfx H x (dlast (w_d wv)) -> cl' v x.
    Proof using HE N.
      intros Hv Hx. split; [rewrite Hv; apply view_leader_le|]. intros Hm Hl. apply view_to_end; congruence.
    Qed.
    Lemma session_claim v x : v_committed v = true -> vote_le v (rs_v (nd_state n)) ->
      pfx H x (dlast (w_d wv)) -> cl' v x.
    Proof using HE N.
      intros Hc Hvle Hx. split; [revert Hvle; clear; unfold vote_le; ord|]. intros Hm Hl. apply view_to_end; [|congruence|exact Hx].
      unfold vl. rewrite (view_vote _ _ _ _ _ N). apply (n_stored _ _ _ _ _ N); [congruence|].
      revert Hc Hl Hvle. clear. unfold vote_le. intros Hc Hl Hle. destruct (rs_v (nd_state n)) as [L c], v as [L' c'].
      cbn in *. subst. destruct c; [reflexivity|]. revert Hle. ord.
    Qed.
    (** positions up to the commit position *)
    Lemma committed_claim v x : leader_leb (v_leader v) (v_leader (rs_v (nd_state n))) = true ->
      pfx H x (rs_committed (nd_state n)) -> cl' v x.
    Proof using N.
      intros Hle Hx. split; [exact Hle|]. intros _ _. eapply pfx_trans; [exact Hx|].
      apply (ec_last' _ _ _ (ei_ec _ _ _ _ (n_ei _ _ _ _ _ N))).
    Qed.
    Lemma applied_cur : pfx H (sm_applied (nd_sm n)) (w_cur wv).
    Proof using N.
      pose proof (n_smq _ _ _ _ _ N) as Hq. revert Hq. generalize (sm_applied (nd_sm n)), (w_cur wv).
      induction (nd_smq n) as [|c r IH]; intros a b; cbn [smwalk]; [intros ->; constructor|].
      destruct c; [intros (_ & Q1 & Q2 & Q3)|intros Q3; eauto|intros (_ & Q1 & Q3)]; apply IH in Q3; pt.
    Qed.
    Lemma cur_committed : pfx H (w_cur wv) (rs_committed (nd_state n)).
    Proof using HE N.
      apply (walk_cur E me Hok _ _ _ (ninv_posv _ _ _ _ _ N) (n_w2 _ _ _ _ _ N)).
    Qed.
    Lemma snap_applied : pfx H (snap_last (nd_sm n)) (sm_applied (nd_sm n)).
    Proof using HE N.
      unfold snap_last. destruct (sm_snapshot (nd_sm n)) as [sn|] eqn:Hs; [apply (sm_sn _ (n_sm _ _ _ _ _ N) sn Hs)|].
      eapply pfx_rooted; [|apply applied_cur]. eapply p_cur. eapply ninv_posv. exact N.
    Qed.
  End at_node.

  (** ** The state machine *)

  Lemma read_chain l cur x : log_ok H l -> pfx H (ls_purged l) cur -> pfx H cur (Some x) -> pfx H (Some x) (ls_last l) ->
    let es := ls_read (next_index cur) (S (lid_index x)) l in
    chain H cur es /\ es_last cur es = Some x /\ length es = S (lid_index x) - next_index cur.
  Proof using HE.
    intros Hl Hp Hc Hx es. pose proof (proj2 Hl) as Hch.
    pose proof (pfx_idx H Hok _ _ Hp) as Ip. pose proof (pfx_idx H Hok _ _ Hc) as Ic. pose proof (pfx_idx H Hok _ _ Hx) as Ix.
    rewrite (log_ok_length H Hok _ Hl) in Ix. cbn [next_index] in Ic, Ix.
    subst es. unfold ls_read. rewrite (filter_chain_range H Hok _ _ _ _ Hch).
    set (k := next_index cur - next_index (ls_purged l)). replace (Nat.max (next_index cur) (next_index (ls_purged l))) with (next_index cur) by lia.
    set (m := S (lid_index x) - next_index cur).
    rewrite ls_last_es in Hx. set (es := ls_entries l) in *. set (p := ls_purged l) in *.
    assert (Hk : es_last p (take k es) = cur).
    { apply (pfx_same_idx H Hok) with (es_last p es).
      - rewrite <- (take_drop k es) at 2. rewrite es_last_app. apply chain_pfx.
        rewrite <- (take_drop k es) in Hch. apply chain_app in Hch as [_ ?]. assumption.
      - eapply pfx_trans; eauto.
      - rewrite (chain_length H Hok _ _ (chain_take H _ _ k Hch)), take_length. lia. }
    assert (Hd : chain H cur (drop k es)).
    { rewrite <- (take_drop k es) in Hch. apply chain_app in Hch as [_ Hch]. rewrite Hk in Hch. exact Hch. }
    assert (Hlen : length (take m (drop k es)) = m) by (rewrite take_length, drop_length; lia).
    assert (Ht : chain H cur (take m (drop k es))) by (apply chain_take; exact Hd).
    split; [exact Ht|]. split; [|exact Hlen].
    apply (pfx_same_idx H Hok) with (es_last p es).
    - rewrite <- (take_drop k es) at 2. rewrite es_last_app, Hk.
      rewrite <- (take_drop m (drop k es)) at 2. rewrite es_last_app. apply chain_pfx.
      rewrite <- (take_drop m (drop k es)) in Hd. apply chain_app in Hd as [_ ?]. assumption.
    - exact Hx.
    - rewrite (chain_length H Hok _ _ Ht), Hlen. cbn. lia.
  Qed.

  Lemma memberships_rev_app a b : memberships_rev (a ++ b) = memberships_rev a ++ memberships_rev b.
  Proof. induction a as [|e r IH]; cbn; [reflexivity|]. rewrite IH. destruct (e_payload e); reflexivity. Qed.
  Lemma memberships_in_app a b : memberships_in (a ++ b) = memberships_in a ++ memberships_in b.
  Proof. unfold memberships_in. rewrite rev_app_distr, memberships_rev_app, rev_app_distr. reflexivity. Qed.
  Lemma mem_of_snoc es e : mem_of (es ++ [e]) =
    match e_payload e with PMembership m => mkEM (Some (e_log_id e)) m | _ => mem_of es end.
  Proof.
    unfold mem_of. rewrite memberships_in_app. unfold memberships_in at 2. cbn.
    destruct (e_payload e); cbn; rewrite ?app_nil_r, ?last_snoc; reflexivity.
  Qed.
  Lemma sm_apply_spec es : forall sm, sm_membership sm = mem_of (sm_entries sm) ->
    sm_entries (sm_apply es sm) = sm_entries sm ++ es /\ sm_applied (sm_apply es sm) = es_last (sm_applied sm) es /\
    sm_membership (sm_apply es sm) = mem_of (sm_entries sm ++ es) /\ sm_snapshot (sm_apply es sm) = sm_snapshot sm.
  Proof.
    induction es as [|e r IH]; intros sm Hm; cbn [sm_apply foldl].
    - rewrite app_nil_r. auto.
    - destruct (IH (sm_apply_one sm e)) as (A1 & A2 & A3 & A4).
      { cbn [sm_apply_one sm_entries sm_membership]. rewrite mem_of_snoc, Hm. reflexivity. }
      unfold sm_apply in *. rewrite A1, A2, A3, A4. cbn. rewrite <- app_assoc. rewrite es_last_cons. auto.
  Qed.
  Lemma sm_apply_ok es sm : sm_ok sm -> chain H (sm_applied sm) es ->
    sm_ok (sm_apply es sm) /\ sm_applied (sm_apply es sm) = es_last (sm_applied sm) es /\
    snap_last (sm_apply es sm) = snap_last sm /\ pfx H (sm_applied sm) (sm_applied (sm_apply es sm)).
  Proof using HE.
    intros [S1 S2 S3 S4] Hc. destruct (sm_apply_spec es sm S3) as (A1 & A2 & A3 & A4).
    assert (Hp : pfx H (sm_applied sm) (sm_applied (sm_apply es sm))) by (rewrite A2; apply chain_pfx; exact Hc).
    split; [constructor|].
    - rewrite A1. apply chain_app. split; [exact S1|]. rewrite <- S2. exact Hc.
    - rewrite A2, A1, es_last_app, <- S2. reflexivity.
    - rewrite A3, A1. reflexivity.
    - intros sn. rewrite A4. intros Hs. destruct (S4 sn Hs) as [B1 B2]. split; [exact B1|]. eapply pfx_trans; eauto.
    - split; [exact A2|]. split; [unfold snap_last; rewrite A4; reflexivity|exact Hp].
  Qed.
  Lemma build_is_ok sm : sm_ok sm -> build_ok sm (sm_build sm).
  Proof. intros [S1 S2 S3 S4]. split; [|constructor]. split; [exact S1|]. cbn. auto. Qed.
  Lemma build_ok_mono sm sm' sn : pfx H (sm_applied sm) (sm_applied sm') -> build_ok sm sn -> build_ok sm' sn.
  Proof. intros Hp [B1 B2]. split; [exact B1|]. eapply pfx_trans; eauto. Qed.
  Lemma set_snapshot_ok sn sm : sm_ok sm -> build_ok sm sn ->
    sm_ok (sm_set_snapshot sn sm) /\ sm_applied (sm_set_snapshot sn sm) = sm_applied sm /\
    pfx H (snap_last sm) (snap_last (sm_set_snapshot sn sm)) /\
    pfx H (sm_last (sn_meta sn)) (snap_last (sm_set_snapshot sn sm)).
  Proof using HE.
    intros S [B1 B2]. pose proof S as [S1 S2 S3 S4]. unfold sm_set_snapshot.
    assert (Hroot : pfx H None (sm_applied sm)) by (rewrite S2; apply chain_pfx; exact S1).
    destruct (sm_snapshot sm) as [old|] eqn:Hold.
    - destruct (S4 old eq_refl) as [_ Hb]. destruct (ologid_ltb _ _) eqn:Hlt.
      + split; [constructor; auto; cbn; intros sn' [= <-]; auto|]. split; [reflexivity|].
        unfold snap_last. rewrite Hold. cbn. split; [|constructor].
        eapply (pfx_of_leb H Hok); [exact Hb|exact B2|]. revert Hlt. clear. generalize (sm_last (sn_meta old)), (sm_last (sn_meta sn)). ord.
      + split; [exact S|]. split; [reflexivity|]. unfold snap_last. rewrite Hold. split; [constructor|].
        eapply (pfx_of_leb H Hok); [exact B2|exact Hb|]. revert Hlt. clear. generalize (sm_last (sn_meta old)), (sm_last (sn_meta sn)). ord.
    - split; [constructor; auto; cbn; intros sn' [= <-]; auto|]. split; [reflexivity|].
      unfold snap_last. rewrite Hold. cbn. split; [|constructor]. eapply pfx_rooted; eauto.
  Qed.
  Lemma install_ok sn sm : snap_ok H sn -> sm_ok (sm_install sn sm).
  Proof.
    intros (B1 & B2 & B3). constructor; cbn; auto. intros sn' [= <-]. split; [split; auto|]. constructor.
  Qed.
  Lemma crash_sm_ok keep sm : sm_ok sm ->
    sm_ok (sm_crash keep sm) /\ pfx H (sm_applied (sm_crash keep sm)) (sm_applied sm) /\
    sm_snapshot (sm_crash keep sm) = sm_snapshot sm.
  Proof using HE.
    intros S. pose proof S as [S1 S2 S3 S4]. unfold sm_crash. destruct (sm_snapshot sm) as [sn|] eqn:Hs.
    - destruct (S4 sn eq_refl) as [B1 B2]. pose proof B1 as (C1 & C2 & C3).
      pose proof (install_ok sn sm B1) as Hi.
      destruct (keep <=? length (sn_data sn)) eqn:Hk.
      + split; [exact Hi|]. split; [exact B2|reflexivity].
      + rewrite C2, S2 in B2. pose proof (chain_prefix H Hok _ _ _ C1 S1 B2) as [tl Htl].
        set (es := drop (length (sn_data sn)) (take keep (sm_entries sm))).
        assert (Hes : es = take (keep - length (sn_data sn)) tl).
        { subst es. rewrite Htl, take_app_ge by lia. rewrite drop_app. reflexivity. }
        assert (Htc : chain H (es_last None (sn_data sn)) tl) by (rewrite Htl in S1; apply chain_app in S1 as [_ ?]; assumption).
        assert (Hch : chain H (sm_applied (sm_install sn sm)) es).
        { cbn. rewrite C2, Hes. apply chain_take. exact Htc. }
        destruct (sm_apply_ok es _ Hi Hch) as (A1 & A2 & A3 & A4).
        destruct (sm_apply_spec es (sm_install sn sm) (sm_memb _ Hi)) as (_ & _ & _ & A5).
        split; [exact A1|]. split; [|rewrite A5; reflexivity].
        rewrite A2, S2, Htl, es_last_app, Hes. cbn [sm_install sm_applied]. rewrite C2.
        rewrite <- (take_drop (keep - length (sn_data sn)) tl) at 2. rewrite es_last_app. apply chain_pfx.
        rewrite <- (take_drop (keep - length (sn_data sn)) tl) in Htc. apply chain_app in Htc as [_ ?]. assumption.
    - set (sm0 := mkSM [] None em_default None).
      assert (Hi : sm_ok sm0) by (constructor; cbn; try discriminate; auto).
      assert (Hch : chain H None (take keep (sm_entries sm))) by (apply chain_take; exact S1).
      destruct (sm_apply_ok _ sm0 Hi Hch) as (A1 & A2 & A3 & A4).
      destruct (sm_apply_spec (take keep (sm_entries sm)) sm0 eq_refl) as (_ & _ & _ & A5).
      unfold sm_replay. fold sm0. split; [exact A1|]. split; [|exact A5].
      rewrite A2, S2. cbn. rewrite <- (take_drop keep (sm_entries sm)) at 2. rewrite es_last_app. apply chain_pfx.
      rewrite <- (take_drop keep (sm_entries sm)) in S1. apply chain_app in S1 as [_ ?]. assumption.
  Qed.

  (** ** Other tasks *)

  Lemma flush_inv k n : node_inv n -> node_inv (nd_set_store (so_flush k (nd_store n)) n).
  Proof using HE.
    intros (w0 & pcs & wv & D & N). pose proof (n_v _ _ _ _ _ N) as Hv. destruct Hv as [Hv1 Hv2].
    pose proof (n_pend _ _ _ _ _ N) as Hp. rewrite <- (take_drop k (so_pending (nd_store n))), map_app in Hp.
    apply omap_split in Hp as (p1 & p2 & -> & Hp1 & Hp2).
    destruct (walk_pos_mid E me Hok _ _ _ _ (n_pos _ _ _ _ _ N) (n_w1 _ _ _ _ _ N)) as (m & Pm & W1 & W2).
    assert (Hsv : stored_vote (nd_set_store (so_flush k (nd_store n)) n) = stored_vote n).
    { unfold stored_vote. cbn [nd_store nd_set_store]. rewrite so_flush_vote by exact Hv1. reflexivity. }
    destruct N. exists m, p2, wv, D. constructor; try assumption.
    - rewrite (walk_view _ _ _ W1), Hp1, n_d1. reflexivity.
    - unfold vote_known. rewrite Hsv. exact n_notes0.
    - cbn. revert n_ios0. unfold store_ios. cbn. rewrite <- (take_drop k (so_pending (nd_store n))) at 1.
      rewrite omap_app, !Forall_app. tauto.
    - rewrite Hsv. exact n_stored0.
    - split; [apply so_flush_no_wvote; exact Hv1|]. rewrite Hsv. exact Hv2.
  Qed.
  Lemma callback_inv i io n : so_callbacks (nd_store n) !! i = Some io -> node_inv n ->
    node_inv (note (NLocalIO io) (nd_set_store (mkStore (so_disk (nd_store n)) (so_pending (nd_store n))
      (delete i (so_callbacks (nd_store n)))) n)).
  Proof.
    intros Hi (w0 & pcs & wv & D & N). exists w0, pcs, wv, D. destruct N. constructor; try assumption.
    - cbn. apply Forall_app. split; [exact n_notes0|]. constructor; [|constructor].
      revert n_ios0. unfold store_ios. rewrite Forall_app. intros [_ Hc]. rewrite Forall_lookup in Hc.
      specialize (Hc i io Hi). destruct io; exact Hc.
    - revert n_ios0. unfold store_ios. cbn. rewrite !Forall_app. intros [Hc1 Hc2]. split; [exact Hc1|].
      apply Forall_delete. exact Hc2.
  Qed.
  Lemma sm_step_inv n n' : sm_step n = Ok n' -> node_inv n -> node_inv n'.
  Proof using HE.
    unfold sm_step. intros Hs (w0 & pcs & wv & D & N). pose proof (applied_cur _ _ _ _ _ N) as Hac.
    pose proof (snap_applied _ _ _ _ _ N) as Hsa. pose proof (ninv_view _ _ _ _ _ N) as Hview. pose proof (ninv_posv _ _ _ _ _ N) as Pv.
    destruct (nd_smq n) as [|[f l| |sn io] r] eqn:Hq.
    - injection Hs as <-. exists w0, pcs, wv, D. exact N.
    - pose proof (n_smq _ _ _ _ _ N) as Hw. rewrite Hq in Hw. destruct Hw as (Q1 & Q2 & Q3 & Q4).
      assert (Hl : pfx H (Some l) (dlast (w_d wv))) by (apply (n_smlast _ _ _ _ _ N f l); rewrite Hq; left).
      unfold so_log in Hs. rewrite <- Hview, Q1 in Hs.
      destruct (read_chain (dk_log (w_d wv)) (sm_applied (nd_sm n)) l) as (R1 & R2 & R3).
      { apply Pv. }
      { eapply pfx_trans; [apply N|exact Hsa]. }
      { eapply pfx_trans; eauto. }
      { exact Hl. }
      rewrite R3, Nat.eqb_refl in Hs. injection Hs as <-.
      destruct (sm_apply_ok _ _ (n_sm _ _ _ _ _ N) R1) as (A1 & A2 & A3 & A4). rewrite R2 in A2.
      exists w0, pcs, wv, D. destruct N. constructor; cbn [nd_eng nd_store nd_sm nd_smq nd_builds nd_notes nd_streams note nd_set_notes nd_set_sm nd_set_smq nd_state stored_vote] in *;
        rewrite ?A2, ?A3; try assumption.
      + intros f' l' Hin. apply (n_smlast0 f' l'). rewrite Hq. right. exact Hin.
      + eapply Forall_impl; [exact n_builds0|]. intros b. apply build_ok_mono. exact A4.
      + apply Forall_app. split; [exact n_notes0|]. repeat constructor.
    - pose proof (n_smq _ _ _ _ _ N) as Hw. rewrite Hq in Hw. cbn [smwalk] in Hw.
      injection Hs as <-. exists w0, pcs, wv, D. destruct N. constructor; try assumption.
      + intros f' l' Hin. apply (n_smlast0 f' l'). rewrite Hq. right. exact Hin.
      + cbn. apply Forall_app. split; [exact n_builds0|]. constructor; [|constructor]. apply build_is_ok. exact n_sm0.
    - pose proof (n_smq _ _ _ _ _ N) as Hw. rewrite Hq in Hw. destruct Hw as (Q1 & Q2 & Q3).
      injection Hs as <-. exists w0, pcs, wv, D. destruct N.
      assert (Hsl : pfx H (snap_last (nd_sm n)) (sm_last (sn_meta sn))) by (eapply pfx_trans; eauto).
      constructor; try assumption.
      + apply install_ok. exact Q1.
      + intros f' l' Hin. apply (n_smlast0 f' l'). rewrite Hq. right. exact Hin.
      + cbn. eapply pfx_trans; [exact n_purged0|exact Hsl].
      + cbn. eapply pfx_trans; [exact n_iosnap0|exact Hsl].
      + eapply Forall_impl; [exact n_builds0|]. intros b. apply build_ok_mono. exact Q2.
      + cbn. apply Forall_app. split; [|constructor; [constructor|constructor]].
        eapply Forall_impl; [exact n_notes0|]. intros x. apply note_inv_mono; [auto|auto|exact Hsl].
  Qed.
  Lemma build_done_inv i n : node_inv n -> node_inv (build_done i n).
  Proof using HE.
    unfold build_done. destruct (nd_builds n !! i) as [sn|] eqn:Hi; [|auto]. intros (w0 & pcs & wv & D & N).
    pose proof (n_builds _ _ _ _ _ N) as Hb. rewrite Forall_lookup in Hb. specialize (Hb i sn Hi).
    destruct (set_snapshot_ok sn _ (n_sm _ _ _ _ _ N) Hb) as (A1 & A2 & A3 & A4).
    exists w0, pcs, wv, D. destruct N. constructor; try assumption.
    - cbn. rewrite A2. exact n_smq0.
    - cbn. eapply pfx_trans; eauto.
    - cbn. eapply pfx_trans; eauto.
    - cbn. apply Forall_delete. eapply Forall_impl; [exact n_builds0|]. intros b. apply build_ok_mono. rewrite A2. constructor.
    - cbn. apply Forall_app. split; [|constructor; [exact A4|constructor]].
      eapply Forall_impl; [exact n_notes0|]. intros x. apply note_inv_mono; [auto|auto|exact A3].
  Qed.

  Lemma vle_leader v w : vote_le v w -> leader_leb (v_leader v) (v_leader w) = true.
  Proof. clear. unfold vote_le. ord. Qed.

  Lemma ninv_tasks w0 pcs wv D n n' : ninv w0 pcs wv D n ->
    nd_eng n' = nd_eng n -> nd_store n' = nd_store n -> nd_sm n' = nd_sm n -> nd_smq n' = nd_smq n -> nd_builds n' = nd_builds n ->
    Forall (note_inv (claim E me D (nd_state n)) (vote_known n) me H (snap_last (nd_sm n))) (nd_notes n') ->
    Forall (stream_inv (claim E me D (nd_state n))) (nd_streams n') ->
    Forall (fun s => vote_le (ss_vote (st_session s)) (rs_v (nd_state n))) (nd_streams n') ->
    ninv w0 pcs wv D n'.
  Proof.
    intros N H1 H2 H3 H4 H5 H6 H7 H8. destruct N. unfold vinv, vote_known, stored_vote, nd_state in *. constructor; unfold vinv, vote_known, stored_vote, nd_state; rewrite ?H1, ?H2, ?H3, ?H4, ?H5; assumption.
  Qed.

  Lemma drain_claims P s : stream_inv P s -> stream_inv P (stream_drain s).
  Proof.
    unfold stream_inv. intros [H1 H2].
    assert (Hs : st_session (stream_drain s) = st_session s).
    { unfold stream_drain. generalize (st_queue s) as q. intros q.
      assert (Hg : forall q s, st_session (foldl stream_event s q) = st_session s).
      { intros q'. induction q' as [|[] r IH]; intros s'; cbn; [reflexivity|rewrite IH; reflexivity..]. }
      rewrite Hg. reflexivity. }
    rewrite Hs. split; [exact H1|]. unfold stream_drain.
    set (s1 := mkStream _ _ _ _ _ _ _ _).
    assert (Hq : st_queue s1 = []) by reflexivity.
    assert (Ha : Forall (P (ss_vote (st_session s))) (stream_claims s1) /\ Forall (P (ss_vote (st_session s))) (flat_map event_claims (st_queue s))).
    { unfold stream_claims in *. subst s1. cbn in *. rewrite !Forall_cons, !Forall_app in *. tauto. }
    destruct Ha as [Ha Hb]. clearbody s1. clear H1 H2 Hs. revert s1 Hq Ha Hb.
    induction (st_queue s) as [|ev r IH]; intros s1 Hq Ha Hb; cbn [foldl]; [exact Ha|].
    cbn [flat_map] in Hb. apply Forall_app in Hb as [Hb1 Hb2]. apply IH; [destruct ev; exact Hq| |exact Hb2].
    unfold stream_claims in *. destruct ev as [c|d]; cbn in *; rewrite Hq in *; cbn in *;
      rewrite ?Forall_cons, ?Forall_app, ?Forall_cons in *; destruct (st_action s1) as [[]|]; cbn in *;
      rewrite ?Forall_cons in *; tauto.
  Qed.
  Lemma drain_session s : st_session (stream_drain s) = st_session s.
  Proof.
    unfold stream_drain. generalize (st_queue s) as q. intros q.
    assert (Hg : forall q s, st_session (foldl stream_event s q) = st_session s).
    { intros q'. induction q' as [|[] r IH]; intros s'; cbn; [reflexivity|rewrite IH; reflexivity..]. }
    rewrite Hg. reflexivity.
  Qed.
  Lemma claims_set (P : Vote -> option LogId -> Prop) v a w x s : Forall (P v) (stream_claims s) ->
    Forall (P v) (from_option data_claims [] a) -> Forall (P v) (from_option wait_claims [] w) ->
    Forall (P v) (from_option (fun x : SnapshotMeta * nat * nat => [sm_last x.1.1]) [] x) ->
    Forall (P v) (stream_claims (stream_set a w x s)).
  Proof. unfold stream_claims. cbn. rewrite !Forall_cons, !Forall_app. tauto. Qed.
  Lemma claims_matching (P : Vote -> option LogId -> Prop) v m s : Forall (P v) (stream_claims s) -> P v m -> Forall (P v) (stream_claims (stream_set_matching m s)).
  Proof. unfold stream_claims. cbn. rewrite !Forall_cons. tauto. Qed.
  Lemma claims_parts (P : option LogId -> Prop) s : Forall P (stream_claims s) ->
    P (st_committed s) /\ P (st_matching s) /\ Forall P (from_option data_claims [] (st_action s)) /\
    Forall P (from_option wait_claims [] (st_wait s)) /\
    Forall P (from_option (fun x : SnapshotMeta * nat * nat => [sm_last x.1.1]) [] (st_snap s)).
  Proof. unfold stream_claims. cbn. rewrite !Forall_cons, !Forall_app. tauto. Qed.

  Lemma stream_read_last l limit rng es sent : log_ok H l -> stream_read limit rng l = Some (es, sent) ->
    lr_prev sent = lr_prev rng /\ (lr_last sent = lr_prev rng \/ pfx H (lr_last sent) (ls_last l)).
  Proof using HE.
    intros Hl. unfold stream_read. destruct (_ =? _); [intros [= <- <-]; auto|].
    destruct (last _) as [e|] eqn:He; [|discriminate]. intros [= <- <-]. split; [reflexivity|]. right. cbn.
    assert (Hin : e ∈ ls_entries l).
    { apply last_Some in He as [l' Hl']. assert (Hin : e ∈ take limit (ls_read (next_index (lr_prev rng)) (next_index (lr_last rng)) l)) by (rewrite Hl'; set_solver).
      apply (elem_of_sublist _ _ _ (sublist_take _ _)) in Hin || (apply elem_of_take in Hin as (i & Hi & _); apply elem_of_list_lookup_2 in Hi; rename Hi into Hin).
      unfold ls_read in Hin. apply elem_of_list_filter in Hin. apply Hin. }
    rewrite ls_last_es. exact (proj1 (chain_elem H Hok _ _ _ (proj2 Hl) Hin)).
  Qed.

  Lemma stream_send_inv now limit rid i n x : stream_send now limit rid i n = Ok x -> node_inv n -> node_inv x.1.
  Proof using HE.
    unfold stream_send. destruct (nd_streams n !! i) as [s0|] eqn:Hi; [|intros [= <-]; auto].
    destruct (st_wait s0) as [w|] eqn:Hw0; [intros [= <-]; auto|].
    intros Hs (w0 & pcs & wv & D & N). exists w0, pcs, wv, D.
    pose proof (n_streams _ _ _ _ _ N) as Hst. pose proof (n_sess _ _ _ _ _ N) as Hse.
    pose proof (Forall_lookup_1 _ _ _ _ Hst Hi) as Hs0. pose proof (Forall_lookup_1 _ _ _ _ Hse Hi) as Hv0. cbn in Hv0.
    apply drain_claims in Hs0. rewrite <- drain_session in Hv0. set (s := stream_drain s0) in *.
    destruct Hs0 as [Hc Hcl]. destruct (claims_parts _ _ Hcl) as (C1 & C2 & C3 & C4 & C5).
    assert (Hdone : forall s', stream_inv (claim E me D (nd_state n)) s' -> st_session s' = st_session s ->
              ninv w0 pcs wv D (nd_set_stream i s' n)).
    { intros s' Hs' Hss. eapply ninv_tasks; [exact N|reflexivity..|apply N| |]; cbn.
      - apply Forall_insert; [exact Hst|exact Hs'].
      - apply Forall_insert; [exact Hse|]. rewrite Hss. exact Hv0. }
    assert (Hdel : ninv w0 pcs wv D (nd_set_streams (delete i (nd_streams n)) n)).
    { eapply ninv_tasks; [exact N|reflexivity..|apply N| |]; cbn; apply Forall_delete; assumption. }
    assert (Hsend : forall rng b x, Forall (claim E me D (nd_state n) (ss_vote (st_session s))) (lrange rng) ->
      match stream_read limit rng (so_log (nd_store n)) with
            | None => Ok (nd_set_streams (delete i (nd_streams n)) n, [])
            | Some (es, sent) =>
                Ok (nd_set_stream i (stream_set None (Some (mkWait sent rng b now rid)) (st_snap s) s) n,
                    [OSend (st_target s) (TagStream (st_target s) rid)
                       (RpcAppend (ss_vote (st_session s)) (lr_prev sent) es (st_committed s))])
            end = Ok x -> ninv w0 pcs wv D x.1).
    { intros rng b y Hr. destruct (stream_read limit rng (so_log (nd_store n))) as [[es sent]|] eqn:Hread; intros [= <-]; [|exact Hdel].
      unfold so_log in Hread. rewrite <- (ninv_view _ _ _ _ _ N) in Hread.
      apply stream_read_last in Hread as [R1 R2]; [|apply (ninv_posv _ _ _ _ _ N)].
      apply Hdone; [|reflexivity]. split; [exact Hc|]. apply claims_set; [exact Hcl|constructor| |exact C5].
      unfold wait_claims. cbn. inversion Hr as [|? ? Hr1 Hr2]; subst. inversion Hr2 as [|? ? Hr3 _]; subst.
      constructor; [rewrite R1; exact Hr1|]. constructor; [|constructor; [exact Hr1|constructor; [exact Hr3|constructor]]].
      destruct R2 as [->|R2]; [exact Hr1|]. eapply session_claim; eauto. }
    destruct (st_action s) as [[|rng|]|] eqn:Ha.
    - eapply Hsend; [|exact Hs]. cbn. constructor; [exact C2|]. constructor; [exact C2|constructor].
    - eapply Hsend; [|exact Hs]. exact C3.
    - destruct (sm_snapshot (nd_sm n)) as [sn|] eqn:Hsn; [|discriminate]. injection Hs as <-.
      apply Hdone; [|reflexivity]. split; [exact Hc|]. apply claims_set; [exact Hcl|constructor|constructor|].
      constructor; [|constructor]. eapply committed_claim; [exact N|exact (vle_leader _ _ Hv0)|]. cbn [fst].
      pose proof (snap_applied _ _ _ _ _ N) as Hsa. unfold snap_last in Hsa. rewrite Hsn in Hsa.
      eapply pfx_trans; [exact Hsa|]. eapply pfx_trans; [eapply applied_cur; exact N|eapply cur_committed; exact N].
    - injection Hs as <-. apply Hdone; [split; assumption|reflexivity].
  Qed.

  Lemma stream_fail_inv i n : node_inv n -> node_inv (stream_fail i n).
  Proof.
    unfold stream_fail. destruct (nd_streams n !! i) as [s|] eqn:Hi; [|auto]. destruct (st_wait s) as [w|] eqn:Hw; [|auto].
    intros (w0 & pcs & wv & D & N). exists w0, pcs, wv, D.
    pose proof (n_streams _ _ _ _ _ N) as Hst. pose proof (n_sess _ _ _ _ _ N) as Hse.
    pose proof (Forall_lookup_1 _ _ _ _ Hst Hi) as [Hc Hcl]. pose proof (Forall_lookup_1 _ _ _ _ Hse Hi) as Hv0. cbn in Hv0.
    destruct (claims_parts _ _ Hcl) as (C1 & C2 & C3 & C4 & C5).
    destruct (sw_payload w); (eapply ninv_tasks; [exact N|reflexivity..| | |]; cbn;
      [|apply Forall_insert; [exact Hst|]; split; [exact Hc|]; apply claims_set; auto; constructor
       |apply Forall_insert; [exact Hse|exact Hv0]]).
    - apply Forall_app. split; [apply N|]. repeat constructor.
    - apply N.
  Qed.
  Lemma stream_snap_inv i r n : from_option (own_vote_known n) True r -> nd_id n = me -> node_inv n -> node_inv (stream_snap_reply i r n).
  Proof.
    intros Hr Hid. unfold stream_snap_reply. destruct (nd_streams n !! i) as [s|] eqn:Hi; [|auto].
    destruct (st_snap s) as [[[meta time] rid]|] eqn:Hw; [|auto].
    intros (w0 & pcs & wv & D & N). exists w0, pcs, wv, D.
    pose proof (n_streams _ _ _ _ _ N) as Hst. pose proof (n_sess _ _ _ _ _ N) as Hse.
    pose proof (Forall_lookup_1 _ _ _ _ Hst Hi) as [Hc Hcl]. pose proof (Forall_lookup_1 _ _ _ _ Hse Hi) as Hv0. cbn in Hv0.
    destruct (claims_parts _ _ Hcl) as (C1 & C2 & C3 & C4 & C5). rewrite Hw in C5. cbn in C5. inversion C5 as [|? ? C6 _]; subst.
    destruct r as [v|]; [destruct (vote_gtb v (ss_vote (st_session s)))|]; (eapply ninv_tasks; [exact N|reflexivity..| | |]; cbn).
    - apply Forall_app. split; [apply N|]. constructor; [|constructor]. revert Hr; unfold own_vote_known; cbn; rewrite Hid; auto.
    - apply Forall_delete. exact Hst.
    - apply Forall_delete. exact Hse.
    - rewrite <- app_assoc. apply Forall_app. split; [apply N|]. constructor; [constructor|]. constructor; [exact C6|constructor].
    - apply Forall_insert; [exact Hst|]. split; [exact Hc|]. apply claims_matching; [|exact C6]. apply claims_set; auto; constructor.
    - apply Forall_insert; [exact Hse|exact Hv0].
    - apply Forall_app. split; [apply N|]. repeat constructor.
    - apply Forall_insert; [exact Hst|]. split; [exact Hc|]. apply claims_set; auto; constructor.
    - apply Forall_insert; [exact Hse|exact Hv0].
  Qed.
  Lemma stream_reply_inv i r n : Forall (own_vote_known n) (resp_votes (RAppend r)) -> nd_id n = me -> node_inv n -> node_inv (stream_reply i r n).
  Proof.
    intros Hr Hid. unfold stream_reply. destruct (nd_streams n !! i) as [s|] eqn:Hi; [|auto].
    destruct (st_wait s) as [w|] eqn:Hw; [|auto].
    intros (w0 & pcs & wv & D & N). exists w0, pcs, wv, D.
    pose proof (n_streams _ _ _ _ _ N) as Hst. pose proof (n_sess _ _ _ _ _ N) as Hse. pose proof (n_notes _ _ _ _ _ N) as Hno.
    pose proof (Forall_lookup_1 _ _ _ _ Hst Hi) as [Hc Hcl]. pose proof (Forall_lookup_1 _ _ _ _ Hse Hi) as Hv0. cbn in Hv0.
    destruct (claims_parts _ _ Hcl) as (C1 & C2 & C3 & C4 & C5). rewrite Hw in C4. cbn in C4. unfold wait_claims, lrange in C4. cbn in C4.
    rewrite !Forall_cons in C4. destruct C4 as (W1 & W2 & W3 & W4 & _).
    destruct r as [|v|].
    - destruct (sw_payload w); (eapply ninv_tasks; [exact N|reflexivity..| | |]; cbn).
      + rewrite <- app_assoc. apply Forall_app. split; [apply N|]. constructor; [constructor|]. constructor; [exact W2|constructor].
      + apply Forall_insert; [exact Hst|]. split; [exact Hc|]. apply claims_matching; [|exact W2].
        apply claims_set; auto; try solve [constructor]. unfold next_action_to_send. destruct (ologid_ltb _ _); cbn; [|constructor].
        constructor; [exact W2|]. constructor; [exact W4|constructor].
      + apply Forall_insert; [exact Hse|exact Hv0].
      + apply Forall_app. split; [exact Hno|]. repeat constructor.
      + apply Forall_insert; [exact Hst|]. split; [exact Hc|]. apply claims_set; auto; constructor.
      + apply Forall_insert; [exact Hse|exact Hv0].
    - eapply ninv_tasks; [exact N|reflexivity..| | |]; cbn.
      + apply Forall_app. split; [exact Hno|]. constructor; [|constructor]. cbn in Hr. inversion Hr as [|? ? Hr1 _]; subst. revert Hr1; unfold own_vote_known; rewrite Hid; cbn; auto.
      + apply Forall_delete. exact Hst.
      + apply Forall_delete. exact Hse.
    - destruct (lr_prev (sw_range w)) as [c|].
      + assert (Hs' : Forall (stream_inv (claim E me D (nd_state n))) (<[i:=stream_set (st_action s) None (st_snap s) s]> (nd_streams n))).
        { apply Forall_insert; [exact Hst|]. split; [exact Hc|]. apply claims_set; auto; constructor. }
        assert (Hv' : Forall (fun s => vote_le (ss_vote (st_session s)) (rs_v (nd_state n))) (<[i:=stream_set (st_action s) None (st_snap s) s]> (nd_streams n))).
        { apply Forall_insert; [exact Hse|exact Hv0]. }
        destruct (sw_payload w); (eapply ninv_tasks; [exact N|reflexivity..| |exact Hs'|exact Hv']; cbn).
        * rewrite <- app_assoc. apply Forall_app. split; [exact Hno|]. repeat constructor.
        * apply Forall_app. split; [exact Hno|]. repeat constructor.
      + eapply ninv_tasks; [exact N|reflexivity..|exact Hno| |]; cbn; apply Forall_delete; assumption.
  Qed.
  Lemma reply_inv tag r n : Forall (own_vote_known n) (resp_votes r) -> nd_id n = me -> node_inv n -> node_inv (handle_reply tag r n).1.
  Proof.
    intros Hr Hid HN.
    assert (Hnote : forall x n', nd_eng n' = nd_eng n -> nd_store n' = nd_store n -> nd_sm n' = nd_sm n -> nd_smq n' = nd_smq n ->
       nd_builds n' = nd_builds n -> nd_streams n' = nd_streams n -> nd_notes n' = nd_notes n ++ x ->
       (forall P sl, Forall (note_inv P (vote_known n) me H sl) x) -> node_inv n').
    { intros x n' A1 A2 A3 A4 A5 A6 A7 A8. destruct HN as (w0 & pcs & wv & D & N). exists w0, pcs, wv, D.
      eapply ninv_tasks; [exact N|assumption..| | |]; rewrite ?A6, ?A7; [|apply N|apply N].
      apply Forall_app. split; [apply N|apply A8]. }
    unfold handle_reply. destruct tag, r; try exact HN.
    - destruct (stream_index _ _) as [i|]; [|exact HN]. destruct (_ ≫= _) as [w|]; [|exact HN].
      destruct (_ =? _); [|exact HN]. apply stream_reply_inv; assumption.
    - destruct (stream_index _ _) as [i|]; [|exact HN]. destruct (_ ≫= _) as [[[? ?] ?]|]; [|exact HN].
      destruct (_ =? _); [|exact HN]. apply stream_snap_inv; [|assumption..]. cbn in *. inversion Hr as [|? ? Hr1 _]; subst. exact Hr1.
    - apply (Hnote [NVoteResp target r sender_vote]); try reflexivity. intros P sl. apply Forall_singleton. cbn.
      cbn in Hr. inversion Hr as [|? ? Hr1 _]; subst. revert Hr1; unfold own_vote_known; rewrite Hid; cbn; auto.
    - apply (Hnote [NHeartbeat session target sending_time]); try reflexivity. intros P sl. repeat constructor.
    - unfold read_reply. destruct (read_index _ _) as [i|]; [|exact HN]. destruct (nd_reads n !! i) as [rd|]; [|exact HN].
      destruct r as [|v|]; cbn [fst].
      + destruct (joint_is_quorum _ _); apply (Hnote []); try reflexivity; cbn; rewrite ?app_nil_r; auto.
      + apply (Hnote [NHigherVote v (rd_vote rd)]); try reflexivity. intros P sl. apply Forall_singleton. cbn.
        cbn in Hr. inversion Hr as [|? ? Hr1 _]; subst. revert Hr1; unfold own_vote_known; rewrite Hid; cbn; auto.
      + destruct (joint_is_quorum _ _); apply (Hnote []); try reflexivity; cbn; rewrite ?app_nil_r; auto.
  Qed.

  (** ** Running a command *)

  Lemma walk_claim w cs D e v x : pos E w -> walk E me w cs (mkW D (rs_committed (en_state e)) MNone) -> ei E me D e ->
    v_leader v = vl (w_d w) -> pfx H x (dlast (w_d w)) -> claim E me D (en_state e) v x.
  Proof using HE.
    intros P W I Hv Hx. pose proof (ec_vl _ _ _ (ei_ec _ _ _ _ I)) as Hd. split.
    - pose proof (walk_vote E me _ _ _ W) as Hw. cbn [w_d] in Hw. rewrite Hd in Hw. rewrite Hv. exact Hw.
    - intros Hm Hl. eapply pfx_trans; [exact Hx|].
      pose proof (walk_own E me Hok _ _ _ P W) as Ho. cbn [w_d] in Ho. apply Ho; congruence.
  Qed.
  Lemma smwalk_app a q b q' c : smwalk a q b -> smwalk b q' c -> smwalk a (q ++ q') c.
  Proof.
    revert a. induction q as [|[] r IH]; intros a; cbn [smwalk app]; [intros ->; auto|intros (Q1 & Q2 & Q3 & Q4)|auto|intros (Q1 & Q2 & Q3)];
      eauto 6.
  Qed.
  Lemma smwalk_pfx a q b : smwalk a q b -> pfx H a b.
  Proof.
    revert a. induction q as [|[] r IH]; intros a; cbn [smwalk]; [intros ->; constructor|intros (_ & Q1 & Q2 & Q3)|eauto|intros (_ & Q1 & Q3)];
      apply IH in Q3; pt.
  Qed.
  Lemma smwalk_last a q b f l : smwalk a q b -> SmApply f l ∈ q -> pfx H (Some l) b.
  Proof.
    revert a. induction q as [|c r IH]; intros a; cbn [smwalk]; [intros _ Hin; inversion Hin|].
    intros Hw Hin. apply elem_of_cons in Hin as [<-|Hin].
    - destruct Hw as (_ & _ & _ & Hw). eapply smwalk_pfx. exact Hw.
    - destruct c; [destruct Hw as (_ & _ & _ & Hw)|idtac|destruct Hw as (_ & _ & Hw)]; eapply IH; eauto.
  Qed.
  Lemma pos_cur_last w : pos E w -> (forall x, w_must w <> MPurgeTo x) -> pfx H (w_cur w) (dlast (w_d w)).
  Proof.
    intros P Hm. pose proof (p_must _ _ P) as Pm. destruct (w_must w) as [|c|c|x] eqn:Hw.
    - apply Pm.
    - eapply pfx_trans; apply Pm.
    - eapply pfx_trans; apply Pm.
    - destruct (Hm x). reflexivity.
  Qed.
  Lemma set_io_same s : set_io (rs_io s) s = s.
  Proof. destruct s; reflexivity. Qed.

  Lemma ran_inv w0 pcs wv D n n' c r io' : ninv w0 pcs wv D n -> en_out (nd_eng n) = c :: r ->
    en_cfg (nd_eng n') = en_cfg (nd_eng n) -> en_leader (nd_eng n') = en_leader (nd_eng n) ->
    en_cand (nd_eng n') = en_cand (nd_eng n) -> en_out (nd_eng n') = r ->
    en_state (nd_eng n') = set_io io' (nd_state n) -> io_accepted io' = io_accepted (rs_io (nd_state n)) ->
    io_snapshot io' = io_snapshot (rs_io (nd_state n)) ->
    so_disk (nd_store n') = so_disk (nd_store n) ->
    map fst (so_pending (nd_store n')) = map fst (so_pending (nd_store n)) ++ option_list (cmd_wop c) ->
    nd_sm n' = nd_sm n -> nd_builds n' = nd_builds n ->
    smwalk (sm_applied (nd_sm n)) (nd_smq n') (w_cur (wnext wv c)) ->
    ((exists x, w_must (wnext wv c) = MPurgeTo x) -> forall f l, SmApply f l ∈ nd_smq n' -> SmApply f l ∈ nd_smq n /\ cmd_wop c = None) ->
    (forall u, c = PurgeLog u -> pfx H (Some u) (snap_last (nd_sm n))) ->
    Forall (note_inv (claim E me D (nd_state n)) (vote_known n) me H (snap_last (nd_sm n))) (nd_notes n') ->
    Forall (io_inv (claim E me D (nd_state n))) (store_ios (nd_store n')) ->
    Forall (stream_inv (claim E me D (nd_state n))) (nd_streams n') ->
    Forall (fun s => vote_le (ss_vote (st_session s)) (rs_v (nd_state n))) (nd_streams n') ->
    vinv n' -> ninv w0 (pcs ++ [c]) (wnext wv c) D n'.
  Proof using HE.
    intros N Hout Hcfg Hld Hcd Hout' Hst Hacc Hsn Hdk Hpend Hsm Hb Hq Hql Hpu Hno Hio Hstr Hse Hv.
    pose proof (ninv_posv _ _ _ _ _ N) as Pv. pose proof (n_w2 _ _ _ _ _ N) as W2. rewrite Hout in W2. destruct W2 as [K W2].
    pose proof (wok_pos E me Hok _ _ Pv K) as Pv'.
    assert (Hrs : nd_state n' = set_io io' (nd_state n)) by exact Hst.
    assert (Hsv : stored_vote n' = stored_vote n) by (unfold stored_vote; rewrite Hdk; reflexivity).
    assert (Hvk : vote_known n' = vote_known n) by (unfold vote_known; rewrite Hrs, Hsv; reflexivity).
    destruct N. constructor; rewrite ?Hvk, ?Hrs, ?Hsm, ?Hb, ?Hsv; try assumption.
    - rewrite Hdk. assumption.
    - rewrite omap_app, Hpend, <- n_pend0. cbn. destruct (cmd_wop c); reflexivity.
    - apply walk_app. exists wv. split; [assumption|]. cbn [walk]. auto.
    - rewrite Hout'. exact W2.
    - destruct n_ei0 as [I1 I2 I3 I4 I5 I6].
      constructor; unfold acc_ok, el, cl, en_id in *; rewrite ?Hst, ?Hcfg, ?Hld, ?Hcd; cbn [set_io rs_io rs_vote rs_v]; auto.
      + destruct I1. constructor; auto.
      + rewrite Hacc. exact I3.
    - intros f l Hin. destruct (w_must (wnext wv c)) as [|y|y|y] eqn:Hm;
        try (eapply pfx_trans; [eapply smwalk_last; eauto|]; apply pos_cur_last; [exact Pv'|rewrite Hm; discriminate]).
      destruct (Hql (ex_intro _ _ eq_refl) _ _ Hin) as [Hin' Hwop].
      assert (Hdd : w_d (wnext wv c) = w_d wv) by (cbn; unfold dapply; rewrite Hwop; reflexivity).
      rewrite Hdd. eapply n_smlast0. exact Hin'.
    - destruct (cmd_wop c) as [[]|] eqn:Hw; try (destruct c; try discriminate; exact n_purged0).
      destruct c; try discriminate. injection Hw as ->. cbn. unfold dapply. cbn. apply Hpu. reflexivity.
    - cbn [set_io rs_io]. rewrite Hsn. assumption.
  Qed.

  Lemma run_one_inv now n x : run_one now n = Ok x -> vinv x.1 -> node_inv n -> node_inv x.1.
  Proof using HE.
    unfold run_one. intros Hs Hv' (w0 & pcs & wv & D & N).
    destruct (en_out (nd_eng n)) as [|c r] eqn:Hout; [injection Hs as <-; exists w0, pcs, wv, D; exact N|].
    destruct (cond_ok (cmd_condition c) (rs_io (nd_state n))) eqn:Hcond; [|injection Hs as <-; exists w0, pcs, wv, D; exact N].
    pose proof (ninv_posv _ _ _ _ _ N) as Pv. pose proof (n_w2 _ _ _ _ _ N) as W2. rewrite Hout in W2. destruct W2 as [K W2].
    pose proof (wok_pos E me Hok _ _ Pv K) as Pv'.
    pose proof (n_notes _ _ _ _ _ N) as Hno. pose proof (n_ios _ _ _ _ _ N) as Hio. pose proof (n_streams _ _ _ _ _ N) as Hst.
    pose proof (n_sess _ _ _ _ _ N) as Hse. pose proof (n_smq _ _ _ _ _ N) as Hsmq.
    assert (Hcl : forall v y, v_leader v = vl (w_d (wnext wv c)) -> pfx H y (dlast (w_d (wnext wv c))) -> claim E me D (nd_state n) v y).
    { intros v y Hl Hy. eapply walk_claim; [exact Pv'|exact W2|apply N|exact Hl|exact Hy]. }
    assert (Hss : forall s y, s ∈ nd_streams n -> pfx H y (dlast (w_d wv)) -> claim E me D (nd_state n) (ss_vote (st_session s)) y).
    { intros s y Hin Hy. eapply session_claim; [exact N| | |exact Hy].
      - rewrite Forall_forall in Hst. apply (Hst s Hin).
      - rewrite Forall_forall in Hse. apply (Hse s Hin). }
    assert (Hpush : forall ev s, s ∈ nd_streams n -> (forall y, y ∈ event_claims ev -> pfx H y (dlast (w_d wv))) ->
       stream_inv (claim E me D (nd_state n)) (stream_push ev s)).
    { intros ev s Hin Hev. pose proof Hst as Hst'. rewrite Forall_forall in Hst'. destruct (Hst' s Hin) as [A1 A2].
      split; [exact A1|]. cbn. revert A2. unfold stream_claims. cbn. rewrite flat_map_app. cbn. rewrite app_nil_r, !Forall_cons, !Forall_app.
      intros (B1 & B2 & B3 & B4). repeat (split; [assumption|]). split; [split; [assumption|]|assumption].
      rewrite Forall_forall. intros y Hy. apply Hss; auto. }
    assert (Hnop : forall n', nd_eng n' = eng_set_out r (nd_eng n) -> nd_store n' = nd_store n -> nd_sm n' = nd_sm n -> nd_smq n' = nd_smq n ->
       nd_builds n' = nd_builds n -> nd_notes n' = nd_notes n -> nd_streams n' = nd_streams n -> cmd_wop c = None -> w_cur (wnext wv c) = w_cur wv ->
       vinv n' -> node_inv n').
    { intros n' A1 A2 A3 A4 A5 A6 A7 A8 A9 A10. exists w0, (pcs ++ [c]), (wnext wv c), D.
      apply (ran_inv _ _ _ _ n n' c r (rs_io (nd_state n))); rewrite ?A1, ?A2, ?A3, ?A4, ?A5, ?A6, ?A7, ?A8, ?A9, ?app_nil_r; auto.
      - rewrite set_io_same. reflexivity.
      - intros u ->. discriminate. }
    destruct c as [w io|v es|cc|ss cc|cc|prev upto|t req|req|ts|v|req|u|since| |sn io|w rr tx];
      cbn [run_cmd] in Hs.
    - (* UpdateIOProgress *) injection Hs as <-. destruct K as (_ & v & y & -> & K1 & K2).
      exists w0, (pcs ++ [UpdateIOProgress w (IOLog v y)]), (wnext wv (UpdateIOProgress w (IOLog v y))), D.
      eapply (ran_inv _ _ _ _ n _ _ r); try reflexivity; try eassumption; cbn; rewrite ?app_nil_r; auto; try discriminate.
      apply Forall_app. split; [exact Hno|]. constructor; [|constructor]. cbn. apply Hcl; assumption.
    - (* AppendInputEntries *) destruct (last es) as [e|] eqn:Hl; [|discriminate]. injection Hs as <-.
      destruct K as (K1 & K2 & K3 & K4 & K5).
      exists w0, (pcs ++ [AppendInputEntries v es]), (wnext wv (AppendInputEntries v es)), D.
      eapply (ran_inv _ _ _ _ n _ _ r); try reflexivity; try eassumption; try discriminate.
      + cbn. rewrite map_app. reflexivity.
      + intros [y Hy]. cbn in Hy. congruence.
      + unfold store_ios in *. cbn. rewrite omap_app. cbn. apply Forall_app in Hio as [Hio1 Hio2].
        apply Forall_app. split; [|exact Hio2]. apply Forall_app. split; [exact Hio1|]. constructor; [|constructor].
        cbn. apply Hcl; [cbn; exact K5|]. cbn. unfold dapply. cbn. rewrite ls_last_es. cbn [ls_append ls_entries ls_purged].
        rewrite es_last_app. destruct es as [|e0 es0] eqn:Hes; [discriminate|]. rewrite <- Hes in *.
        unfold es_last at 1. rewrite Hl. constructor.
    - (* ReplicateCommitted *) injection Hs as <-. destruct cc as [cc|]; [|destruct K]. destruct K as (K1 & K2 & K3 & K4).
      exists w0, (pcs ++ [ReplicateCommitted (Some cc)]), (wnext wv (ReplicateCommitted (Some cc))), D.
      eapply (ran_inv _ _ _ _ n _ _ r (rs_io (nd_state n))); try reflexivity; try eassumption; try discriminate.
      + cbn. rewrite set_io_same. reflexivity.
      + cbn. rewrite app_nil_r. reflexivity.
      + intros [y Hy]. cbn in Hy. discriminate.
      + cbn. rewrite Forall_map, Forall_forall. intros s Hin. apply Hpush; [exact Hin|]. cbn. intros y Hy.
        apply elem_of_list_singleton in Hy as ->. exact K4.
      + cbn. rewrite Forall_map. exact Hse.
    - (* BroadcastHeartbeat *) injection Hs as <-. apply Hnop; try reflexivity. exact Hv'.
    - (* SaveCommitted *) injection Hs as <-. destruct K as (K1 & K2 & K3 & K4).
      exists w0, (pcs ++ [SaveCommitted cc]), (wnext wv (SaveCommitted cc)), D.
      eapply (ran_inv _ _ _ _ n _ _ r (rs_io (nd_state n))); try reflexivity; try eassumption; try discriminate.
      + cbn. rewrite set_io_same. reflexivity.
      + cbn. rewrite map_app. reflexivity.
      + intros [y Hy]. cbn in Hy. discriminate.
      + unfold store_ios in *. cbn. rewrite omap_app. cbn. rewrite app_nil_r. exact Hio.
    - (* CmdApply *) destruct K as (K1 & ->). destruct (rs_get_log_id _ _) as [f|] eqn:Hg; [|discriminate]. injection Hs as <-.
      pose proof (n_ei _ _ _ _ _ N) as I. apply (ec_get E HE _ _ _ _ (ei_ec _ _ _ _ I)) in Hg as (G1 & G2 & G3).
      pose proof (p_must _ _ Pv) as Pm. rewrite K1 in Pm. destruct Pm as (M1 & M2 & M3 & M4).
      pose proof (proj1 (walk_cur E me Hok _ _ _ Pv' W2)) as Hcm. cbn [w_cur wnext] in Hcm.
      assert (HuD : pfx H (Some upto) (dlast D)).
      { eapply pfx_trans; [exact Hcm|]. apply (ec_last' _ _ _ (ei_ec _ _ _ _ I)). }
      pose proof (pfx_lt_idx H Hok _ _ M1 M2) as Hidx. cbn [next_index] in Hidx.
      assert (F1 : pfx H (Some f) (Some upto)) by (eapply (pfx_of_idx H Hok); [exact G1|exact HuD|]; cbn [next_index]; lia).
      assert (F2 : pfx H (w_cur wv) (Some f)).
      { eapply (pfx_of_idx H Hok); [eapply pfx_trans; [exact M1|exact HuD]|exact G1|]. cbn [next_index]. lia. }
      exists w0, (pcs ++ [CmdApply (w_cur wv) upto]), (wnext wv (CmdApply (w_cur wv) upto)), D.
      eapply (ran_inv _ _ _ _ n _ _ r (rs_io (nd_state n))); try reflexivity; try eassumption; try discriminate.
      + cbn. rewrite set_io_same. reflexivity.
      + cbn. rewrite app_nil_r. reflexivity.
      + cbn. eapply smwalk_app; [exact Hsmq|]. cbn. auto.
      + intros [y Hy]. cbn in Hy. discriminate.
    - (* CmdReplicate *) destruct (stream_index _ _) as [i|]; [|discriminate]. injection Hs as <-.
      exists w0, (pcs ++ [CmdReplicate t req]), (wnext wv (CmdReplicate t req)), D.
      eapply (ran_inv _ _ _ _ n _ _ r (rs_io (nd_state n))); try reflexivity; try eassumption; try discriminate.
      + cbn. rewrite set_io_same. reflexivity.
      + cbn. rewrite app_nil_r. reflexivity.
      + intros _ f l Hin. auto.
      + cbn. apply Forall_alter; [exact Hst|]. intros s Hi _. apply elem_of_list_lookup_2 in Hi. apply Hpush; [exact Hi|].
        intros y Hy. destruct req as [rg|sp]; cbn in Hy; [|inversion Hy]. destruct K as (_ & K1 & K2).
        unfold lrange in Hy. rewrite !elem_of_cons in Hy. destruct Hy as [->|[->|Hy]]; [exact K1|exact K2|inversion Hy].
      + cbn. apply Forall_alter; [exact Hse|]. intros s _ Hs1. exact Hs1.
    - (* BroadcastTransferLeader *) destruct (other_voters _ _); [|discriminate]. injection Hs as <-. apply Hnop; try reflexivity. exact Hv'.
    - (* Rebuild *) destruct K as (K1 & K2).
      assert (Hgo : forall n', nd_eng n' = eng_set_out r (nd_eng n) -> nd_store n' = nd_store n -> nd_sm n' = nd_sm n -> nd_smq n' = nd_smq n ->
         nd_builds n' = nd_builds n -> nd_notes n' = nd_notes n -> vinv n' ->
         Forall (stream_inv (claim E me D (nd_state n))) (nd_streams n') ->
         Forall (fun s => vote_le (ss_vote (st_session s)) (rs_v (nd_state n))) (nd_streams n') -> node_inv n').
      { intros n' A1 A2 A3 A4 A5 A6 A7 A8 A9. exists w0, (pcs ++ [RebuildReplicationStreams ts]), (wnext wv (RebuildReplicationStreams ts)), D.
        apply (ran_inv _ _ _ _ n n' _ r (rs_io (nd_state n))); rewrite ?A1, ?A2, ?A3, ?A4, ?A5, ?A6; auto.
        - rewrite set_io_same. reflexivity.
        - cbn. rewrite app_nil_r. reflexivity.
        - discriminate. }
      destruct (en_leader (nd_eng (nd_set_eng (eng_set_out r (nd_eng n)) n))) as [l|] eqn:Hl.
      + destruct (forallb _ _); [|discriminate]. injection Hs as <-.
        destruct (ei_el _ _ _ _ (n_ei _ _ _ _ _ N) l Hl) as (L1 & L2 & L3 & _).
        assert (Hvle : vote_le (ld_vote l) (rs_v (nd_state n))) by (rewrite L1; apply vote_geb_refl).
        apply Hgo; try reflexivity; [exact Hv'| |]; cbn; rewrite Forall_map, Forall_forall; intros y Hy; cbn.
        * split; [exact L2|]. cbn. constructor.
          -- eapply committed_claim; [exact N|apply (vle_leader _ _ Hvle)|constructor].
          -- constructor; [|constructor]. eapply session_claim; [exact N|exact L2|exact Hvle|apply K2; exact Hy].
        * exact Hvle.
      + destruct (bool_decide (ts = [])); [|discriminate]. injection Hs as <-. apply Hgo; try reflexivity; [exact Hv'|constructor|constructor].
    - (* SaveVote *) injection Hs as <-. destruct K as (K1 & K2).
      exists (wnext wv (SaveVote v)), [], (wnext wv (SaveVote v)), D.
      pose proof (view_vote _ _ _ _ _ N) as Hvv. pose proof (ninv_view _ _ _ _ _ N) as Hview.
      assert (Hsv : stored_vote n = dvote (w_d wv)) by (symmetry; exact Hvv).
      cbn [fst] in *. set (n' := note (NVoteResp _ _ _) _) in *.
      assert (Hsv' : stored_vote n' = v).
      { unfold stored_vote. subst n'. cbn [nd_store note nd_set_notes nd_set_store]. rewrite so_save_vote_vote. reflexivity. }
      assert (Hvle : vote_le v (rs_v (nd_state n))).
      { destruct Hv' as [_ Hch]. apply vchain_le in Hch. cbn [fst] in Hch. rewrite Hsv' in Hch. exact Hch. }
      assert (Hcl' : forall P sl y, note_inv P (vote_known n) me H sl y -> note_inv P (vote_known n') me H sl y).
      { intros P sl y. apply note_inv_mono; [auto| |constructor]. intros u [U1 U2]. split; [exact U1|]. rewrite Hsv'. rewrite Hsv in U2.
        eapply ElectProofs.vote_le_trans; [exact U2|]. apply vote_gtb_geb. exact K2. }
      destruct N. constructor; try assumption.
      + subst n'. cbn [nd_store note nd_set_notes nd_set_store so_save_vote so_flush so_submit so_disk so_pending]. cbn. unfold dapply. cbn.
        rewrite take_ge by lia. rewrite map_app, foldl_app. cbn. rewrite Hview. reflexivity.
      + subst n'. cbn. rewrite drop_all. reflexivity.
      + cbn [walk]. reflexivity.
      + destruct n_ei0 as [I1 I2 I3 I4 I5 I6]. constructor; auto. destruct I1. constructor; auto.
      + replace (nd_notes n') with (nd_notes n ++ [NLocalIO (io_new v); NVoteResp (nd_id n) (mkVoteResp v None true) v])
          by (subst n'; cbn; rewrite <- app_assoc; reflexivity). apply Forall_app. split.
        * eapply Forall_impl; [exact n_notes0|]. intros y. apply Hcl'.
        * constructor.
          { unfold io_new. destruct (v_committed v); [|exact Logic.I]. cbn. split; [exact (vle_leader _ _ Hvle)|]. intros _ _.
            apply (log_ok_root H). apply n_ei0. }
          constructor; [|constructor]. cbn. intros _. split; [exact Hvle|]. rewrite Hsv'. clear. destruct v as [l b]. unfold vote_le. cbn. ord.
      + subst n'. unfold store_ios in *. cbn [nd_store note nd_set_notes nd_set_store so_save_vote so_flush so_submit so_callbacks so_pending].
        rewrite drop_ge, take_ge by lia. cbn. rewrite omap_app. cbn. rewrite app_nil_r. apply Forall_app in Hio as [Hi1 Hi2].
        apply Forall_app. split; assumption.
      + intros Hm Hc. rewrite Hsv'. cbn in Hm, Hc. specialize (n_stored0 Hm Hc).
        assert (Hlt : vote_lt (stored_vote n) v) by (rewrite Hsv; exact K2).
        revert Hlt Hvle n_stored0. clear. unfold vote_lt, vote_le, rs_v, nd_state. subst n'. cbn.
        generalize (stored_vote n), (l_vote (rs_vote (en_state (nd_eng n)))). intros a b. intros A1 A2 A3.
        revert A1 A2. destruct a as [la ca], b as [lb cb], v as [lv cv]. cbn in *. subst. ord.
    - (* SendVote *) destruct (other_voters _ _); [|discriminate]. injection Hs as <-. apply Hnop; try reflexivity. exact Hv'.
    - (* PurgeLog *) injection Hs as <-. cbn [cmd_condition cond_ok] in Hcond.
      exists w0, (pcs ++ [PurgeLog u]), (wnext wv (PurgeLog u)), D.
      assert (Hu : pfx H (Some u) (w_cur wv)).
      { destruct K as [(_ & Ku & _)|(Ku & _)]; [exact Ku|]. pose proof (p_must _ _ Pv) as Pm. rewrite Ku in Pm. destruct Pm as (-> & _). constructor. }
      assert (Hsn : pfx H (Some u) (snap_last (nd_sm n))).
      { pose proof (n_iosnap _ _ _ _ _ N) as Hi. eapply pfx_trans; [|exact Hi]. eapply (pfx_of_leb H Hok); [exact Hu| |].
        - eapply pfx_trans; [exact Hi|]. eapply pfx_trans; [eapply snap_applied; exact N|eapply applied_cur; exact N].
        - revert Hcond. clear. generalize (io_snapshot (rs_io (nd_state n))). intros o. rewrite ologid_ltb_negb, negb_involutive. auto. }
      eapply (ran_inv _ _ _ _ n _ _ r); try reflexivity; try eassumption; try discriminate.
      + cbn. rewrite map_app. reflexivity.
      + intros [y Hy]. cbn in Hy. discriminate.
      + intros u' [= <-]. exact Hsn.
      + unfold store_ios in *. cbn. rewrite omap_app. cbn. rewrite app_nil_r. exact Hio.
    - (* TruncateLog *) injection Hs as <-. destruct K as (K1 & K2 & K3 & K4).
      exists w0, (pcs ++ [TruncateLog since]), (wnext wv (TruncateLog since)), D.
      eapply (ran_inv _ _ _ _ n _ _ r (rs_io (nd_state n))); try reflexivity; try eassumption; try discriminate.
      + cbn. rewrite set_io_same. reflexivity.
      + cbn. rewrite map_app. reflexivity.
      + intros [y Hy]. cbn in Hy. congruence.
      + unfold store_ios in *. cbn. rewrite omap_app. cbn. rewrite app_nil_r. exact Hio.
    - (* BuildSnapshot *) injection Hs as <-. cbn in K.
      exists w0, (pcs ++ [BuildSnapshot]), (wnext wv BuildSnapshot), D.
      eapply (ran_inv _ _ _ _ n _ _ r (rs_io (nd_state n))); try reflexivity; try eassumption; try discriminate.
      + cbn. rewrite set_io_same. reflexivity.
      + cbn. rewrite app_nil_r. reflexivity.
      + cbn. eapply smwalk_app; [exact Hsmq|]. cbn. auto.
      + intros [y Hy]. cbn in Hy. congruence.
    - (* InstallSnapshot *) injection Hs as <-. destruct K as (K1 & K2 & K3 & x & v & K4 & -> & K5 & K6 & K7 & K8 & K9).
      exists w0, (pcs ++ [InstallSnapshot sn (IOLog v (Some x))]), (wnext wv (InstallSnapshot sn (IOLog v (Some x)))), D.
      eapply (ran_inv _ _ _ _ n _ _ r); try reflexivity; try eassumption; try discriminate.
      + cbn. rewrite app_nil_r. reflexivity.
      + cbn. eapply smwalk_app; [exact Hsmq|]. cbn. rewrite K4. auto.
      + intros _ f l Hin. cbn in Hin. apply elem_of_app in Hin as [Hin|Hin]; [split; [exact Hin|reflexivity]|].
        apply elem_of_list_singleton in Hin. discriminate.
    - (* Respond *) injection Hs as <-. apply Hnop; try reflexivity. exact Hv'.
  Qed.

  (** ** Handlers *)

  Notation isn e := (io_snapshot (rs_io (en_state e))).
  Lemma accept_isn x s : io_snapshot (rs_io (rs_accept_io x s)) = io_snapshot (rs_io s).
  Proof.
    rewrite rs_accept_io_eq. cbn. unfold io_accept. destruct (match io_accepted (rs_io s) with None => _ | Some _ => _ end); reflexivity.
  Qed.
  Lemma fh_do_append_isn lv es e : isn (fh_do_append lv es e) = isn e.
  Proof. rewrite fh_do_append_eq. cbn. destruct (last_two_memberships es); reflexivity. Qed.
  Lemma fh_truncate_isn i e : isn (fh_truncate i e) = isn e.
  Proof.
    rewrite fh_truncate_eq. destruct (rs_get_log_id _ _); [|reflexivity]. cbn.
    repeat match goal with |- context [match ?t with _ => _ end] => destruct t end; reflexivity.
  Qed.
  Lemma logh_purge_isn e : isn (logh_purge e) = isn e.
  Proof. rewrite logh_purge_eq. destruct (rs_purge_upto _); [|reflexivity]. destruct (ologid_leb _ _); reflexivity. Qed.
  Lemma install_isn lv sn e : isn (fh_install lv sn e).1 = isn e.
  Proof.
    rewrite fh_install_eq. destruct (sm_last _) as [sl|]; [|reflexivity]. destruct (ologid_leb _ _); [reflexivity|].
    destruct (ologid_leb _ _); [reflexivity|]. cbv zeta. rewrite logh_purge_isn. cbn [push upd en_state set_purge_upto rs_io].
    unfold install_state. cbn. rewrite ?accept_isn.
    unfold install_cut. repeat match goal with |- context [match ?t with _ => _ end] => destruct t end; rewrite ?fh_truncate_isn; reflexivity.
  Qed.
  Lemma prim_isn k e e' : prim k e e' -> k <> KCursor -> isn e' = isn e.
  Proof.
    intros Hp Hk. destruct Hp; try congruence; try reflexivity; try (cbn; rewrite ?accept_isn; reflexivity).
    - rewrite leader_appended_eq. cbn. destruct (last_membership _ _) as [[]|]; cbn; rewrite accept_isn; reflexivity.
    - apply fh_do_append_isn.
    - apply fh_truncate_isn.
    - rewrite sh_trigger_eq by assumption. reflexivity.
    - apply logh_purge_isn.
    - apply install_isn.
  Qed.
  Lemma prims_isn ks e e' : prims ks e e' -> bool_decide (KCursor ∈ ks) = false -> isn e' = isn e.
  Proof.
    intros Hps Hk. apply bool_decide_eq_false in Hk. revert e e' Hps. apply prims_ind_rel; [auto|congruence|].
    intros k a b Hin Hp. eapply prim_isn; [exact Hp|]. intros ->. auto.
  Qed.
  Ltac pi L := eapply prims_isn; [eapply L; eassumption|reflexivity].
  Lemma handle_msg_isn now m n x : handle_msg now m n = Ok x -> isn (nd_eng x.1) = isn (nd_eng n).
  Proof.
    assert (Hw : forall p tx x, core_write p tx n = Ok x -> isn (nd_eng x.1) = isn (nd_eng n)).
    { intros p tx y Hy. apply core_write_prims in Hy as (Hy & _). eapply prims_isn; [exact Hy|reflexivity]. }
    destruct m; cbn [handle_msg]; unfold lift; intros Hu.
    - rok Hu. injection Hu as <-. cbn. unfold core_append in Hx. rok Hx. injection Hx as <-.
      transitivity (isn x.1); [|pi en_append_entries_prims].
      destruct x.2; [|reflexivity]. eapply prims_isn; [apply fh_commit_prims|reflexivity].
    - rok Hu. injection Hu as <-. cbn. unfold core_vote in Hx. rok Hx. injection Hx as <-. cbn. pi en_vote_req_prims.
    - rok Hu. injection Hu as <-. cbn. pi en_install_snapshot_prims.
    - rok Hu. injection Hu as <-. cbn. unfold core_transfer in Hx. destruct (vote_eqb _ _); [|injection Hx as <-; reflexivity].
      destruct (en_id _ =? _).
      + apply en_elect_prims in Hx. apply prims_isn in Hx; [|reflexivity]. rewrite Hx. reflexivity.
      + injection Hx as <-. reflexivity.
    - rok Hu. injection Hu as <-. cbn. unfold core_initialize in Hx. rok Hx. injection Hx as <-. cbn.
      unfold en_initialize in Hx0. destruct (rs_is_initialized _); [injection Hx0 as <-; reflexivity|].
      destruct (negb _); [injection Hx0 as <-; reflexivity|]. rok Hx0. injection Hx0 as <-. cbn.
      apply en_elect_prims in Hx. apply prims_isn in Hx; [|reflexivity]. rewrite Hx. rewrite fh_do_append_isn. reflexivity.
    - eapply Hw. exact Hu.
    - unfold core_change in Hu. destruct (ms_change _ _ _); [eapply Hw; exact Hu|injection Hu as <-; reflexivity].
    - unfold core_read in Hu. destruct (en_leader (nd_eng n)) as [l|]; [|injection Hu as <-; reflexivity].
      destruct (joint_is_quorum _ _); [injection Hu as <-; reflexivity|].
      destruct (forallb _ _); [|discriminate]. injection Hu as <-. reflexivity.
    - rok Hu. injection Hu as <-. cbn. destruct (rs_is_voter _ _).
      + pi en_elect_prims.
      + injection Hx as <-. reflexivity.
    - cbn in Hu. injection Hu as <-. cbn. eapply prims_isn; [apply core_heartbeat_prims|reflexivity].
    - cbn in Hu. injection Hu as <-. cbn. eapply (prims_isn [KBuild]); [apply sh_trigger_prims; reflexivity|reflexivity].
    - rok Hu. injection Hu as <-. cbn. pi en_trigger_purge_prims.
    - cbn in Hu. injection Hu as <-. cbn. eapply prims_isn; [apply en_trigger_transfer_prims|reflexivity].
  Qed.
  Lemma handle_tick_isn now hb ee eh e e' : handle_tick now hb ee eh e = Ok e' -> isn e' = isn e.
  Proof.
    unfold handle_tick. intros Hu. rok Hu.
    assert (H1 : isn x = isn e).
    { unfold tick_election in Hx. destruct (bool_decide _); [injection Hx as <-; reflexivity|].
      destruct (negb _); [injection Hx as <-; reflexivity|]. destruct (negb _); [injection Hx as <-; reflexivity|].
      destruct (_ || _); [|injection Hx as <-; reflexivity]. apply en_elect_prims in Hx. apply prims_isn in Hx; [|reflexivity]. exact Hx. }
    set (e2 := match en_leader x with Some _ => _ | None => _ end) in Hu.
    assert (H2 : isn e2 = isn x).
    { subst e2. destruct (en_leader x) as [l|]; [|reflexivity]. destruct (_ <=? _); [|reflexivity]. destruct eh; [|reflexivity].
      cbn. eapply prims_isn; [apply core_heartbeat_prims|reflexivity]. }
    destruct (ologid_leb _ _) in Hu; [|injection Hu as <-; congruence].
    apply en_step_down_prims in Hu. apply prims_isn in Hu; [|reflexivity]. congruence.
  Qed.
  Lemma handle_note_isn now x n y : handle_note now x n = Ok y ->
    isn (nd_eng y.1) = isn (nd_eng n) \/
    exists meta, (x = NSm (SRBuild meta) \/ exists io, x = NSm (SRInstall io meta)) /\ isn (nd_eng y.1) = sm_last meta.
  Proof.
    destruct x as [t resp sv|v sv|io|ss t r|ss t time|r]; cbn [handle_note]; unfold lift; intros Hu.
    - left. destruct (en_cand (nd_eng n)) as [c|] eqn:Hc; [|injection Hu as <-; reflexivity].
      destruct (vote_matches _ _); [|injection Hu as <-; reflexivity]. rok Hu. injection Hu as <-. cbn.
      destruct (decide (vr_granted resp = true /\ vr_vote resp = cd_vote c)) as [[Hg Hv]|Hn].
      + destruct (en_vote_resp_grant _ _ _ _ _ _ Hc Hg Hv Hx) as (c' & ok & _ & [(_ & ->)|[(_ & _ & ->)|(_ & _ & Hp)]]); [reflexivity..|].
        apply prims_isn in Hp; [|reflexivity]. exact Hp.
      + unfold en_vote_resp in Hx. rewrite Hc in Hx.
        destruct (vr_granted resp && vote_eqb (vr_vote resp) (cd_vote c)) eqn:Hg.
        { exfalso. apply Hn. apply andb_true_iff in Hg as [G1 G2]. apply vote_eqb_true in G2. auto. }
        rok Hx. injection Hx as <-. apply vh_update_vote_prims in Hx0. apply prims_isn in Hx0; [|reflexivity]. rewrite Hx0.
        destruct (ologid_ltb _ _); reflexivity.
    - left. destruct (vote_matches _ _); [|injection Hu as <-; reflexivity]. rok Hu. rok Hx. injection Hx as <-. injection Hu as <-. cbn.
      pi vh_update_vote_prims.
    - left. destruct io as [v|v lid]; [injection Hu as <-; reflexivity|].
      destruct (en_leader _); [|injection Hu as <-; reflexivity]. destruct (vote_matches _ _); [|injection Hu as <-; reflexivity].
      rok Hu. injection Hu as <-. apply rh_update_local_prims in Hx. apply prims_isn in Hx; [|reflexivity]. exact Hx.
    - left. destruct (session_matches _ _); [|injection Hu as <-; reflexivity]. rok Hu. injection Hu as <-. cbn. pi rh_update_progress_prims.
    - left. destruct (session_matches _ _); [|injection Hu as <-; reflexivity]. rok Hu. injection Hu as <-. cbn. pi rh_update_clock_prims.
    - destruct r as [meta|io meta|since es la].
      + right. rok Hu. injection Hu as <-. exists meta. split; [auto|reflexivity].
      + right. injection Hu as <-. exists meta. split; [eauto|reflexivity].
      + left. destruct (apply_results _ _) as [c outs]. injection Hu as <-. reflexivity.
  Qed.

  Lemma handled_inv w0 pcs wv D n n' : ninv w0 pcs wv D n -> moved E me D (nd_eng n) (nd_eng n') -> same_rest n n' ->
    (forall x, x ∈ nd_notes n' -> x ∈ nd_notes n) -> pfx H (isn (nd_eng n')) (snap_last (nd_sm n)) ->
    (li_node (v_leader (rs_v (nd_state n'))) = me -> v_committed (rs_v (nd_state n')) = true ->
     v_leader (stored_vote n) = v_leader (rs_v (nd_state n'))) ->
    vinv n' -> node_inv n'.
  Proof using HE.
    intros N (D' & R & I') (S1 & S2 & S3 & S4 & S5 & _) Hno Hsn Hst Hv.
    pose proof (n_ei _ _ _ _ _ N) as I. pose proof R as (_ & Hle & cs & Ho & Hw).
    assert (Hcl : forall v x, claim E me D (nd_state n) v x -> claim E me D' (nd_state n') v x).
    { intros v x. eapply claim_runs; eassumption. }
    assert (Hsv : stored_vote n' = stored_vote n) by (unfold stored_vote; rewrite S1; reflexivity).
    exists w0, pcs, wv, D'. destruct N. constructor; rewrite ?S1, ?S2, ?S3, ?S4, ?S5, ?Hsv; try assumption.
    - rewrite Ho. eapply walk_trans; [eassumption|exact Hw].
    - rewrite Forall_forall in n_notes0 |- *. intros x Hx. eapply note_inv_mono; [exact Hcl| |constructor|apply n_notes0, Hno, Hx].
      intros u [U1 U2]. split; [eapply ElectProofs.vote_le_trans; [exact U1|exact Hle]|rewrite Hsv; exact U2].
    - eapply Forall_impl; [exact n_ios0|]. intros io. apply io_inv_mono. exact Hcl.
    - eapply Forall_impl; [exact n_streams0|]. intros s. apply stream_inv_mono. exact Hcl.
    - eapply Forall_impl; [exact n_sess0|]. intros s Hs. cbn in Hs. eapply ElectProofs.vote_le_trans; [exact Hs|exact Hle].
  Qed.

  Lemma sandwich a b c : vote_le a b -> vote_le b c -> v_leader a = v_leader c -> v_leader b = v_leader c.
  Proof. clear. destruct a as [la ca], b as [lb cb], c as [lc cc]. unfold vote_le. cbn. intros H1 H2 ->. ord. Qed.

  (** the vote of an own leadership is stored before it is used *)
  Lemma handled_stored now ev n x : ev <> ERun -> node_step now ev n = Ok x -> event_fits E n ev -> node_inv n ->
    vote_le (rs_v (nd_state n)) (rs_v (nd_state x.1)) ->
    li_node (v_leader (rs_v (nd_state x.1))) = me -> v_committed (rs_v (nd_state x.1)) = true ->
    v_leader (stored_vote n) = v_leader (rs_v (nd_state x.1)).
  Proof using HE.
    intros He Hs Hf (w0 & pcs & wv & D & N) Hle Hm Hc. destruct x as [n' outs]. cbn [fst] in *.
    destruct (step_saved _ _ _ _ _ He Hs) as (vs & _ & Hl & Hvs).
    pose proof (n_ei _ _ _ _ _ N) as I. pose proof (n_v _ _ _ _ _ N) as [_ Hch]. apply vchain_le in Hch.
    assert (Hid : nd_id n = me) by (apply (ei_id _ _ _ _ I)).
    destruct (decide (vs = [])) as [->|Hne].
    { injection Hl as Hl. rewrite <- Hl in *. apply (n_stored _ _ _ _ _ N); assumption. }
    assert (Hin : rs_v (nd_state n') ∈ event_votes ev n).
    { rewrite Forall_forall in Hvs. apply Hvs. apply last_Some in Hl as [l' Hl']. destruct vs as [|v0 vs]; [congruence|].
      destruct l' as [|y l']; [discriminate|]. cbn in Hl'. injection Hl' as _ Hl'. rewrite Hl'. apply elem_of_app. right. left. }
    assert (Hold : vote_known n (rs_v (nd_state n')) -> v_leader (stored_vote n) = v_leader (rs_v (nd_state n'))).
    { intros [Hx _]. assert (Heq : rs_v (nd_state n') = rs_v (nd_state n)) by (revert Hle Hx; clear; unfold vote_le; generalize (rs_v (nd_state n)), (rs_v (nd_state n')); intros a b; ord).
      rewrite Heq in *. apply (n_stored _ _ _ _ _ N); assumption. }
    assert (Hown : rs_v (nd_state n') <> own_next_vote n) by (intros Heq; rewrite Heq in Hc; discriminate).
    destruct ev as [|m| |hb ee eh| | | | | | | | | |]; cbn [event_votes] in Hin; try (inversion Hin; fail).
    - destruct m; cbn [msg_votes] in Hin; try (inversion Hin; fail); apply elem_of_list_singleton in Hin; try contradiction.
      + rewrite <- Hin in *. destruct Hf as ((_ & Hf & _) & _). rewrite Hid in Hf. contradiction.
      + apply Hold. rewrite Hin in *. apply Hf. rewrite Hid. exact Hm.
      + rewrite <- Hin in *. destruct Hf as ((_ & Hf & _) & _). rewrite Hid in Hf. contradiction.
    - destruct (note_taken ENote n) as [x|] eqn:Hn; [|inversion Hin]. unfold note_taken in Hn.
      assert (Hx : x ∈ nd_notes n).
      { destruct (runnable n); [discriminate|]. destruct (nd_notes n); [discriminate|]. injection Hn as ->. left. }
      pose proof (n_notes _ _ _ _ _ N) as Hno. rewrite Forall_forall in Hno. specialize (Hno x Hx).
      destruct x; cbn [note_votes] in Hin; try (inversion Hin; fail).
      + destruct (en_cand (nd_eng n)) as [c|] eqn:Hcd; [|inversion Hin]. destruct (_ && _) eqn:Hg; apply elem_of_list_singleton in Hin.
        * apply andb_true_iff in Hg as [_ Hg]. apply vote_eqb_true in Hg. cbn in Hno. rewrite Hg in Hno.
          destruct (ei_cl _ _ _ _ I c Hcd) as (C1 & C2 & C3 & _). rewrite C3 in Hno. destruct (Hno eq_refl) as [_ Hno2].
          rewrite Hin. cbn [into_committed v_leader]. rewrite C1 in *.
          eapply sandwich; [exact Hno2|exact Hch|reflexivity].
        * apply Hold. rewrite Hin in *. apply Hno. exact Hm.
      + apply elem_of_list_singleton in Hin. apply Hold. rewrite Hin in *. apply Hno. exact Hm.
    - apply elem_of_list_singleton in Hin. contradiction.
  Qed.

  Lemma own_fits_fits n n' D ev : ei E me D (nd_eng n) -> ev <> ERun -> own_fits E (nd_id n) (rs_last (nd_state n)) (step_produced ev n n') ->
    fits E me (dlast D) (nd_eng n) (nd_eng n').
  Proof using HE.
    intros I He Hf cs v es Ho Hin Hm. assert (Hid : nd_id n = me) by (apply (ei_id _ _ _ _ I)).
    rewrite <- (ec_last E _ _ (ei_ec _ _ _ _ I)). eapply Hf; [|rewrite Hid; exact Hm].
    destruct ev; try congruence; cbn [step_produced]; rewrite Ho, drop_app; exact Hin.
  Qed.
  Lemma msg_fits_ok n m : nd_id n = me -> vinv n -> msg_fits E n m -> msg_ok E me m (nd_eng n).
  Proof.
    intros Hid [_ Hch] Hf. apply vchain_le in Hch. destruct m; cbn in *; auto.
    - destruct Hf as ((F1 & F2 & F3) & F4 & F5 & F6 & F7). rewrite Hid in F2. repeat split; auto.
    - intros Hm. apply Hf. congruence.
    - destruct Hf as ((F1 & F2 & F3) & F4 & F5). rewrite Hid in F2. repeat split; auto; apply F4.
    - congruence.
  Qed.

  Theorem node_step_inv now ev n x : node_step now ev n = Ok x -> event_fits E n ev ->
    own_fits E (nd_id n) (rs_last (nd_state n)) (step_produced ev n x.1) -> node_inv n -> node_inv x.1.
  Proof using HE.
    intros Hs Hf Hown HN.
    assert (Hv' : vinv x.1).
    { destruct HN as (w0 & pcs & wv & D & N). destruct x as [n' outs].
      apply (node_step_vinv _ _ _ _ _ (n_v _ _ _ _ _ N) Hs). }
    assert (Hid : nd_id n = me) by (destruct HN as (w0 & pcs & wv & D & N); apply (ei_id _ _ _ _ (n_ei _ _ _ _ _ N))).
    assert (Hmoved : forall w0 pcs wv D, ninv w0 pcs wv D n -> ev <> ERun -> moved E me D (nd_eng n) (nd_eng x.1) -> same_rest n x.1 ->
      (forall y, y ∈ nd_notes x.1 -> y ∈ nd_notes n) -> pfx H (isn (nd_eng x.1)) (snap_last (nd_sm n)) -> node_inv x.1).
    { intros w0 pcs wv D N He M R1 R2 R3. eapply handled_inv; eauto. eapply handled_stored; eauto.
      destruct M as (D' & (_ & Hle & _) & _). exact Hle. }
    pose proof Hs as Hstep. destruct ev; cbn [node_step] in Hs; unfold when_idle in Hs.
    - eapply run_one_inv; eauto.
    - destruct (runnable n); [injection Hs as <-; exact HN|]. destruct HN as (w0 & pcs & wv & D & N).
      pose proof (handle_msg_prims _ _ _ _ Hs) as (_ & R1 & R2). eapply Hmoved; [exact N|discriminate| |exact R1| |].
      + eapply msg_moved; [exact HE|apply N| |exact Hs|]; [apply msg_fits_ok; auto; apply N|].
        eapply own_fits_fits; [apply N| |exact Hown]. discriminate.
      + rewrite R2. auto.
      + rewrite (handle_msg_isn _ _ _ _ Hs). apply N.
    - destruct (runnable n) eqn:Hrun; [injection Hs as <-; exact HN|]. destruct (nd_notes n) as [|y r] eqn:Hn; [injection Hs as <-; exact HN|].
      destruct HN as (w0 & pcs & wv & D & N). pose proof (n_notes _ _ _ _ _ N) as Hno. rewrite Hn in Hno. inversion Hno as [|? ? Hy Hr]; subst.
      pose proof (handle_note_prims _ _ _ _ Hs) as (_ & R1 & R2). cbn [nd_set_notes nd_notes] in R2.
      eapply Hmoved; [exact N|discriminate| |exact R1| |].
      + eapply (note_moved E me HE now y (nd_set_notes r n) x D); [apply N| |exact Hs|apply (own_fits_fits n x.1 D ENote); [apply N|discriminate|exact Hown]].
        pose proof (n_v _ _ _ _ _ N) as [_ Hch]. apply vchain_le in Hch.
        destruct y as [t resp sv|v sv|[]|ss t []| |[]]; cbn in *; auto.
        * intros Hm. apply Hy. exact Hm.
        * intros Hm. apply Hy. exact Hm.
        * eapply pfx_trans; [exact Hy|]. eapply pfx_trans; [eapply snap_applied; exact N|].
          eapply pfx_trans; [eapply applied_cur; exact N|eapply cur_committed; exact N].
      + rewrite R2. intros z Hz. right. exact Hz.
      + destruct (handle_note_isn _ _ _ _ Hs) as [Hi|(meta & Hx & Hi)]; rewrite Hi; [apply N|].
        destruct Hx as [->|(io & ->)]; exact Hy.
    - destruct (runnable n); [injection Hs as <-; exact HN|]. destruct HN as (w0 & pcs & wv & D & N).
      apply lift_prims in Hs as (e & He & ->). cbn [fst] in *. eapply Hmoved; [exact N|discriminate| |repeat split| |].
      + eapply tick_runs; [exact HE|apply N|exact He|]. eapply own_fits_fits; [apply N| |exact Hown]. discriminate.
      + auto.
      + cbn. rewrite (handle_tick_isn _ _ _ _ _ _ He). apply N.
    - destruct (runnable n); [injection Hs as <-; exact HN|]. destruct (en_leader (nd_eng n)); [|injection Hs as <-; exact HN].
      destruct HN as (w0 & pcs & wv & D & N).
      apply lift_prims in Hs as (e & He & ->). cbn [fst] in *. eapply Hmoved; [exact N|discriminate| |repeat split| |].
      + eapply idle_moved; [exact HE|apply N|exact He].
      + auto.
      + cbn. apply rh_initiate_prims in He. apply prims_isn in He; [|reflexivity]. rewrite He. apply N.
    - injection Hs as <-. apply flush_inv. exact HN.
    - destruct (so_callbacks _ !! i) as [io|] eqn:Hi; injection Hs as <-; [|exact HN]. apply callback_inv; assumption.
    - rok Hs. injection Hs as <-. eapply sm_step_inv; eauto.
    - injection Hs as <-. apply build_done_inv. exact HN.
    - eapply stream_send_inv; eauto.
    - injection Hs as <-. apply stream_fail_inv. exact HN.
    - injection Hs as <-. apply stream_snap_inv; [exact Logic.I|exact Hid|exact HN].
    - injection Hs as <-. unfold hb_send. destruct (bool_decide _); [|exact HN]. destruct (nd_hb n) as [[[] ]|]; exact HN.
    - injection Hs as <-. apply reply_inv; [exact Hf|exact Hid|exact HN].
  Qed.

  (** ** Restart *)

  Lemma ls_ids_sorted l : log_ok H l -> leaders_sorted (ls_ids l).
  Proof using HE.
    intros Hl i j x y Hij Hx Hy. pose proof (ls_ids_consecutive H Hok l Hl) as Hc.
    pose proof (Hc _ _ Hx) as Ix. pose proof (Hc _ _ Hy) as Iy.
    apply elem_of_list_lookup_2 in Hx, Hy. apply (ls_ids_elem H Hok _ _ Hl) in Hx as [Hx _], Hy as [Hy _].
    apply (pfx_leader H Hok). eapply (pfx_of_idx H Hok); [exact Hx|exact Hy|]. cbn. lia.
  Qed.
  Lemma ls_ids_length l : log_ok H l -> length (ls_ids l) <= next_index (ls_last l).
  Proof using HE.
    intros Hl. rewrite (log_ok_length H Hok _ Hl). unfold ls_ids. rewrite app_length, map_length.
    destruct (ls_purged l) as [p|]; cbn; lia.
  Qed.
  Lemma load_is l ids : log_ok H l ->
    load_log_ids (S (2 * next_index (ls_last l))) (ls_purged l) (ls_last l)
      (fun i => match ls_read i (S i) l with e :: _ => Some (e_log_id e) | [] => None end) = LoadOk ids ->
    lil_rep ids (ls_ids l).
  Proof using HE.
    intros Hl Hld. pose proof (ls_ids_consecutive H Hok l Hl) as Hc.
    rewrite <- (ls_ids_last l) in Hld at 2.
    rewrite (load_log_ids_compress _ (ls_base l) (ls_ids l)) in Hld.
    - injection Hld as <-. eapply compress_rep. exact Hc.
    - exact Hc.
    - apply ls_ids_sorted. exact Hl.
    - unfold ls_base, ls_ids. destruct (ls_purged l); reflexivity.
    - intros i x Hx Hb. apply (ls_get H Hok) in Hx as (Hx & Hi & <-); [|exact Hl].
      destruct Hl as [Hp Hch]. unfold ls_read. rewrite (filter_chain_range H Hok _ _ _ _ Hch).
      assert (Hge : next_index (ls_purged l) <= lid_index x).
      { unfold ls_base in Hb. destruct (ls_purged l); cbn in *; [destruct Hb; [discriminate|lia]|lia]. }
      rewrite ls_last_es in Hx. destruct (chain_in H Hok _ _ _ Hch Hx Hge) as (e & He & <-).
      replace (Nat.max (lid_index (e_log_id e)) (next_index (ls_purged l))) with (lid_index (e_log_id e)) by lia.
      replace (S (lid_index (e_log_id e)) - lid_index (e_log_id e)) with 1 by lia.
      rewrite (drop_S _ _ _ He). reflexivity.
    - pose proof (ls_ids_length l Hl). lia.
  Qed.

  Record disk_ok (d : Disk) (sm : StateMachine) : Prop := {
    do_log : log_ok H (dk_log d);
    do_lead : oleader_le (dlast d) (vl d);
    do_com : pfx H (dk_committed d) (dlast d);
    do_sm : sm_ok sm;
    do_purged : pfx H (ls_purged (dk_log d)) (snap_last sm);
    do_cmp : pfx H (dk_committed d) (sm_applied sm) \/ pfx H (sm_applied sm) (dk_committed d);
    do_applead : oleader_le (sm_applied sm) (vl d);
  }.

  Lemma reapply_ok d sm sm1 : disk_ok d sm ->
    (if ologid_ltb (sm_applied sm) (start_committed d sm)
     then helper_reapply (next_index (sm_applied sm)) (next_index (start_committed d sm)) (dk_log d) sm = Ok sm1
     else sm1 = sm /\ start_committed d sm = sm_applied sm) ->
    sm_ok sm1 /\ sm_applied sm1 = start_committed d sm /\ sm_snapshot sm1 = sm_snapshot sm.
  Proof using HE.
    intros [D1 D2 D3 D4 D5 D6 D7] Hre. destruct (ologid_ltb (sm_applied sm) (start_committed d sm)) eqn:Hlt.
    2:{ destruct Hre as [-> ->]. auto. }
    unfold start_committed in *. destruct (ologid_ltb (dk_committed d) (sm_applied sm)) eqn:Hl2.
    { exfalso. revert Hlt. clear. generalize (sm_applied sm). ord. }
    assert (Hp : pfx H (sm_applied sm) (dk_committed d)).
    { destruct D6 as [D6|D6]; [|exact D6]. apply (pfx_le H Hok) in D6. exfalso. revert D6 Hlt. clear.
      generalize (sm_applied sm), (dk_committed d). ord. }
    destruct (dk_committed d) as [c|] eqn:Hc; [|exfalso; revert Hlt; clear; generalize (sm_applied sm); ord].
    unfold helper_reapply in Hre. destruct (_ =? _); [|discriminate]. injection Hre as <-. cbn [next_index].
    assert (Hsa : pfx H (snap_last sm) (sm_applied sm)).
    { unfold snap_last. destruct (sm_snapshot sm) as [sn|] eqn:Hs; [apply (sm_sn _ D4 sn Hs)|].
      rewrite (sm_app _ D4). apply chain_pfx. apply D4. }
    destruct (read_chain (dk_log d) (sm_applied sm) c D1) as (R1 & R2 & R3); [pt|exact Hp|exact D3|].
    destruct (sm_apply_ok _ sm D4 R1) as (A1 & A2 & _). split; [exact A1|].
    destruct (sm_apply_spec (ls_read (next_index (sm_applied sm)) (S (lid_index c)) (dk_log d)) sm (sm_memb _ D4)) as (_ & _ & _ & A5).
    split; [|exact A5]. rewrite A2. exact R2.
  Qed.

  (** the membership is loaded from what the state machine [sm1] and the log hold after re-applying *)
  Definition start_loaded (d : Disk) (n : Node) : Prop :=
    exists e0 D' sm1,
      en_out e0 = [] /\ runs E me (so_disk (nd_store n)) e0 D' (nd_eng n) /\ ei E me (so_disk (nd_store n)) e0 /\
      so_pending (nd_store n) = [] /\ prims ks_startup e0 (nd_eng n) /\
      sm_ok sm1 /\ sm_applied sm1 = rs_committed (en_state e0) /\ rs_mem (en_state e0) = helper_get_membership (dk_log d) sm1 /\
      log_ok H (dk_log d) /\
      ((dk_log (so_disk (nd_store n)) = dk_log d /\ pfx H (sm_applied sm1) (dlast d) /\ pfx H (ls_purged (dk_log d)) (sm_applied sm1)) \/
       (dlast (so_disk (nd_store n)) = sm_applied sm1 /\ next_index (dlast d) <= next_index (sm_applied sm1))).
  Lemma start_full now cfg d sm n : disk_ok d sm -> crash_fits E d sm -> node_start now cfg d sm = Ok n ->
    nd_id n = me -> own_fits E me (dlast (so_disk (nd_store n))) (en_out (nd_eng n)) -> node_inv n /\ start_loaded d n.
  Proof using HE.
    intros K Hcf Hs Hid Hown. pose proof (node_start_vinv _ _ _ _ _ Hs) as (Hv & Hsv & Hrv).
    unfold node_start in Hs. rok Hs. destruct x as [[s d1] sm2]. rok Hs. rename x into e. injection Hs as <-.
    cbn [nd_store so_disk nd_eng] in Hown.
    apply helper_initial_inv in Hx as (sm1 & ll & lp & ids & Hx). cbv zeta in Hx.
    set (c := start_committed d sm) in *. destruct Hx as (Hre & Hd & Hld & Hsm2 & Hss).
    destruct (reapply_ok d sm sm1 K Hre) as (M1 & M2 & M3). fold c in M2.
    pose proof K as [D1 D2 D3 D4 D5 D6 D7].
    assert (Hcd : pfx H (dk_committed d) c).
    { subst c. unfold start_committed. clear Hre Hd Hld. destruct (ologid_ltb (dk_committed d) (sm_applied sm)) eqn:Hlt; [|constructor].
      destruct D6 as [D6|D6]; [exact D6|]. apply (pfx_le H Hok) in D6. exfalso. revert Hlt D6. clear.
      generalize (sm_applied sm), (dk_committed d). ord. }
    assert (Hcc : c = sm_applied sm \/ c = dk_committed d).
    { subst c. unfold start_committed. destruct (ologid_ltb (dk_committed d) (sm_applied sm)); auto. }
    clearbody c. clear Hre.
    assert (Hcl : oleader_le c (vl d)).
    { destruct Hcc as [->| ->]; [exact D7|]. exact (pfx_oleader H Hok _ _ _ D3 D2). }
    assert (Hcr : pfx H None c) by (rewrite <- M2, (sm_app _ M1); apply chain_pfx; apply M1).
    assert (Hsl1 : snap_last sm1 = snap_last sm) by (unfold snap_last; rewrite M3; reflexivity).
    assert (M4 : pfx H (snap_last sm1) c).
    { unfold snap_last. destruct (sm_snapshot sm1) as [sn|] eqn:Hsn; [|exact Hcr]. rewrite <- M2. apply (sm_sn _ M1 sn Hsn). }
    (* the disk after the start *)
    assert (Hdk : dk_vote d1 = dk_vote d /\ dk_committed d1 = dk_committed d /\ log_ok H (dk_log d1) /\ ll = dlast d1 /\
      lp = ls_purged (dk_log d1) /\ oleader_le (dlast d1) (vl d) /\ pfx H c (dlast d1) /\
      (lp = ls_purged (dk_log d) \/ (lp = c /\ (sm_snapshot sm1 = None \/ snap_last sm1 = c))) /\
      (dk_log d1 = dk_log d \/ (dlast d1 = c /\ next_index (dlast d) <= next_index c))).
    { destruct Hd as [(Hsp & Hd1 & Hl1 & -> & ->)|(Hsp & -> & -> & ->)].
      - rewrite Hd1. cbn [dk_vote dk_committed dk_log]. rewrite Hl1. destruct c as [x|] eqn:Hc; [|contradiction].
        unfold start_purges in Hsp.
        destruct Hcf as [Hcf|(F1 & F2 & F3)].
        + exfalso. assert (Hle : pfx H (Some x) (dlast d)).
          { destruct Hcc as [->| ->]; assumption. }
          apply (pfx_le H Hok) in Hle. revert Hle Hsp. clear. generalize (dlast d). ord.
        + assert (Hca : sm_applied sm = Some x).
          { destruct Hcc as [Hcc|Hcc]; [auto|]. exfalso. rewrite <- Hcc in D3. apply (pfx_le H Hok) in D3.
            revert D3 Hsp. clear. generalize (dlast d). ord. }
          rewrite Hca in F3. cbn in F3. destruct (ls_purge_beyond H Hok x (dk_log d) D1 Hcr F3) as [P1 P2].
          split; [reflexivity|]. split; [reflexivity|]. split; [exact P1|]. split; [symmetry; exact P2|].
          split; [reflexivity|]. rewrite P2. split; [exact Hcl|]. split; [constructor|]. split; [|right; split; [reflexivity|exact F3]].
          right. split; [reflexivity|].
          rewrite M3, Hsl1, <- Hca. exact F1.
      - split; [reflexivity|]. split; [reflexivity|]. split; [exact D1|]. split; [reflexivity|]. split; [reflexivity|].
        split; [exact D2|]. split; [|split; left; reflexivity].
        destruct Hcc as [Hcc|Hcc]; [|rewrite Hcc; exact D3].
        destruct Hcf as [Hcf|(F1 & F2 & F3)]; [rewrite Hcc; exact Hcf|]. exfalso. apply Hsp.
        rewrite Hcc. unfold start_purges. destruct (sm_applied sm); [exact F2|]. revert F2. clear. generalize (dlast d). ord. }
    clear Hd. destruct Hdk as (K1 & K2 & K3 & -> & -> & K4 & K5 & K6 & K7).
    apply (load_is _ _ K3) in Hld.
    assert (Hdv : dvote d1 = dvote d) by (unfold dvote; rewrite K1; reflexivity).
    (* the state machine after the start *)
    assert (Hsm : sm_ok sm2 /\ sm_applied sm2 = c /\ pfx H (ls_purged (dk_log d1)) (snap_last sm2) /\ pfx H (snap_last sm2) c /\
      sm_last (match sm_snapshot sm2 with Some sn => sn_meta sn | None => sm_default end) = snap_last sm2).
    { assert (Hl : sm_last (match sm_snapshot sm2 with Some sn => sn_meta sn | None => sm_default end) = snap_last sm2).
      { unfold snap_last. destruct (sm_snapshot sm2); reflexivity. }
      rewrite Hl. clear Hl. destruct (sm_snapshot sm1) as [sn|] eqn:Hsn.
      - subst sm2. split; [exact M1|]. split; [exact M2|]. split; [|split; [exact M4|reflexivity]].
        destruct K6 as [->|(-> & [K6|K6])]; [rewrite Hsl1; exact D5|discriminate|rewrite K6; constructor].
      - destruct (ls_purged (dk_log d1)) as [p|] eqn:Hp.
        + subst sm2. cbn [sm_applied sm_snapshot]. pose proof (build_is_ok sm1 M1) as B.
          assert (Hsl : snap_last (mkSM (sm_entries sm1) (sm_applied sm1) (sm_membership sm1) (Some (sm_build sm1))) = c) by (cbn; exact M2).
          rewrite Hsl. split; [|split; [exact M2|split; [|split; [constructor|reflexivity]]]].
          * destruct M1 as [S1 S2 S3 S4]. constructor; cbn; auto. intros sn [= <-]. exact B.
          * destruct K6 as [->|(-> & _)]; [|constructor]. eapply pfx_trans; [exact D5|]. rewrite <- Hsl1. exact M4.
        + subst sm2. split; [exact M1|]. split; [exact M2|]. split; [|split; [exact M4|reflexivity]].
          unfold snap_last. rewrite Hsn. constructor. }
    destruct Hsm as (N1 & N2 & N3 & N4 & N5).
    set (e0 := engine_new s cfg) in *.
    assert (Hcfg : en_cfg e = en_cfg e0).
    { pose proof (en_startup_prims _ _ _ Hx0) as Hp. revert Hp.
      apply (prims_ind_rel ks_startup (fun a b => en_cfg b = en_cfg a)); [reflexivity|congruence|].
      intros k a b _ Hp. eapply prim_cfg; exact Hp. }
    assert (Hid0 : en_id e0 = me).
    { rewrite <- Hid. unfold nd_id, en_id. cbn [nd_eng]. rewrite Hcfg. reflexivity. }
    assert (Hrs : rs_v s = dvote d1) by (rewrite Hdv, Hss; reflexivity).
    assert (Hrc : rs_committed s = c) by (rewrite Hss; reflexivity).
    assert (I0 : ei E me d1 e0).
    { constructor; cbn [e0 engine_new en_state en_leader en_cand].
      - constructor.
        + exact K3.
        + rewrite Hss. exact Hld.
        + rewrite Hss. reflexivity.
        + rewrite Hrs. reflexivity.
        + rewrite Hrs. apply vote_geb_refl.
        + rewrite Hss. constructor.
        + rewrite Hss. unfold rs_snap_last. cbn [rs_purge_upto rs_snap]. rewrite N5. exact N3.
        + rewrite Hss. unfold rs_snap_last. cbn [rs_snap rs_committed]. rewrite N5. exact N4.
        + rewrite Hrc. exact K5.
        + rewrite Hrc, K2. exact Hcd.
        + rewrite Hrs, Hdv. exact K4.
      - symmetry. exact Hrs.
      - unfold acc_ok. rewrite Hrs. rewrite Hss. cbn [rs_io io_state_new io_accepted]. fold (dvote d). rewrite <- Hdv.
        unfold io_new. destruct (dvote d1) as [L cm] eqn:Hvv. cbn [v_committed]. destruct cm.
        + cbn. split; [reflexivity|]. split; [apply vote_geb_refl|]. split; [intros _; apply HE|]. intros _. apply log_ok_root. exact K3.
        + split; [reflexivity|]. apply vote_geb_refl.
      - intros l Hl. discriminate.
      - intros l Hl. discriminate.
      - exact Hid0. }
    assert (Hrun : exists D', runs E me d1 e0 D' e /\ ei E me D' e).
    { unfold en_startup in Hx0. destruct (rs_is_leader (en_state e0) (en_id e0)).
      - destruct (internal_runs E me HE now d1 e0 e I0 Hx0) as (D' & R & I' & _); [|eauto].
        intros cs v es Ho Hin Hm. eapply Hown; [|exact Hm]. rewrite Ho. cbn. exact Hin.
      - injection Hx0 as <-. exists d1. split; [apply runs_quiet; reflexivity|]. destruct I0 as [A1 A2 A3 A4 A5 A6].
        constructor; unpush.
        + eapply ec_ext; [exact A1|reflexivity..].
        + exact A2.
        + exact A3.
        + intros l Hl. discriminate.
        + intros l Hl. discriminate.
        + exact A6. }
    destruct Hrun as (D' & Rn & I'). split.
    2:{ exists e0, D', sm1. split; [reflexivity|]. split; [exact Rn|]. split; [exact I0|]. split; [reflexivity|].
        split; [eapply en_startup_prims; exact Hx0|]. split; [exact M1|]. split; [rewrite M2; symmetry; exact Hrc|].
        split; [cbn [e0 engine_new en_state]; rewrite Hss; reflexivity|]. split; [exact D1|]. rewrite M2.
        destruct K7 as [K7|K7]; [left|right; exact K7]. cbn [nd_store so_disk]. split; [exact K7|]. split; [rewrite <- K7; exact K5|].
        rewrite <- K7. eapply pfx_trans; [exact N3|exact N4]. }
    destruct Rn as (_ & _ & cs & Ho & Hw). cbn [e0 engine_new en_out en_state app] in Ho, Hw.
    assert (Hw0 : mkW d1 (rs_committed s) MNone = mkW d1 c MNone) by (rewrite Hrc; reflexivity). rewrite Hw0 in Hw.
    exists (mkW d1 c MNone), [], (mkW d1 c MNone), D'.
    constructor; cbn [nd_store so_disk so_pending nd_eng nd_sm nd_smq nd_builds nd_notes nd_streams w_d w_cur].
    - reflexivity.
    - reflexivity.
    - pose proof (ec_pos E HE _ _ (ei_ec _ _ _ _ I0)) as P. cbn [e0 engine_new en_state] in P. rewrite Hrc in P. exact P.
    - reflexivity.
    - rewrite Ho. exact Hw.
    - exact I'.
    - exact N1.
    - cbn. symmetry. exact N2.
    - intros f l Hin. inversion Hin.
    - exact N3.
    - pose proof (prims_isn _ _ _ (en_startup_prims _ _ _ Hx0) eq_refl) as Hi. change (pfx H (isn e) (snap_last sm2)). rewrite Hi. cbn [e0 engine_new en_state]. rewrite Hss. cbn [rs_io io_state_new io_snapshot].
      rewrite N5. constructor.
    - constructor.
    - constructor.
    - constructor.
    - constructor.
    - constructor.
    - intros _ _. rewrite Hsv, Hrv. reflexivity.
    - exact Hv.
  Qed.
  Lemma start_inv now cfg d sm n : disk_ok d sm -> crash_fits E d sm -> node_start now cfg d sm = Ok n ->
    nd_id n = me -> own_fits E me (dlast (so_disk (nd_store n))) (en_out (nd_eng n)) -> node_inv n.
  Proof using HE. intros. eapply start_full; eauto. Qed.

  (** the disk a crash leaves *)
  Lemma crash_disk_ok k j keep n : node_inv n -> disk_ok (crash_disk k j (nd_store n)) (sm_crash keep (nd_sm n)).
  Proof using HE.
    intros (w0 & pcs & wv & D & N). destruct (n_v _ _ _ _ _ N) as [Hnw _].
    destruct (crash_sm_ok keep _ (n_sm _ _ _ _ _ N)) as (S1 & S2 & S3).
    assert (Hsl : snap_last (sm_crash keep (nd_sm n)) = snap_last (nd_sm n)) by (unfold snap_last; rewrite S3; reflexivity).
    assert (Hap : pfx H (sm_applied (sm_crash keep (nd_sm n))) (w_cur wv)).
    { eapply pfx_trans; [exact S2|]. eapply applied_cur. exact N. }
    pose proof (ninv_posv _ _ _ _ _ N) as Pv. pose proof (n_purged _ _ _ _ _ N) as Hpu.
    pose proof (view_vote _ _ _ _ _ N) as Hvv.
    pose proof (n_pend _ _ _ _ _ N) as Hp. pose proof (n_w1 _ _ _ _ _ N) as W1. pose proof (n_pos _ _ _ _ _ N) as P0.
    pose proof (n_d0 _ _ _ _ _ N) as Hd0. clear N.
    rewrite <- (take_drop k (so_pending (nd_store n))), map_app in Hp.
    apply omap_split in Hp as (p1 & p2 & -> & Hp1 & Hp2).
    destruct (walk_pos_mid E me Hok _ _ _ _ P0 W1) as (m & Pm & Wa & Wb).
    assert (Hmd : w_d m = foldl wop_apply (so_disk (nd_store n)) (map fst (take k (so_pending (nd_store n))))).
    { rewrite (walk_view _ _ _ Wa), Hp1, Hd0. reflexivity. }
    assert (Hpc : pfx H (dk_committed (w_d m)) (bound wv)).
    { eapply pfx_trans; [apply (pos_bound E _ Pm)|]. apply (walk_cur E me Hok _ _ _ Pm Wb). }
    assert (Hvm : vl (w_d m) = vl (w_d wv)).
    { unfold vl. rewrite Hvv. unfold stored_vote, dvote. rewrite Hmd, foldl_no_wvote by (apply no_wvote_take; exact Hnw). reflexivity. }
    assert (Hdm : disk_ok (w_d m) (sm_crash keep (nd_sm n))).
    { constructor.
      - apply Pm.
      - apply Pm.
      - apply Pm.
      - exact S1.
      - rewrite Hsl. eapply pfx_trans; [|exact Hpu]. eapply walk_purged; [exact Pm|exact Wb].
      - eapply (pfx_linear H); [exact Hpc|]. eapply pfx_trans; [exact Hap|]. apply (pos_bound E _ Pv).
      - rewrite Hvm. eapply (pfx_oleader H Hok); [exact Hap|]. apply Pv. }
    unfold crash_disk. rewrite <- Hmd. rewrite list_lookup_fmap.
    destruct (so_pending (nd_store n) !! k) as [[op io]|] eqn:Hk; [|exact Hdm]. cbn [fmap option_fmap option_map fst].
    destruct op as [ | |es | |]; try exact Hdm.
    (* part of an append *)
    rewrite (drop_S _ _ _ Hk) in Hp2. cbn [map fst] in Hp2.
    change (WAppend es :: map fst (drop (S k) (so_pending (nd_store n)))) with ([WAppend es] ++ map fst (drop (S k) (so_pending (nd_store n)))) in Hp2.
    apply omap_split in Hp2 as (q1 & q2 & -> & Hq1 & Hq2).
    apply walk_app in Wb as (m2 & Wc & _).
    assert (Hq : exists m1 v, pos E m1 /\ w_d m1 = w_d m /\ wok E me m1 (AppendInputEntries v es)).
    { clear - Wc Hq1 Pm HE. assert (Hok' : hist_ok H) by apply HE. revert m Pm Wc. induction q1 as [|c r IH]; intros m Pm; [discriminate|].
      cbn [walk]. intros [W1 W2]. cbn in Hq1. destruct (cmd_wop c) as [op|] eqn:Hc.
      - injection Hq1 as -> _. destruct c; cbn in Hc; try discriminate. injection Hc as <-. exists m. eauto.
      - destruct (IH Hq1 (wnext m c)) as (m1 & v & P1 & D1 & W3); [eapply wok_pos; eauto|exact W2|].
        exists m1, v. split; [exact P1|]. split; [|exact W3]. rewrite D1. cbn. unfold dapply. rewrite Hc. reflexivity. }
    destruct Hq as (m1 & v & P1 & Hm1 & _ & _ & Hch & Hle & _). rewrite Hm1 in Hch, Hle.
    destruct Hdm as [A1 A2 A3 A4 A5 A6 A7].
    pose proof (chain_take H _ _ j Hch) as Hct. destruct (ls_append_ok H _ _ A1 Hct) as [B1 B2].
    assert (Hpl : pfx H (es_last (dlast (w_d m)) (take j es)) (es_last (dlast (w_d m)) es)).
    { rewrite <- (take_drop j es) at 2. rewrite es_last_app. apply chain_pfx.
      rewrite <- (take_drop j es) in Hch. apply chain_app in Hch as [_ ?]. assumption. }
    constructor; cbn [wop_apply dk_log dk_committed ls_append ls_purged]; auto.
    - change (oleader_le (ls_last (ls_append (take j es) (dk_log (w_d m)))) (vl (w_d m))). rewrite B2.
      eapply (pfx_oleader H Hok); [exact Hpl|exact Hle].
    - change (pfx H (dk_committed (w_d m)) (ls_last (ls_append (take j es) (dk_log (w_d m))))). rewrite B2.
      eapply pfx_trans; [exact A3|]. apply chain_pfx. exact Hct.
  Qed.

  Theorem node_act_inv a n x : node_act a n = Ok x -> act_fits E a n x.1 -> nd_id n = me -> node_inv n -> node_inv x.1 /\ nd_id x.1 = me.
  Proof using HE.
    intros Ha Hf Hid HN. destruct a as [now ev|now k j keep]; cbn [node_act act_fits] in *.
    - destruct Hf as [Hf Hown]. pose proof (node_step_inv now ev n x Ha Hf Hown HN) as HN'. split; [exact HN'|].
      destruct HN' as (w0 & pcs & wv & D & N). apply (ei_id _ _ _ _ (n_ei _ _ _ _ _ N)).
    - rok Ha. injection Ha as <-. cbn [fst] in *. destruct Hf as [Hcf Hown]. rename x0 into n'.
      assert (Hid' : nd_id n' = me).
      { rewrite <- Hid. unfold node_restart, node_start in Hx. rok Hx. destruct x as [[s d1] sm1]. rok Hx. injection Hx as <-.
        unfold nd_id, en_id. cbn [nd_eng]. apply en_startup_prims in Hx1.
        assert (Hc : en_cfg x = en_cfg (engine_new s (en_cfg (nd_eng n)))).
        { revert Hx1. apply (prims_ind_rel ks_startup (fun a b => en_cfg b = en_cfg a)); [reflexivity|congruence|].
          intros ? a b _ Hp. eapply prim_cfg; exact Hp. }
        rewrite Hc. reflexivity. }
      split; [|exact Hid']. eapply start_inv; [apply crash_disk_ok; exact HN|exact Hcf|exact Hx|exact Hid'|].
      rewrite <- Hid. exact Hown.
  Qed.
  Theorem node_run_inv acts : forall n x, node_run acts n = Ok x -> run_fits E acts n -> nd_id n = me -> node_inv n ->
    node_inv x.1 /\ nd_id x.1 = me.
  Proof using HE.
    induction acts as [|a r IH]; intros n x Hr; cbn [node_run run_fits] in *.
    - injection Hr as <-. auto.
    - rok Hr. rok Hr. injection Hr as <-. intros [Hf Hfr] Hid HN.
      destruct (node_act_inv a n _ Hx Hf Hid HN) as [HN' Hid']. apply (IH _ _ Hx0 Hfr Hid' HN').
  Qed.
  Theorem fresh_inv now cfg n : node_fresh now cfg = Ok n -> ec_id cfg = me -> node_inv n /\ nd_id n = me.
  Proof using HE.
    intros Hf Hid.
    assert (Hn : nd_id n = me /\ en_out (nd_eng n) = []).
    { unfold node_fresh, node_start in Hf. rok Hf. destruct x as [[s d1] sm1]. rok Hf. injection Hf as <-.
      apply helper_initial_inv in Hx as (? & ? & ? & ? & Hx). cbv zeta in Hx. destruct Hx as (_ & _ & _ & _ & Hx).
      unfold en_startup in Hx0. cbn [engine_new en_state] in Hx0.
      assert (Hl : rs_is_leader s (en_id (engine_new s cfg)) = false).
      { rewrite Hx. unfold rs_is_leader. cbn. apply andb_false_r. }
      rewrite Hl in Hx0. injection Hx0 as <-. split; [exact Hid|reflexivity]. }
    destruct Hn as [Hn Ho]. split; [|exact Hn].
    eapply start_inv; [| |exact Hf|exact Hn|].
    - constructor; cbn; try constructor; try exact Logic.I; try constructor; try discriminate; cbn; auto.
    - left. constructor.
    - rewrite Ho. intros v es Hin. inversion Hin.
  Qed.
End node.
