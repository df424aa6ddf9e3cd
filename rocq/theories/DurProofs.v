(** A node's disk supports the positive answers it has sent: what is known of the writes
    in flight and of the commands in the queue. *)
From Coq Require Import Bool Lia ZifyBool ZifyNat.
From stdpp Require Import base numbers option gmap relations list.
From Verif Require Import Types TypesProofs LogIdList LogIdListProofs Membership Progress RaftState
  ProgressEntry Engine EnginePrims Store RaftCore NodeSpec NodePrims KindProofs VoteNodeProofs LogSpec LogProofs WalkProofs
  EngLogProofs NodeLogProofs StepLogProofs LogPropSpec LogStateProofs.

Section dur.
  Context (E : Env) (me : nat) (HE : env_ok E).
  Notation H := (ev_hist E).
  Notation tip := (ev_tip E).
  Let Hok : hist_ok H := proj1 HE.

  (** another node leads *)
  Definition fgn (L : LeaderId) : Prop := li_node L <> me /\ li_term L <> 0.

  (** the disk supports a write id *)
  Definition cov (d : Disk) (io : IOId) : Prop :=
    leader_leb (v_leader (io_vote io)) (vl d) = true /\
    match io with
    | IOVote v => v_committed v = false
    | IOLog v x =>
        fgn (v_leader v) -> v_committed v = true /\ vote_le v (dvote d) /\
        (v_leader v = vl d -> pfx H x (tip (vl d)) /\ pfx H x (dlast d))
    end.
  Definition eid (es : list Entry) : option LogId := e_log_id <$> last es.

  (** what is known of a write when it is submitted *)
  Definition pok (d : Disk) (p : WOp * option IOId) : Prop :=
    log_ok H (dk_log d) /\
    match p.1 with
    | WVote _ => False
    | WCommitted _ => p.2 = None
    | WAppend es =>
        es <> [] /\ chain H (dlast d) es /\
        exists v, p.2 = Some (IOLog v (eid es)) /\ v_leader v = vl d /\
          (fgn (vl d) -> v = dvote d /\ v_committed v = true /\ pfx H (eid es) (tip (vl d)))
    | WTruncate y =>
        p.2 = None /\ next_index (ls_purged (dk_log d)) <= lid_index y /\
        (fgn (vl d) -> forall x, pfx H x (tip (vl d)) -> pfx H x (dlast d) -> next_index x <= lid_index y)
    | WPurge u =>
        p.2 = None /\ pfx H (Some u) (dlast d) /\ next_index (ls_purged (dk_log d)) <= S (lid_index u)
    end.
  Fixpoint pwalk (d : Disk) (l : list (WOp * option IOId)) : Prop :=
    match l with
    | [] => True
    | p :: r => pok d p /\ pwalk (wop_apply d p.1) r
    end.
  Lemma pwalk_app d a b : pwalk d (a ++ b) <-> pwalk d a /\ pwalk (foldl wop_apply d (map fst a)) b.
  Proof.
    revert d. induction a as [|p a IH]; intros d; cbn [app pwalk map foldl]; [tauto|]. rewrite IH. tauto.
  Qed.
  Lemma es_last_eid es p : es <> [] -> es_last p es = eid es.
  Proof. unfold es_last, eid. intros Hne. destruct (last es) as [e|] eqn:Hl; [reflexivity|]. apply last_None in Hl. contradiction. Qed.

  Lemma pok_vote d p : pok d p -> dk_vote (wop_apply d p.1) = dk_vote d.
  Proof. intros [_ Hp]. destruct p as [[]]; cbn in *; [contradiction|reflexivity..]. Qed.
  Lemma pok_dvote d p : pok d p -> dvote (wop_apply d p.1) = dvote d.
  Proof. intros Hp. unfold dvote. rewrite (pok_vote _ _ Hp). reflexivity. Qed.
  Lemma append_last d es : log_ok H (dk_log d) -> chain H (dlast d) es -> dlast (wop_apply d (WAppend es)) = es_last (dlast d) es.
  Proof. intros Hl Hc. cbn [wop_apply dk_log]. apply (ls_append_ok H); assumption. Qed.
  (** a prefix of the log of the stage that the leader's log has too stays *)
  Lemma pok_keep d p x : pok d p -> fgn (vl d) -> pfx H x (tip (vl d)) -> pfx H x (dlast d) -> pfx H x (dlast (wop_apply d p.1)).
  Proof using HE.
    intros [Hl Hp] Hf Ht Hx. destruct p as [[v|c|es|y|u] io]; cbn [fst snd] in *.
    - contradiction.
    - exact Hx.
    - destruct Hp as (_ & Hc & _). rewrite (append_last d es Hl Hc). eapply pfx_trans; [exact Hx|]. apply chain_pfx. exact Hc.
    - destruct Hp as (_ & Hpu & Hy). cbn [wop_apply dk_log]. destruct (ls_truncate_ok H Hok (lid_index y) (dk_log d) Hl Hpu) as (_ & H1 & H2).
      eapply (pfx_of_idx H Hok); [exact Hx|exact H1|]. rewrite H2. specialize (Hy Hf x Ht Hx). pose proof (pfx_idx H Hok _ _ Hx). lia.
    - destruct Hp as (_ & Hu & Hpu). cbn [wop_apply dk_log]. destruct (ls_purge_ok H Hok u (dk_log d) Hl Hu Hpu) as [_ H2]. rewrite H2. exact Hx.
  Qed.
  Lemma pok_cov d p i : pok d p -> cov d i -> cov (wop_apply d p.1) i.
  Proof using HE.
    intros Hp [C1 C2]. pose proof (pok_dvote _ _ Hp) as Hv. assert (Hvl : vl (wop_apply d p.1) = vl d) by (unfold vl; rewrite Hv; reflexivity).
    split; [rewrite Hvl; exact C1|]. destruct i as [v|v x]; [exact C2|]. intros Hf. destruct (C2 Hf) as (K1 & K2 & K3).
    split; [exact K1|]. split; [rewrite Hv; exact K2|]. rewrite Hvl. intros Hl. destruct (K3 Hl) as [K4 K5]. split; [exact K4|].
    apply pok_keep; auto. rewrite <- Hl. exact Hf.
  Qed.
  Lemma pok_new d p i : pok d p -> p.2 = Some i -> cov (wop_apply d p.1) i.
  Proof using HE.
    intros Hp Hi. pose proof (pok_dvote _ _ Hp) as Hv. assert (Hvl : vl (wop_apply d p.1) = vl d) by (unfold vl; rewrite Hv; reflexivity).
    destruct Hp as [Hl Hp]. destruct p as [[v|c|es|y|u] io]; cbn [fst snd] in *; try (destruct Hp; congruence); try contradiction; [congruence|].
    destruct Hp as (Hne & Hc & v & Hio & Hvv & Hf). rewrite Hio in Hi. injection Hi as <-.
    split; [cbn [io_vote]; rewrite Hvl, Hvv; apply leader_leb_refl|].
    intros Hfg. rewrite Hvv in Hfg. destruct (Hf Hfg) as (K1 & K2 & K3). split; [exact K2|]. split.
    { rewrite Hv, K1. apply vote_geb_refl. }
    rewrite Hvl. intros _. split; [exact K3|]. rewrite (append_last d es Hl Hc), (es_last_eid es _ Hne). constructor.
  Qed.
  Lemma pwalk_cov l : forall d i, pwalk d l -> cov d i -> cov (foldl wop_apply d (map fst l)) i.
  Proof using HE.
    induction l as [|p r IH]; intros d i; cbn [pwalk map foldl]; [auto|]. intros [Hp Hr] Hc. apply IH; [exact Hr|].
    apply pok_cov; assumption.
  Qed.
  Lemma pwalk_new l : forall d i, pwalk d l -> i ∈ omap snd l -> cov (foldl wop_apply d (map fst l)) i.
  Proof using HE.
    induction l as [|p r IH]; intros d i; cbn [pwalk map foldl omap list_omap]; [intros _ Hi; apply elem_of_nil in Hi as []|].
    intros [Hp Hr] Hi. destruct (p.2) as [j|] eqn:Hj; [|apply IH; assumption].
    apply elem_of_cons in Hi as [->|Hi]; [|apply IH; assumption]. apply pwalk_cov; [exact Hr|]. apply pok_new; assumption.
  Qed.
  Lemma pwalk_vote l : forall d, pwalk d l -> dvote (foldl wop_apply d (map fst l)) = dvote d.
  Proof.
    induction l as [|p r IH]; intros d; cbn [pwalk map foldl]; [auto|]. intros [Hp Hr]. rewrite (IH _ Hr). apply pok_dvote. exact Hp.
  Qed.
  (** what the log as read holds is on disk or below the end of a pending append *)
  Lemma pwalk_last l : forall d x, pwalk d l -> pfx H x (dlast (foldl wop_apply d (map fst l))) ->
    pfx H x (dlast d) \/ exists es io, (WAppend es, io) ∈ l /\ pfx H x (eid es).
  Proof using HE.
    induction l as [|p r IH]; intros d x; cbn [pwalk map foldl]; [auto|]. intros [[Hl Hp] Hr] Hx.
    destruct (IH _ _ Hr Hx) as [Hd|(es & io & Hin & He)]; [|right; exists es, io; split; [apply elem_of_cons; auto|exact He]].
    destruct p as [[v|c|es|y|u] io]; cbn [fst snd] in *.
    - contradiction.
    - auto.
    - destruct Hp as (Hne & Hc & _). rewrite (append_last d es Hl Hc), (es_last_eid es _ Hne) in Hd. right. exists es, io.
      split; [apply elem_of_cons; auto|exact Hd].
    - destruct Hp as (_ & Hpu & _). destruct (ls_truncate_ok H Hok (lid_index y) (dk_log d) Hl Hpu) as (_ & H1 & _). left.
      eapply pfx_trans; [exact Hd|exact H1].
    - destruct Hp as (_ & Hu & Hpu). cbn [wop_apply dk_log] in Hd. destruct (ls_purge_ok H Hok u (dk_log d) Hl Hu Hpu) as [_ H2].
      rewrite H2 in Hd. auto.
  Qed.
  Lemma pwalk_take k d l : pwalk d l -> pwalk d (take k l).
  Proof. intros Hp. rewrite <- (take_drop k l) in Hp. apply pwalk_app in Hp as [Hp _]. exact Hp. Qed.
  Lemma crash_cov k j s i : pwalk (so_disk s) (so_pending s) -> cov (so_disk s) i -> cov (crash_disk k j s) i.
  Proof using HE.
    intros Hp Hc. unfold crash_disk. set (d := foldl _ _ _).
    assert (Hd : cov d i) by (apply pwalk_cov; [apply pwalk_take; exact Hp|exact Hc]).
    rewrite list_lookup_fmap. destruct (so_pending s !! k) as [p|] eqn:Hk; [|exact Hd]. cbn [fmap option_fmap option_map].
    assert (Hpk : pok d p).
    { rewrite <- (take_drop k (so_pending s)) in Hp. apply pwalk_app in Hp as [_ Hp].
      rewrite (drop_S _ _ _ Hk) in Hp. cbn [pwalk] in Hp. apply Hp. }
    destruct p as [[v|c|es|y|u] io]; cbn [fst]; try exact Hd.
    destruct Hpk as [Hl (_ & Hc0 & _)]. destruct Hd as [D1 D2]. split; [exact D1|].
    destruct i as [v|v x]; [exact D2|]. intros Hf. destruct (D2 Hf) as (K1 & K2 & K3). split; [exact K1|]. split; [exact K2|].
    intros Hv. destruct (K3 Hv) as [K4 K5]. split; [exact K4|].
    rewrite (append_last d (take j es) Hl (chain_take H _ _ _ Hc0)). eapply pfx_trans; [exact K5|]. apply chain_pfx. apply chain_take. exact Hc0.
  Qed.

  (** ** The queue *)
  Context (Rq : nat -> Vote -> option LogId -> Prop).
  (** [A]: the ends of the appends submitted or queued since the vote was last saved *)
  Definition dok (d : Disk) (A : list (option LogId)) (c : Command) : Prop :=
    match c with
    | AppendInputEntries v es =>
        fgn (vl d) -> into_committed v = dvote d /\ pfx H (eid es) (tip (vl d))
    | TruncateLog y =>
        fgn (vl d) -> forall x, pfx H x (tip (vl d)) -> pfx H x (dlast d) -> next_index x <= lid_index y
    | PurgeLog u => pfx H (Some u) (dlast d) /\ next_index (ls_purged (dk_log d)) <= S (lid_index u)
    | UpdateIOProgress w io =>
        fgn (vl d) -> exists x, io = IOLog (dvote d) x /\ v_committed (dvote d) = true /\ pfx H x (tip (vl d)) /\
          (A = [] \/ exists y, w = Some (IOFlushed (IOLog (dvote d) y)) /\ pfx H y (tip (vl d)) /\ forall a, a ∈ A -> pfx H a y)
    | Respond w (RAppend ASuccess) tx =>
        exists x y, Rq tx (dvote d) x /\ w = Some (IOFlushed (IOLog (dvote d) y)) /\ v_committed (dvote d) = true /\
          (fgn (vl d) -> pfx H y (tip (vl d)) /\ pfx H x y)
    | InstallSnapshot _ _ => False
    | _ => True
    end.
  Definition anext (A : list (option LogId)) (c : Command) : list (option LogId) :=
    match c with
    | SaveVote _ => []
    | AppendInputEntries _ es => eid es :: A
    | _ => A
    end.
  Fixpoint dwalk (d : Disk) (A : list (option LogId)) (cs : list Command) : Prop :=
    match cs with
    | [] => True
    | c :: r => dok d A c /\ dwalk (dapply d c) (anext A c) r
    end.
  Lemma dwalk_app a : forall d A b, dwalk d A (a ++ b) <->
    dwalk d A a /\ dwalk (foldl dapply d a) (foldl anext A a) b.
  Proof. induction a as [|c r IH]; intros d A b; cbn [app dwalk foldl]; [tauto|]. rewrite IH. tauto. Qed.
  Lemma dapply_fold cs : forall d, foldl dapply d cs = foldl wop_apply d (omap cmd_wop cs).
  Proof.
    induction cs as [|c r IH]; intros d; [reflexivity|]. cbn [foldl omap list_omap]. rewrite IH. unfold dapply.
    destruct (cmd_wop c); reflexivity.
  Qed.
End dur.
