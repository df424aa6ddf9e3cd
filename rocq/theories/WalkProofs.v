(** The queued commands of a node, read as a sequence of changes to its disk and to the
    position up to which its state machine has been told to apply.  [walk] says that each
    command fits the disk it will find when it is executed. *)
From Coq Require Import Bool Lia ZifyBool ZifyNat.
From stdpp Require Import base numbers option gmap list.
From Verif Require Import Types TypesProofs LogIdList LogIdSpec LogIdListProofs Quorum Membership Progress RaftState
  ProgressEntry Engine Store RaftCore NodeSpec LogSpec LogProofs.

Ltac pt := eauto 4 using pfx_trans, pfx_refl.

Definition dvote (d : Disk) : Vote := default vote_default (dk_vote d).
Definition vl (d : Disk) : LeaderId := v_leader (dvote d).
Notation dlast d := (ls_last (dk_log d)).

(** what the next command must be *)
Inductive Must :=
| MNone
| MSave (c : LogId)
| MApply (c : LogId)
| MPurgeTo (x : LogId).
Record W := mkW { w_d : Disk; w_cur : option LogId; w_must : Must }.

Definition dapply (d : Disk) (c : Command) : Disk :=
  match cmd_wop c with Some op => wop_apply d op | None => d end.
Definition wnext (w : W) (c : Command) : W :=
  mkW (dapply (w_d w) c)
    (match c with
     | CmdApply _ upto => Some upto
     | InstallSnapshot sn _ => sm_last (sn_meta sn)
     | _ => w_cur w
     end)
    (match c with
     | ReplicateCommitted (Some c) => MSave c
     | SaveCommitted c => MApply c
     | CmdApply _ _ => MNone
     | InstallSnapshot sn _ => match sm_last (sn_meta sn) with Some x => MPurgeTo x | None => MNone end
     | PurgeLog _ => MNone
     | _ => w_must w
     end).

Section walk.
  Context (E : Env) (me : nat).
  Notation H := (ev_hist E).
  Notation foreign d := (li_node (vl d) <> me).

  Definition purgeable (x : LogId) (d : Disk) : Prop :=
    (pfx H (Some x) (dlast d) /\ next_index (ls_purged (dk_log d)) <= S (lid_index x)) \/
    next_index (dlast d) <= lid_index x.

  Definition wok (w : W) (c : Command) : Prop :=
    let d := w_d w in
    let cur := w_cur w in
    match c with
    | SaveVote v => w_must w = MNone /\ vote_lt (dvote d) v
    | ReplicateCommitted (Some c) =>
        w_must w = MNone /\ pfx H cur (Some c) /\ cur <> Some c /\ pfx H (Some c) (dlast d)
    | ReplicateCommitted None => False
    | SaveCommitted c =>
        (w_must w = MNone \/ w_must w = MSave c) /\ pfx H cur (Some c) /\ cur <> Some c /\ pfx H (Some c) (dlast d)
    | CmdApply prev upto => w_must w = MApply upto /\ prev = cur
    | AppendInputEntries v es =>
        w_must w = MNone /\ es <> [] /\ chain H (dlast d) es /\ oleader_le (es_last (dlast d) es) (vl d) /\
        v_leader v = vl d
    | TruncateLog x =>
        w_must w = MNone /\ foreign d /\ pfx H (Some x) (dlast d) /\ next_index cur <= lid_index x
    | PurgeLog u =>
        (w_must w = MNone /\ pfx H (Some u) cur /\ next_index (ls_purged (dk_log d)) <= S (lid_index u)) \/
        (w_must w = MPurgeTo u /\ foreign d)
    | InstallSnapshot sn io =>
        w_must w = MNone /\ foreign d /\ snap_ok H sn /\
        exists x v, sm_last (sn_meta sn) = Some x /\ io = IOLog v (Some x) /\ v_leader v = vl d /\
          pfx H cur (Some x) /\ cur <> Some x /\ oleader_le (Some x) (vl d) /\ purgeable x d
    | UpdateIOProgress _ io =>
        w_must w = MNone /\ exists v x, io = IOLog v x /\ v_leader v = vl d /\ pfx H x (dlast d)
    | CmdReplicate _ (ReplLogs r) => w_must w = MNone /\ pfx H (lr_prev r) (dlast d) /\ pfx H (lr_last r) (dlast d)
    | RebuildReplicationStreams ts =>
        w_must w = MNone /\ forall x, x ∈ ts -> pfx H (pe_matching x.2) (dlast d)
    | BroadcastHeartbeat ss lc =>
        w_must w = MNone /\ ss_vote ss = dvote d /\ lc = cur /\
        v_committed (ss_vote ss) = true /\ li_node (v_leader (ss_vote ss)) = me
    | SendVote req => w_must w = MNone /\ vq_vote req = dvote d /\ vq_last req = dlast d
    | BroadcastTransferLeader req => w_must w = MNone /\ tq_from req = dvote d
    | CmdReplicate _ (ReplSnapshot _) | BuildSnapshot | Respond _ _ _ => w_must w = MNone
    end.
  Fixpoint walk (w : W) (cs : list Command) (w' : W) : Prop :=
    match cs with
    | [] => w' = w
    | c :: r => wok w c /\ walk (wnext w c) r w'
    end.

  (** what holds at every position *)
  Record pos (w : W) : Prop := {
    p_log : log_ok H (dk_log (w_d w));
    p_lead : oleader_le (dlast (w_d w)) (vl (w_d w));
    p_cur : pfx H None (w_cur w);
    p_curlead : oleader_le (w_cur w) (vl (w_d w));
    p_com : pfx H (dk_committed (w_d w)) (dlast (w_d w));
    p_purged : pfx H (ls_purged (dk_log (w_d w))) (w_cur w);
    p_must :
      match w_must w with
      | MNone => pfx H (w_cur w) (dlast (w_d w)) /\ pfx H (dk_committed (w_d w)) (w_cur w)
      | MSave c => pfx H (w_cur w) (Some c) /\ w_cur w <> Some c /\ pfx H (Some c) (dlast (w_d w)) /\
                   pfx H (dk_committed (w_d w)) (w_cur w)
      | MApply c => pfx H (w_cur w) (Some c) /\ w_cur w <> Some c /\ pfx H (Some c) (dlast (w_d w)) /\
                   dk_committed (w_d w) = Some c
      | MPurgeTo x => w_cur w = Some x /\ purgeable x (w_d w) /\ pfx H (dk_committed (w_d w)) (w_cur w)
      end;
  }.

  (** where the walk is bound to go *)
  Definition bound (w : W) : option LogId :=
    match w_must w with MSave c | MApply c => Some c | _ => w_cur w end.

  Lemma walk_app w a b w' : walk w (a ++ b) w' <-> exists m, walk w a m /\ walk m b w'.
  Proof.
    revert w. induction a as [|c a IH]; intros w; cbn [app walk].
    - split; [intros Hb; exists w; auto|intros (m & -> & Hb); exact Hb].
    - rewrite IH. split; [intros (H1 & m & H2 & H3); eauto|intros (m & (H1 & H2) & H3); eauto].
  Qed.
  Lemma walk_trans a b w m w' : walk w a m -> walk m b w' -> walk w (a ++ b) w'.
  Proof. intros H1 H2. apply walk_app. eauto. Qed.
  Lemma walk_eq w cs w' : walk w cs w' -> w' = foldl wnext w cs.
  Proof. revert w. induction cs as [|c r IH]; intros w; cbn [walk foldl]; [auto|]. intros [_ Hw]. apply IH. exact Hw. Qed.

  Context (Hok : hist_ok H).

  Lemma vote_lt_leader a b : vote_lt a b -> leader_leb (v_leader a) (v_leader b) = true.
  Proof. unfold vote_lt. ord. Qed.

  Lemma wok_pos w c : pos w -> wok w c -> pos (wnext w c).
  Proof using Hok.
    intros P K. destruct w as [d cur m]. destruct P as [Pl Pld Pc Pcl Pcm Pp Pm]. cbn [w_d w_cur w_must] in *.
    destruct c; unfold wnext, dapply; cbn [cmd_wop w_d w_cur w_must wok wop_apply] in *;
      try (constructor; cbn [w_d w_cur w_must]; assumption).
    - (* append *)
      destruct K as (-> & Hne & Hch & Hle & Hv). destruct Pm as [Pm1 Pm2].
      destruct (ls_append_ok H entries (dk_log d) Pl Hch) as [Ho Hl].
      assert (Hx : pfx H (dlast d) (ls_last (ls_append entries (dk_log d)))) by (rewrite Hl; apply chain_pfx; assumption).
      constructor; cbn [w_d w_cur w_must dk_log dk_vote dk_committed]; try assumption.
      + rewrite Hl. exact Hle.
      + pt.
      + split; [pt|assumption].
    - destruct committed as [c|]; [|contradiction]. destruct K as (-> & K1 & K2 & K3). destruct Pm as [Pm1 Pm2].
      constructor; cbn [w_d w_cur w_must]; auto.
    - (* save committed *)
      destruct K as (Hm & K1 & K2 & K3).
      constructor; cbn [w_d w_cur w_must dk_log dk_vote dk_committed]; auto.
    - (* apply *)
      destruct K as (-> & ->). destruct Pm as (P1 & P2 & P3 & P4).
      constructor; cbn [w_d w_cur w_must]; auto.
      + pt.
      + eapply pfx_oleader; eauto.
      + pt.
      + split; [assumption|]. rewrite P4. constructor.
    - (* save vote *)
      destruct K as (-> & K). apply vote_lt_leader in K.
      constructor; cbn [w_d w_cur w_must dk_log dk_vote dk_committed]; try assumption;
        (eapply oleader_le_trans; [eassumption|exact K]).
    - (* purge *)
      destruct K as [(-> & K1 & K2)|[-> Hf]].
      + destruct Pm as [Pm1 Pm2]. assert (Hx : pfx H (Some upto) (dlast d)) by pt.
        destruct (ls_purge_ok H Hok upto (dk_log d) Pl Hx K2) as [Ho Hl].
        constructor; cbn [w_d w_cur w_must dk_log dk_vote dk_committed]; rewrite ?Hl; auto.
      + destruct Pm as (-> & Hpu & Pm2). destruct Hpu as [(K1 & K2)|K1].
        * destruct (ls_purge_ok H Hok upto (dk_log d) Pl K1 K2) as [Ho Hl].
          constructor; cbn [w_d w_cur w_must dk_log dk_vote dk_committed]; rewrite ?Hl; auto. constructor.
        * destruct (ls_purge_beyond H Hok upto (dk_log d) Pl Pc) as [Ho Hl]; [lia|].
          constructor; cbn [w_d w_cur w_must dk_log dk_vote dk_committed]; rewrite ?Hl; auto; try constructor; try assumption.
          constructor.
    - (* truncate *)
      destruct K as (-> & Hf & K1 & K2). destruct Pm as [Pm1 Pm2].
      assert (Hi : next_index (ls_purged (dk_log d)) <= lid_index since) by (apply (pfx_idx H Hok) in Pp; lia).
      destruct (ls_truncate_ok H Hok _ _ Pl Hi) as (Ho & Hp & Hx).
      assert (Hc : forall a, pfx H a cur -> pfx H a (ls_last (ls_truncate (lid_index since) (dk_log d)))).
      { intros a Ha. eapply pfx_of_idx; [exact Hok|eapply pfx_trans; [exact Ha|exact Pm1]|exact Hp|].
        apply (pfx_idx H Hok) in Ha. pose proof (pfx_idx H Hok _ _ K1) as Hk. cbn in Hk. lia. }
      constructor; cbn [w_d w_cur w_must dk_log dk_vote dk_committed]; auto.
      + eapply pfx_oleader; eauto.
      + split; [apply Hc; constructor|assumption].
    - (* install *)
      destruct K as (-> & Hf & Hs & x & v & Hx & Hio & Hv & K1 & K2 & K3 & K4). rewrite Hx. destruct Pm as [Pm1 Pm2].
      constructor; cbn [w_d w_cur w_must]; auto; try pt.
  Qed.
  Lemma walk_pos w cs w' : pos w -> walk w cs w' -> pos w'.
  Proof using Hok.
    revert w. induction cs as [|c r IH]; intros w P; cbn [walk]; [intros ->; exact P|].
    intros [H1 H2]. eapply IH; [|exact H2]. apply wok_pos; assumption.
  Qed.
  Lemma walk_pos_mid w a b w' : pos w -> walk w (a ++ b) w' -> exists m, pos m /\ walk w a m /\ walk m b w'.
  Proof using Hok.
    intros P Hw. apply walk_app in Hw as (m & H1 & H2). exists m. split; [|auto]. eapply walk_pos; eauto.
  Qed.

  (** the applied position only moves forward *)
  Lemma wok_cur w c : pos w -> wok w c -> pfx H (w_cur w) (w_cur (wnext w c)) /\ pfx H (bound w) (bound (wnext w c)).
  Proof.
    intros P K. destruct w as [d cur m]. destruct P as [Pl Pld Pc Pcl Pcm Pp Pm]. unfold wnext, bound in *.
    destruct c; cbn [w_d w_cur w_must wok] in *; try (split; constructor).
    - destruct committed as [c|]; [|contradiction]. destruct K as (-> & K1 & K2 & K3). split; [constructor|assumption].
    - destruct K as ([-> | ->] & K1 & K2 & K3); (split; [constructor|]); [assumption|constructor].
    - destruct K as (-> & ->). destruct Pm as (P1 & P2 & P3 & P4). split; [assumption|constructor].
    - destruct K as [(-> & K1 & K2)|[-> Hf]]; split; constructor.
    - destruct K as (-> & Hf & Hs & x & v & Hx & Hio & Hv & K1 & K2 & K3 & K4). rewrite Hx. split; assumption.
  Qed.
  Lemma walk_cur w cs w' : pos w -> walk w cs w' ->
    pfx H (w_cur w) (w_cur w') /\ pfx H (bound w) (bound w').
  Proof using Hok.
    revert w. induction cs as [|c r IH]; intros w P; cbn [walk]; [intros ->; split; constructor|].
    intros [H1 H2]. destruct (wok_cur _ _ P H1) as [A1 A2]. destruct (IH _ (wok_pos _ _ P H1) H2) as [B1 B2].
    split; pt.
  Qed.
  Lemma pos_bound w : pos w -> pfx H (w_cur w) (bound w) /\ pfx H (dk_committed (w_d w)) (bound w).
  Proof.
    intros [Pl Pld Pc Pcl Pcm Pp Pm]. unfold bound. destruct (w_must w).
    - split; [constructor|apply Pm].
    - destruct Pm as (P1 & P2 & P3 & P4). split; [assumption|pt].
    - destruct Pm as (P1 & P2 & P3 & P4). split; [assumption|]. rewrite P4. constructor.
    - split; [constructor|apply Pm].
  Qed.

  (** votes only grow; while the vote names this node the log only grows *)
  Lemma wok_vote w c : wok w c -> dvote (w_d (wnext w c)) = dvote (w_d w) \/ vote_lt (dvote (w_d w)) (dvote (w_d (wnext w c))).
  Proof. destruct w as [d cur m]. destruct c; cbn; auto. intros [_ K]. right. exact K. Qed.
  Lemma walk_vote w cs w' : walk w cs w' -> leader_leb (vl (w_d w)) (vl (w_d w')) = true.
  Proof.
    revert w. induction cs as [|c r IH]; intros w; cbn [walk]; [intros ->; apply leader_leb_refl|].
    intros [H1 H2]. eapply leader_leb_trans; [|apply IH; exact H2].
    destruct (wok_vote _ _ H1) as [He|Hlt]; [unfold vl; rewrite He; apply leader_leb_refl|apply vote_lt_leader; exact Hlt].
  Qed.
  Lemma wok_own w c : pos w -> wok w c -> li_node (vl (w_d w)) = me -> vl (w_d (wnext w c)) = vl (w_d w) ->
    pfx H (dlast (w_d w)) (dlast (w_d (wnext w c))).
  Proof using Hok.
    intros P K Hme Hv. destruct w as [d cur m]. destruct P as [Pl Pld Pc Pcl Pcm Pp Pm].
    destruct c; unfold wnext, dapply in *; cbn [w_d w_cur w_must wok cmd_wop wop_apply dk_log] in *; try constructor.
    - destruct K as (-> & Hne & Hch & Hle & Hv2).
      destruct (ls_append_ok H entries (dk_log d) Pl Hch) as [Ho Hl]. rewrite Hl. apply chain_pfx; assumption.
    - destruct K as [(-> & K1 & K2)|[-> Hf]]; [|contradiction].
      destruct Pm as [Pm1 Pm2]. assert (Hx : pfx H (Some upto) (dlast d)) by pt.
      destruct (ls_purge_ok H Hok upto (dk_log d) Pl Hx K2) as [Ho Hl]. rewrite Hl. constructor.
    - destruct K as (-> & Hf & _). contradiction.
  Qed.
  Lemma walk_own w cs w' : pos w -> walk w cs w' -> li_node (vl (w_d w')) = me -> vl (w_d w) = vl (w_d w') ->
    pfx H (dlast (w_d w)) (dlast (w_d w')).
  Proof using Hok.
    revert w. induction cs as [|c r IH]; intros w P; cbn [walk]; [intros -> _ _; constructor|].
    intros [H1 H2] Hme Hv.
    assert (Hv2 : vl (w_d (wnext w c)) = vl (w_d w)).
    { pose proof (walk_vote _ _ _ H2) as Ha. rewrite <- Hv in Ha.
      assert (Hb : leader_leb (vl (w_d w)) (vl (w_d (wnext w c))) = true).
      { destruct (wok_vote _ _ H1) as [He|Hlt]; [unfold vl; rewrite He; apply leader_leb_refl|apply vote_lt_leader; exact Hlt]. }
      ord. }
    apply (pfx_trans H _ (dlast (w_d (wnext w c))) _).
    - apply wok_own; [exact P|exact H1|congruence|exact Hv2].
    - apply IH; [apply wok_pos; assumption|exact H2|exact Hme|congruence].
  Qed.
End walk.
