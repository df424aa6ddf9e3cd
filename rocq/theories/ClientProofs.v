(** Client requests: which entry a waiting client's channel belongs to, and that every
    channel is answered at most once. *)
From Coq Require Import Bool Lia ZifyBool ZifyNat.
From stdpp Require Import base numbers option gmap relations list.
From Verif Require Import Types TypesProofs LogIdList Quorum Membership Progress RaftState
  ProgressEntry Engine Store RaftCore EnginePrims NodeSpec NodePrims StoreProofs VoteNodeProofs ElectProofs LeadProofs LogSpec LogProofs
  WalkProofs EngLogProofs NodeLogProofs StepLogProofs LogPropSpec LogStateProofs RoleSpec OwnProofs ClientSpec MemProofs.

(** ** How far the state machine has been told to apply *)
Definition smnext (c : option LogId) (q : SmCmd) : option LogId :=
  match q with SmApply _ l => Some l | SmBuild => c | SmInstall sn _ => sm_last (sn_meta sn) end.
Definition told (n : Node) : option LogId := foldl smnext (sm_applied (nd_sm n)) (nd_smq n).
Lemma smwalk_told E a q b : smwalk E a q b -> b = foldl smnext a q.
Proof.
  revert a. induction q as [|c r IH]; intros a; cbn [smwalk foldl]; [auto|]. destruct c; cbn [smnext].
  - intros (_ & _ & _ & Q). apply IH. exact Q.
  - apply IH.
  - intros (_ & _ & Q). apply IH. exact Q.
Qed.
(** disk and position after some queued commands *)
Definition vnext (x : Disk * option LogId) (c : Command) : Disk * option LogId :=
  (dapply x.1 c, match c with CmdApply _ upto => Some upto | InstallSnapshot sn _ => sm_last (sn_meta sn) | _ => x.2 end).
Lemma vnext_w cs : forall w, (w_d (foldl wnext w cs), w_cur (foldl wnext w cs)) = foldl vnext (w_d w, w_cur w) cs.
Proof. induction cs as [|c r IH]; intros w; cbn [foldl]; [reflexivity|]. rewrite IH. reflexivity. Qed.
Definition at_view (n : Node) : Disk * option LogId := (so_view (nd_store n), told n).

(** an entry with index [i] is on its way to be answered *)
Definition pending_at (n : Node) (i : nat) : Prop :=
  (exists f l, SmApply f l ∈ nd_smq n /\ lid_index f <= i <= lid_index l) \/
  (exists s es la e, NSm (SRApply s es la) ∈ nd_notes n /\ e ∈ es /\ e_index e = i).

Section client.
  Context (E : Env) (me : nat) (HE : env_ok E).
  Notation H := (ev_hist E).
  Let Hok : hist_ok H := proj1 HE.

  (** what is known of the entry of a waiting client: it will be applied; or it is in the
      log, or about to be; or a snapshot covers its index, and no entry with this index will be
      applied any more *)
  Definition kept (n : Node) (l : LogId) : Prop :=
    pfx H (Some l) (told n) \/
    (exists a b, en_out (nd_eng n) = a ++ b /\ pfx H (Some l) (dlast (foldl vnext (at_view n) a).1) /\
       next_index (foldl vnext (at_view n) a).2 <= lid_index l) \/
    (lid_index l < next_index (told n) /\ ~ pending_at n (lid_index l)).
  Definition notes_ok (n : Node) : Prop :=
    forall s es la e, NSm (SRApply s es la) ∈ nd_notes n -> e ∈ es ->
      pfx H (Some (e_log_id e)) (sm_applied (nd_sm n)) /\ exists q, H (e_log_id e) = Some (q, e_payload e).

  Lemma ninv_at w0 pcs wv D n : ninv E me w0 pcs wv D n -> (w_d wv, w_cur wv) = at_view n.
  Proof. intros N. unfold at_view, told. rewrite (ninv_view _ _ _ _ _ _ _ N), (smwalk_told _ _ _ _ (n_smq _ _ _ _ _ _ _ N)). reflexivity. Qed.

  (** everything pending is at or below what the state machine was told *)
  Lemma smwalk_range a q b f l i : smwalk E a q b -> SmApply f l ∈ q -> i <= lid_index l -> i < next_index b.
  Proof using HE.
    intros Hw Hin Hi. pose proof (smwalk_last E a q b f l Hw Hin) as Hp. apply (pfx_idx H Hok) in Hp. cbn in Hp. lia.
  Qed.
  Lemma pending_told n i : node_inv E me n -> notes_ok n -> pending_at n i -> i < next_index (told n).
  Proof using HE.
    intros (w0 & pcs & wv & D & N) Hn. pose proof (smwalk_told _ _ _ _ (n_smq _ _ _ _ _ _ _ N)) as Ht. fold (told n) in Ht.
    intros [(f & l & Hin & Hi)|(s & es & la & e & Hin & He & <-)].
    - rewrite <- Ht. eapply smwalk_range; [apply (n_smq _ _ _ _ _ _ _ N)|exact Hin|apply Hi].
    - destruct (Hn _ _ _ _ Hin He) as [Hp _]. rewrite <- Ht.
      pose proof (pfx_trans H _ _ _ Hp (applied_cur _ _ _ _ _ _ _ N)) as Hp2. apply (pfx_idx H Hok) in Hp2. cbn in Hp2. unfold e_index. lia.
  Qed.

  (** running a command *)
  Lemma run_told now c n x : run_cmd now c n = Ok x -> (so_view (nd_store x.1), told x.1) = vnext (so_view (nd_store n), told n) c.
  Proof.
    intros Hr. unfold vnext. cbn [fst snd]. f_equal; [eapply run_cmd_view; exact Hr|].
    unfold told. destruct c; cbn [run_cmd] in Hr;
      repeat match type of Hr with context [match ?t with _ => _ end] => destruct t eqn:?; try discriminate Hr end;
      injection Hr as <-; cbn [fst nd_sm nd_smq nd_set_store nd_set_smq nd_set_streams nd_set_hb nd_set_hbw nd_set_clients note nd_set_notes nd_upd_io nd_set_eng];
      rewrite ?foldl_app; reflexivity.
  Qed.
  Lemma run_notes_same now c n x s es la : run_cmd now c n = Ok x -> NSm (SRApply s es la) ∈ nd_notes x.1 -> NSm (SRApply s es la) ∈ nd_notes n.
  Proof.
    intros Hr. destruct c; cbn [run_cmd] in Hr;
      repeat match type of Hr with context [match ?t with _ => _ end] => destruct t eqn:?; try discriminate Hr end;
      injection Hr as <-; cbn [fst nd_notes nd_set_store nd_set_smq nd_set_streams nd_set_hb nd_set_hbw nd_set_clients note nd_set_notes nd_upd_io nd_set_eng];
      rewrite ?elem_of_app, ?elem_of_list_singleton; try tauto; intros Hx;
      repeat match goal with Hy : _ \/ _ |- _ => destruct Hy as [Hy|Hy] end; try discriminate; auto.
  Qed.
  Lemma run_smq now c n x f l : run_cmd now c n = Ok x -> SmApply f l ∈ nd_smq x.1 ->
    SmApply f l ∈ nd_smq n \/ exists prev, c = CmdApply prev l /\ rs_get_log_id (nd_state n) (next_index prev) = Some f.
  Proof.
    intros Hr. destruct c; cbn [run_cmd] in Hr;
      repeat match type of Hr with context [match ?t with _ => _ end] => destruct t eqn:?; try discriminate Hr end;
      injection Hr as <-; cbn [fst nd_smq nd_set_store nd_set_smq nd_set_streams nd_set_hb nd_set_hbw nd_set_clients note nd_set_notes nd_upd_io nd_set_eng];
      rewrite ?elem_of_app, ?elem_of_list_singleton; try tauto; intros [Hx|Hx]; try discriminate; auto.
    right. injection Hx as -> ->. eauto.
  Qed.
  Lemma run_clients now c n x i tx : run_cmd now c n = Ok x -> nd_clients x.1 !! i = Some tx ->
    nd_clients n !! i = Some tx /\ (forall y, c = TruncateLog y -> i < lid_index y).
  Proof.
    intros Hr. destruct c; cbn [run_cmd] in Hr;
      repeat match type of Hr with context [match ?t with _ => _ end] => destruct t eqn:?; try discriminate Hr end;
      injection Hr as <-; cbn [fst nd_clients nd_set_store nd_set_smq nd_set_streams nd_set_hb nd_set_hbw nd_set_clients note nd_set_notes nd_upd_io nd_set_eng];
      try (intros Hx; split; [exact Hx|discriminate]).
    intros Hx. apply map_filter_lookup_Some in Hx as [Hx Hi]. split; [exact Hx|]. intros y [= <-]. exact Hi.
  Qed.
  Lemma run_kept now n x : run_one now n = Ok x -> node_inv E me n -> notes_ok n ->
    notes_ok x.1 /\
    forall tx l, nd_clients x.1 !! lid_index l = Some tx -> nd_clients n !! lid_index l = Some tx /\ (kept n l -> kept x.1 l).
  Proof using HE.
    unfold run_one. intros Hs HN Hno. pose proof HN as (w0 & pcs & wv & D & N).
    destruct (en_out (nd_eng n)) as [|c r] eqn:Hout; [injection Hs as <-; auto|].
    destruct (cond_ok (cmd_condition c) (rs_io (nd_state n))) eqn:Hcond; [|injection Hs as <-; auto].
    pose proof (ninv_posv E me HE _ _ _ _ _ N) as Pv. pose proof (n_w2 _ _ _ _ _ _ _ N) as W2. rewrite Hout in W2. destruct W2 as [K W2].
    pose proof (ninv_at _ _ _ _ _ N) as Hat. destruct wv as [d cur must]. cbn [w_d w_cur] in Hat.
    set (n0 := nd_set_eng (eng_set_out r (nd_eng n)) n) in *.
    pose proof (run_told _ _ _ _ Hs) as Ht. change (so_view (nd_store n0), told n0) with (at_view n) in Ht. fold (at_view x.1) in Ht.
    assert (Hout' : en_out (nd_eng x.1) = r) by (destruct (run_cmd_eng _ _ _ _ Hs) as (io & -> & _); reflexivity).
    assert (Hpend : forall i, pending_at x.1 i -> pending_at n i \/ exists prev upto, c = CmdApply prev upto /\ next_index (told n) <= i).
    { intros i [(f & l & Hin & Hi)|(s & es & la & e & Hin & He)].
      - destruct (run_smq _ _ _ _ _ _ Hs Hin) as [Hin'|(prev & -> & Hf)]; [left; left; exists f, l; auto|].
        right. exists prev, l. split; [reflexivity|]. cbn [wok w_must w_cur] in K. destruct K as [_ Hpc].
        injection Hat as _ Hc. rewrite <- Hc, <- Hpc.
        assert (Hfi : lid_index f = next_index prev).
        { change (nd_state n0) with (nd_state n) in Hf. apply (ec_get E HE _ _ _ _ (node_ec E me n HN)) in Hf. apply Hf. }
        lia.
      - left. right. exists s, es, la, e. split; [exact (run_notes_same _ _ _ _ _ _ _ Hs Hin)|exact He]. }
    split.
    { intros s es la e Hin He. apply (run_notes_same _ _ _ _ _ _ _ Hs) in Hin. destruct (Hno _ _ _ _ Hin He) as [H1 H2]. split; [|exact H2].
      assert (Hsm : nd_sm x.1 = nd_sm n); [|rewrite Hsm; exact H1].
      clear - Hs. destruct c; cbn [run_cmd] in Hs;
        repeat match type of Hs with context [match ?t with _ => _ end] => destruct t eqn:?; try discriminate Hs end;
        injection Hs as <-; reflexivity. }
    intros tx l Hcl. apply (run_clients _ _ _ _ _ _ Hs) in Hcl as [Hcl Htr]. split; [exact Hcl|].
    intros [K0|[(a & b & Hab & Hp & Hi)|[Hi Hnp]]].
    - left. change (told x.1) with ((at_view x.1).2). rewrite Ht, <- Hat.
      eapply pfx_trans; [exact K0|]. change (told n) with ((at_view n).2). rewrite <- Hat. cbn [snd].
      destruct (wok_cur E me _ _ Pv K) as [Hc _]. cbn [w_cur wnext] in Hc. exact Hc.
    - destruct a as [|c' a].
      2:{ rewrite Hout in Hab. injection Hab as <- Hr. right. left. exists a, b. rewrite Hout', Ht. split; [exact Hr|]. cbn [foldl] in *. auto. }
      cbn [foldl] in Hp, Hi. clear Hab b. rewrite <- Hat in Hp, Hi. cbn [fst snd] in Hp, Hi.
      assert (Hstay : dlast (vnext (at_view n) c).1 = dlast d \/ pfx H (dlast d) (dlast (vnext (at_view n) c).1) ->
                next_index (vnext (at_view n) c).2 <= lid_index l -> kept x.1 l).
      { intros Hd Hx. right. left. exists [], r. rewrite Hout', Ht. cbn [foldl app]. split; [reflexivity|]. split; [|exact Hx].
        destruct Hd as [->|Hd]; [exact Hp|]. eapply pfx_trans; eauto. }
      destruct c; cbn [wok] in K; rewrite <- Hat in Hstay; unfold vnext, dapply in Hstay; cbn [cmd_wop wop_apply fst snd dk_log] in Hstay; cbn [w_d w_cur w_must] in K;
        try (apply Hstay; [left; reflexivity|exact Hi]).
      + destruct K as (-> & Hne & Hch & Hle & Hv). destruct (ls_append_ok H entries (dk_log d) (p_log _ _ Pv) Hch) as [Ho Hl].
        apply Hstay; [right; rewrite Hl; apply chain_pfx; exact Hch|exact Hi].
      + destruct K as (-> & ->). pose proof (p_must _ _ Pv) as Pm. cbn [w_must w_cur w_d] in Pm. destruct Pm as (P1 & P2 & P3 & P4).
        destruct (le_lt_dec (lid_index l) (lid_index upto)) as [Hlu|Hlu].
        * left. change (told x.1) with ((at_view x.1).2). rewrite Ht. cbn [vnext snd].
          eapply (pfx_of_idx H Hok); [exact Hp|exact P3|]. cbn. lia.
        * apply Hstay; [left; reflexivity|cbn; lia].
      + destruct K as [(-> & K1 & K2)|[-> Hf]].
        * pose proof (p_must _ _ Pv) as Pm. cbn [w_must w_cur w_d] in Pm. destruct Pm as [P1 P2].
          destruct (ls_purge_ok H Hok upto (dk_log d) (p_log _ _ Pv)) as [Ho Hl]; [eapply pfx_trans; eauto|exact K2|].
          apply Hstay; [left; exact Hl|exact Hi].
        * pose proof (p_must _ _ Pv) as Pm. cbn [w_must w_cur w_d] in Pm. destruct Pm as (-> & Hpu & Pm2). cbn in Hi. destruct Hpu as [(K1 & K2)|K1]; cbn [w_d] in *.
          -- destruct (ls_purge_ok H Hok upto (dk_log d) (p_log _ _ Pv) K1 K2) as [Ho Hl]. apply Hstay; [left; exact Hl|exact Hi].
          -- exfalso. apply (pfx_idx H Hok) in Hp. cbn in Hp. lia.
      + specialize (Htr _ eq_refl). destruct K as (-> & Hf & K1 & K2).
        assert (Hi2 : next_index (ls_purged (dk_log d)) <= lid_index since).
        { pose proof (p_purged _ _ Pv) as Pp. apply (pfx_idx H Hok) in Pp. cbn in Pp. lia. }
        destruct (ls_truncate_ok H Hok _ _ (p_log _ _ Pv) Hi2) as (Ho & Hpx & Hx).
        right. left. exists [], r. rewrite Hout', Ht, <- Hat. cbn [foldl app vnext fst snd dapply cmd_wop wop_apply dk_log]. split; [reflexivity|]. split; [|exact Hi].
        eapply (pfx_of_idx H Hok); [exact Hp|exact Hpx|]. pose proof (pfx_idx H Hok _ _ K1) as Hk. cbn in Hk, Hx |- *. lia.
      + destruct K as (-> & Hf & Hsn & y & v & Hy & Hio & Hv & K1 & K2 & K3 & K4).
        destruct (le_lt_dec (lid_index l) (lid_index y)) as [Hlu|Hlu].
        * right. right. change (told x.1) with ((at_view x.1).2). rewrite Ht. cbn [vnext snd]. rewrite Hy. cbn. split; [lia|].
          intros Hpd. apply Hpend in Hpd as [Hpd|(? & ? & ? & _)]; [|discriminate].
          apply (pending_told n _ HN Hno) in Hpd. change (told n) with ((at_view n).2) in Hpd. rewrite <- Hat in Hpd. cbn in Hpd. lia.
        * apply Hstay; [left; reflexivity|]. rewrite Hy. cbn. lia.
    - right. right. change (told x.1) with ((at_view x.1).2). rewrite Ht.
      change (told n) with ((at_view n).2) in Hi. rewrite <- Hat in Hi |- *. cbn [snd] in Hi.
      destruct (wok_cur E me _ _ Pv K) as [Hc _]. cbn [w_cur wnext] in Hc. apply (pfx_idx H Hok) in Hc. split; [cbn [vnext snd]; lia|].
      intros Hpd. apply Hpend in Hpd as [Hpd|(prev & upto & -> & Hge)]; [contradiction|].
      change (told n) with ((at_view n).2) in Hge. rewrite <- Hat in Hge. cbn [snd] in Hge. lia.
  Qed.

  (** ** Steps that run no command *)
  Lemma kept_step n n' l cs : at_view n' = at_view n -> en_out (nd_eng n') = en_out (nd_eng n) ++ cs ->
    (forall i, pending_at n' i -> pending_at n i) -> kept n l -> kept n' l.
  Proof.
    intros Ha Ho Hp. assert (Ht : told n' = told n) by (unfold at_view in Ha; congruence).
    intros [K|[(a & b & Hab & K1 & K2)|[K1 K2]]].
    - left. rewrite Ht. exact K.
    - right. left. exists a, (b ++ cs). rewrite Ha, Ho, Hab, app_assoc. auto.
    - right. right. rewrite Ht. auto.
  Qed.
  (** what an applied entry is *)
  Lemma sm_has n e q : node_inv E me n -> pfx H (Some (e_log_id e)) (sm_applied (nd_sm n)) -> H (e_log_id e) = Some (q, e_payload e) -> e ∈ sm_entries (nd_sm n).
  Proof using HE.
    intros (w0 & pcs & wv & D & N) Hp He. destruct (n_sm _ _ _ _ _ _ _ N) as [S1 S2 _ _]. rewrite S2 in Hp.
    destruct (chain_in H Hok None (sm_entries (nd_sm n)) (e_log_id e) S1 Hp) as (y & Hy & Hid); [cbn; lia|].
    pose proof (chain_lookup H _ _ _ _ S1 Hy) as (_ & _ & Hc). rewrite Hid, He in Hc. injection Hc as _ Hpl.
    replace e with y; [eapply elem_of_list_lookup_2; exact Hy|]. destruct y, e. cbn in *. congruence.
  Qed.
  (** the answer goes to the client of this very entry *)
  Lemma kept_same n l e : node_inv E me n -> notes_ok n -> kept n l -> lid_index l = e_index e ->
    pfx H (Some (e_log_id e)) (sm_applied (nd_sm n)) -> pending_at n (e_index e) -> l = e_log_id e.
  Proof using HE.
    intros HN Hno Hk Hi He Hpd. pose proof (pending_told n _ HN Hno Hpd) as Hlt. pose proof HN as (w0 & pcs & wv & D & N).
    pose proof (ninv_at _ _ _ _ _ N) as Hat. pose proof (applied_cur _ _ _ _ _ _ _ N) as Hac.
    assert (Hc : w_cur wv = told n) by (unfold at_view in Hat; congruence). rewrite Hc in Hac.
    destruct Hk as [K|[(a & b & Hab & K1 & K2)|[K1 K2]]].
    - assert (Some l = Some (e_log_id e)) as [= ->]; [|reflexivity]. eapply (pfx_same_idx H Hok); [exact K|eapply pfx_trans; [exact He|exact Hac]|]. cbn. unfold e_index in Hi. lia.
    - exfalso. pose proof (n_w2 _ _ _ _ _ _ _ N) as W2. rewrite Hab in W2. apply walk_app in W2 as (m & Wa & _).
      destruct (walk_cur E me Hok _ _ _ (ninv_posv E me HE _ _ _ _ _ N) Wa) as [Hm _]. apply walk_eq in Wa.
      pose proof (vnext_w a wv) as Hv. rewrite <- Wa, Hat in Hv. rewrite <- Hv in K2. cbn [snd] in K2.
      apply (pfx_idx H Hok) in Hm. rewrite Hc in Hm. lia.
    - exfalso. apply K2. rewrite Hi. exact Hpd.
  Qed.
  Lemma apply_results_in es : forall c tx l p, OClient tx (CWriteOk l p) ∈ (apply_results es c).2 ->
    exists e, e ∈ es /\ c !! e_index e = Some tx /\ e_log_id e = l /\ e_payload e = p.
  Proof.
    clear Hok HE. clear me E.
    induction es as [|e r IH]; intros c tx l p; cbn [apply_results]; [intros Hx; apply elem_of_nil in Hx as []|].
    destruct (c !! e_index e) as [tx0|] eqn:Hc.
    - specialize (IH (delete (e_index e) c) tx l p). destruct (apply_results r (delete (e_index e) c)) as [c2 o2]. cbn [snd] in *.
      intros [Hx|Hx]%elem_of_app.
      + apply elem_of_list_singleton in Hx. injection Hx as -> -> ->. exists e. split; [left|]. auto.
      + destruct (IH Hx) as (e' & H1 & H2 & H3). apply lookup_delete_Some in H2 as [_ H2]. exists e'. split; [right; exact H1|]. auto.
    - specialize (IH c tx l p). destruct (apply_results r c) as [c2 o2]. cbn [snd app] in *. intros Hx.
      destruct (IH Hx) as (e' & H1 & H2 & H3). exists e'. split; [right; exact H1|]. auto.
  Qed.
  Lemma apply_results_sub es : forall c i tx, (apply_results es c).1 !! i = Some tx -> c !! i = Some tx.
  Proof.
    clear Hok HE. clear me E.
    induction es as [|e r IH]; intros c i tx; cbn [apply_results]; [auto|].
    destruct (c !! e_index e) as [tx0|] eqn:Hc.
    - specialize (IH (delete (e_index e) c) i tx). destruct (apply_results r (delete (e_index e) c)) as [c2 o2]. cbn [fst] in *.
      intros Hx. apply IH in Hx. apply lookup_delete_Some in Hx. apply Hx.
    - specialize (IH c i tx). destruct (apply_results r c) as [c2 o2]. exact IH.
  Qed.
  (** who gets a success answer *)
  Lemma success_note now ev n n' outs tx l p : node_step now ev n = Ok (n', outs) -> OClient tx (CWriteOk l p) ∈ outs ->
    exists s es la r e, ev = ENote /\ nd_notes n = NSm (SRApply s es la) :: r /\ e ∈ es /\
      nd_clients n !! e_index e = Some tx /\ e_log_id e = l /\ e_payload e = p /\ nd_sm n' = nd_sm n.
  Proof.
    clear Hok HE. clear me E.
    assert (Hno : forall {A} (x : A), x ∈ [] -> False) by (intros ? ? Hx; apply elem_of_nil in Hx; exact Hx).
    intros Hs Hin. destruct ev; cbn [node_step] in Hs; unfold when_idle in Hs.
    - exfalso. unfold run_one in Hs. destruct (en_out (nd_eng n)) as [|c r]; [injection Hs as _ <-; eauto|].
      destruct (cond_ok _ _); [|injection Hs as _ <-; eauto].
      destruct c; cbn [run_cmd] in Hs; repeat match type of Hs with context [match ?t with _ => _ end] => destruct t eqn:?; try discriminate Hs end;
        injection Hs as _ <-; try (exfalso; eauto; fail); try (apply elem_of_list_fmap in Hin as (? & ? & _); discriminate).
      apply elem_of_list_singleton in Hin. discriminate.
    - exfalso. destruct (runnable n); [injection Hs as _ <-; eauto|].
      assert (Hl : forall y, lift n y = Ok (n', outs) -> False) by (intros y Hy; apply lift_prims in Hy as (e & _ & [= _ ->]); eauto).
      assert (Hw : forall p tx, core_write p tx n = Ok (n', outs) -> False).
      { clear Hs. intros p0 tx0. unfold core_write. destruct (en_leader _) as [ld|]; [|intros [= _ <-]; apply elem_of_list_singleton in Hin; discriminate].
        destruct (ld_transfer ld); [intros [= _ <-]; apply elem_of_list_singleton in Hin; discriminate|]. intros Hs. rok Hs. destruct (rs_last _); [|discriminate].
        injection Hs as _ <-. eauto. }
      destruct m; cbn [handle_msg] in Hs; eauto.
      + unfold core_change in Hs. destruct (ms_change _ _ _); [eauto|]. injection Hs as _ <-. apply elem_of_list_singleton in Hin. discriminate.
      + unfold core_read in Hs. repeat match type of Hs with context [match ?t with _ => _ end] => destruct t eqn:?; try discriminate Hs end;
          injection Hs as _ <-; try (apply elem_of_list_singleton in Hin; discriminate).
        apply elem_of_list_fmap in Hin as (? & ? & _). discriminate.
    - destruct (runnable n); [injection Hs as _ <-; exfalso; eauto|]. destruct (nd_notes n) as [|y r] eqn:Hn; [injection Hs as _ <-; exfalso; eauto|].
      assert (Hl : forall m z, lift m z = Ok (n', outs) -> False) by (intros m z Hy; apply lift_prims in Hy as (e & _ & [= _ ->]); eauto).
      destruct y as [t resp sv|v sv|io|ss t rr|ss t time|[meta|io meta|s es la]]; cbn [handle_note] in Hs.
      8:{ pose proof (apply_results_in es (nd_clients n) tx l p) as Ha. cbn zeta in Hs. change (nd_clients (nd_upd_io _ _)) with (nd_clients n) in Hs.
          destruct (apply_results es (nd_clients n)) as [c o]. injection Hs as <- <-. destruct (Ha Hin) as (e & H1 & H2 & H3 & H4).
          exists s, es, la, r, e. repeat (split; [reflexivity || assumption|]). reflexivity. }
      all: exfalso; repeat match type of Hs with context [match ?t with _ => _ end] => destruct t eqn:? end; eauto; try (injection Hs as _ <-; eauto);
        try (rok Hs; injection Hs as _ <-; eauto); discriminate.
    - exfalso. destruct (runnable n); [injection Hs as _ <-; eauto|]. apply lift_prims in Hs as (e & _ & [= _ ->]). eauto.
    - exfalso. destruct (runnable n); [injection Hs as _ <-; eauto|]. destruct (en_leader _); [|injection Hs as _ <-; eauto]. apply lift_prims in Hs as (e & _ & [= _ ->]). eauto.
    - injection Hs as _ <-. exfalso; eauto.
    - destruct (so_callbacks _ !! _); injection Hs as _ <-; exfalso; eauto.
    - rok Hs. injection Hs as _ <-. exfalso; eauto.
    - injection Hs as _ <-. exfalso; eauto.
    - exfalso. unfold stream_send in Hs. repeat match type of Hs with context [match ?t with _ => _ end] => destruct t; try discriminate Hs end;
        injection Hs as _ <-; eauto; apply elem_of_list_singleton in Hin; discriminate.
    - injection Hs as _ <-. exfalso; eauto.
    - injection Hs as _ <-. exfalso; eauto.
    - exfalso. injection Hs as Hs. unfold hb_send in Hs. repeat match type of Hs with context [match ?t with _ => _ end] => destruct t end;
        injection Hs as _ <-; eauto; apply elem_of_list_singleton in Hin; discriminate.
    - exfalso. injection Hs as Hs. unfold handle_reply, read_reply in Hs. repeat match type of Hs with context [match ?t with _ => _ end] => destruct t end;
        injection Hs as _ <-; eauto; apply elem_of_list_singleton in Hin; discriminate.
  Qed.

  Definition quiet_tasks (n n' : Node) : Prop :=
    nd_smq n' = nd_smq n /\ (forall s es la, NSm (SRApply s es la) ∈ nd_notes n' -> NSm (SRApply s es la) ∈ nd_notes n).
  Lemma step_quiet now ev n n' outs : node_step now ev n = Ok (n', outs) -> ev <> ERun -> ev <> ESm -> quiet_tasks n n'.
  Proof.
    clear Hok HE. clear me E. intros Hs He1 He2.
    assert (Hsame : nd_smq n' = nd_smq n -> nd_notes n' = nd_notes n -> quiet_tasks n n') by (intros H1 H2; split; [exact H1|rewrite H2; auto]).
    assert (Hadd : forall xs, nd_smq n' = nd_smq n -> nd_notes n' = nd_notes n ++ xs -> (forall s es la, NSm (SRApply s es la) ∉ xs) -> quiet_tasks n n').
    { intros xs H1 H2 H3. split; [exact H1|]. rewrite H2. intros s es la [Hx|Hx]%elem_of_app; [exact Hx|]. exfalso. eapply H3. exact Hx. }
    destruct ev; try congruence; cbn [node_step] in Hs; unfold when_idle in Hs.
    - destruct (runnable n); [injection Hs as <- _; auto|]. apply handle_msg_prims in Hs as (_ & H2 & H3). apply Hsame; [apply H2|exact H3].
    - destruct (runnable n); [injection Hs as <- _; auto|]. destruct (nd_notes n) as [|y r] eqn:Hn; [injection Hs as <- _; apply Hsame; congruence|].
      apply handle_note_prims in Hs as (_ & H2 & H3). cbn [fst] in *. split; [apply H2|]. rewrite H3, Hn. cbn. intros s es la Hx. right. exact Hx.
    - destruct (runnable n); [injection Hs as <- _; auto|]. apply lift_prims in Hs as (e & _ & [= -> _]). auto.
    - destruct (runnable n); [injection Hs as <- _; auto|]. destruct (en_leader _); [|injection Hs as <- _; auto].
      apply lift_prims in Hs as (e & _ & [= -> _]). auto.
    - injection Hs as <- _. auto.
    - destruct (so_callbacks _ !! _) as [io|]; injection Hs as <- _; [|auto]. apply (Hadd [NLocalIO io]); [reflexivity|reflexivity|].
      intros s es la Hx. apply elem_of_list_singleton in Hx. discriminate.
    - injection Hs as <- _. unfold build_done in *. destruct (nd_builds n !! _) as [sn|]; [|auto]. apply (Hadd [NSm (SRBuild (sn_meta sn))]); [reflexivity|reflexivity|].
      intros s es la Hx. apply elem_of_list_singleton in Hx. discriminate.
    - unfold stream_send in Hs. repeat match type of Hs with context [match ?t with _ => _ end] => destruct t; try discriminate Hs end;
        injection Hs as <- _; apply Hsame; reflexivity.
    - injection Hs as <- _. unfold stream_fail in *. destruct (nd_streams n !! _) as [st|]; [|auto]. destruct (st_wait st) as [w|]; [|auto]. destruct (sw_payload w); [|apply Hsame; reflexivity].
      eapply (Hadd [_]); [reflexivity|reflexivity|]. intros s es la Hx. apply elem_of_list_singleton in Hx. discriminate.
    - injection Hs as <- _. unfold stream_snap_reply in *. destruct (nd_streams n !! _) as [st|]; [|auto]. destruct (st_snap st) as [[[m1 m2] m3]|]; [|auto].
      eapply (Hadd [_]); [reflexivity|reflexivity|]. intros s es la Hx. apply elem_of_list_singleton in Hx. discriminate.
    - injection Hs as Hs. unfold hb_send in Hs. repeat match type of Hs with context [match ?t with _ => _ end] => destruct t end;
        injection Hs as <- _; apply Hsame; reflexivity.
    - injection Hs as Hs. unfold handle_reply, read_reply, stream_reply, stream_snap_reply in Hs.
      repeat match type of Hs with context [match ?t with _ => _ end] => destruct t end; injection Hs as <- _;
        (split; [reflexivity|]); intros s9 es9 la9 Hin; cbn in Hin; repeat (apply elem_of_app in Hin as [Hin|Hin]); try exact Hin;
        apply elem_of_list_singleton in Hin; discriminate.
  Qed.
  (** the state machine's step *)
  Lemma sm_kept n n' : sm_step n = Ok n' -> node_inv E me n -> notes_ok n ->
    notes_ok n' /\ told n' = told n /\ forall i, pending_at n' i -> pending_at n i.
  Proof using HE.
    unfold sm_step. intros Hs (w0 & pcs & wv & D & N) Hno. pose proof (snap_applied _ _ HE _ _ _ _ _ N) as Hsa.
    pose proof (ninv_view _ _ _ _ _ _ _ N) as Hview. pose proof (ninv_posv _ _ HE _ _ _ _ _ N) as Pv. pose proof (n_smq _ _ _ _ _ _ _ N) as Hw.
    destruct (nd_smq n) as [|[f l| |sn io] r] eqn:Hq.
    - injection Hs as <-. auto.
    - destruct Hw as (Q1 & Q2 & Q3 & Q4).
      assert (Hl : pfx H (Some l) (dlast (w_d wv))) by (apply (n_smlast _ _ _ _ _ _ _ N f l); rewrite Hq; left).
      unfold so_log in Hs. rewrite <- Hview, Q1 in Hs.
      destruct (read_chain E HE (dk_log (w_d wv)) (sm_applied (nd_sm n)) l) as (R1 & R2 & R3).
      { apply Pv. }
      { eapply pfx_trans; [apply (n_purged _ _ _ _ _ _ _ N)|exact Hsa]. }
      { eapply pfx_trans; eauto. }
      { exact Hl. }
      rewrite R3, Nat.eqb_refl in Hs. injection Hs as <-.
      destruct (sm_apply_ok E HE _ _ (n_sm _ _ _ _ _ _ _ N) R1) as (A1 & A2 & A3 & A4). rewrite R2 in A2.
      set (es := ls_read _ _ _) in *.
      split; [|split].
      + intros s es' la e [Hin|Hin]%elem_of_app He; cbn [note nd_sm nd_set_notes nd_set_sm nd_set_smq nd_notes] in *.
        * destruct (Hno _ _ _ _ Hin He) as [H1 H2]. split; [eapply pfx_trans; [exact H1|exact A4]|exact H2].
        * apply elem_of_list_singleton in Hin. injection Hin as _ -> _. destruct (chain_elem H Hok _ _ _ R1 He) as (H1 & _ & _ & _ & H2).
          split; [rewrite A2, <- R2; exact H1|exact H2].
      + unfold told. cbn [note nd_sm nd_set_notes nd_set_sm nd_set_smq nd_smq]. rewrite Hq, A2. reflexivity.
      + intros i [(f' & l' & Hin & Hi)|(s & es' & la & e & Hin & He & Hi)]; cbn [note nd_notes nd_smq nd_set_notes nd_set_sm nd_set_smq] in Hin.
        * left. exists f', l'. rewrite Hq. split; [right; exact Hin|exact Hi].
        * apply elem_of_app in Hin as [Hin|Hin]; [right; exists s, es', la, e; auto|].
          apply elem_of_list_singleton in Hin. injection Hin as _ -> _. left. exists f, l. rewrite Hq. split; [left|].
          destruct (chain_elem H Hok _ _ _ R1 He) as (_ & _ & H3 & H4 & _). rewrite R2 in H4. cbn in H4. lia.
    - injection Hs as <-. split; [exact Hno|]. unfold told, pending_at. cbn [nd_sm nd_smq nd_notes nd_set_builds nd_set_smq]. rewrite Hq. split; [reflexivity|].
      intros i [(f' & l' & Hin & Hi)|Hx]; [left; exists f', l'; split; [right; exact Hin|exact Hi]|right; exact Hx].
    - destruct Hw as (Q1 & Q2 & Q3). injection Hs as <-. split; [|split].
      + intros s es' la e [Hin|Hin]%elem_of_app He; cbn [note nd_sm nd_set_notes nd_set_sm nd_set_smq nd_notes] in *.
        * destruct (Hno _ _ _ _ Hin He) as [H1 H2]. split; [eapply pfx_trans; [exact H1|exact Q2]|exact H2].
        * apply elem_of_list_singleton in Hin. discriminate.
      + unfold told. cbn [note nd_sm nd_set_notes nd_set_sm nd_set_smq nd_smq]. rewrite Hq. reflexivity.
      + intros i [(f' & l' & Hin & Hi)|(s & es' & la & e & Hin & He & Hi)]; cbn [note nd_notes nd_smq nd_set_notes nd_set_sm nd_set_smq] in Hin.
        * left. exists f', l'. rewrite Hq. split; [right; exact Hin|exact Hi].
        * apply elem_of_app in Hin as [Hin|Hin]; [right; exists s, es', la, e; auto|].
          apply elem_of_list_singleton in Hin. discriminate.
  Qed.
  Lemma is_sm ev : ev = ESm \/ ev <> ESm.
  Proof. destruct ev; auto; right; discriminate. Qed.
  Lemma step_tasks now ev n n' outs : node_step now ev n = Ok (n', outs) -> ev <> ERun -> node_inv E me n -> notes_ok n ->
    notes_ok n' /\ at_view n' = at_view n /\ forall i, pending_at n' i -> pending_at n i.
  Proof using HE.
    intros Hs He HN Hno. pose proof (step_view _ _ _ _ He Hs) as Hv. cbn [fst] in Hv. destruct (is_sm ev) as [->|Hm].
    - cbn [node_step] in Hs. rok Hs. injection Hs as -> _. destruct (sm_kept _ _ Hx HN Hno) as (H1 & H2 & H3). split; [exact H1|]. split; [|exact H3].
      unfold at_view. rewrite Hv, H2. reflexivity.
    - destruct (step_quiet _ _ _ _ _ Hs He Hm) as [Hq Hn]. destruct (step_sm _ _ _ _ _ Hs Hm) as [_ Ha].
      split; [|split].
      + intros s es la e Hin Hx. apply Hn in Hin. rewrite Ha. eapply Hno; eauto.
      + unfold at_view, told. rewrite Hv, Hq, Ha. reflexivity.
      + intros i [(f & l & Hin & Hi)|(s & es & la & e & Hin & Hx)]; [left; exists f, l; rewrite <- Hq; auto|right; exists s, es, la, e; auto].
  Qed.

  (** ** Who waits *)
  Definition entered (m : Msg) (n n' : Node) (tx : nat) (e : Entry) : Prop :=
    asks m n tx (e_payload e) /\ en_leader (nd_eng n) <> None /\
    (exists v, AppendInputEntries v [e] ∈ step_produced (EMsg m) n n' /\ li_node (v_leader v) = me) /\
    e_index e = next_index (rs_last (nd_state n)) /\ rs_last (nd_state n') = Some (e_log_id e) /\ rs_committed (nd_state n') = rs_committed (nd_state n).
  Lemma write_entered m p tx n x : asks m n tx p -> core_write p tx n = Ok x -> node_inv E me n ->
    forall i t, nd_clients x.1 !! i = Some t -> nd_clients n !! i = Some t \/ exists e, i = e_index e /\ t = tx /\ entered m n x.1 tx e.
  Proof using HE.
    intros Hm Hs HN i t. unfold core_write in Hs. destruct (en_leader (nd_eng n)) as [l|] eqn:Hl; [|injection Hs as <-; auto].
    destruct (ld_transfer l); [injection Hs as <-; auto|]. rok Hs. destruct (rs_last (en_state x0)) as [lst|] eqn:Hlst; [|discriminate].
    injection Hs as <-. cbn [fst nd_clients nd_set_clients nd_set_eng]. rewrite lookup_insert_Some. intros [[<- <-]|[_ Ht]]; [right|left; exact Ht].
    pose proof (node_ei E me n HN) as I. destruct (ei_el _ _ _ _ I l Hl) as (L1 & L2 & L3 & L4 & L5 & L6 & L7).
    destruct (lh_append_out p _ _ l Hl Hx) as (Ha & cs & Ho & _). rewrite Hlst in Ha. injection Ha as Ha.
    pose proof (ec_last E _ _ (node_ec E me n HN)) as Hlast.
    exists (mkEntry lst p). split; [reflexivity|]. split; [reflexivity|]. split; [exact Hm|]. split; [rewrite Hl; discriminate|]. split; [|split; [|split]].
    - exists (ld_vote l). split; [|exact L3]. cbn [step_produced nd_eng nd_set_clients nd_set_eng]. rewrite Ho, drop_app. rewrite Ha. left.
    - cbn. rewrite Ha. cbn. f_equal. congruence.
    - exact Hlst.
    - cbn. apply lh_append_prims in Hx; [|cbn; lia]. apply (KindProofs.prims_field (fun e => rs_committed (en_state e)) _ KindProofs.prim_committed _ _ _ Hx). reflexivity.
  Qed.

  Lemma step_clients now ev n n' outs : node_step now ev n = Ok (n', outs) -> ev <> ERun -> node_inv E me n ->
    forall i t, nd_clients n' !! i = Some t -> nd_clients n !! i = Some t \/ exists m e, ev = EMsg m /\ i = e_index e /\ entered m n n' t e.
  Proof using HE.
    intros Hs He HN.
    assert (Hsame : nd_clients n' = nd_clients n -> forall i t, nd_clients n' !! i = Some t -> nd_clients n !! i = Some t \/ exists m e, ev = EMsg m /\ i = e_index e /\ entered m n n' t e).
    { intros -> i t Ht. left. exact Ht. }
    destruct ev; try congruence; cbn [node_step] in Hs; unfold when_idle in Hs.
    - destruct (runnable n); [injection Hs as <- _; apply Hsame; reflexivity|].
      assert (Hl : forall y, lift n y = Ok (n', outs) -> nd_clients n' = nd_clients n) by (intros y Hy; apply lift_prims in Hy as (e & _ & [= -> _]); reflexivity).
      assert (Hw : forall p tx, asks m n tx p -> core_write p tx n = Ok (n', outs) -> forall i t, nd_clients n' !! i = Some t -> nd_clients n !! i = Some t \/ exists m0 e, EMsg m = EMsg m0 /\ i = e_index e /\ entered m0 n n' t e).
      { intros p tx Ha Hw i t Ht. destruct (write_entered m p tx n _ Ha Hw HN i t Ht) as [Hx|(e & H1 & -> & H2)]; [left; exact Hx|right]. exists m, e. auto. }
      destruct m; cbn [handle_msg] in Hs; try (apply Hsame; exact (Hl _ Hs)).
      + apply (Hw _ _ (or_introl (ex_intro _ _ (conj eq_refl eq_refl))) Hs).
      + unfold core_change in Hs. destruct (ms_change _ _ _) as [mb|] eqn:Hc; [|injection Hs as <- _; apply Hsame; reflexivity].
        eapply Hw; [right; do 3 eexists; split; [reflexivity|split; [exact Hc|reflexivity]]|exact Hs].
      + apply Hsame. unfold core_read in Hs. destruct (en_leader _) as [l|]; [|injection Hs as <- _; reflexivity].
        destruct (joint_is_quorum _ _); [injection Hs as <- _; reflexivity|]. destruct (forallb _ _); [|discriminate]. injection Hs as <- _. reflexivity.
    - destruct (runnable n); [injection Hs as <- _; apply Hsame; reflexivity|]. destruct (nd_notes n) as [|y r]; [injection Hs as <- _; apply Hsame; reflexivity|].
      assert (Hl : forall m z, nd_clients m = nd_clients n -> lift m z = Ok (n', outs) -> nd_clients n' = nd_clients n).
      { intros m z H1 Hy. apply lift_prims in Hy as (e & _ & [= -> _]). exact H1. }
      assert (Hq : forall m o, nd_clients m = nd_clients n -> Ok (m, o) = Ok (n', outs) -> nd_clients n' = nd_clients n).
      { intros m o H1 [= <- _]. exact H1. }
      destruct y as [t resp sv|v sv|io|ss t rr|ss t time|[meta|io meta|s es la]]; cbn [handle_note] in Hs.
      1-7: apply Hsame.
      + destruct (en_cand _); [destruct (vote_matches _ _)|]; first [eapply Hl; [|exact Hs]; reflexivity|eapply Hq; [|exact Hs]; reflexivity].
      + destruct (vote_matches _ _); first [eapply Hl; [|exact Hs]; reflexivity|eapply Hq; [|exact Hs]; reflexivity].
      + destruct io; [eapply Hq; [|exact Hs]; reflexivity|]. destruct (en_leader _); [|eapply Hq; [|exact Hs]; reflexivity].
        destruct (vote_matches _ _); first [eapply Hl; [|exact Hs]; reflexivity|eapply Hq; [|exact Hs]; reflexivity].
      + destruct (session_matches _ _); first [eapply Hl; [|exact Hs]; reflexivity|eapply Hq; [|exact Hs]; reflexivity].
      + destruct (session_matches _ _); first [eapply Hl; [|exact Hs]; reflexivity|eapply Hq; [|exact Hs]; reflexivity].
      + rok Hs. eapply Hq; [|exact Hs]; reflexivity.
      + eapply Hq; [|exact Hs]; reflexivity.
      + cbn zeta in Hs. change (nd_clients (nd_upd_io _ _)) with (nd_clients n) in Hs. pose proof (apply_results_sub es (nd_clients n)) as Ha.
        destruct (apply_results es (nd_clients n)) as [c o]. injection Hs as <- _. intros i t Ht. left. apply Ha. exact Ht.
    - destruct (runnable n); [injection Hs as <- _; apply Hsame; reflexivity|]. apply lift_prims in Hs as (e & _ & [= -> _]). apply Hsame; reflexivity.
    - destruct (runnable n); [injection Hs as <- _; apply Hsame; reflexivity|]. destruct (en_leader _); [|injection Hs as <- _; apply Hsame; reflexivity].
      apply lift_prims in Hs as (e & _ & [= -> _]). apply Hsame; reflexivity.
    - injection Hs as <- _. apply Hsame; reflexivity.
    - destruct (so_callbacks _ !! _); injection Hs as <- _; apply Hsame; reflexivity.
    - rok Hs. injection Hs as -> _. apply Hsame. unfold sm_step in Hx. destruct (nd_smq n) as [|[]]; try destruct (_ =? _); try discriminate; injection Hx as <-; reflexivity.
    - injection Hs as <- _. apply Hsame. unfold build_done. destruct (nd_builds n !! _); reflexivity.
    - apply Hsame. unfold stream_send in Hs. repeat match type of Hs with context [match ?t with _ => _ end] => destruct t; try discriminate Hs end;
        injection Hs as <- _; reflexivity.
    - injection Hs as <- _. apply Hsame. unfold stream_fail. repeat match goal with |- context [match ?t with _ => _ end] => destruct t end; reflexivity.
    - injection Hs as <- _. apply Hsame. unfold stream_snap_reply. repeat match goal with |- context [match ?t with _ => _ end] => destruct t end; reflexivity.
    - apply Hsame. injection Hs as Hs. unfold hb_send in Hs. repeat match type of Hs with context [match ?t with _ => _ end] => destruct t end; injection Hs as <- _; reflexivity.
    - apply Hsame. injection Hs as Hs. unfold handle_reply, read_reply, stream_reply, stream_snap_reply in Hs.
      repeat match type of Hs with context [match ?t with _ => _ end] => destruct t end; injection Hs as <- _; reflexivity.
  Qed.

  Lemma entered_kept m n n' tx e : node_inv E me n -> node_inv E me n' -> entered m n n' tx e -> kept n' (e_log_id e).
  Proof using HE.
    intros HN HN' (_ & _ & _ & Hi & Hl & Hc). right. left. exists (en_out (nd_eng n')), []. split; [rewrite app_nil_r; reflexivity|].
    destruct HN' as (w0 & pcs & wv & D & N'). rewrite <- (ninv_at _ _ _ _ _ N'), <- vnext_w, <- (walk_eq _ _ _ _ _ (n_w2 _ _ _ _ _ _ _ N')).
    cbn [w_d w_cur fst snd]. split.
    - pose proof (ec_last E _ _ (ei_ec _ _ _ _ (n_ei _ _ _ _ _ _ _ N'))) as Hd. change (en_state (nd_eng n')) with (nd_state n') in Hd.
      rewrite <- Hd, Hl. constructor.
    - rewrite Hc. fold (e_index e). rewrite Hi. pose proof (node_ec E me n HN) as C. rewrite (ec_last E _ _ C).
      apply (pfx_idx H Hok). apply (ec_last' _ _ _ C).
  Qed.
  Lemma entered_hist m n n' tx e : node_inv E me n -> own_fits E (nd_id n) (rs_last (nd_state n)) (step_produced (EMsg m) n n') ->
    entered m n n' tx e -> exists q, H (e_log_id e) = Some (q, e_payload e).
  Proof using HE.
    intros HN Hown (_ & _ & (v & Hv & Hn) & _). pose proof (node_id E me n HN) as Hid.
    assert (Hch : chain H (rs_last (nd_state n)) [e]) by (eapply Hown; [exact Hv|congruence]).
    apply (chain_elem H Hok _ _ e Hch). left.
  Qed.

  (** every client that waits, waits for an entry that was proposed for it *)
  Definition served (acts : list Action) (n0 n : Node) : Prop :=
    notes_ok n /\
    forall i tx, nd_clients n !! i = Some tx ->
      exists e, proposed acts n0 tx e /\ e_index e = i /\ kept n (e_log_id e) /\ exists q, H (e_log_id e) = Some (q, e_payload e).
  Lemma proposed_more acts n0 tx e now ev : proposed acts n0 tx e -> proposed (acts ++ [Act now ev]) n0 tx e.
  Proof.
    intros (a1 & nw & m & a2 & n1 & o1 & n2 & o2 & -> & Hc & Hr). exists a1, nw, m, (a2 ++ [Act now ev]), n1, o1, n2, o2. split; [rewrite <- app_assoc; reflexivity|].
    split; [|exact Hr]. intros a [Ha|Ha]%elem_of_app; [apply Hc; exact Ha|]. apply elem_of_list_singleton in Ha. subst a. exact I.
  Qed.
  Lemma is_run ev : ev = ERun \/ ev <> ERun.
  Proof. destruct ev; auto; right; discriminate. Qed.
  Lemma served_step acts n0 o0 now ev n n' outs : node_run acts n0 = Ok (n, o0) -> node_step now ev n = Ok (n', outs) -> event_fits E n ev ->
    own_fits E (nd_id n) (rs_last (nd_state n)) (step_produced ev n n') -> node_inv E me n -> node_inv E me n' ->
    served acts n0 n -> served (acts ++ [Act now ev]) n0 n'.
  Proof using HE.
    intros Hrun Hs Hf Hown HN HN' [Hno Hcl]. destruct (is_run ev) as [->|He].
    - cbn [node_step] in Hs. destruct (run_kept _ _ _ Hs HN Hno) as [Hno' Hk]. split; [exact Hno'|]. intros i tx Ht. cbn [fst] in *.
      destruct (nd_clients n !! i) as [tx0|] eqn:Hi.
      + destruct (Hcl i tx0 Hi) as (e & H1 & <- & H3 & H4). destruct (Hk tx (e_log_id e) Ht) as [H5 H6].
        unfold e_index in Hi. rewrite Hi in H5. injection H5 as ->. exists e. split; [apply proposed_more; exact H1|]. auto.
      + exfalso. destruct (Hk tx (mkLogId (mkLeaderId 0 0) i) Ht) as [H5 _]. cbn in H5. congruence.
    - destruct (step_tasks _ _ _ _ _ Hs He HN Hno) as (Hno' & Hat & Hp). split; [exact Hno'|]. intros i tx Ht.
      destruct (step_clients _ _ _ _ _ Hs He HN i tx Ht) as [Hi|(m & e & -> & -> & Hent)].
      + destruct (Hcl i tx Hi) as (e & H1 & <- & H3 & H4). exists e. split; [apply proposed_more; exact H1|]. split; [reflexivity|]. split; [|exact H4].
        destruct (step_moved E me HE now ev n (n', outs) He Hs Hf Hown HN) as (D' & (_ & _ & cs & Ho & _) & _). cbn [fst] in Ho.
        eapply kept_step; [exact Hat|exact Ho|exact Hp|exact H3].
      + exists e. split; [|split; [reflexivity|split; [eapply entered_kept; [exact HN|exact HN'|exact Hent]|eapply entered_hist; [exact HN|exact Hown|exact Hent]]]].
        destruct Hent as (E1 & E2 & (v & E3 & _) & E4 & E5 & _).
        exists acts, now, m, [], n, o0, n', outs. split; [reflexivity|]. split; [intros a Ha; apply elem_of_nil in Ha; destruct Ha|].
        repeat split; [exact Hrun|exact Hs|exact E1|exact E2|exists v; exact E3|exact E4|exact E5].
  Qed.
  Lemma restart_served acts n0 now k j keep n n' : node_restart now k j keep n = Ok n' -> served acts n0 n'.
  Proof.
    unfold node_restart, node_start. intros Hx. rok Hx. destruct x as [[s d] sm]. rok Hx. injection Hx as <-. split.
    - intros s0 es la e Hin. apply elem_of_nil in Hin. destruct Hin.
    - intros i tx Ht. cbn in Ht. rewrite lookup_empty in Ht. discriminate.
  Qed.
  Lemma run_fits_snoc a c n : run_fits E (a ++ [c]) n -> forall n1 o1, node_run a n = Ok (n1, o1) -> run_fits E a n /\
    (forall x, node_act c n1 = Ok x -> act_fits E c n1 x.1).
  Proof.
    revert n. induction a as [|b r IH]; intros n; cbn [app run_fits node_run].
    - intros Hf n1 o1 [= <- _]. split; [exact I|]. intros x Hx. rewrite Hx in Hf. apply Hf.
    - intros Hf n1 o1 Hr. rok Hr. rok Hr. injection Hr as <- _. destruct Hf as [F1 F2]. destruct x0 as [n2 o2].
      destruct (IH _ F2 _ _ Hx0) as [G1 G2]. split; [split; [exact F1|exact G1]|exact G2].
  Qed.
  Theorem run_served now0 cfg n0 acts : forall n outs, node_fresh now0 cfg = Ok n0 -> ec_id cfg = me -> run_fits E acts n0 -> node_run acts n0 = Ok (n, outs) ->
    served acts n0 n.
  Proof using HE.
    induction acts as [|a acts IH] using rev_ind; intros n outs Hfr Hme Hf Hr.
    - cbn in Hr. injection Hr as <- _. unfold node_fresh, node_start in Hfr. rok Hfr. destruct x as [[s d] sm]. rok Hfr. injection Hfr as <-. split.
      + intros s0 es la e Hin. apply elem_of_nil in Hin. destruct Hin.
      + intros i tx Ht. cbn in Ht. rewrite lookup_empty in Ht. discriminate.
    - pose proof Hr as Hr0. apply node_run_snoc in Hr as (n1 & o1 & o & Hr1 & Ha & _). destruct (run_fits_snoc _ _ _ Hf _ _ Hr1) as [Hf1 Hfa].
      pose proof (Hfa _ Ha) as Hfa1. cbn [fst] in Hfa1.
      assert (HN : node_inv E me n1) by (apply (reachable_inv E me HE cfg); [exists now0, n0, acts, o1; auto|exact Hme]).
      assert (HN' : node_inv E me n) by (apply (reachable_inv E me HE cfg); [exists now0, n0, (acts ++ [a]), outs; auto|exact Hme]).
      specialize (IH n1 o1 Hfr Hme Hf1 Hr1). destruct a as [now ev|now k j keep]; cbn [node_act act_fits] in *.
      + destruct Hfa1 as [F1 F2]. eapply served_step; [exact Hr1|exact Ha|exact F1|exact F2|exact HN|exact HN'|exact IH].
      + rok Ha. injection Ha as -> _. eapply restart_served. exact Hx.
  Qed.
  Theorem success_own now0 cfg n0 acts n outs now ev n' o tx l p :
    node_fresh now0 cfg = Ok n0 -> ec_id cfg = me -> run_fits E acts n0 -> node_run acts n0 = Ok (n, outs) ->
    node_step now ev n = Ok (n', o) -> OClient tx (CWriteOk l p) ∈ o ->
    exists e, proposed acts n0 tx e /\ e_log_id e = l /\ e_payload e = p /\ e ∈ sm_entries (nd_sm n') /\ pos_le (Some l) (rs_committed (nd_state n)).
  Proof using HE.
    intros Hfr Hme Hf Hr Hs Hin. assert (HN : node_inv E me n) by (apply (reachable_inv E me HE cfg); [exists now0, n0, acts, outs; auto|exact Hme]).
    destruct (run_served now0 cfg n0 acts n outs Hfr Hme Hf Hr) as [Hno Hcl].
    destruct (success_note _ _ _ _ _ _ _ _ Hs Hin) as (s & es & la & r & e & -> & Hn & He & Hc & <- & <- & Hsm).
    destruct (Hcl _ _ Hc) as (e' & P1 & P2 & P3 & (q' & P4)).
    destruct (Hno s es la e ltac:(rewrite Hn; left) He) as [Hp (q & Hq)].
    assert (Heq : e_log_id e' = e_log_id e).
    { eapply kept_same; [exact HN|exact Hno|exact P3|exact P2|exact Hp|]. right. exists s, es, la, e. rewrite Hn. split; [left|]. auto. }
    assert (Hee : e' = e).
    { rewrite Heq, Hq in P4. injection P4 as _ P4. destruct e', e. cbn in *. congruence. }
    subst e'. exists e. split; [exact P1|]. split; [reflexivity|]. split; [reflexivity|]. split.
    - rewrite Hsm. eapply sm_has; [exact HN|exact Hp|exact Hq].
    - eapply (pfx_pos_le E HE). eapply pfx_trans; [exact Hp|]. subst me. apply (node_applied E cfg HE n HN).
  Qed.
End client.
