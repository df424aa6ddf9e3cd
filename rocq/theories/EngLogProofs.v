(** The engine's idea of its log: the log of the disk as it will be when all queued
    commands have been executed.  Every engine operation keeps this invariant and queues
    commands that fit ([walk]). *)
From Coq Require Import Bool Lia ZifyBool ZifyNat.
From stdpp Require Import base numbers option gmap relations list.
From Verif Require Import Types TypesProofs LogIdList LogIdSpec LogIdListProofs Quorum Membership Progress RaftState
  ProgressEntry Engine Store RaftCore EnginePrims NodeSpec NodePrims VoteNodeProofs ElectProofs LogSpec LogProofs WalkProofs.

Ltac unpush := unfold push, push_all, upd, set_leader, set_cand, set_greater in *;
  cbn [en_state en_out en_leader en_cand en_cfg en_seen_greater] in *.

Section eng.
  Context (E : Env) (me : nat) (HE : env_ok E).
  Notation H := (ev_hist E).
  Notation tip := (ev_tip E).
  Let Hok : hist_ok H := proj1 HE.

  Record ec (D : Disk) (s : RaftState) : Prop := {
    ec_log : log_ok H (dk_log D);
    ec_rep : lil_rep (rs_log_ids s) (ls_ids (dk_log D));
    ec_pn : rs_purged_next s = next_index (ls_purged (dk_log D));
    ec_vl : vl D = v_leader (rs_v s);
    ec_vle : vote_le (dvote D) (rs_v s);
    ec_plan : pfx H (ls_purged (dk_log D)) (rs_purge_upto s);
    ec_snap : pfx H (rs_purge_upto s) (rs_snap_last s);
    ec_com : pfx H (rs_snap_last s) (rs_committed s);
    ec_last' : pfx H (rs_committed s) (dlast D);
    ec_dc : pfx H (dk_committed D) (rs_committed s);
    ec_lead : oleader_le (dlast D) (v_leader (rs_v s));
  }.
  (** the last accepted write *)
  Definition acc_ok (D : Disk) (s : RaftState) : Prop :=
    match io_accepted (rs_io s) with
    | Some (IOLog v x) =>
        v_committed v = true /\ vote_le v (rs_v s) /\
        (li_node (v_leader v) <> me -> pfx H x (tip (v_leader v))) /\
        (v_leader v = v_leader (rs_v s) -> pfx H x (dlast D))
    | Some (IOVote v) => v_committed v = false /\ vote_le v (rs_v s)
    | None => True
    end.
  Definition el (D : Disk) (e : Engine) : Prop :=
    forall l, en_leader e = Some l ->
      ld_vote l = rs_v (en_state e) /\ v_committed (ld_vote l) = true /\ li_node (v_leader (ld_vote l)) = me /\
      ld_last l = dlast D /\ (forall p, p ∈ matched l -> pfx H p.2 (dlast D)) /\ pfx H (lgranted l) (dlast D) /\
      rs_server (en_state e) = SLeader.
  Definition cl (D : Disk) (e : Engine) : Prop :=
    forall c, en_cand e = Some c ->
      cd_vote c = rs_v (en_state e) /\ v_committed (cd_vote c) = false /\ li_node (v_leader (cd_vote c)) = me /\
      cd_last c = dlast D /\ en_leader e = None.
  Record ei (D : Disk) (e : Engine) : Prop := {
    ei_ec : ec D (en_state e);
    ei_vote : dvote D = rs_v (en_state e);
    ei_acc : acc_ok D (en_state e);
    ei_el : el D e;
    ei_cl : cl D e;
    ei_id : en_id e = me;
  }.
  (** from [e] to [e'], queueing commands that fit *)
  Definition runs (D : Disk) (e : Engine) (D' : Disk) (e' : Engine) : Prop :=
    en_cfg e' = en_cfg e /\ vote_le (rs_v (en_state e)) (rs_v (en_state e')) /\
    exists cs, en_out e' = en_out e ++ cs /\
      walk E me (mkW D (rs_committed (en_state e)) MNone) cs (mkW D' (rs_committed (en_state e')) MNone).

  Lemma vote_le_refl v : vote_le v v.
  Proof. apply vote_geb_refl. Qed.
  Lemma vote_le_trans a b c : vote_le a b -> vote_le b c -> vote_le a c.
  Proof. unfold vote_le. intros H1 H2. eapply vote_geb_trans; eauto. Qed.
  Lemma runs_refl D e : runs D e D e.
  Proof. split; [reflexivity|]. split; [apply vote_le_refl|]. exists []. rewrite app_nil_r. split; reflexivity. Qed.
  Lemma runs_trans D1 e1 D2 e2 D3 e3 : runs D1 e1 D2 e2 -> runs D2 e2 D3 e3 -> runs D1 e1 D3 e3.
  Proof.
    intros (C1 & V1 & a & O1 & W1) (C2 & V2 & b & O2 & W2). split; [congruence|].
    split; [eapply vote_le_trans; eauto|]. exists (a ++ b).
    split; [rewrite O2, O1, app_assoc; reflexivity|]. eapply walk_trans; eauto.
  Qed.
  Lemma runs_id D e D' e' : runs D e D' e' -> en_id e' = en_id e.
  Proof. intros (Hc & _). unfold en_id. rewrite Hc. reflexivity. Qed.
  Lemma runs_push D e D' e' cs :
    en_cfg e' = en_cfg e -> rs_v (en_state e') = rs_v (en_state e) -> en_out e' = en_out e ++ cs ->
    walk E me (mkW D (rs_committed (en_state e)) MNone) cs (mkW D' (rs_committed (en_state e')) MNone) ->
    runs D e D' e'.
  Proof. intros Hc Hv Ho Hw. split; [exact Hc|]. split; [rewrite Hv; apply vote_le_refl|eauto]. Qed.
  (** no commands *)
  Lemma runs_quiet D e e' :
    en_cfg e' = en_cfg e -> rs_v (en_state e') = rs_v (en_state e) -> en_out e' = en_out e ->
    rs_committed (en_state e') = rs_committed (en_state e) -> runs D e D e'.
  Proof.
    intros Hc Hv Ho Hco. eapply (runs_push D e D e' []); [exact Hc|exact Hv|rewrite app_nil_r; exact Ho|].
    rewrite Hco. reflexivity.
  Qed.

  (** ** Reading the engine's log *)

  Lemma ec_last D s : ec D s -> rs_last s = dlast D.
  Proof.
    intros C. unfold rs_last, lil_last. rewrite (lil_rep_last _ _ (ec_rep _ _ C)). apply ls_ids_last.
  Qed.
  Lemma ec_get D s i x : ec D s -> rs_get_log_id s i = Some x <->
    pfx H (Some x) (dlast D) /\ next_index (ls_purged (dk_log D)) <= S (lid_index x) /\ lid_index x = i.
  Proof using HE.
    intros C. destruct (ec_rep _ _ C) as (Hs & _ & He). unfold rs_get_log_id.
    rewrite (lil_get_expand _ _ Hs), He. apply (ls_get H Hok); apply C.
  Qed.
  Lemma ec_get_none D s i : ec D s -> rs_get_log_id s i = None ->
    S i < next_index (ls_purged (dk_log D)) \/ next_index (dlast D) <= i.
  Proof using HE.
    intros C. destruct (ec_rep _ _ C) as (Hs & _ & He). unfold rs_get_log_id.
    rewrite (lil_get_expand _ _ Hs), He. apply (ls_get_none H Hok); apply C.
  Qed.
  Lemma ec_root D s : ec D s -> pfx H None (dlast D).
  Proof. intros C. apply log_ok_root. apply C. Qed.
  Lemma ec_prev D s i : ec D s -> pfx H (rs_prev_log_id s i) (dlast D).
  Proof using HE.
    intros C. unfold rs_prev_log_id. destruct i as [|j]; [apply ec_root with s; exact C|].
    destruct (rs_get_log_id s j) as [x|] eqn:Hg; [|apply ec_root with s; exact C].
    apply (ec_get D s j x C) in Hg. apply Hg.
  Qed.
  Lemma ec_last_purged D s : ec D s -> rs_last_purged s = ls_purged (dk_log D).
  Proof.
    intros C. unfold rs_last_purged, lil_first. rewrite (ec_pn _ _ C), (lil_rep_head _ _ (ec_rep _ _ C)).
    unfold ls_ids. destruct (ls_purged (dk_log D)); reflexivity.
  Qed.
  Lemma ec_purged_com D s : ec D s -> pfx H (ls_purged (dk_log D)) (rs_committed s).
  Proof. intros C. eapply pfx_trans; [apply C|]. eapply pfx_trans; apply C. Qed.
  Lemma ec_com_root D s : ec D s -> pfx H None (rs_committed s).
  Proof. intros C. eapply pfx_rooted; [apply ec_root with s; exact C|apply C]. Qed.
  Lemma ec_pos D s : ec D s -> pos E (mkW D (rs_committed s) MNone).
  Proof using HE.
    intros C. pose proof (ec_purged_com _ _ C) as Hp. pose proof (ec_com_root _ _ C) as Hr.
    destruct C as [C1 C2 C3 C4 C4' C5 C6 C7 C8 C9 C10].
    constructor; cbn [w_d w_cur w_must]; auto.
    - rewrite C4. exact C10.
    - rewrite C4. eapply pfx_oleader; [exact Hok|exact C8|exact C10].
    - eapply pfx_trans; eauto.
  Qed.
  (** only the listed parts matter *)
  Lemma ec_ext D s s' : ec D s -> rs_v s' = rs_v s -> rs_committed s' = rs_committed s ->
    rs_purged_next s' = rs_purged_next s -> rs_log_ids s' = rs_log_ids s -> rs_snap_last s' = rs_snap_last s ->
    rs_purge_upto s' = rs_purge_upto s -> ec D s'.
  Proof.
    intros [C1 C2 C3 C4 C4' C5 C6 C7 C8 C9 C10] E1 E2 E3 E4 E5 E6.
    constructor; rewrite ?E1, ?E2, ?E3, ?E4, ?E5, ?E6; assumption.
  Qed.
  Lemma acc_ext D D' s s' : acc_ok D s -> rs_v s' = rs_v s -> io_accepted (rs_io s') = io_accepted (rs_io s) ->
    pfx H (dlast D) (dlast D') -> acc_ok D' s'.
  Proof.
    unfold acc_ok. intros A E1 E2 Hl. rewrite E2, E1. destruct (io_accepted (rs_io s)) as [[v|v x]|]; [exact A| |exact A].
    destruct A as (A1 & A2 & A3 & A4). repeat split; auto. intros Hv. eapply pfx_trans; [apply A4; exact Hv|exact Hl].
  Qed.
  (** accepting a write of the current leader *)
  Lemma acc_accept D s v x : acc_ok D s -> v_committed v = true -> v_leader v = v_leader (rs_v s) ->
    v_committed (rs_v s) = true ->
    (li_node (v_leader v) <> me -> pfx H x (tip (v_leader v))) -> pfx H x (dlast D) ->
    acc_ok D (rs_accept_io (IOLog v x) s).
  Proof.
    intros A Hc Hv Hcv Ht Hx. rewrite rs_accept_io_eq. unfold acc_ok in *. cbn [set_io rs_io].
    change (rs_v (set_io (io_accept (IOLog v x) (rs_io s)) s)) with (rs_v s).
    unfold io_accept. destruct (match io_accepted (rs_io s) with None => true | Some c => io_gtb (IOLog v x) c end);
      [|exact A]. cbn [io_set_accepted io_accepted]. repeat split; auto.
    unfold vote_le. assert (rs_v s = v) as -> by ord. apply vote_geb_refl.
  Qed.
  (** after it the accepted write is one of this leader, and not less *)
  Lemma accepted_accept D s v x : acc_ok D s -> v_committed v = true -> v_leader v = v_leader (rs_v s) ->
    v_committed (rs_v s) = true ->
    exists y, io_accepted (rs_io (rs_accept_io (IOLog v x) s)) = Some (IOLog v y) /\ ologid_leb x y = true.
  Proof.
    intros A Hc Hv Hcv. rewrite rs_accept_io_eq. cbn [set_io rs_io]. unfold io_accept, acc_ok in *.
    destruct (io_accepted (rs_io s)) as [c|] eqn:Ha;
      [|exists x; split; [reflexivity|apply ologid_leb_refl]].
    assert (Hrv : rs_v s = v) by ord.
    destruct (io_gtb (IOLog v x) c) eqn:Hg; [exists x; split; [reflexivity|apply ologid_leb_refl]|].
    rewrite Ha. destruct c as [w|w y].
    - exfalso. destruct A as [A1 A2]. unfold io_gtb, io_cmp in Hg. cbn [io_vote] in Hg.
      rewrite Hrv in A2. unfold vote_le in A2.
      assert (Hgt : vote_gtb v w = true) by ord. unfold vote_gtb in Hgt.
      destruct (vote_pcmp v w) as [[[]|]|]; discriminate.
    - destruct A as (A1 & A2 & A3 & A4). rewrite Hrv in A2. unfold vote_le in A2.
      unfold io_gtb, io_cmp in Hg. cbn [io_vote io_last_log_id] in Hg.
      destruct (vote_gtb v w) eqn:Hgt.
      { exfalso. unfold vote_gtb in Hgt. destruct (vote_pcmp v w) as [[[]|]|]; discriminate. }
      assert (w = v) as -> by ord. exists y. split; [reflexivity|].
      replace (vote_pcmp v v) with (PC (Some Eq)) in Hg; [|unfold vote_pcmp, vote_pcmp_of; destruct v as [[t n] []]; unfold leader_cmp; cbn; rewrite !Nat.compare_refl; reflexivity].
      unfold ologid_leb. change (match ologid_cmp x y with Gt => true | _ => false end = false) in Hg.
      destruct (ologid_cmp x y); [reflexivity|reflexivity|discriminate].
  Qed.

  (** ** State changes *)

  (** a follower appends *)
  Definition framed (e e' : Engine) : Prop :=
    en_leader e' = en_leader e /\ en_cand e' = en_cand e /\ en_cfg e' = en_cfg e /\ rs_v (en_state e') = rs_v (en_state e) /\
    rs_io (en_state e') = rs_io (en_state e) /\ rs_committed (en_state e') = rs_committed (en_state e) /\
    rs_snap (en_state e') = rs_snap (en_state e) /\ rs_purge_upto (en_state e') = rs_purge_upto (en_state e) /\
    rs_purged_next (en_state e') = rs_purged_next (en_state e).
  Lemma append_runs lv es D e : ec D (en_state e) -> es <> [] -> chain H (dlast D) es ->
    oleader_le (es_last (dlast D) es) (v_leader (rs_v (en_state e))) -> v_leader lv = v_leader (rs_v (en_state e)) ->
    let D' := dapply D (AppendInputEntries lv es) in let e' := fh_do_append lv es e in
    runs D e D' e' /\ ec D' (en_state e') /\ framed e e' /\ dlast D' = es_last (dlast D) es.
  Proof using HE.
    intros C Hne Hch Hle Hlv. cbv zeta. rewrite fh_do_append_eq.
    set (f := fun s => let s1 := rs_extend es s in
       match last_two_memberships es with
       | [] => s1
       | ms => let s2 := set_mem (foldl ms_append (rs_mem s1) ms) s1 in
               set_server (rs_calc_server s2 (en_id e)) s2
       end).
    assert (Hf : forall s, rs_v (f s) = rs_v s /\ rs_committed (f s) = rs_committed s /\
      rs_purged_next (f s) = rs_purged_next s /\ rs_log_ids (f s) = lil_extend (rs_log_ids s) (map e_log_id es) /\
      rs_snap_last (f s) = rs_snap_last s /\ rs_purge_upto (f s) = rs_purge_upto s /\ rs_io (f s) = rs_io s /\ rs_snap (f s) = rs_snap s).
    { intros s. unfold f. destruct (last_two_memberships es); repeat split. }
    clearbody f. destruct (Hf (en_state e)) as (F1 & F2 & F3 & F4 & F5 & F6 & F7 & F8).
    destruct (ls_append_ok H es (dk_log D) (ec_log _ _ C) Hch) as [Ho Hl].
    assert (Hgrow : pfx H (dlast D) (es_last (dlast D) es)) by (apply chain_pfx; exact Hch).
    split; [|split; [|split]]; unpush.
    - apply (runs_push _ _ _ _ [AppendInputEntries lv es]); unpush; [reflexivity|exact F1|reflexivity|].
      rewrite F2. cbn [walk wok w_d w_must w_cur wnext]. rewrite (ec_vl _ _ C). auto 6.
    - unfold dapply. cbn [cmd_wop wop_apply].
      constructor; cbn [dk_log dk_committed]; rewrite ?F1, ?F2, ?F3, ?F4, ?F5, ?F6; unfold vl, dvote; cbn [dk_vote]; try apply C.
      + exact Ho.
      + rewrite ls_ids_append. eapply lil_extend_rep; [apply C|].
        rewrite <- ls_ids_append. apply (ls_ids_consecutive H Hok). exact Ho.
      + rewrite Hl. eapply pfx_trans; [apply C|exact Hgrow].
      + rewrite Hl. exact Hle.
    - unfold framed. auto 10.
    - unfold dapply. cbn [cmd_wop wop_apply dk_log]. exact Hl.
  Qed.

  (** a follower truncates; nothing is said of the accepted write *)
  Lemma truncate_runs since D e : ec D (en_state e) -> li_node (v_leader (rs_v (en_state e))) <> me ->
    next_index (rs_committed (en_state e)) <= since ->
    exists D', runs D e D' (fh_truncate since e) /\ ec D' (en_state (fh_truncate since e)) /\
      pfx H (dlast D') (dlast D) /\ next_index (dlast D') = Nat.min since (next_index (dlast D)) /\
      (next_index (dlast D) <= since -> D' = D) /\ dk_vote D' = dk_vote D /\ framed e (fh_truncate since e).
  Proof using HE.
    intros C Hf Hs. rewrite fh_truncate_eq. destruct (rs_get_log_id (en_state e) since) as [lid|] eqn:Hg.
    - apply (ec_get D _ _ _ C) in Hg as (G1 & G2 & G3). subst since.
      set (f := fun s => let s1 := set_log_ids (lil_truncate (rs_log_ids s) (lid_index lid)) s in
           if onat_leb (Some (lid_index lid)) (olid_index (em_log_id (rs_eff s1)))
           then let s2 := set_mem (ms_truncate (rs_mem s1) (lid_index lid)) s1 in
                set_server (rs_calc_server s2 (en_id e)) s2
           else s1).
      assert (Hff : forall s, rs_v (f s) = rs_v s /\ rs_committed (f s) = rs_committed s /\
        rs_purged_next (f s) = rs_purged_next s /\ rs_log_ids (f s) = lil_truncate (rs_log_ids s) (lid_index lid) /\
        rs_snap_last (f s) = rs_snap_last s /\ rs_purge_upto (f s) = rs_purge_upto s /\ rs_io (f s) = rs_io s /\ rs_snap (f s) = rs_snap s).
      { intros s. unfold f. cbv zeta. destruct (onat_leb _ _); repeat split. }
      clearbody f. destruct (Hff (en_state e)) as (F1 & F2 & F3 & F4 & F5 & F6 & F7 & F8).
      pose proof (ec_purged_com _ _ C) as Hpc. pose proof (pfx_idx H Hok _ _ Hpc) as Hpi.
      assert (Hi : next_index (ls_purged (dk_log D)) <= lid_index lid) by lia.
      destruct (ls_truncate_ok H Hok (lid_index lid) (dk_log D) (ec_log _ _ C) Hi) as (Ho & Hp & Hx).
      assert (Hcl : pfx H (rs_committed (en_state e)) (ls_last (ls_truncate (lid_index lid) (dk_log D)))).
      { eapply pfx_of_idx; [exact Hok|apply C|exact Hp|].
        pose proof (pfx_idx H Hok _ _ G1) as Hk. cbn in Hk. lia. }
      exists (dapply D (TruncateLog lid)). unfold dapply. cbn [cmd_wop wop_apply].
      split; [|split; [|split; [|split; [|split; [|split]]]]].
      + apply (runs_push _ _ _ _ [TruncateLog lid]); unpush; [reflexivity|exact F1|reflexivity|].
        rewrite F2. cbn [walk wok w_d w_must w_cur wnext]. rewrite (ec_vl _ _ C). auto 6.
      + unpush. constructor; cbn [dk_log dk_committed]; rewrite ?F1, ?F2, ?F3, ?F4, ?F5, ?F6; unfold vl, dvote; cbn [dk_vote]; try apply C.
        * exact Ho.
        * rewrite ls_ids_truncate by exact Hi. apply lil_truncate_rep. apply C.
        * exact Hcl.
        * eapply pfx_oleader; [exact Hok|exact Hp|apply C].
      + exact Hp.
      + exact Hx.
      + intros Hle. pose proof (pfx_idx H Hok _ _ G1) as Hk. cbn in Hk. lia.
      + reflexivity.
      + unfold framed. auto 10.
    - exists D. split; [apply runs_refl|]. split; [exact C|]. split; [constructor|].
      pose proof (ec_purged_com _ _ C) as Hpc. pose proof (pfx_idx H Hok _ _ Hpc) as Hpi.
      apply (ec_get_none D _ _ C) in Hg. split; [lia|]. split; [auto|]. split; [reflexivity|]. unfold framed. auto 10.
  Qed.

  (** commit *)
  Lemma commit_runs c cs D e :
    (cs = [ReplicateCommitted (Some c)] \/ cs = []) ->
    ec D (en_state e) -> acc_ok D (en_state e) ->
    ologid_ltb (rs_committed (en_state e)) (Some c) = true -> pfx H (Some c) (dlast D) ->
    let D' := dapply D (SaveCommitted c) in
    let e' := push_all (cs ++ [SaveCommitted c; CmdApply (rs_committed (en_state e)) c])
                (upd (fun s => set_mem (ms_commit (rs_mem s) (Some c)) (set_committed (Some c) s)) e) in
    runs D e D' e' /\ ec D' (en_state e') /\ acc_ok D' (en_state e').
  Proof using HE.
    intros Hcs C A Hlt Hl. cbv zeta.
    assert (Hp : pfx H (rs_committed (en_state e)) (Some c)).
    { eapply pfx_of_leb; [exact Hok|apply C|exact Hl|]. destruct (rs_committed (en_state e)); ord. }
    assert (Hn : rs_committed (en_state e) <> Some c) by (intros Hx; rewrite Hx in Hlt; ord).
    assert (Hw : forall m cu, (m = MNone \/ m = MSave c) -> cu = rs_committed (en_state e) ->
      walk E me (mkW D cu m) [SaveCommitted c; CmdApply (rs_committed (en_state e)) c]
        (mkW (dapply D (SaveCommitted c)) (Some c) MNone)).
    { intros m cu Hm ->. cbn [walk wok w_d w_must w_cur wnext]. auto 8. }
    split; [|split].
    - apply (runs_push _ _ _ _ (cs ++ [SaveCommitted c; CmdApply (rs_committed (en_state e)) c])); [reflexivity..|].
      unpush. cbn [set_mem rs_committed set_committed].
      destruct Hcs as [-> | ->]; [|apply Hw; auto].
      cbn [app]. cbn [walk wok w_d w_must w_cur wnext]. split; [auto|]. apply (Hw (MSave c)); auto.
    - unpush. unfold dapply. cbn [cmd_wop wop_apply].
      constructor; cbn [dk_log dk_committed set_mem set_committed rs_committed rs_log_ids rs_purged_next rs_purge_upto];
        unfold vl, dvote; cbn [dk_vote]; try apply C.
      + eapply pfx_trans; [apply C|exact Hp].
      + exact Hl.
      + constructor.
    - eapply acc_ext; [exact A|reflexivity|reflexivity|constructor].
  Qed.

  (** purge up to the planned position *)
  Lemma purge_runs D e : ec D (en_state e) -> acc_ok D (en_state e) ->
    exists D', runs D e D' (logh_purge e) /\ ec D' (en_state (logh_purge e)) /\ acc_ok D' (en_state (logh_purge e)) /\
      dlast D' = dlast D /\ dk_vote D' = dk_vote D.
  Proof using HE.
    intros C A. rewrite logh_purge_eq.
    destruct (rs_purge_upto (en_state e)) as [u|] eqn:Hu; [|exists D; auto using runs_refl].
    destruct (ologid_leb (Some u) (rs_last_purged (en_state e))) eqn:Hle; [exists D; auto using runs_refl|].
    pose proof (ec_plan _ _ C) as Hpl. rewrite Hu in Hpl.
    assert (Huc : pfx H (Some u) (rs_committed (en_state e))).
    { rewrite <- Hu. eapply pfx_trans; apply C. }
    assert (Hul : pfx H (Some u) (dlast D)) by (eapply pfx_trans; [exact Huc|apply C]).
    assert (Hi : next_index (ls_purged (dk_log D)) <= S (lid_index u)) by (apply (pfx_idx H Hok) in Hpl; exact Hpl).
    destruct (ls_purge_ok H Hok u (dk_log D) (ec_log _ _ C) Hul Hi) as [Ho Hl].
    exists (dapply D (PurgeLog u)). unfold dapply. cbn [cmd_wop wop_apply]. split; [|split; [|split; [|split]]].
    - apply (runs_push _ _ _ _ [PurgeLog u]); unpush; [reflexivity..|].
      cbn [walk wok w_d w_must w_cur wnext]. auto 6.
    - unpush. constructor; cbn [dk_log dk_committed rs_purge_log set_purged rs_committed rs_log_ids rs_purged_next rs_purge_upto];
        unfold vl, dvote; cbn [dk_vote]; rewrite ?Hl; try apply C; auto.
      + rewrite ls_ids_purge with (H := H); [|exact Hok|apply C|left; auto]. apply lil_purge_rep. apply C.
      + cbn [ls_purge ls_purged]. rewrite Hu. constructor.
    - eapply acc_ext; [exact A|reflexivity|reflexivity|]. cbn [dk_log]. rewrite Hl. constructor.
    - exact Hl.
    - reflexivity.
  Qed.

  (** ** Quiet changes *)

  Lemma el_progress D e l l' new : el D e -> en_leader e = Some l -> ld_vote l' = ld_vote l -> ld_last l' = ld_last l ->
    progress_ok new l l' -> pfx H None (dlast D) -> (forall p, p ∈ new -> pfx H p.2 (dlast D)) ->
    el D (set_leader (Some l') e).
  Proof.
    intros L Hl Hv Hla [P1 P2] Hr Hn l0 [= <-]. destruct (L l Hl) as (L1 & L2 & L3 & L4 & L5 & L6 & L7). unpush.
    assert (Hm : forall p, p ∈ matched l' -> pfx H p.2 (dlast D)).
    { intros p Hp. apply P1 in Hp as [Hp|[Hp|Hp]]; [auto|rewrite Hp; exact Hr|auto]. }
    rewrite Hv, Hla. repeat split; auto.
    destruct P2 as [->|[->|(id & Hid)]]; [exact L6|exact Hr|].
    apply elem_of_app in Hid as [Hid|Hid]; [apply (L5 _ Hid)|apply (Hm _ Hid)].
  Qed.
  Lemma cl_progress D e l l' : cl D e -> en_leader e = Some l -> cl D (set_leader (Some l') e).
  Proof. intros Hc Hl c Hx. destruct (Hc c Hx) as (_ & _ & _ & _ & Hn). congruence. Qed.

  Definition ks_calm : list Kind :=
    [KTouch; KLease; KProgress; KTransfer; KCandGrant; KGreater; KLeadAccept; KLeadCommit; KBuild; KPurgePlan; KPurge;
     KCursor; KSend; KRespond].

  (** the engine reaches [e'], its disk [D'], with the vote and the last log id unchanged *)
  Definition calm (D : Disk) (e : Engine) (e' : Engine) : Prop :=
    exists D', runs D e D' e' /\ ei D' e' /\ dlast D' = dlast D /\ rs_v (en_state e') = rs_v (en_state e) /\
      (is_Some (en_leader e') <-> is_Some (en_leader e)).
  Lemma calm_refl D e : ei D e -> calm D e e.
  Proof. intros I. exists D. split; [apply runs_refl|]. auto. Qed.
  Lemma calm_trans D e e1 e2 : calm D e e1 -> (forall D1, ei D1 e1 -> dlast D1 = dlast D -> calm D1 e1 e2) -> calm D e e2.
  Proof.
    intros (D1 & R1 & I1 & L1 & V1 & S1) Hn. destruct (Hn D1 I1 L1) as (D2 & R2 & I2 & L2 & V2 & S2).
    exists D2. split; [eapply runs_trans; eauto|]. split; [exact I2|]. split; [congruence|]. split; [congruence|].
    tauto.
  Qed.
  Lemma calm_quiet D e e' :
    ei D e -> en_cfg e' = en_cfg e -> en_out e' = en_out e ->
    rs_v (en_state e') = rs_v (en_state e) ->
    rs_committed (en_state e') = rs_committed (en_state e) ->
    rs_purged_next (en_state e') = rs_purged_next (en_state e) -> rs_log_ids (en_state e') = rs_log_ids (en_state e) ->
    rs_snap_last (en_state e') = rs_snap_last (en_state e) -> rs_purge_upto (en_state e') = rs_purge_upto (en_state e) ->
    io_accepted (rs_io (en_state e')) = io_accepted (rs_io (en_state e)) -> el D e' -> cl D e' ->
    (is_Some (en_leader e') <-> is_Some (en_leader e)) -> calm D e e'.
  Proof.
    intros I H1 H2 H3 H4 H5 H6 H7 H8 H9 L C S. exists D. split; [apply runs_quiet; auto|]. split; [|auto].
    destruct I as [I1 I2 I3 I4 I5 I6]. constructor; auto.
    - eapply ec_ext; eauto.
    - congruence.
    - eapply acc_ext; eauto. constructor.
    - unfold en_id in *. congruence.
  Qed.
  Lemma el_state D e f : el D e -> rs_v (f (en_state e)) = rs_v (en_state e) ->
    rs_server (f (en_state e)) = rs_server (en_state e) -> el D (upd f e).
  Proof. intros L Hv Hs l Hl. unpush. rewrite Hv, Hs. apply L. exact Hl. Qed.
  Lemma cl_state D e f : cl D e -> rs_v (f (en_state e)) = rs_v (en_state e) -> cl D (upd f e).
  Proof. intros L Hv l Hl. unpush. rewrite Hv. apply L. exact Hl. Qed.
  (** commands that change no disk *)
  Lemma calm_push D e cs : ei D e ->
    walk E me (mkW D (rs_committed (en_state e)) MNone) cs (mkW D (rs_committed (en_state e)) MNone) ->
    calm D e (push_all cs e).
  Proof.
    intros I Hw. exists D. split; [|split; [|auto]].
    - apply (runs_push _ _ _ _ cs); unpush; auto.
    - destruct I as [I1 I2 I3 I4 I5 I6]. constructor; auto.
  Qed.
  Lemma walk_sends D e cs : ei D e -> forallb is_send cs = true -> (forall c, c ∈ cs -> send_ok e c) ->
    walk E me (mkW D (rs_committed (en_state e)) MNone) cs (mkW D (rs_committed (en_state e)) MNone).
  Proof using HE.
    intros I. induction cs as [|c r IH]; [reflexivity|]. cbn [forallb]. intros Hs Ho.
    apply andb_true_iff in Hs as [Hs1 Hs2].
    assert (Hn : wnext (mkW D (rs_committed (en_state e)) MNone) c = mkW D (rs_committed (en_state e)) MNone).
    { destruct c; try discriminate; reflexivity. }
    cbn [walk]. rewrite Hn. split; [|apply IH; [exact Hs2|intros; apply Ho; apply elem_of_list_further; assumption]].
    specialize (Ho c (elem_of_list_here _ _)). destruct I as [I1 I2 I3 I4 I5 I6].
    destruct c; try discriminate; cbn [wok w_must w_d w_cur]; cbn [send_ok] in Ho.
    - destruct Ho as (l & Hl & O1 & O2). apply I4 in Hl as (L1 & L2 & L3 & _). repeat split; congruence.
    - destruct req as [r0|]; [|reflexivity]. destruct Ho as (_ & i & j & -> & ->).
      split; [reflexivity|]. split; apply ec_prev with (1 := I1).
    - destruct Ho as (l & Hl & O1). apply I4 in Hl as (L1 & _). split; congruence.
    - destruct Ho as (l & Hl & O1). apply I4 in Hl as (_ & _ & _ & _ & L5 & _). split; [reflexivity|].
      intros x Hx. apply (L5 _ (O1 x Hx)).
  Qed.

  Lemma plan_calm D e lid : ei D e -> pfx H (ls_purged (dk_log D)) (Some lid) -> pfx H (Some lid) (rs_snap_last (en_state e)) ->
    calm D e (upd (set_purge_upto (Some lid)) e).
  Proof.
    intros [I1 I2 I3 I4 I5 I6] H1 H2. exists D. split; [apply runs_quiet; reflexivity|]. split; [|auto].
    constructor; auto.
    destruct I1; constructor; auto.
  Qed.
  Lemma get_plan D s i lid : ec D s -> rs_get_log_id s i = Some lid -> i < next_index (rs_snap_last s) ->
    pfx H (ls_purged (dk_log D)) (Some lid) /\ pfx H (Some lid) (rs_snap_last s).
  Proof using HE.
    intros C Hg Hi. apply (ec_get D s i lid C) in Hg as (G1 & G2 & G3).
    assert (Hs : pfx H (rs_snap_last s) (dlast D)) by (eapply pfx_trans; apply C).
    split; (eapply pfx_of_idx; [exact Hok| | |]).
    - eapply pfx_trans; [eapply ec_purged_com; exact C|apply C].
    - exact G1.
    - exact G2.
    - exact G1.
    - exact Hs.
    - cbn. lia.
  Qed.

  Lemma calm_prim k a b D : k ∈ ks_calm -> prim k a b -> ei D a -> calm D a b.
  Proof using HE.
    intros Hk Hp I. pose proof I as [I1 I2 I3 I4 I5 I6].
    destruct Hp; try (apply (bool_decide_eq_true_2 (_ ∈ ks_calm)) in Hk; vm_compute in Hk; discriminate Hk); clear Hk;
      try rename H into P0; try rename H0 into P1; try rename H1 into P2; try rename H2 into P3; try rename H3 into P4; try rename H4 into P5.
    - (* touch *) apply calm_quiet; try reflexivity; auto.
    - (* lease *) apply calm_quiet; try reflexivity; auto.
    - (* progress *) apply calm_quiet; try reflexivity; auto.
      + eapply el_progress; eauto. eapply ec_root; eauto. intros p Hp. apply elem_of_nil in Hp as [].
      + eapply cl_progress; eauto.
      + rewrite P0. split; intros; eexists; reflexivity.
    - (* transfer *) apply calm_quiet; try reflexivity; auto.
      + intros l0 [= <-]. apply (I4 l P0).
      + eapply cl_progress; eauto.
      + rewrite P0. split; intros; eexists; reflexivity.
    - (* cand grant *)
      assert (Hc' : cd_vote c' = cd_vote c /\ cd_last c' = cd_last c).
      { unfold cand_grant in P1. destruct (vp_update _ _ _ _ _) as [p0 b0]. destruct b0; [|discriminate].
        injection P1 as <- <-. split; reflexivity. }
      destruct Hc' as [Hc1 Hc2]. apply calm_quiet; try reflexivity; auto.
      intros c0 [= <-]. rewrite Hc1, Hc2. apply (I5 c P0).
    - (* greater *) apply calm_quiet; try reflexivity; auto.
    - (* accept of a leader *)
      destruct (I4 l P0) as (L1 & L2 & L3 & L4 & L5 & L6 & L7).
      exists D. split; [apply runs_quiet; unpush; rewrite ?rs_accept_io_eq; reflexivity|]. unpush. split; [|rewrite rs_accept_io_v; auto].
      constructor; unpush; auto.
      + rewrite rs_accept_io_eq. eapply ec_ext; [exact I1|reflexivity..].
      + rewrite rs_accept_io_v. exact I2.
      + apply acc_accept; auto; try congruence. rewrite L4. constructor.
      + intros l0 Hl0. unpush. rewrite rs_accept_io_v. replace (rs_server _) with (rs_server (en_state e)) by (rewrite rs_accept_io_eq; reflexivity).
        apply I4. exact Hl0.
      + intros c Hc. unpush. rewrite rs_accept_io_v. apply I5. exact Hc.
    - (* send *) apply calm_push; [exact I|]. apply walk_sends; auto.
    - (* respond *) apply (calm_push D e [Respond w r tx] I). cbn. auto.
    - (* commit *)
      destruct (I4 l P0) as (L1 & L2 & L3 & L4 & L5 & L6 & L7).
      destruct (commit_runs c [ReplicateCommitted (Some c)] D e (or_introl eq_refl) I1 I3 P2) as (R & C & A).
      { unfold lgranted in L6. rewrite P3 in L6. exact L6. }
      eexists. split; [exact R|]. split; [|auto]. constructor; auto.
    - (* build start *) rewrite sh_trigger_eq by assumption.
      eapply calm_trans.
      + apply (calm_quiet D e (upd (fun s => set_io (io_set_building true (rs_io s)) s) e)); try reflexivity; auto.
      + intros D1 I' _. apply (calm_push D1 _ [BuildSnapshot] I'). cbn. auto.
    - (* build end *) apply calm_quiet; try reflexivity; auto.
    - (* plan *)
      unfold logh_calc_purge_upto in P0. destruct (_ <? _); [discriminate|]. destruct (_ =? 0) eqn:Hz; [discriminate|].
      destruct (get_plan _ _ _ _ I1 P0) as [G1 G2]; [lia|]. apply plan_calm; auto.
    - (* plan *)
      destruct (get_plan _ _ _ _ I1 P2) as [G1 G2]; [rewrite P0; cbn; lia|]. apply plan_calm; auto.
    - (* purge *)
      destruct (purge_runs D e I1 I3) as (D' & R & C & A & Hl & Hdv). exists D'.
      assert (Hx : en_leader (logh_purge e) = en_leader e /\ en_cand (logh_purge e) = en_cand e /\
        en_cfg (logh_purge e) = en_cfg e /\
        rs_v (en_state (logh_purge e)) = rs_v (en_state e) /\ rs_server (en_state (logh_purge e)) = rs_server (en_state e)).
      { rewrite logh_purge_eq. destruct (rs_purge_upto _); [|auto]. destruct (ologid_leb _ _); auto. }
      destruct Hx as (X1 & X2 & X6 & X3 & X5).
      split; [exact R|]. split; [|rewrite X1, X3; auto].
      constructor; auto.
      + rewrite X3, <- I2. unfold dvote. rewrite Hdv. reflexivity.
      + intros l Hl'. rewrite X1 in Hl'. rewrite X3, X5, Hl. apply I4. exact Hl'.
      + intros l Hl'. rewrite X2 in Hl'. rewrite X1, X3, Hl. apply I5. exact Hl'.
      + unfold en_id. rewrite X6. exact I6.
    - (* cursor *) apply calm_quiet; try reflexivity; auto.
      unpush. apply P0.
  Qed.
  Lemma calm_prims a b D : prims ks_calm a b -> ei D a -> calm D a b.
  Proof using HE.
    intros Hp. revert D. induction Hp as [x|x y z (k & Hk & H1) H2 IH]; intros D I; [apply calm_refl; exact I|].
    eapply calm_trans; [eapply calm_prim; eauto|]. auto.
  Qed.

  Lemma match_calm a t x D l l' : ei D a -> en_leader a = Some l -> ld_vote l' = ld_vote l -> ld_last l' = ld_last l ->
    progress_ok [(t, x)] l l' -> pfx H x (dlast D) -> calm D a (set_leader (Some l') a).
  Proof.
    intros I Hl Hv Hla Hp Hx. pose proof I as [I1 I2 I3 I4 I5 I6]. apply calm_quiet; try reflexivity; auto.
    - eapply el_progress; eauto; [eapply ec_root; eauto|]. intros p Hin. apply elem_of_list_singleton in Hin as ->. exact Hx.
    - eapply cl_progress; eauto.
    - rewrite Hl. split; intros; eexists; reflexivity.
  Qed.
  Lemma calm_of ks a b D : forallb (fun k => bool_decide (k ∈ ks_calm)) ks = true -> prims ks a b -> ei D a -> calm D a b.
  Proof using HE. intros Hk Hp. apply calm_prims. eapply prims_weak; eauto. Qed.

  (** ** Votes *)

  (** a greater vote is stored *)
  Definition voted (now : nat) (v : Vote) (e : Engine) : Engine :=
    push (SaveVote v)
      (upd (rs_accept_io (io_new v))
         (upd (fun s => set_vote (leased_update now (if v_committed v then ec_leader_lease (en_cfg e) else 0) v (rs_vote s)) s) e)).
  Lemma acc_voted D s s' v : acc_ok D s -> vote_gtb v (rs_v s) = true -> rs_v s' = v -> pfx H None (dlast D) ->
    io_accepted (rs_io s') = io_accepted (rs_io s) -> acc_ok D (rs_accept_io (io_new v) s').
  Proof using HE.
    intros A Hgt Hv Hr Ha. rewrite rs_accept_io_eq. unfold acc_ok in *. cbn [set_io rs_io].
    change (rs_v (set_io (io_accept (io_new v) (rs_io s')) s')) with (rs_v s'). rewrite Hv.
    unfold io_accept. rewrite Ha.
    assert (Hold : match io_accepted (rs_io s) with
      | Some (IOVote w) => v_committed w = false /\ vote_le w v
      | Some (IOLog w x) => v_committed w = true /\ vote_le w v /\
          (li_node (v_leader w) <> me -> pfx H x (tip (v_leader w))) /\ (v_leader w = v_leader v -> pfx H x (dlast D))
      | None => True end).
    { destruct (io_accepted (rs_io s)) as [[w|w x]|]; [| |exact I].
      - destruct A as [A1 A2]. split; [exact A1|]. unfold vote_le in *. ord.
      - destruct A as (A1 & A2 & A3 & A4). split; [exact A1|]. split; [unfold vote_le in *; ord|]. split; [exact A3|].
        intros Hw. exfalso. unfold vote_le in *. ord. }
    destruct (match io_accepted (rs_io s) with None => true | Some c => io_gtb (io_new v) c end);
      [|rewrite Ha; exact Hold].
    cbn [io_set_accepted io_accepted]. unfold io_new. destruct (v_committed v) eqn:Hc.
    - assert (into_committed v = v) as -> by (destruct v; cbn in Hc; subst; reflexivity).
      split; [exact Hc|]. split; [apply vote_le_refl|]. split; [|auto]. intros _. apply HE.
    - split; [exact Hc|apply vote_le_refl].
  Qed.
  Lemma voted_runs now v D e : ec D (en_state e) -> acc_ok D (en_state e) -> vote_gtb v (rs_v (en_state e)) = true ->
    let D' := dapply D (SaveVote v) in let e' := voted now v e in
    runs D e D' e' /\ ec D' (en_state e') /\ acc_ok D' (en_state e') /\ dvote D' = v /\ rs_v (en_state e') = v.
  Proof using HE.
    intros C A Hgt. cbv zeta. pose proof (ec_root _ _ C) as Hr.
    assert (Hle : leader_leb (v_leader (rs_v (en_state e))) (v_leader v) = true) by ord.
    split; [|split; [|split; [|split]]]; unfold voted; unpush; rewrite ?rs_accept_io_v.
    - split; [reflexivity|]. split; [unpush; rewrite rs_accept_io_v; cbn; unfold vote_le; ord|].
      exists [SaveVote v]. unpush. split; [reflexivity|]. rewrite rs_accept_io_eq. cbn [walk wok w_d w_must w_cur wnext].
      repeat split. pose proof (ec_vle _ _ C) as Hv. unfold vote_le, vote_lt in *. ord.
    - rewrite rs_accept_io_eq. unfold dapply. cbn [cmd_wop wop_apply].
      destruct C as [C1 C2 C3 C4 C4' C5 C6 C7 C8 C9 C10].
      constructor; cbn [dk_log dk_committed set_io set_vote rs_committed rs_log_ids rs_purged_next rs_purge_upto];
        unfold vl, dvote; cbn [dk_vote]; auto; try apply vote_le_refl.
      change (oleader_le (dlast D) (v_leader v)). eapply oleader_le_trans; eauto.
    - unfold dapply. cbn [cmd_wop wop_apply]. eapply acc_ext with (D := D); [|reflexivity|reflexivity|constructor].
      eapply acc_voted; [exact A|exact Hgt|reflexivity|exact Hr|reflexivity].
    - reflexivity.
    - reflexivity.
  Qed.

  Lemma not_leading e : en_id e = me -> li_node (v_leader (rs_v (en_state e))) <> me ->
    rs_is_leading (en_state e) (en_id e) = false.
  Proof.
    intros Hi Hf. unfold rs_is_leading, voted_for. apply andb_false_iff. right. rewrite Hi.
    apply Nat.eqb_neq. exact Hf.
  Qed.
  (** an operation that changes only the vote *)
  Definition vote_only (D : Disk) (e : Engine) (D' : Disk) (e' : Engine) : Prop :=
    runs D e D' e' /\ ei D' e' /\ dk_log D' = dk_log D /\ dk_committed D' = dk_committed D /\
    rs_committed (en_state e') = rs_committed (en_state e) /\ rs_log_ids (en_state e') = rs_log_ids (en_state e) /\
    rs_snap (en_state e') = rs_snap (en_state e).
  Lemma update_vote_foreign now v D e x : ei D e -> li_node (v_leader v) <> me -> vh_update_vote now v e = Ok x ->
    exists D', vote_only D e D' x.1 /\
      (x.2 = true -> rs_v (en_state x.1) = v /\ vote_le (rs_v (en_state e)) v /\ en_leader x.1 = None /\ en_cand x.1 = None).
  Proof using HE.
    intros I Hf. pose proof I as [I1 I2 I3 I4 I5 I6]. unfold vh_update_vote.
    destruct (vote_geb v (rs_v (en_state e))) eqn:Hge; cbn [negb].
    2:{ intros [= <-]. exists D. split; [|discriminate]. split; [apply runs_refl|]. auto 10. }
    set (e1 := if vote_gtb _ _ then _ else _).
    assert (H1 : exists D', runs D e D' e1 /\ ec D' (en_state e1) /\ acc_ok D' (en_state e1) /\ dvote D' = v /\
      rs_v (en_state e1) = v /\ dk_log D' = dk_log D /\ dk_committed D' = dk_committed D /\ en_id e1 = me /\
      rs_committed (en_state e1) = rs_committed (en_state e) /\ rs_log_ids (en_state e1) = rs_log_ids (en_state e) /\
      rs_snap (en_state e1) = rs_snap (en_state e)).
    { subst e1. destruct (vote_gtb v (rs_v (en_state e))) eqn:Hgt.
      - destruct (voted_runs now v D e I1 I3 Hgt) as (R & C & A & V1 & V2). fold (voted now v e).
        exists (dapply D (SaveVote v)).
        split; [exact R|]. split; [exact C|]. split; [exact A|]. split; [exact V1|]. split; [exact V2|].
        unfold voted. unpush. rewrite !rs_accept_io_eq. repeat split. exact I6.
      - assert (v = rs_v (en_state e)) as -> by ord.
        exists D. split; [apply runs_quiet; reflexivity|]. split; [eapply ec_ext; [exact I1|reflexivity..]|].
        split; [eapply acc_ext; [exact I3|reflexivity|reflexivity|constructor]|]. repeat split; auto. }
    clearbody e1. destruct H1 as (D' & R & C & A & V1 & V2 & V3 & V4 & V5 & V6 & V7 & V8).
    intros Hu. rok Hu. injection Hu as <-. cbn [fst snd].
    unfold vh_update_internal in Hx. assert (Hl : rs_is_leading (en_state e1) (en_id e1) = false).
    { apply not_leading; [exact V5|]. rewrite V2. exact Hf. }
    unfold rs_is_leader in Hx. rewrite Hl in Hx. cbn [andb] in Hx. injection Hx as <-.
    unfold vh_become_following. rewrite ssh_update_eq. exists D'. split.
    - split; [eapply runs_trans; [exact R|apply runs_quiet; reflexivity]|].
      split; [|repeat split; assumption]. constructor; unpush.
      + eapply ec_ext; [exact C|reflexivity..].
      + rewrite V1. symmetry. exact V2.
      + eapply acc_ext; [exact A|reflexivity|reflexivity|constructor].
      + intros l Hl'. discriminate.
      + intros l Hl'. discriminate.
      + exact V5.
    - intros _. split; [exact V2|]. split; [exact Hge|]. split; reflexivity.
  Qed.

  (** ** Leading *)

  (** the entries the leader proposes between [e] and [e'] continue its log *)
  Definition fits (lst : option LogId) (e e' : Engine) : Prop :=
    forall cs v es, en_out e' = en_out e ++ cs -> AppendInputEntries v es ∈ cs -> li_node (v_leader v) = me ->
      chain H lst es.
  Lemma fits_after lst e e1 e' cs : en_out e1 = en_out e ++ cs -> fits lst e e' -> fits lst e1 e'.
  Proof.
    intros Ho Hf cs' v es Ho' Hin. apply (Hf (cs ++ cs')); [rewrite Ho', Ho, app_assoc; reflexivity|].
    apply elem_of_app. right. exact Hin.
  Qed.
  Lemma fits_runs lst D e D1 e1 e' : runs D e D1 e1 -> fits lst e e' -> fits lst e1 e'.
  Proof. intros (_ & _ & cs & Ho & _). apply fits_after with cs. exact Ho. Qed.

  Lemma assign_ids_leader L ps : forall i, Forall (fun x => lid_leader (e_log_id x) = L) (assign_ids L i ps).
  Proof. induction ps as [|p r IH]; intros i; cbn [assign_ids]; constructor; auto. Qed.
  Lemma lh_append_split ps e e' l : lh_append ps e = Ok e' -> en_leader e = Some l -> ps <> [] ->
    prims ks_repl (leader_appended ps l e) e'.
  Proof.
    unfold lh_append. intros Hx Hl Hne. rewrite Hl in Hx. destruct ps as [|p ps]; [congruence|].
    set (pps := p :: ps) in *. clearbody pps. unfold leader_appended.
    destruct (last_membership _ None) as [[lid m]|].
    - rok Hx. unfold rh_append_membership in Hx0. rok Hx0. rok Hx0.
      eapply prims_trans; [eapply prims_weak; [|eapply rh_rebuild_progresses_prims; eassumption]; reflexivity|].
      eapply prims_trans; [eapply prims_weak; [|eapply rh_rebuild_streams_prims; eassumption]; reflexivity|].
      eapply prims_trans; (eapply prims_weak; [|eapply rh_initiate_prims; eassumption]; reflexivity).
    - cbn [res_bind] in Hx. eapply rh_initiate_prims. exact Hx.
  Qed.

  Lemma lead_append ps D e l e' : ei D e -> en_leader e = Some l -> lh_append ps e = Ok e' -> fits (dlast D) e e' ->
    exists D', runs D e D' e' /\ ei D' e' /\ pfx H (dlast D) (dlast D') /\ rs_v (en_state e') = rs_v (en_state e) /\
      is_Some (en_leader e').
  Proof using HE.
    intros I Hl Ha Hf. pose proof I as [I1 I2 I3 I4 I5 I6].
    destruct ps as [|p ps].
    { unfold lh_append in Ha. rewrite Hl in Ha. injection Ha as <-. exists D.
      split; [apply runs_refl|]. split; [exact I|]. split; [constructor|]. split; [reflexivity|rewrite Hl; eauto]. }
    pose proof (lh_append_split _ _ _ _ Ha Hl ltac:(discriminate)) as Hp.
    set (pps := p :: ps) in *. assert (Hpps : pps <> []) by discriminate. clearbody pps. clear Ha p ps.
    destruct (I4 l Hl) as (L1 & L2 & L3 & L4 & L5 & L6 & L7).
    pose proof (leader_appended_eq pps l e) as Heq. cbv zeta in Heq.
    set (es := assign_ids (v_leader (ld_vote l)) (next_index (ld_last l)) pps) in *.
    set (lst := match last es with Some x => Some (e_log_id x) | None => ld_last l end) in *.
    set (g := fun s => match last_membership es None with
       | Some (lid, m) => set_mem (ms_append (rs_mem (rs_accept_io (IOLog (ld_vote l) lst) (rs_extend_same es s))) (mkEM (Some lid) m))
           (rs_accept_io (IOLog (ld_vote l) lst) (rs_extend_same es s))
       | None => rs_accept_io (IOLog (ld_vote l) lst) (rs_extend_same es s) end) in *.
    assert (Hlst : lst = es_last (dlast D) es) by (subst lst; unfold es_last; rewrite L4; reflexivity).
    assert (Hne : es <> []) by (subst es; destruct pps; [congruence|discriminate]).
    assert (Hled : Forall (fun x => lid_leader (e_log_id x) = v_leader (ld_vote l)) es) by apply assign_ids_leader.
    assert (Hch : chain H (dlast D) es).
    { apply prims_vrel in Hp as (cs & Ho & _); [|reflexivity]. rewrite Heq in Ho. unpush.
      apply (Hf (AppendInputEntries (ld_vote l) es :: cs) (ld_vote l)); [|apply elem_of_list_here|exact L3].
      rewrite Ho. rewrite <- app_assoc. reflexivity. }
    assert (Hlead : oleader_le (es_last (dlast D) es) (v_leader (rs_v (en_state e)))).
    { unfold es_last. destruct (last es) as [x|] eqn:Hx; [|apply I1]. cbn.
      rewrite Forall_forall in Hled. rewrite (Hled x (last_elem_of _ _ Hx)), L1. apply leader_leb_refl. }
    assert (Hg : forall s, rs_v (g s) = rs_v s /\ rs_committed (g s) = rs_committed s /\
      rs_purged_next (g s) = rs_purged_next s /\ rs_log_ids (g s) = lil_extend_same (rs_log_ids s) (map e_log_id es) /\
      rs_snap_last (g s) = rs_snap_last s /\ rs_purge_upto (g s) = rs_purge_upto s /\
      rs_io (g s) = io_accept (IOLog (ld_vote l) lst) (rs_io s) /\ rs_server (g s) = rs_server s).
    { intros s. unfold g. rewrite rs_accept_io_eq. destruct (last_membership es None) as [[? ?]|]; repeat split. }
    clearbody g. destruct (Hg (en_state e)) as (F1 & F2 & F3 & F4 & F5 & F6 & F7 & F8).
    destruct (ls_append_ok H es (dk_log D) (ec_log _ _ I1) Hch) as [Ho Hl'].
    assert (Hgrow : pfx H (dlast D) (es_last (dlast D) es)) by (apply chain_pfx; exact Hch).
    set (D1 := dapply D (AppendInputEntries (ld_vote l) es)).
    assert (HD1 : dlast D1 = es_last (dlast D) es) by exact Hl'.
    assert (R1 : runs D e D1 (leader_appended pps l e)).
    { rewrite Heq. apply (runs_push _ _ _ _ [AppendInputEntries (ld_vote l) es]); unpush; [reflexivity|exact F1|reflexivity|].
      rewrite F2. cbn [walk wok w_d w_must w_cur wnext]. rewrite (ec_vl _ _ I1), <- L1. rewrite <- L1 in Hlead.
      split; [|reflexivity]. auto. }
    assert (J1 : ei D1 (leader_appended pps l e)).
    { rewrite Heq. constructor; unpush.
      - unfold D1, dapply. cbn [cmd_wop wop_apply]. destruct I1 as [C1 C2 C3 C4 C4' C5 C6 C7 C8 C9 C10].
        constructor; cbn [dk_log dk_committed]; rewrite ?F1, ?F2, ?F3, ?F4, ?F5, ?F6; unfold vl, dvote; cbn [dk_vote]; auto.
        + rewrite ls_ids_append. eapply lil_extend_same_rep with (L := v_leader (ld_vote l)); [exact C2| |].
          * rewrite <- ls_ids_append. apply (ls_ids_consecutive H Hok). exact Ho.
          * apply Forall_map. exact Hled.
        + rewrite Hl'. eapply pfx_trans; eauto.
        + rewrite Hl'. exact Hlead.
      - rewrite F1. exact I2.
      - assert (A1 : acc_ok D1 (rs_accept_io (IOLog (ld_vote l) lst) (en_state e))).
        { apply acc_accept; auto; try congruence.
          - eapply acc_ext; [exact I3|reflexivity|reflexivity|]. rewrite HD1. exact Hgrow.
          - rewrite Hlst, HD1. constructor. }
        eapply acc_ext; [exact A1|rewrite rs_accept_io_v; exact F1| |constructor].
        rewrite F7, rs_accept_io_eq. reflexivity.
      - intros l0 [= <-]. cbn [ld_set_last ld_vote ld_last]. unpush. rewrite F1, F8. repeat split; auto.
        + rewrite HD1, <- Hlst. reflexivity.
        + intros q Hq. rewrite HD1. eapply pfx_trans; [apply (L5 q Hq)|exact Hgrow].
        + rewrite HD1. eapply pfx_trans; [exact L6|exact Hgrow].
      - intros c Hc. destruct (I5 c Hc) as (_ & _ & _ & _ & Hn). congruence.
      - exact I6. }
    destruct (calm_of ks_repl _ _ D1 eq_refl Hp J1) as (D2 & R2 & I2' & Hl2 & Hv2 & Hs2).
    exists D2. split; [eapply runs_trans; eauto|]. split; [exact I2'|]. split; [rewrite Hl2, HD1; exact Hgrow|].
    rewrite Heq in Hv2, Hs2. unpush. split; [rewrite Hv2; exact F1|]. apply Hs2. eauto.
  Qed.

  Lemma by_last_leader_last keys : last (lil_by_last_leader keys) = last keys.
  Proof.
    unfold lil_by_last_leader. destruct (length keys <? 2) eqn:Hlt; [reflexivity|].
    destruct (keys !! (length keys - 1)); [|reflexivity]. destruct (keys !! (length keys - 2)); [|reflexivity].
    destruct (leader_eqb _ _); rewrite !last_lookup, lookup_drop, drop_length; f_equal; lia.
  Qed.
  Lemma leader_new_el now v qs ls ids :
    (forall p, p ∈ matched (leader_new now v qs ls ids) -> p.2 = None) /\
    lgranted (leader_new now v qs ls ids) = None /\ ld_last (leader_new now v qs ls ids) = last ids /\
    ld_vote (leader_new now v qs ls ids) = v.
  Proof.
    destruct (vp_new_vals pe_matching qs ls (pe_empty (next_index (last ids)))) as [V1 V2].
    split; [exact V1|]. split; [exact V2|]. split; reflexivity.
  Qed.

  (** [update_internal_server_state] under an own vote *)
  Lemma internal_runs now D e e' : ei D e -> vh_update_internal now e = Ok e' -> fits (dlast D) e e' ->
    exists D', runs D e D' e' /\ ei D' e' /\ pfx H (dlast D) (dlast D') /\ rs_v (en_state e') = rs_v (en_state e).
  Proof using HE.
    intros I Hu Hf. pose proof I as [I1 I2 I3 I4 I5 I6]. unfold vh_update_internal in Hu.
    destruct (rs_is_leader (en_state e) (en_id e)) eqn:Hlead.
    2:{ destruct (rs_is_leading (en_state e) (en_id e)); injection Hu as <-.
        - exists D. split; [apply runs_refl|]. split; [exact I|]. split; [constructor|reflexivity].
        - exists D. unfold vh_become_following. rewrite ssh_update_eq. split; [apply runs_quiet; reflexivity|].
          split; [|split; [constructor|reflexivity]]. constructor; unpush.
          + eapply ec_ext; [exact I1|reflexivity..].
          + exact I2.
          + eapply acc_ext; [exact I3|reflexivity|reflexivity|constructor].
          + intros l Hl. discriminate.
          + intros l Hl. discriminate.
          + exact I6. }
    apply rs_is_leader_true in Hlead as Hl3. destruct Hl3 as (Hcom & Hown & _). rewrite I6 in Hown.
    assert (Hcand : en_cand e = None).
    { destruct (en_cand e) as [c|] eqn:Hc; [|reflexivity]. destruct (I5 c Hc) as (X1 & X2 & _). congruence. }
    assert (Hinto : into_committed (rs_v (en_state e)) = rs_v (en_state e)).
    { destruct (rs_v (en_state e)); cbn in Hcom; subst; reflexivity. }
    unfold vh_become_leader in Hu. destruct (en_leader e) as [l|] eqn:Hl.
    - destruct (I4 l Hl) as (L1 & L2 & L3 & L4 & L5 & L6 & L7). rewrite L1 in Hu.
      replace (leader_eqb _ _) with true in Hu by (symmetry; apply leader_eqb_eq; reflexivity).
      injection Hu as <-. exists D. rewrite ssh_update_eq. split; [apply runs_quiet; reflexivity|].
      split; [|split; [constructor|reflexivity]]. constructor; unpush.
      + eapply ec_ext; [exact I1|reflexivity..].
      + exact I2.
      + eapply acc_ext; [exact I3|reflexivity|reflexivity|constructor].
      + intros l0 [= <-]. unpush. cbn [ld_set_vote ld_vote ld_last]. rewrite Hinto.
        repeat split; auto.
        cbn [set_server rs_server]. unfold rs_calc_server. change (en_id _) with (en_id e). rewrite Hlead. reflexivity.
      + intros c Hc. exfalso. cbn in Hc. congruence.
      + exact I6.
    - set (l := rs_new_leader now (en_state e)) in *.
      destruct (leader_new_el now (into_committed (rs_v (en_state e))) (m_configs (em_mem (rs_eff (en_state e))))
        (m_learners (em_mem (rs_eff (en_state e)))) (lil_by_last_leader (rs_log_ids (en_state e)))) as (N1 & N2 & N3 & N4).
      fold (rs_new_leader now (en_state e)) in N1, N2, N3, N4. fold l in N1, N2, N3, N4.
      rewrite by_last_leader_last in N3. change (last (rs_log_ids (en_state e))) with (rs_last (en_state e)) in N3.
      rewrite (ec_last _ _ I1) in N3. rewrite Hinto in N4.
      rok Hu.
      set (e4 := ssh_update _) in *.
      assert (J : runs D e D e4 /\ ei D e4 /\ en_leader e4 = Some l /\ rs_v (en_state e4) = rs_v (en_state e)).
      { subst e4. rewrite ssh_update_eq. split; [|split; [|split]].
        - apply (runs_push _ _ _ _ [UpdateIOProgress None (IOLog (ld_vote l) (ld_last l))]); unpush;
            [reflexivity|rewrite rs_accept_io_eq; reflexivity|reflexivity|].
          rewrite rs_accept_io_eq. cbn [walk wok w_d w_must w_cur wnext]. split; [|reflexivity].
          split; [reflexivity|]. exists (ld_vote l), (ld_last l). split; [reflexivity|].
          split; [rewrite N4, (ec_vl _ _ I1); reflexivity|]. rewrite N3. constructor.
        - assert (Hr : rs_server (rs_accept_io (IOLog (ld_vote l) (ld_last l)) (en_state e)) = rs_server (en_state e))
            by (rewrite rs_accept_io_eq; reflexivity).
          constructor; unpush.
          + rewrite rs_accept_io_eq. eapply ec_ext; [exact I1|reflexivity..].
          + rewrite rs_accept_io_eq. exact I2.
          + eapply acc_ext with (s := rs_accept_io (IOLog (ld_vote l) (ld_last l)) (en_state e)); [|reflexivity|reflexivity|constructor].
            rewrite N4, N3. apply acc_accept; auto; [congruence|constructor].
          + intros l0 [= <-]. unpush. rewrite N4, N3. repeat split; auto.
            * rewrite rs_accept_io_eq. reflexivity.
            * intros p Hp. rewrite (N1 p Hp). eapply ec_root; eauto.
            * rewrite N2. eapply ec_root; eauto.
            * rewrite rs_accept_io_eq. cbn [set_server rs_server]. unfold rs_calc_server.
              change (rs_is_leader (set_io _ _) (en_id _)) with (rs_is_leader (en_state e) (en_id e)). rewrite Hlead. reflexivity.
          + intros c Hc. exfalso. cbn in Hc. congruence.
          + exact I6.
        - reflexivity.
        - unpush. rewrite rs_accept_io_eq. reflexivity. }
      clearbody e4. destruct J as (R4 & J4 & Hl4 & Hv4).
      destruct (calm_of ks_repl _ _ D eq_refl (rh_rebuild_streams_prims _ _ Hx) J4) as (D5 & R5 & I5' & Hd5 & Hv5 & Hs5).
      assert (R45 : runs D e D5 x) by (eapply runs_trans; eauto).
      destruct (proj2 Hs5 ltac:(rewrite Hl4; eauto)) as [l5 Hl5].
      destruct (ologid_ltb (ld_last l) (ld_noop l)).
      + destruct (lead_append _ D5 x l5 e' I5' Hl5 Hu) as (D6 & R6 & I6' & G6 & V6 & _).
        { rewrite Hd5. eapply fits_runs; eauto. }
        exists D6. split; [eapply runs_trans; eauto|]. split; [exact I6'|]. split; [rewrite <- Hd5; exact G6|congruence].
      + destruct (calm_of ks_repl _ _ D5 eq_refl (rh_initiate_prims _ _ Hu) I5') as (D6 & R6 & I6' & Hd6 & Hv6 & _).
        exists D6. split; [eapply runs_trans; eauto|]. split; [exact I6'|]. split; [rewrite Hd6, Hd5; constructor|congruence].
  Qed.

  (** ** Elections *)

  Definition grown (D : Disk) (e e' : Engine) : Prop :=
    exists D', runs D e D' e' /\ ei D' e' /\ pfx H (dlast D) (dlast D').
  Lemma calm_grown D e e' : calm D e e' -> grown D e e'.
  Proof. intros (D' & R & I & L & _). exists D'. rewrite L. split; [exact R|]. split; [exact I|constructor]. Qed.
  Lemma grown_trans D e e1 e2 : grown D e e1 -> (forall D1, runs D e D1 e1 -> ei D1 e1 -> pfx H (dlast D) (dlast D1) -> grown D1 e1 e2) ->
    grown D e e2.
  Proof.
    intros (D1 & R1 & I1 & L1) Hn. destruct (Hn D1 R1 I1 L1) as (D2 & R2 & I2 & L2).
    exists D2. split; [eapply runs_trans; eauto|]. split; [exact I2|eapply pfx_trans; eauto].
  Qed.

  Lemma update_vote_grown now v D e x : ei D e -> (li_node (v_leader v) <> me \/ vote_le v (rs_v (en_state e))) ->
    vh_update_vote now v e = Ok x -> fits (dlast D) e x.1 -> grown D e x.1.
  Proof using HE.
    intros I Hv Hu Hf. destruct (decide (li_node (v_leader v) = me)) as [Hme|Hne].
    2:{ destruct (update_vote_foreign now v D e x I Hne Hu) as (D' & (R & I' & Hd & _) & _).
        exists D'. split; [exact R|]. split; [exact I'|]. rewrite Hd. constructor. }
    destruct Hv as [Hv|Hv]; [congruence|]. unfold vh_update_vote in Hu.
    destruct (vote_geb v (rs_v (en_state e))) eqn:Hge; cbn [negb] in Hu.
    2:{ injection Hu as <-. exists D. split; [apply runs_refl|]. split; [exact I|constructor]. }
    assert (v = rs_v (en_state e)) as -> by (unfold vote_le in Hv; ord).
    rewrite vote_gtb_negb, vote_geb_refl in Hu. cbn [negb] in Hu. rok Hu. injection Hu as <-. cbn [fst] in *.
    eapply grown_trans.
    - apply calm_grown. apply (calm_prim KTouch e _ D); [apply (bool_decide_eq_true_1 (_ ∈ _)); reflexivity|apply pr_touch|exact I].
    - intros D1 R1 I1 L1. destruct (internal_runs now D1 _ x0 I1 Hx) as (D2 & R2 & I2 & L2 & _).
      { eapply fits_runs; [exact R1|]. intros cs w es Ho Hin Hw.
        assert (dlast D1 = dlast D) as ->; [|eapply Hf; eauto].
        rewrite <- (ec_last _ _ (ei_ec _ _ I1)), <- (ec_last _ _ (ei_ec _ _ I)). reflexivity. }
      exists D2. auto.
  Qed.

  Lemma elect_runs now D e e' : ec D (en_state e) -> acc_ok D (en_state e) -> en_leader e = None -> en_id e = me ->
    en_elect now e = Ok e' -> exists D', runs D e D' e' /\ ei D' e' /\ dk_log D' = dk_log D.
  Proof using HE.
    intros C A Hl Hid. unfold en_elect. set (v := vote_new _ _). intros Hu. rok Hu.
    destruct x as [e2 ok]. cbn [fst snd] in Hu. destruct ok; [|discriminate]. injection Hu as <-.
    unfold vh_update_vote in Hx. set (e0 := en_new_candidate now v e) in *.
    change (rs_v (en_state e0)) with (rs_v (en_state e)) in Hx.
    assert (Hgt : vote_gtb v (rs_v (en_state e)) = true) by apply elect_vote_gt.
    rewrite (vote_gtb_geb _ _ Hgt), Hgt in Hx. cbn [negb] in Hx. rok Hx. injection Hx as <-.
    assert (C0 : ec D (en_state e0)) by (eapply ec_ext; [exact C|reflexivity..]).
    assert (A0 : acc_ok D (en_state e0)) by exact A.
    destruct (voted_runs now v D e0 C0 A0 Hgt) as (R1 & C1 & A1 & V1 & V2).
    change (en_cfg e0) with (en_cfg e) in Hx0.
    match type of Hx0 with vh_update_internal _ ?t = _ => change t with (voted now v e0) in Hx0 end.
    set (e1 := voted now v e0) in *. set (D1 := dapply D (SaveVote v)) in *.
    assert (Hl1 : en_leader e1 = None) by exact Hl.
    assert (Hc1 : en_cand e1 = Some (candidate_new now v (rs_last (en_state e)) (m_configs (em_mem (rs_eff (en_state e))))
       (m_learners (em_mem (rs_eff (en_state e)))))) by reflexivity.
    assert (Hid1 : en_id e1 = me) by exact Hid.
    assert (J1 : ei D1 e1).
    { constructor; [exact C1|rewrite V1; symmetry; exact V2|exact A1|intros l Hx; congruence| |exact Hid1]. intros c Hc. rewrite Hc1 in Hc. injection Hc as <-.
      rewrite V2. cbn [candidate_new cd_vote cd_last]. repeat split; auto. apply (ec_last _ _ C). }
    assert (Hu2 : exists ss cc, x = mkEngine (en_cfg e1) (set_server ss (en_state e1)) (en_seen_greater e1) None cc (en_out e1) /\
      (cc = en_cand e1 \/ cc = None)).
    { unfold vh_update_internal, rs_is_leader in Hx0. rewrite V2 in Hx0. cbn [v vote_new v_committed] in Hx0. rewrite andb_false_r in Hx0.
      destruct (rs_is_leading _ _); injection Hx0 as <-.
      - exists (rs_server (en_state e1)), (en_cand e1). split; [|auto]. rewrite <- Hl1. destruct e1 as [? [] ? ? ? ?]; reflexivity.
      - unfold vh_become_following. rewrite ssh_update_eq. eexists _, None. split; [|auto]. reflexivity. }
    destruct Hu2 as (ss & cc & -> & Hcc). rewrite ssh_update_eq. exists D1. split; [|split; [|reflexivity]].
    - assert (R0 : runs D e D1 e1) by exact R1. eapply runs_trans; [exact R0|].
      apply (runs_push _ _ _ _ [SendVote (mkVoteReq v (rs_last (en_state e)))]); unpush; [reflexivity..|].
      cbn [set_server rs_committed]. cbn [walk wok w_d w_must w_cur wnext vq_vote vq_last]. split; [|reflexivity].
      split; [reflexivity|]. split; [symmetry; exact V1|]. apply (ec_last _ _ C).
    - destruct J1 as [J1 J2 J3 J4 J5 J6]. constructor; unpush.
      + eapply ec_ext; [exact J1|reflexivity..].
      + exact J2.
      + exact J3.
      + intros l Hx. discriminate.
      + intros c Hc. unpush. destruct Hcc as [-> | ->]; [|discriminate]. destruct (J5 c Hc) as (X1 & X2 & X3 & X4 & X5). auto 6.
      + exact J6.
  Qed.

  Lemma establish_runs now c D e e' : ei D e -> en_cand e = Some c ->
    en_establish now e = Ok e' -> fits (dlast D) e e' -> grown D e e'.
  Proof using HE.
    intros I Hc Hu Hf. pose proof I as [I1 I2 I3 I4 I5 I6]. destruct (I5 c Hc) as (X1 & X2 & X3 & X4 & X5).
    unfold en_establish in Hu. rewrite Hc in Hu. unfold eh_establish in Hu. unpush. rewrite X5 in Hu.
    rok Hu. unfold rh_rebuild_streams in Hx. cbn [en_leader] in Hx. injection Hx as Hx.
    set (l := cand_into_leader now c) in *.
    destruct (leader_new_el now (into_committed (cd_vote c)) (cd_qs c) (cd_learners c)
      (match cd_last c with Some l => [l] | None => [] end)) as (N1 & N2 & N3 & N4).
    fold (cand_into_leader now c) in N1, N2, N3, N4. fold l in N1, N2, N3, N4.
    assert (N3' : ld_last l = dlast D) by (rewrite N3, X4; destruct (dlast D); reflexivity). clear N3.
    set (vec := map _ _) in Hx. set (p1 := mkVP _ _ _ vec) in Hx. set (l1 := ld_set_progress p1 l) in Hx.
    set (ts := filter _ vec) in Hx.
    assert (Hvec : forall y, y ∈ vec -> pe_matching y.2 = None).
    { intros y Hy. subst vec. apply elem_of_list_fmap in Hy as (z & -> & Hz).
      assert (Hzm : (z.1, pe_matching z.2) ∈ matched l) by (apply elem_of_list_fmap; exists z; auto).
      apply N1 in Hzm. unfold rh_reset_inflight. destruct (z.1 =? _); exact Hzm. }
    assert (Hmid : exists e2, x = e2 /\ runs D e D e2 /\ ec D (en_state e2) /\ acc_ok D (en_state e2) /\ en_id e2 = me /\
      en_leader e2 = Some l1 /\ en_cand e2 = None /\ en_state e2 = en_state e /\ en_out e2 = en_out e ++ [RebuildReplicationStreams ts]).
    { exists x. split; [reflexivity|]. rewrite <- Hx. unpush. split; [|auto 9].
      apply (runs_push _ _ _ _ [RebuildReplicationStreams ts]); unpush; [reflexivity..|].
      cbn [walk wok w_d w_must w_cur wnext]. split; [|reflexivity]. split; [reflexivity|].
      intros y Hy. subst ts. apply elem_of_list_filter in Hy as [_ Hy]. rewrite (Hvec y Hy). eapply ec_root; eauto. }
    clear Hx. destruct Hmid as (e2 & -> & R2 & C2 & A2 & Hid2 & Hl2 & Hc2 & Hs2 & Ho2).
    rok Hu. rewrite N4 in Hx. set (v := into_committed (cd_vote c)) in *.
    assert (Hgt : vote_gtb v (rs_v (en_state e2)) = true).
    { rewrite Hs2, <- X1. subst v. unfold into_committed. destruct (cd_vote c) as [L b]. cbn in X2. subst b. cbn. ord. }
    unfold vh_update_vote in Hx. rewrite (vote_gtb_geb _ _ Hgt), Hgt in Hx. cbn [negb] in Hx. rok Hx. injection Hx as <-.
    match type of Hx0 with vh_update_internal _ ?t = _ => change t with (voted now v e2) in Hx0 end.
    destruct (voted_runs now v D e2 C2 A2 Hgt) as (R3 & C3 & A3 & V3 & V3').
    set (e3 := voted now v e2) in *. set (D3 := dapply D (SaveVote v)) in *.
    assert (Hl3 : en_leader e3 = Some l1) by exact Hl2.
    assert (Hc3 : en_cand e3 = None) by exact Hc2.
    assert (Hid3 : en_id e3 = me) by exact Hid2.
    unfold vh_update_internal in Hx0. cbn [fst] in Hu.
    destruct (rs_is_leader (en_state e3) (en_id e3)) eqn:Hlead.
    2:{ exfalso. unfold rs_is_leader in Hlead. rewrite V3' in Hlead. cbn [v into_committed v_committed] in Hlead.
        rewrite andb_true_r in Hlead. rewrite Hlead in Hx0. injection Hx0 as <-.
        unfold vh_become_following, lh_append in Hu. rewrite ssh_update_eq in Hu. discriminate Hu. }
    unfold vh_become_leader in Hx0. rewrite Hl3 in Hx0.
    change (ld_vote l1) with (ld_vote l) in Hx0. rewrite N4, V3' in Hx0.
    replace (leader_eqb _ _) with true in Hx0 by (symmetry; apply leader_eqb_eq; reflexivity).
    injection Hx0 as <-. rewrite ssh_update_eq in Hu.
    set (l4 := ld_set_vote (into_committed v) l1) in *.
    set (e4 := upd (set_server _) _) in Hu.
    assert (J4 : runs D3 e3 D3 e4 /\ ei D3 e4 /\ en_leader e4 = Some l4).
    { split; [apply runs_quiet; reflexivity|]. split; [|reflexivity]. constructor; subst e4; unpush.
      - eapply ec_ext; [exact C3|reflexivity..].
      - rewrite V3. symmetry. exact V3'.
      - eapply acc_ext; [exact A3|reflexivity|reflexivity|constructor].
      - intros l0 [= <-]. unpush. change (rs_v (set_server _ _)) with (rs_v (en_state e3)). rewrite V3'.
        split; [reflexivity|]. split; [reflexivity|]. split; [exact X3|]. split; [exact N3'|].
        split; [|split].
        + intros p Hp. apply elem_of_list_fmap in Hp as (y & -> & Hy). cbn [snd].
          change (y ∈ vec) in Hy. rewrite (Hvec y Hy). eapply ec_root; eauto.
        + change (lgranted l4) with (lgranted l). rewrite N2. eapply ec_root; eauto.
        + cbn [set_server rs_server]. unfold rs_calc_server. change (en_id _) with (en_id e3). rewrite Hlead. reflexivity.
      - intros c0 Hc0. exfalso. cbn in Hc0. congruence.
      - exact Hid3. }
    clearbody e4. destruct J4 as (R4 & J4 & Hl4).
    assert (R0 : runs D e D3 e4) by (eapply runs_trans; [exact R2|eapply runs_trans; [exact R3|exact R4]]).
    assert (HD3 : dlast D3 = dlast D) by reflexivity.
    replace (IOLog (ld_vote l) (ld_last l)) with (IOLog (ld_vote l4) (ld_last l4)) in Hu by reflexivity.
    destruct (calm_prim KLeadAccept e4 _ D3 ltac:(apply (bool_decide_eq_true_1 (_ ∈ _)); reflexivity) (pr_lead_accept l4 e4 Hl4) J4)
      as (D5 & R5 & I5' & Hd5 & Hv5 & Hs5).
    destruct (lead_append [PBlank] D5 _ l4 e' I5' Hl4 Hu) as (D6 & R6 & I6' & G6 & _).
    { rewrite Hd5, HD3. eapply fits_runs; [|exact Hf]. eapply runs_trans; eauto. }
    exists D6. split; [eapply runs_trans; [exact R0|eapply runs_trans; eauto]|]. split; [exact I6'|].
    rewrite Hd5, HD3 in G6. exact G6.
  Qed.

  Lemma vote_resp_runs now t resp D e e' : ei D e ->
    (li_node (v_leader (vr_vote resp)) <> me \/ vote_le (vr_vote resp) (rs_v (en_state e))) ->
    en_vote_resp now t resp e = Ok e' -> fits (dlast D) e e' -> grown D e e'.
  Proof using HE.
    intros I Hv Hu Hf. unfold en_vote_resp in Hu. destruct (en_cand e) as [c|] eqn:Hc.
    2:{ injection Hu as <-. apply calm_grown, calm_refl. exact I. }
    destruct (_ && _).
    - rok Hu. destruct x as [c' ok]. cbn [fst snd] in Hu.
      destruct (calm_prim KCandGrant e _ D ltac:(apply (bool_decide_eq_true_1 (_ ∈ _)); reflexivity) (pr_cand_grant _ _ _ _ _ Hc Hx) I)
        as (D1 & R1 & I1 & Hd1 & _).
      destruct ok.
      + destruct (establish_runs now c' D1 _ e' I1 eq_refl Hu) as (D2 & R2 & I2 & G2).
        { rewrite Hd1. eapply fits_runs; eauto. }
        exists D2. split; [eapply runs_trans; eauto|]. split; [exact I2|]. rewrite <- Hd1. exact G2.
      + injection Hu as <-. exists D1. rewrite Hd1. split; [exact R1|]. split; [exact I1|constructor].
    - rok Hu. injection Hu as <-.
      eapply grown_trans with (e1 := if ologid_ltb (rs_last (en_state e)) (vr_last resp) then set_greater true e else e).
      + destruct (ologid_ltb _ _); [|apply calm_grown, calm_refl; exact I].
        apply calm_grown. apply (calm_prim KGreater e _ D ltac:(apply (bool_decide_eq_true_1 (_ ∈ _)); reflexivity) (pr_greater _ _) I).
      + intros D1 R1 I1 L1. eapply update_vote_grown; [exact I1| |exact Hx|].
        * destruct (ologid_ltb _ _); exact Hv.
        * assert (dlast D1 = dlast D) as ->; [|eapply fits_runs; eauto].
          rewrite <- (ec_last _ _ (ei_ec _ _ I1)), <- (ec_last _ _ (ei_ec _ _ I)). destruct (ologid_ltb _ _); reflexivity.
  Qed.

  Lemma vote_req_runs now req D e x : ei D e ->
    (li_node (v_leader (vq_vote req)) <> me \/ vote_le (vq_vote req) (rs_v (en_state e))) ->
    en_vote_req now req e = Ok x -> fits (dlast D) e x.1 -> grown D e x.1.
  Proof using HE.
    intros I Hv Hu Hf. unfold en_vote_req in Hu.
    destruct (_ && _); [injection Hu as <-; apply calm_grown, calm_refl; exact I|].
    destruct (ologid_leb _ _); cbn [negb] in Hu; [|injection Hu as <-; apply calm_grown, calm_refl; exact I].
    rok Hu. injection Hu as <-. eapply update_vote_grown; eauto.
  Qed.

  Lemma initialize_runs now m D e x : ei D e -> en_initialize now m e = Ok x ->
    (rs_is_initialized (en_state e) = false ->
     H (mkLogId (mkLeaderId 0 0) 0) = Some (None, PMembership m)) ->
    grown D e x.1.
  Proof using HE.
    intros I Hu Hh. pose proof I as [I1 I2 I3 I4 I5 I6]. unfold en_initialize in Hu.
    destruct (rs_is_initialized (en_state e)) eqn:Hi; [injection Hu as <-; apply calm_grown, calm_refl; exact I|].
    destruct (m_is_voter m (en_id e)); cbn [negb] in Hu; [|injection Hu as <-; apply calm_grown, calm_refl; exact I].
    specialize (Hh eq_refl). set (entry := mkEntry _ _) in Hu. rok Hu. injection Hu as <-. cbn [fst].
    unfold rs_is_initialized in Hi. rewrite (ec_last _ _ I1) in Hi.
    destruct (dlast D) as [?|] eqn:Hd; [discriminate|].
    assert (Hv0 : rs_v (en_state e) = vote_default).
    { destruct (vote_eqb (rs_v (en_state e)) vote_default) eqn:Hq; [|discriminate]. apply vote_eqb_true. exact Hq. }
    set (e1 := upd _ e) in Hx.
    assert (Hl : en_leader e = None).
    { destruct (en_leader e) as [l|] eqn:Hl; [|reflexivity]. destruct (I4 l Hl) as (L1 & L2 & _). rewrite L1, Hv0 in L2. discriminate. }
    assert (R1 : runs D e D e1).
    { split; [reflexivity|]. split; [rewrite Hv0; reflexivity|]. exists []. rewrite app_nil_r. split; reflexivity. }
    assert (C1 : ec D (en_state e1)).
    { destruct I1 as [C1 C2 C3 C4 C4' C5 C6 C7 C8 C9 C10]. subst e1. constructor; unpush; auto.
      - rewrite C4, Hv0. reflexivity.
      - eapply vote_le_trans; [exact C4'|]. rewrite Hv0. reflexivity.
      - rewrite Hd. exact Logic.I. }
    assert (A1 : acc_ok D (en_state e1)).
    { subst e1. unfold acc_ok in *. unpush. cbn [set_vote rs_io]. change (rs_v (set_vote _ _)) with (into_committed vote_default).
      rewrite Hv0 in I3. destruct (io_accepted (rs_io (en_state e))) as [[w|w y]|]; [| |exact Logic.I].
      - destruct I3 as [Y1 Y2]. split; [exact Y1|]. eapply vote_le_trans; [exact Y2|reflexivity].
      - destruct I3 as (Y1 & Y2 & Y3 & Y4). split; [exact Y1|]. split; [eapply vote_le_trans; [exact Y2|reflexivity]|].
        split; [exact Y3|]. exact Y4. }
    destruct (append_runs (fh_vote e1) [entry] D e1 C1) as (R2 & C2 & F2 & L2).
    - discriminate.
    - rewrite Hd. cbn. auto.
    - reflexivity.
    - reflexivity.
    - assert (A2 : acc_ok (dapply D (AppendInputEntries (fh_vote e1) [entry])) (en_state (fh_do_append (fh_vote e1) [entry] e1))).
      { destruct F2 as (_ & _ & _ & F4 & F5 & _). eapply acc_ext; [exact A1|exact F4|rewrite F5; reflexivity|].
        rewrite L2, Hd. eapply pfx_step; [exact Hh|constructor]. }
      assert (Hl2 : en_leader (fh_do_append (fh_vote e1) [entry] e1) = None) by (rewrite fh_do_append_eq; exact Hl).
      assert (Hid2 : en_id (fh_do_append (fh_vote e1) [entry] e1) = me) by (rewrite fh_do_append_eq; exact I6).
      destruct (elect_runs now _ _ x0 C2 A2 Hl2 Hid2 Hx) as (D3 & R3 & I3' & L3).
      exists D3. split; [eapply runs_trans; [exact R1|eapply runs_trans; eauto]|]. split; [exact I3'|].
      rewrite L3, L2, Hd. cbn. eapply pfx_step; [exact Hh|constructor].
  Qed.

  (** ** Following *)

  Lemma has_id D s p t : ec D s -> pfx H (Some p) t -> pfx H (rs_committed s) t ->
    rs_has_log_id s p = true -> pfx H (Some p) (dlast D).
  Proof using HE.
    intros C Hp Hc. unfold rs_has_log_id. destruct (lid_index p <? next_index (rs_committed s)) eqn:Hlt.
    - intros _. eapply pfx_trans; [|apply C]. eapply pfx_of_idx; eauto. cbn. lia.
    - destruct (rs_get_log_id s (lid_index p)) as [x|] eqn:Hg; [|discriminate]. intros Hq.
      assert (p = x) as -> by ord. apply (ec_get D s _ _ C) in Hg. apply Hg.
  Qed.
  (** what the log lacks is not below anything of the log and the leader *)
  Lemma lacks_id D s p y t : ec D s -> pfx H (Some p) t -> rs_has_log_id s p = false -> pfx H y t -> pfx H y (dlast D) ->
    next_index y <= lid_index p.
  Proof using HE.
    intros C Hp Hh Hy Hyl. destruct (decide (next_index y <= lid_index p)) as [?|Hn]; [assumption|]. exfalso.
    assert (Hpl : pfx H (Some p) (dlast D)).
    { eapply pfx_trans; [|exact Hyl]. eapply pfx_of_idx; eauto. cbn. lia. }
    apply has_log_id_false in Hh as Hge. unfold rs_has_log_id in Hh.
    destruct (lid_index p <? _); [discriminate|].
    assert (Hg : rs_get_log_id s (lid_index p) = Some p).
    { apply (ec_get D s _ _ C). split; [exact Hpl|]. split; [|reflexivity].
      pose proof (pfx_idx H Hok _ _ (ec_purged_com _ _ C)). lia. }
    rewrite Hg in Hh. ord.
  Qed.

  (** a node that follows the leader of its vote *)
  Record following (D : Disk) (e : Engine) (v : Vote) : Prop := {
    fo_ei : ei D e;
    fo_v : rs_v (en_state e) = v;
    fo_com : v_committed v = true;
    fo_for : li_node (v_leader v) <> me;
    fo_leader : en_leader e = None;
    fo_cand : en_cand e = None;
    fo_tip : pfx H (rs_committed (en_state e)) (tip (v_leader v));
  }.
  (** the accepted write after accepting [x] of the leader *)
  Lemma acc_after D D' s s' v x : acc_ok D s -> rs_v s = v -> v_committed v = true -> li_node (v_leader v) <> me ->
    rs_v s' = v -> rs_io s' = rs_io (rs_accept_io (IOLog v x) s) ->
    pfx H x (tip (v_leader v)) -> pfx H x (dlast D') ->
    (forall y, pfx H y (tip (v_leader v)) -> pfx H y (dlast D) -> pfx H y (dlast D')) -> acc_ok D' s'.
  Proof.
    intros A Hv Hc Hf Hv' Hio Hx1 Hx2 Hy. unfold acc_ok in *. rewrite Hio, rs_accept_io_eq, Hv'. cbn [set_io rs_io].
    unfold io_accept. destruct (match io_accepted (rs_io s) with None => true | Some c => io_gtb (IOLog v x) c end).
    - cbn [io_set_accepted io_accepted]. repeat split; auto. apply vote_le_refl.
    - rewrite Hv in A. destruct (io_accepted (rs_io s)) as [[w|w y]|]; [exact A| |exact Logic.I].
      destruct A as (A1 & A2 & A3 & A4). repeat split; auto. intros Hw. apply Hy; auto. rewrite <- Hw. apply A3. congruence.
  Qed.
  Lemma following_framed D e v D' e' : following D e v -> framed e e' -> ec D' (en_state e') -> acc_ok D' (en_state e') ->
    dvote D' = dvote D -> following D' e' v.
  Proof.
    intros [F1 F2 F3 F4 F5 F6 F7] (R1 & R2 & R3 & R4 & R5 & R6 & _) C A Hd. destruct F1 as [I1 I2 I3 I4 I5 I6].
    constructor; auto; try congruence. constructor; auto; try congruence.
    unfold en_id in *. congruence.
  Qed.

  Lemma truncate_acc since D e v : following D e v ->
    next_index (rs_committed (en_state e)) <= since ->
    (forall y, pfx H y (tip (v_leader v)) -> pfx H y (dlast D) -> next_index y <= since) ->
    exists D', runs D e D' (fh_truncate since e) /\ following D' (fh_truncate since e) v.
  Proof using HE.
    intros F Hs Hy. pose proof F as [F1 F2 F3 F4 F5 F6 F7]. pose proof F1 as [I1 I2 I3 I4 I5 I6].
    destruct (truncate_runs since D e I1) as (D' & R & C & Hp & Hi & _ & Hd & Hfr); [congruence|exact Hs|].
    exists D'. split; [exact R|]. eapply following_framed; [exact F|exact Hfr|exact C| |unfold dvote; rewrite Hd; reflexivity].
    unfold acc_ok in *. destruct Hfr as (_ & _ & _ & R4 & R5 & _). rewrite R5, R4.
    destruct (io_accepted (rs_io (en_state e))) as [[w|w y]|]; [exact I3| |exact Logic.I].
    destruct I3 as (A1 & A2 & A3 & A4). repeat split; auto. intros Hw. specialize (A4 Hw).
    rewrite F2 in Hw. eapply pfx_of_idx; [exact Hok|exact A4|exact Hp|]. rewrite Hi.
    assert (Hys : next_index y <= since) by (apply Hy; [rewrite <- Hw; apply A3; congruence|exact A4]).
    pose proof (pfx_idx H Hok _ _ A4). lia.
  Qed.

  Lemma first_conflicting_take s es : Forall (fun x => rs_has_log_id s (e_log_id x) = true) (take (rs_first_conflicting s es) es).
  Proof.
    induction es as [|e r IH]; cbn [rs_first_conflicting]; [constructor|].
    destruct (rs_has_log_id s (e_log_id e)) eqn:Hh; cbn [take]; constructor; auto.
  Qed.
  Lemma es_last_max p es : chain H p es -> ologid_max p (e_log_id <$> last es) = es_last p es.
  Proof using HE.
    intros Hc. apply chain_pfx in Hc as Hp. apply (pfx_le H Hok) in Hp. unfold es_last in *.
    destruct (last es) as [x|]; cbn [fmap option_fmap option_map].
    - unfold ologid_max. destruct (ologid_ltb p (Some (e_log_id x))) eqn:Hlt; [reflexivity|]. ord.
    - destruct p; reflexivity.
  Qed.

  Lemma append_follow prev es D e v : following D e v ->
    pfx H None prev -> chain H prev es -> pfx H (es_last prev es) (tip (v_leader v)) -> pfx H prev (dlast D) ->
    exists D', runs D e D' (fh_append_entries v prev es e) /\ following D' (fh_append_entries v prev es e) v /\
      pfx H (es_last prev es) (dlast D') /\
      (exists y, io_accepted (rs_io (en_state (fh_append_entries v prev es e))) = Some (IOLog v y) /\
         ologid_leb (es_last prev es) y = true) /\
      rs_committed (en_state (fh_append_entries v prev es e)) = rs_committed (en_state e) /\
      (dk_log D' = dk_log D \/ dlast D' = es_last prev es /\ ~ pfx H (es_last prev es) (dlast D)).
  Proof using HE.
    intros F Hr Hch Htip Hprev. pose proof F as [F1 F2 F3 F4 F5 F6 F7]. pose proof F1 as [I1 I2 I3 I4 I5 I6].
    unfold fh_append_entries. rewrite (es_last_max prev es Hch). set (lst := es_last prev es) in *.
    set (e1 := upd (rs_accept_io (IOLog v lst)) e).
    assert (C1 : ec D (en_state e1)) by (subst e1; unpush; rewrite rs_accept_io_eq; eapply ec_ext; [exact I1|reflexivity..]).
    assert (R1 : runs D e D e1) by (subst e1; apply runs_quiet; unpush; rewrite ?rs_accept_io_eq; reflexivity).
    assert (V1 : rs_v (en_state e1) = v) by (subst e1; unpush; rewrite rs_accept_io_v; exact F2).
    assert (Hc1 : rs_committed (en_state e1) = rs_committed (en_state e)) by (subst e1; unpush; rewrite rs_accept_io_eq; reflexivity).
    assert (Hio1 : rs_io (en_state e1) = rs_io (rs_accept_io (IOLog v lst) (en_state e))) by reflexivity.
    assert (Hacc1 : exists y, io_accepted (rs_io (en_state e1)) = Some (IOLog v y) /\ ologid_leb lst y = true).
    { rewrite Hio1. eapply accepted_accept; [exact I3|exact F3|congruence|congruence]. }
    assert (Hlead1 : en_leader e1 = None /\ en_cand e1 = None /\ en_cfg e1 = en_cfg e) by (repeat split; assumption).
    assert (Htake : pfx H (es_last prev (take (rs_first_conflicting (en_state e1) es) es)) (dlast D)).
    { unfold es_last. destruct (last (take _ es)) as [x|] eqn:Hl; [|exact Hprev].
      pose proof (first_conflicting_take (en_state e1) es) as Hall. rewrite Forall_forall in Hall.
      apply last_elem_of in Hl as Hin. specialize (Hall x Hin).
      eapply has_id with (t := tip (v_leader v)); [exact C1| |rewrite Hc1; exact F7|exact Hall].
      eapply pfx_trans; [|exact Htip]. subst lst.
      pose proof (take_drop (rs_first_conflicting (en_state e1) es) es) as Htd.
      rewrite <- Htd in Hch |- *. apply chain_app in Hch as [_ Hch2]. rewrite es_last_app.
      apply chain_pfx in Hch2. unfold es_last at 1 in Hch2. rewrite Hl in Hch2.
      exact Hch2. }
    pose proof (drop_conflicting (en_state e1) es) as Hconf.
    pose proof (take_drop (rs_first_conflicting (en_state e1) es) es) as Htd.
    destruct (drop (rs_first_conflicting (en_state e1) es) es) as [|x r] eqn:Hd.
    - rewrite app_nil_r in Htd. rewrite Htd in Htake. fold lst in Htake.
      assert (F' : following D e1 v).
      { constructor; auto; try apply Hlead1; [|rewrite Hc1; exact F7]. constructor; auto.
        - rewrite I2, F2. symmetry. exact V1.
        - eapply acc_after; [exact I3|exact F2|exact F3|exact F4|exact V1|exact Hio1|exact Htip|exact Htake|auto].
        - intros l Hl. destruct Hlead1. congruence.
        - intros l Hl. destruct Hlead1 as (_ & ? & _). congruence. }
      destruct (some_io_leb _ _).
      + exists D. auto 8.
      + exists D. split; [eapply runs_trans; [exact R1|]|split; [|split; [|split; [|split]]]].
        * apply (runs_push _ _ _ _ [UpdateIOProgress (match io_accepted (rs_io (en_state e)) with Some i => Some (IOFlushed i) | None => None end) (IOLog v lst)]);
            [reflexivity..|]. cbn [walk wok w_d w_must w_cur wnext]. split; [|reflexivity]. split; [reflexivity|].
          exists v, lst. split; [reflexivity|]. split; [|exact Htake]. rewrite (ec_vl _ _ I1), F2. reflexivity.
        * destruct F' as [F1' F2' F3' F4' F5' F6' F7']. constructor; auto.
          destruct F1' as [J1 J2 J3 J4 J5 J6]. constructor; auto.
        * exact Htake.
        * exact Hacc1.
        * exact Hc1.
        * left. reflexivity.
    - pose proof Hch as Hch0. rewrite <- Htd in Hch0. apply chain_app in Hch0 as [Hcha Hchb].
      set (q := es_last prev (take (rs_first_conflicting (en_state e1) es) es)) in *.
      assert (Hxt : pfx H (Some (e_log_id x)) (tip (v_leader v))).
      { eapply pfx_trans; [|exact Htip]. subst lst. rewrite <- Htd, es_last_app. fold q.
        destruct Hchb as [_ Hchb]. apply chain_pfx in Hchb. replace (es_last q (x :: r)) with (es_last (Some (e_log_id x)) r); [exact Hchb|].
        symmetry. apply (es_last_app q [x] r). }
      apply has_log_id_false in Hconf as Hxi. change (lid_index (e_log_id x)) with (e_index x) in Hxi.
      assert (Hqi : next_index q = e_index x).
      { destruct Hchb as [Hh _]. apply Hok in Hh as [Hh _]. symmetry. exact Hh. }
      destruct (truncate_runs (e_index x) D e1 C1) as (D2 & R2 & C2 & Hp2 & Hi2 & _ & Hv2 & Fr2); [congruence|exact Hxi|].
      assert (Hq2 : dlast D2 = q).
      { eapply (pfx_same_idx H Hok); [exact Hp2|exact Htake|]. rewrite Hi2, Hqi.
        apply (pfx_idx H Hok) in Htake. rewrite Hqi in Htake. lia. }
      set (e2 := fh_truncate (e_index x) e1) in *.
      destruct Fr2 as (X1 & X2 & X3 & X4 & X5 & X6 & X7 & X8 & X9).
      assert (Hlst2 : es_last (dlast D2) (x :: r) = lst).
      { rewrite Hq2. subst lst q. rewrite <- es_last_app, Htd. reflexivity. }
      destruct (append_runs v (x :: r) D2 e2 C2) as (R3 & C3 & Fr3 & L3).
      + discriminate.
      + rewrite Hq2. exact Hchb.
      + rewrite Hlst2, X4, V1. eapply pfx_oleader; [exact Hok|exact Htip|apply HE].
      + rewrite X4, V1. reflexivity.
      + set (e3 := fh_do_append v (x :: r) e2) in *.
        destruct Fr3 as (Y1 & Y2 & Y3 & Y4 & Y5 & Y6 & Y7 & Y8 & Y9).
        set (D3 := dapply D2 _) in *. rewrite Hlst2 in L3.
        exists D3. split; [|split; [|split; [|split; [|split]]]].
        * eapply runs_trans; [exact R1|eapply runs_trans; eauto].
        * destruct Hlead1 as (Z1 & Z2 & Z3).
          assert (V3 : rs_v (en_state e3) = v) by congruence.
          constructor; auto; try congruence. constructor; auto; try congruence.
          -- rewrite V3, <- F2, <- I2. unfold D3, dapply, dvote. cbn [cmd_wop wop_apply dk_vote]. rewrite Hv2. reflexivity.
          -- eapply acc_after; [exact I3|exact F2|exact F3|exact F4|exact V3|rewrite Y5, X5; exact Hio1|exact Htip|rewrite L3; constructor|].
             intros y Hy1 Hy2. rewrite L3. eapply pfx_trans with (b := q).
             ++ eapply pfx_of_idx; [exact Hok|exact Hy2|exact Htake|]. rewrite Hqi.
                apply (lacks_id D (en_state e1) (e_log_id x) y (tip (v_leader v))); auto.
             ++ rewrite <- Hlst2, <- Hq2. apply chain_pfx. rewrite Hq2. exact Hchb.
          -- unfold en_id in *. congruence.
        * rewrite L3. constructor.
        * rewrite Y5, X5. exact Hacc1.
        * congruence.
        * right. split; [exact L3|]. intros Hin.
          enough (next_index (Some (e_log_id x)) <= lid_index (e_log_id x)) by (cbn in *; lia).
          apply (lacks_id D (en_state e1) (e_log_id x) (Some (e_log_id x)) (tip (v_leader v))); auto.
          eapply pfx_trans; [|exact Hin]. rewrite <- Hlst2, Hq2.
          destruct Hchb as [_ Hchb]. apply chain_pfx in Hchb. rewrite es_last_cons. exact Hchb.
  Qed.

  (** append-entries without the response *)
  Lemma append_runs_op now v prev es D e e' r : ei D e -> v_committed v = true -> li_node (v_leader v) <> me ->
    pfx H None prev -> chain H prev es -> pfx H (es_last prev es) (tip (v_leader v)) ->
    (vote_le (rs_v (en_state e)) v -> pfx H (rs_committed (en_state e)) (tip (v_leader v))) ->
    en_append now v prev es e = Ok (e', r) ->
    exists D', runs D e D' e' /\ ei D' e' /\
      rs_committed (en_state e') = rs_committed (en_state e) /\
      match r with
      | ASuccess => following D' e' v /\ pfx H (es_last prev es) (dlast D') /\
          (exists y, io_accepted (rs_io (en_state e')) = Some (IOLog v y) /\ ologid_leb (es_last prev es) y = true) /\
          (dk_log D' = dk_log D \/ dlast D' = es_last prev es /\ ~ pfx H (es_last prev es) (dlast D))
      | _ => True
      end.
  Proof using HE.
    intros I Hc Hf Hr Hch Htip Hcom Hu. unfold en_append in Hu. rok Hu.
    destruct (update_vote_foreign now v D e x I Hf Hx) as (D1 & (R1 & I1 & L1 & _ & Hco & _) & Hok1).
    destruct x as [e1 ok]. cbn [fst snd] in *. destruct ok; cbn [negb] in Hu.
    2:{ injection Hu as <- <-. exists D1. auto. }
    destruct (Hok1 eq_refl) as (V1 & Hge & Hl1 & Hc1). clear Hok1.
    assert (F1 : following D1 e1 v).
    { constructor; auto. rewrite Hco. apply Hcom. exact Hge. }
    assert (Hprevt : pfx H prev (tip (v_leader v))) by (eapply pfx_trans; [apply chain_pfx; exact Hch|exact Htip]).
    assert (Hv : fh_vote e1 = v).
    { unfold fh_vote. rewrite V1. destruct v; cbn in Hc; subst; reflexivity. }
    rewrite Hv in Hu. unfold fh_ensure_consecutive in Hu.
    assert (Happ : pfx H prev (dlast D1) -> forall e2, e2 = fh_append_entries v prev es e1 ->
      exists D', runs D e D' e2 /\ ei D' e2 /\ rs_committed (en_state e2) = rs_committed (en_state e) /\
       following D' e2 v /\ pfx H (es_last prev es) (dlast D') /\
          (exists y, io_accepted (rs_io (en_state e2)) = Some (IOLog v y) /\ ologid_leb (es_last prev es) y = true) /\
          (dk_log D' = dk_log D \/ dlast D' = es_last prev es /\ ~ pfx H (es_last prev es) (dlast D))).
    { intros Hp e2 ->. destruct (append_follow prev es D1 e1 v F1 Hr Hch Htip Hp) as (D2 & R2 & F2 & L2 & A2 & C2 & K2).
      exists D2. split; [eapply runs_trans; eauto|]. split; [apply F2|]. split; [congruence|].
      rewrite L1 in K2. auto. }
    destruct prev as [p|].
    - destruct (rs_has_log_id (en_state e1) p) eqn:Hh.
      + injection Hu as <- <-. apply Happ; [|reflexivity].
        eapply has_id with (t := tip (v_leader v)); [apply I1|exact Hprevt|apply F1|exact Hh].
      + injection Hu as <- <-.
        destruct (truncate_acc (lid_index p) D1 e1 v F1) as (D2 & R2 & F2).
        * apply has_log_id_false. exact Hh.
        * intros y Hy1 Hy2. eapply lacks_id; [apply I1|exact Hprevt|exact Hh|exact Hy1|exact Hy2].
        * exists D2. split; [eapply runs_trans; eauto|]. split; [apply F2|]. rewrite fh_truncate_committed. auto.
    - injection Hu as <- <-. apply Happ; [|reflexivity]. eapply ec_root. apply I1.
  Qed.

  Lemma commit_follow lc y D e v : following D e v -> pfx H lc (tip (v_leader v)) ->
    io_accepted (rs_io (en_state e)) = Some (IOLog v y) ->
    calm D e (fh_commit lc e).
  Proof using HE.
    intros F Hlc Ha. pose proof F as [F1 F2 F3 F4 F5 F6 F7]. pose proof F1 as [I1 I2 I3 I4 I5 I6].
    pose proof I3 as A. unfold acc_ok in A. rewrite Ha in A. destruct A as (_ & _ & A3 & A4).
    specialize (A3 F4). rewrite F2 in A4. specialize (A4 eq_refl).
    unfold fh_commit. rewrite Ha. cbn [io_last_log_id]. unfold rs_update_committed.
    destruct (ologid_ltb (rs_committed (en_state e)) (ologid_min y lc)) eqn:Hlt; [|apply calm_refl; exact F1].
    destruct (ologid_min y lc) as [c|] eqn:Hm; [|apply calm_refl; exact F1].
    assert (Hcl : pfx H (Some c) (dlast D)).
    { unfold ologid_min in Hm. destruct (ologid_leb y lc) eqn:Hle; subst; [exact A4|].
      eapply pfx_trans; [|exact A4]. eapply pfx_of_leb; [exact Hok|exact Hlc|exact A3|]. ord. }
    destruct (commit_runs c [] D e (or_intror eq_refl) I1 I3 Hlt Hcl) as (R & C & A).
    cbn [app] in R, C, A. set (e1 := push_all _ _) in R, C, A.
    match goal with |- calm _ _ (if ?b then sh_trigger ?t else _) => change t with e1 end.
    assert (Cm : calm D e e1).
    { eexists. split; [exact R|]. split; [|auto]. constructor; auto; intros l Hl; exfalso; cbn in Hl; congruence. }
    destruct (should_snapshot _ _); [|exact Cm].
    eapply calm_trans; [exact Cm|]. intros D1 I1' _. eapply calm_of with (ks := [KBuild]); [reflexivity| |exact I1'].
    apply sh_trigger_prims. reflexivity.
  Qed.

  (** ** Installing a snapshot *)

  Lemma install_cut_snap sl m e : install_cut sl (upd (set_snap m) e) = upd (set_snap m) (install_cut sl e).
  Proof.
    unfold install_cut. change (rs_get_log_id (en_state (upd (set_snap m) e))) with (rs_get_log_id (en_state e)).
    destruct (rs_get_log_id (en_state e) (lid_index sl)) as [x|]; [|reflexivity].
    destruct (logid_eqb x sl); [reflexivity|]. rewrite !fh_truncate_eq.
    change (rs_get_log_id (en_state (upd (set_snap m) e))) with (rs_get_log_id (en_state e)).
    change (rs_committed (en_state (upd (set_snap m) e))) with (rs_committed (en_state e)).
    destruct (rs_get_log_id (en_state e) _) as [y|]; [|reflexivity].
    unfold push, upd. cbn [en_state]. f_equal. cbv zeta.
    change (en_id (mkEngine _ _ _ _ _ _)) with (en_id e).
    change (rs_eff (set_log_ids _ (set_snap m (en_state e)))) with (rs_eff (en_state e)).
    change (rs_eff (set_log_ids _ (en_state e))) with (rs_eff (en_state e)).
    destruct (onat_leb _ _); reflexivity.
  Qed.

  (** before the snapshot is installed, what contradicts it is removed *)
  Lemma install_cut_runs sl D e v : following D e v -> pfx H (Some sl) (tip (v_leader v)) ->
    pfx H (rs_committed (en_state e)) (Some sl) -> rs_committed (en_state e) <> Some sl ->
    exists D1, runs D e D1 (install_cut sl e) /\ ec D1 (en_state (install_cut sl e)) /\ framed e (install_cut sl e) /\
      dk_vote D1 = dk_vote D /\ purgeable E sl D1 /\ pfx H (dlast D1) (dlast D) /\
      (forall y, pfx H y (tip (v_leader v)) -> pfx H y (dlast D) ->
         pfx H y (Some sl) \/ (dlast D1 = dlast D /\ pfx H (Some sl) (dlast D))).
  Proof using HE.
    intros F Ht Hc Hn. pose proof F as [F1 F2 F3 F4 F5 F6 F7]. pose proof F1 as [I1 I2 I3 I4 I5 I6].
    pose proof (pfx_lt_idx H Hok _ _ Hc Hn) as Hi. cbn [next_index] in Hi.
    pose proof (pfx_idx H Hok _ _ (ec_purged_com _ _ I1)) as Hpi.
    assert (Hfr : framed e e) by (unfold framed; auto 10).
    unfold install_cut. destruct (rs_get_log_id (en_state e) (lid_index sl)) as [x|] eqn:Hg.
    - apply (ec_get D _ _ _ I1) in Hg as (G1 & G2 & G3). destruct (logid_eqb x sl) eqn:Hq.
      + assert (x = sl) as -> by ord. exists D. split; [apply runs_refl|]. split; [exact I1|]. split; [exact Hfr|].
        split; [reflexivity|]. split; [left; auto|]. split; [constructor|]. auto.
      + destruct (truncate_runs (next_index (rs_committed (en_state e))) D e I1) as (D1 & R & C & Hp & Hx & _ & Hv & Fr);
          [congruence|lia|].
        exists D1. split; [exact R|]. split; [exact C|]. split; [exact Fr|]. split; [exact Hv|].
        split; [right; lia|]. split; [exact Hp|]. intros y Hy1 Hy2. left.
        eapply pfx_of_idx; [exact Hok|exact Hy1|exact Ht|]. destruct (decide (next_index y <= S (lid_index sl))) as [?|Hgt]; [cbn; lia|].
        exfalso. assert (Hsy : pfx H (Some sl) (dlast D)).
        { eapply pfx_trans; [|exact Hy2]. eapply pfx_of_idx; [exact Hok|exact Ht|exact Hy1|]. cbn. lia. }
        assert (Some x = Some sl) by (eapply (pfx_same_idx H Hok); [exact G1|exact Hsy|cbn; lia]). ord.
    - apply (ec_get_none D _ _ I1) in Hg. exists D. split; [apply runs_refl|]. split; [exact I1|]. split; [exact Hfr|].
      split; [reflexivity|]. split; [right; lia|]. split; [constructor|]. intros y Hy1 Hy2. left.
      eapply pfx_of_idx; [exact Hok|exact Hy1|exact Ht|]. pose proof (pfx_idx H Hok _ _ Hy2). cbn. lia.
  Qed.

  Lemma install_runs sn D e v : following D e v -> snap_ok H sn -> pfx H (sm_last (sn_meta sn)) (tip (v_leader v)) ->
    exists D', runs D e D' (fh_install v sn e).1 /\ following D' (fh_install v sn e).1 v.
  Proof using HE.
    intros F Hs Ht. pose proof F as [F1 F2 F3 F4 F5 F6 F7]. pose proof F1 as [I1 I2 I3 I4 I5 I6].
    rewrite fh_install_eq. destruct (sm_last (sn_meta sn)) as [sl|] eqn:Hsl; [|exists D; auto using runs_refl].
    destruct (ologid_leb (Some sl) (rs_committed (en_state e))) eqn:Hle; [exists D; auto using runs_refl|].
    destruct (ologid_leb (Some sl) (rs_snap_last (en_state e))) eqn:Hle2; [exists D; auto using runs_refl|].
    assert (Hc : pfx H (rs_committed (en_state e)) (Some sl)).
    { eapply pfx_of_leb; [exact Hok|exact F7|exact Ht|]. destruct (rs_committed (en_state e)); ord. }
    assert (Hn : rs_committed (en_state e) <> Some sl).
    { intros Hx. rewrite Hx in Hle. ord. }
    cbv zeta. rewrite install_cut_snap.
    destruct (install_cut_runs sl D e v F Ht Hc Hn) as (D1 & R1 & C1 & Fr & Hv1 & Hpg & Hp1 & Hy).
    set (e1 := install_cut sl e) in *. clearbody e1. destruct Fr as (X1 & X2 & X3 & X4 & X5 & X6 & X7 & X8 & X9).
    pose proof C1 as [C1' C2 C3 C4 C4' C5 C6 C7 C8 C9 C10].
    assert (Hroot : pfx H None (Some sl)) by (eapply pfx_rooted; [|exact Ht]; apply HE).
    assert (Hpur : ologid_leb (Some sl) (ls_purged (dk_log D1)) = false).
    { pose proof (pfx_le H Hok _ _ (ec_purged_com _ _ C1)) as Hpl. rewrite X6 in Hpl.
      destruct (ls_purged (dk_log D1)), (rs_committed (en_state e)); ord. }
    assert (HD2 : log_ok H (ls_purge sl (dk_log D1)) /\ pfx H (Some sl) (ls_last (ls_purge sl (dk_log D1))) /\
      (pfx H (Some sl) (dlast D1) -> ls_last (ls_purge sl (dk_log D1)) = dlast D1) /\
      oleader_le (ls_last (ls_purge sl (dk_log D1))) (v_leader v)).
    { destruct Hpg as [[P1 P2]|P].
      - destruct (ls_purge_ok H Hok sl _ C1' P1 P2) as [Q1 Q2]. split; [exact Q1|]. split; [rewrite Q2; exact P1|].
        split; [auto|]. rewrite Q2. rewrite X4, F2 in C10. exact C10.
      - destruct (ls_purge_beyond H Hok sl _ C1' Hroot) as [Q1 Q2]; [lia|]. split; [exact Q1|]. rewrite Q2. split; [constructor|].
        split.
        + intros Hx. apply (pfx_idx H Hok) in Hx. cbn in Hx. lia.
        + eapply pfx_oleader; [exact Hok|exact Ht|apply HE]. }
    destruct HD2 as (Q1 & Q2 & Q3 & Q4).
    set (e3 := push _ _).
    assert (H3 : logh_purge e3 = push (PurgeLog sl) (upd (rs_purge_log sl) e3)).
    { rewrite logh_purge_eq. change (rs_purge_upto (en_state e3)) with (Some sl).
      replace (rs_last_purged (en_state e3)) with (ls_purged (dk_log D1)); [rewrite Hpur; reflexivity|].
      rewrite <- (ec_last_purged _ _ C1). subst e3. unpush. unfold install_state. rewrite rs_accept_io_eq. reflexivity. }
    rewrite H3.
    assert (Hst : exists s3, en_state e3 = s3 /\ rs_v s3 = v /\ rs_committed s3 = Some sl /\ rs_log_ids s3 = rs_log_ids (en_state e1) /\
       rs_io s3 = rs_io (rs_accept_io (IOLog v (Some sl)) (en_state e)) /\ rs_snap_last s3 = Some sl /\ rs_purge_upto s3 = Some sl).
    { eexists. split; [reflexivity|]. subst e3. unpush. unfold install_state. rewrite !rs_accept_io_eq. repeat split.
      - change (rs_v (en_state e1) = v). congruence.
      - cbn. rewrite X5. reflexivity.
      - exact Hsl. }
    assert (Hen : en_cfg e3 = en_cfg e1 /\ en_leader e3 = en_leader e1 /\ en_cand e3 = en_cand e1 /\
      en_out e3 = en_out e1 ++ [InstallSnapshot sn (IOLog v (Some sl))]) by (repeat split).
    clearbody e3. destruct Hst as (s3 & Hs3 & S1 & S2 & S3 & S4 & S5 & S6). destruct Hen as (N1 & N2 & N3 & N4).
    exists (dapply D1 (PurgeLog sl)).
    assert (Hvl : vl D1 = v_leader v) by (rewrite C4, X4, F2; reflexivity).
    assert (Hacc : acc_ok (dapply D1 (PurgeLog sl)) (rs_purge_log sl s3)).
    { eapply acc_after; [exact I3|exact F2|exact F3|exact F4|exact S1|exact S4|exact Ht|exact Q2|].
      intros y Hy1 Hy2. change (pfx H y (ls_last (ls_purge sl (dk_log D1)))).
      destruct (Hy y Hy1 Hy2) as [Hys|[Hd Hsd]]; [eapply pfx_trans; [exact Hys|exact Q2]|].
      rewrite Q3 by (rewrite Hd; exact Hsd). rewrite Hd. exact Hy2. }
    assert (Hec : ec (dapply D1 (PurgeLog sl)) (rs_purge_log sl s3)).
    { unfold dapply. cbn [cmd_wop wop_apply].
      constructor; cbn [dk_log dk_committed rs_purge_log set_purged rs_committed rs_log_ids rs_purged_next rs_purge_upto];
        rewrite ?S2, ?S6; unfold vl, dvote; cbn [dk_vote].
      - exact Q1.
      - rewrite S3. rewrite ls_ids_purge with (H := H); [|exact Hok|exact C1'|exact Hpg]. apply lil_purge_rep. exact C2.
      - reflexivity.
      - change (vl D1 = v_leader (rs_v s3)). congruence.
      - change (vote_le (dvote D1) (rs_v s3)). rewrite S1. rewrite X4, F2 in C4'. exact C4'.
      - constructor.
      - change (pfx H (Some sl) (rs_snap_last s3)). rewrite S5. constructor.
      - change (pfx H (rs_snap_last s3) (Some sl)). rewrite S5. constructor.
      - exact Q2.
      - rewrite X6 in C9. eapply pfx_trans; [exact C9|exact Hc].
      - change (oleader_le (ls_last (ls_purge sl (dk_log D1))) (v_leader (rs_v s3))). rewrite S1. exact Q4. }
    split.
    - eapply runs_trans; [exact R1|].
      apply (runs_push _ _ _ _ [InstallSnapshot sn (IOLog v (Some sl)); PurgeLog sl]); unpush.
      + exact N1.
      + rewrite Hs3. change (rs_v s3 = rs_v (en_state e1)). congruence.
      + rewrite N4, <- app_assoc. reflexivity.
      + rewrite Hs3. cbn [rs_purge_log set_purged rs_committed]. rewrite S2, X6.
        cbn [walk wok w_d w_must w_cur wnext dapply cmd_wop]. rewrite Hsl. split; [|split; [|unfold wnext; cbn [w_cur w_d w_must]; rewrite Hsl; reflexivity]].
        * split; [reflexivity|]. split; [rewrite Hvl; exact F4|]. split; [exact Hs|].
          exists sl, v. rewrite Hvl. repeat split; auto. eapply pfx_oleader; [exact Hok|exact Ht|apply HE].
        * right. split; [reflexivity|]. rewrite Hvl. exact F4.
    - constructor; unpush; rewrite ?Hs3; auto.
      + constructor; unpush; rewrite ?Hs3; auto.
        * change (dvote D1 = rs_v s3). rewrite S1, <- F2, <- I2. unfold dvote. rewrite Hv1. reflexivity.
        * intros l Hl. cbn in Hl. congruence.
        * intros l Hl. cbn in Hl. congruence.
        * unfold en_id in *. cbn. congruence.
      + congruence.
      + congruence.
      + cbn [rs_purge_log set_purged rs_committed]. rewrite S2. exact Ht.
  Qed.

  (** ** Handlers *)

  Definition moved (D : Disk) (e e' : Engine) : Prop := exists D', runs D e D' e' /\ ei D' e'.
  Lemma grown_moved D e e' : grown D e e' -> moved D e e'.
  Proof. intros (D' & R & I & _). exists D'. auto. Qed.
  Lemma calm_moved D e e' : calm D e e' -> moved D e e'.
  Proof. intros (D' & R & I & _). exists D'. auto. Qed.
  Lemma moved_trans D e e1 e2 : moved D e e1 -> (forall D1, runs D e D1 e1 -> ei D1 e1 -> moved D1 e1 e2) -> moved D e e2.
  Proof.
    intros (D1 & R1 & I1) Hn. destruct (Hn D1 R1 I1) as (D2 & R2 & I2). exists D2. split; [eapply runs_trans; eauto|exact I2].
  Qed.
  Lemma moved_refl D e : ei D e -> moved D e e.
  Proof. intros I. exists D. split; [apply runs_refl|exact I]. Qed.

  Definition foreign_or_old (v : Vote) (e : Engine) : Prop :=
    li_node (v_leader v) = me -> vote_le v (rs_v (en_state e)).
  Lemma foreign_or_old_or v e : foreign_or_old v e -> li_node (v_leader v) <> me \/ vote_le v (rs_v (en_state e)).
  Proof. unfold foreign_or_old. destruct (decide (li_node (v_leader v) = me)); auto. Qed.

  (** messages that fit the history *)
  Definition msg_ok (m : Msg) (e : Engine) : Prop :=
    match m with
    | MAppend v prev es lc _ =>
        v_committed v = true /\ li_node (v_leader v) <> me /\ chain H prev es /\
        pfx H None prev /\ pfx H (es_last prev es) (tip (v_leader v)) /\ pfx H lc (tip (v_leader v)) /\
        (vote_le (rs_v (en_state e)) v -> pfx H (rs_committed (en_state e)) (tip (v_leader v)))
    | MVote req _ => foreign_or_old (vq_vote req) e
    | MSnapshot v sn _ =>
        v_committed v = true /\ li_node (v_leader v) <> me /\ snap_ok H sn /\
        pfx H (sm_last (sn_meta sn)) (tip (v_leader v)) /\
        (vote_le (rs_v (en_state e)) v -> pfx H (rs_committed (en_state e)) (tip (v_leader v)))
    | MTransfer req => li_node (v_leader (tq_from req)) <> me
    | MInitialize ms _ =>
        rs_is_initialized (en_state e) = false ->
        H (mkLogId (mkLeaderId 0 0) 0) = Some (None, PMembership (mkMembership [dom ms] ms))
    | MElect => en_leader e = None
    | _ => True
    end.
  (** a position claimed under vote [v] *)
  Definition claim (D : Disk) (s : RaftState) (v : Vote) (x : option LogId) : Prop :=
    leader_leb (v_leader v) (v_leader (rs_v s)) = true /\
    (li_node (v_leader v) = me -> v_leader v = v_leader (rs_v s) -> pfx H x (dlast D)).
  Definition note_ok (D : Disk) (x : Note) (e : Engine) : Prop :=
    match x with
    | NVoteResp _ resp _ => foreign_or_old (vr_vote resp) e
    | NHigherVote v _ => foreign_or_old v e
    | NLocalIO (IOLog v x) => claim D (en_state e) v x
    | NReplProgress ss _ (RRMatching m) => claim D (en_state e) (ss_vote ss) m
    | NSm (SRBuild meta) => pfx H (sm_last meta) (rs_committed (en_state e))
    | _ => True
    end.

  Lemma respond_moved w r tx D e : ei D e -> moved D e (push (Respond w r tx) e).
  Proof using HE. intros I. apply calm_moved. apply (calm_push D e [Respond w r tx] I). cbn. auto. Qed.

  Lemma core_append_moved now v prev es lc tx D e e' : ei D e -> msg_ok (MAppend v prev es lc tx) e ->
    core_append now v prev es lc tx e = Ok e' -> moved D e e'.
  Proof using HE.
    intros I (Hc & Hf & Hch & Hr & Ht & Hlc & Hcm) Hu. unfold core_append in Hu. rok Hu. injection Hu as <-.
    unfold en_append_entries in Hx. rok Hx. destruct x0 as [e1 r]. cbn [fst snd] in Hx.
    destruct (append_runs_op now v prev es D e e1 r I Hc Hf Hr Hch Ht Hcm Hx0) as (D1 & R1 & I1 & C1 & HS).
    destruct r.
    - destruct HS as (F & L & (y & Ha & Hy) & _). rewrite Ha in Hx. injection Hx as <-. cbn [fst snd].
      destruct (respond_moved (Some (IOFlushed (IOLog v y))) (RAppend ASuccess) tx D1 e1 I1) as (D2 & R2 & I2).
      eapply moved_trans with (e1 := push (Respond (Some (IOFlushed (IOLog v y))) (RAppend ASuccess) tx) e1).
      { exists D2. split; [eapply runs_trans; [exact R1|exact R2]|exact I2]. }
      intros D3 R3 I3. apply calm_moved. eapply commit_follow with (v := v) (y := y).
      + destruct F as [F1 F2 F3 F4 F5 F6 F7]. constructor; auto.
      + exact Hlc.
      + exact Ha.
    - injection Hx as <-. cbn [fst snd]. eapply moved_trans; [exists D1; eauto|]. intros D3 R3 I3. apply respond_moved. exact I3.
    - injection Hx as <-. cbn [fst snd]. eapply moved_trans; [exists D1; eauto|]. intros D3 R3 I3. apply respond_moved. exact I3.
  Qed.

  Lemma core_install_moved now v sn tx D e e' : ei D e -> msg_ok (MSnapshot v sn tx) e ->
    en_install_snapshot now v sn tx e = Ok e' -> moved D e e'.
  Proof using HE.
    intros I (Hc & Hf & Hs & Ht & Hcm) Hu. unfold en_install_snapshot, vh_accept_vote in Hu. rok Hu. rok Hx.
    destruct (update_vote_foreign now v D e x0 I Hf Hx0) as (D1 & (R1 & I1 & L1 & _ & Hco & _) & Hok1).
    destruct x0 as [e1 ok]. cbn [fst snd] in *. destruct ok; injection Hx as <-; cbn [fst snd negb] in Hu.
    2:{ injection Hu as <-. eapply moved_trans; [exists D1; eauto|]. intros D3 R3 I3. apply respond_moved. exact I3. }
    destruct (Hok1 eq_refl) as (V1 & Hge & Hl1 & Hc1). clear Hok1.
    assert (F1 : following D1 e1 v).
    { constructor; auto. rewrite Hco. apply Hcm. exact Hge. }
    assert (Hv : fh_vote e1 = v).
    { unfold fh_vote. rewrite V1. destruct v; cbn in Hc; subst; reflexivity. }
    rewrite Hv in Hu. destruct (install_runs sn D1 e1 v F1 Hs Ht) as (D2 & R2 & F2).
    destruct (fh_install v sn e1) as [e2 cond]. cbn [fst] in *. injection Hu as <-.
    eapply moved_trans with (e1 := e2); [exists D2; split; [eapply runs_trans; eauto|apply F2]|].
    intros D3 R3 I3. apply respond_moved. exact I3.
  Qed.

  Lemma update_matching_calm t x D e e' : ei D e -> pfx H x (dlast D) -> rh_update_matching t x e = Ok e' -> calm D e e'.
  Proof using HE.
    intros I Hx. unfold rh_update_matching. destruct (en_leader e) as [l|] eqn:Hl; [|discriminate].
    destruct (vp_get (ld_progress l) t) as [pe|]; [|discriminate]. intros Hu. rok Hu. injection Hu as <-.
    match goal with |- calm _ _ (rh_try_commit _ (set_leader (Some ?l1) _)) =>
      change (vp_granted _) with (vp_granted (ld_progress l1)); set (l2 := l1) end.
    eapply calm_trans with (e1 := set_leader (Some l2) e).
    - eapply match_calm with (t := t) (x := x); [exact I|exact Hl|reflexivity|reflexivity| |exact Hx].
      destruct (vp_update_vals ologid_leb pe_matching (ld_progress l) t (fun _ => x0)) as [H1 H2].
      assert (Hm : pe_matching x0 = x).
      { unfold pe_update_matching in Hx0. rok Hx0. injection Hx0 as <-. reflexivity. }
      split.
      + intros p Hp. apply H1 in Hp as [Hp|(w & _ & ->)]; [left; exact Hp|]. right. right. rewrite Hm. apply elem_of_list_here.
      + destruct H2 as [H2|(i & H2)]; [left; exact H2|]. right. right. exists i. apply elem_of_app. right. exact H2.
    - intros D1 I1 _. eapply calm_of; [|apply rh_try_commit_prims; reflexivity|exact I1]. reflexivity.
  Qed.
  Lemma progress_calm l l' D e : ei D e -> en_leader e = Some l -> ld_vote l' = ld_vote l -> ld_last l' = ld_last l ->
    ld_noop l' = ld_noop l -> progress_ok [] l l' -> calm D e (set_leader (Some l') e).
  Proof using HE.
    intros I Hl Hv Hla Hno Hp. pose proof I as [I1 I2 I3 I4 I5 I6]. apply calm_quiet; try reflexivity; auto.
    - eapply el_progress; eauto. eapply ec_root; eauto. intros p Hin. apply elem_of_nil in Hin as [].
    - eapply cl_progress; eauto.
    - rewrite Hl. split; intros; eexists; reflexivity.
  Qed.
  Lemma try_purge_calm D e e' : ei D e -> rh_try_purge e = Ok e' -> calm D e e'.
  Proof using HE.
    intros I Hu. eapply calm_of with (ks := [KPurge]); [reflexivity| |exact I]. revert Hu.
    unfold rh_try_purge. destruct (en_leader e) as [l|] eqn:Hl; [|discriminate].
    destruct (ologid_leb _ _); [intros [= <-]; apply prims_refl|].
    destruct (rs_purge_upto (en_state e)) as [u|] eqn:Hu; [|intros [= <-]; apply prims_refl].
    destruct (existsb _ _) eqn:Hex; intros [= <-]; [apply prims_refl|].
    pone pr_purge. intros l0 u0 Hl0 Hu0. rewrite Hl in Hl0. rewrite Hu in Hu0. injection Hl0 as <-. injection Hu0 as <-. exact Hex.
  Qed.
  Lemma set_entry_calm t f D e e' : (forall pe pe1, f pe = Ok pe1 -> pe_matching pe1 = pe_matching pe) ->
    ei D e -> rh_set_entry t f e = Ok e' -> calm D e e'.
  Proof using HE.
    intros Hf I. unfold rh_set_entry. destruct (en_leader e) as [l|] eqn:Hl; [|discriminate].
    destruct (vp_get (ld_progress l) t) as [pe|] eqn:Hg; [|discriminate]. intros Hu. rok Hu. injection Hu as <-.
    eapply progress_calm; [exact I|exact Hl|reflexivity..|]. eapply matched_vp_set; [exact Hg|]. apply Hf. exact Hx.
  Qed.
  Lemma update_progress_calm t r D e e' : ei D e -> (forall m, r = RRMatching m -> pfx H m (dlast D)) ->
    rh_update_progress t r e = Ok e' -> calm D e e'.
  Proof using HE.
    intros I Hr Hu. unfold rh_update_progress in Hu. rok Hu.
    eapply calm_trans with (e1 := x); [|intros D1 I1 _; eapply try_purge_calm; eauto].
    destruct r as [m|c|].
    - eapply update_matching_calm; eauto.
    - eapply set_entry_calm; [|exact I|exact Hx].
      intros pe pe1 H1. unfold pe_update_conflicting in H1. rok H1. injection H1 as <-. reflexivity.
    - eapply set_entry_calm; [|exact I|exact Hx]. intros pe pe1 [= <-]. reflexivity.
  Qed.
  Lemma update_local_calm x D e e' : ei D e -> pfx H x (dlast D) -> rh_update_local x e = Ok e' -> calm D e e'.
  Proof using HE.
    intros I Hx. unfold rh_update_local. destruct x as [u|]; [|intros [= <-]; apply calm_refl; exact I].
    destruct (en_leader e) as [l|] eqn:Hl; [|discriminate].
    destruct (vp_get (ld_progress l) (en_id e)) as [pe|] eqn:Hg; [|intros [= <-]; apply calm_refl; exact I].
    destruct (ologid_leb _ _); [intros [= <-]; apply calm_refl; exact I|]. intros Hu.
    eapply calm_trans; [|intros D1 I1 Hd; eapply update_matching_calm; [exact I1|rewrite Hd; exact Hx|exact Hu]].
    eapply progress_calm; [exact I|exact Hl|reflexivity..|]. eapply matched_vp_set; [exact Hg|reflexivity].
  Qed.
  Lemma update_clock_calm t time D e e' : ei D e -> rh_update_clock t time e = Ok e' -> calm D e e'.
  Proof using HE.
    intros I. unfold rh_update_clock. destruct (en_leader e) as [l|] eqn:Hl; [|discriminate].
    destruct (vp_increase_to _ _ _ _ _ _) as [c ok]. destruct ok; [|discriminate]. intros [= <-].
    eapply progress_calm; [exact I|exact Hl|reflexivity..|]. apply progress_ok_same; reflexivity.
  Qed.

  Lemma finish_moved meta D e e' : ei D e -> pfx H (sm_last meta) (rs_committed (en_state e)) ->
    en_finish_building meta e = Ok e' -> moved D e e'.
  Proof using HE.
    intros I Hm Hu. unfold en_finish_building in Hu. set (e1 := upd _ e) in Hu.
    assert (Hc : calm D e e1).
    { eapply calm_of with (ks := [KBuild]); [reflexivity|pone pr_build_end|exact I]. }
    assert (Hs1 : rs_snap_last (en_state e1) = rs_snap_last (en_state e)) by reflexivity.
    assert (Hc1 : rs_committed (en_state e1) = rs_committed (en_state e)) by reflexivity.
    clearbody e1. eapply moved_trans; [apply calm_moved; exact Hc|]. intros D1 R1 I1.
    unfold sh_update in Hu. destruct (ologid_leb (sm_last meta) (rs_snap_last (en_state e1))) eqn:Hle.
    { injection Hu as <-. apply moved_refl. exact I1. }
    assert (I2 : ei D1 (upd (set_snap meta) e1)).
    { destruct I1 as [[C1 C2 C3 C4 C4' C5 C6 C7 C8 C9 C10] J2 J3 J4 J5 J6]. constructor; auto.
      constructor; auto.
      - change (pfx H (rs_purge_upto (en_state e1)) (sm_last meta)). eapply pfx_trans; [exact C6|].
        rewrite Hc1 in C7. eapply pfx_of_leb; [exact Hok|exact C7|exact Hm|]. destruct (sm_last meta), (rs_snap_last (en_state e1)); ord.
      - change (pfx H (sm_last meta) (rs_committed (en_state e1))). rewrite Hc1. exact Hm. }
    eapply moved_trans with (e1 := upd (set_snap meta) e1).
    { exists D1. split; [apply runs_quiet; reflexivity|exact I2]. }
    intros D2 R2 I2'. apply calm_moved.
    eapply calm_of with (ks := [KPurgePlan; KPurge]); [reflexivity| |exact I2'].
    eapply prims_trans; [|pw en_try_purge_prims; exact Hu].
    unfold logh_schedule. destruct (logh_calc_purge_upto _) eqn:Hp; [|apply prims_refl].
    pone pr_purge_plan_policy. exact Hp.
  Qed.

  Lemma step_down_moved now D e e' : ei D e -> en_step_down now e = Ok e' -> fits (dlast D) e e' -> moved D e e'.
  Proof using HE.
    intros I Hu Hf. unfold en_step_down in Hu. destruct (ologid_leb _ _); [|injection Hu as <-; apply moved_refl; exact I].
    destruct (internal_runs now D e e' I Hu Hf) as (D' & R & I' & _). exists D'. auto.
  Qed.

  Lemma transfer_moved now req D e e' : ei D e -> li_node (v_leader (tq_from req)) <> me ->
    core_transfer now req e = Ok e' -> moved D e e'.
  Proof using HE.
    intros I Hf Hu. unfold core_transfer in Hu. destruct (vote_eqb _ _) eqn:Hv; [|injection Hu as <-; apply moved_refl; exact I].
    apply vote_eqb_true in Hv.
    assert (Hl : en_leader e = None).
    { destruct (en_leader e) as [l|] eqn:Hl; [|reflexivity]. exfalso. destruct I as [_ _ _ I4 _ _].
      destruct (I4 l Hl) as (L1 & _ & L3 & _). congruence. }
    set (e1 := upd _ e) in Hu.
    assert (Hc : calm D e e1) by (eapply calm_of with (ks := [KLease]); [reflexivity|pone pr_lease|exact I]).
    eapply moved_trans; [apply calm_moved; exact Hc|]. intros D1 R1 I1.
    destruct (en_id e =? _); [|injection Hu as <-; apply moved_refl; exact I1].
    destruct I1 as [J1 J2 J3 J4 J5 J6].
    destruct (elect_runs now D1 e1 e' J1 J3 Hl J6 Hu) as (D2 & R2 & I2 & _). exists D2. auto.
  Qed.

  Lemma tick_runs now hb ee eh D e e' : ei D e -> handle_tick now hb ee eh e = Ok e' -> fits (dlast D) e e' -> moved D e e'.
  Proof using HE.
    intros I Hu Hf. unfold handle_tick in Hu. rok Hu.
    assert (H1 : exists D1, runs D e D1 x /\ ei D1 x /\ dlast D1 = dlast D).
    { unfold tick_election in Hx.
      assert (Hsame : exists D1, runs D e D1 e /\ ei D1 e /\ dlast D1 = dlast D) by (exists D; auto using runs_refl).
      destruct (bool_decide (rs_server (en_state e) = SLeader)) eqn:Hb; [injection Hx as <-; exact Hsame|].
      destruct (negb _); [injection Hx as <-; exact Hsame|]. destruct (negb _); [injection Hx as <-; exact Hsame|].
      destruct (_ || _); [|injection Hx as <-; exact Hsame].
      assert (Hl : en_leader e = None).
      { destruct (en_leader e) as [l|] eqn:Hl; [|reflexivity]. exfalso. destruct I as [_ _ _ I4 _ _].
        destruct (I4 l Hl) as (_ & _ & _ & _ & _ & _ & L7). apply bool_decide_eq_false in Hb. congruence. }
      destruct I as [J1 J2 J3 J4 J5 J6].
      destruct (elect_runs now D (set_greater false e) x J1 J3 Hl J6 Hx) as (D2 & R2 & I2 & Hlog).
      exists D2. split; [|split; [exact I2|rewrite Hlog; reflexivity]]. eapply runs_trans; [|exact R2]. apply runs_quiet; reflexivity. }
    destruct H1 as (D1 & R1 & I1 & Hd1).
    set (e2 := match en_leader x with Some _ => _ | None => _ end) in Hu.
    assert (Hc : calm D1 x e2).
    { subst e2. destruct (en_leader x) as [l|] eqn:Hl; [|apply calm_refl; exact I1].
      destruct (ld_next_heartbeat l <=? now); [|apply calm_refl; exact I1].
      assert (Hhb : calm D1 x (if eh then core_heartbeat x else x)).
      { destruct eh; [|apply calm_refl; exact I1]. eapply calm_of; [|apply core_heartbeat_prims|exact I1]. reflexivity. }
      eapply calm_trans; [exact Hhb|]. intros D2 I2 _.
      apply (progress_calm l); [exact I2| |reflexivity..|apply progress_ok_same; reflexivity].
      destruct eh; [rewrite core_heartbeat_leader|]; exact Hl. }
    clearbody e2. destruct Hc as (D2 & R2 & I2 & Hd2 & _ & _).
    assert (R12 : runs D e D2 e2) by (eapply runs_trans; eauto).
    eapply moved_trans; [exists D2; eauto|]. intros D3 R3 I3.
    assert (Hd3 : dlast D3 = dlast D).
    { rewrite <- (ec_last _ _ (ei_ec _ _ I3)), (ec_last _ _ (ei_ec _ _ I2)). congruence. }
    destruct (ologid_leb _ _).
    - eapply step_down_moved; [exact I3|exact Hu|]. rewrite Hd3. eapply fits_runs; eauto.
    - injection Hu as <-. apply moved_refl. exact I3.
  Qed.

  Lemma write_moved p tx n x D : ei D (nd_eng n) -> core_write p tx n = Ok x -> fits (dlast D) (nd_eng n) (nd_eng x.1) ->
    moved D (nd_eng n) (nd_eng x.1).
  Proof using HE.
    intros I Hu Hf. unfold core_write in Hu. destruct (en_leader (nd_eng n)) as [l|] eqn:Hl.
    2:{ injection Hu as <-. apply moved_refl. exact I. }
    destruct (ld_transfer l); [injection Hu as <-; apply moved_refl; exact I|].
    rok Hu. destruct (rs_last (en_state x0)); [|discriminate]. injection Hu as <-. cbn [fst nd_set_clients nd_set_eng nd_eng] in *.
    destruct (lead_append [p] D _ l x0 I Hl Hx Hf) as (D' & R & I' & _). exists D'. auto.
  Qed.

  Lemma msg_moved now m n x D : ei D (nd_eng n) -> msg_ok m (nd_eng n) -> handle_msg now m n = Ok x ->
    fits (dlast D) (nd_eng n) (nd_eng x.1) -> moved D (nd_eng n) (nd_eng x.1).
  Proof using HE.
    intros I Hm Hu Hf. destruct m; cbn [handle_msg] in Hu; unfold lift in Hu.
    - rok Hu. injection Hu as <-. eapply core_append_moved; eauto.
    - rok Hu. injection Hu as <-. cbn [fst nd_set_eng nd_eng] in *. unfold core_vote in Hx. rok Hx. injection Hx as <-.
      eapply moved_trans with (e1 := x.1).
      + apply grown_moved. eapply vote_req_runs; [exact I|apply foreign_or_old_or; exact Hm|exact Hx0|].
        intros cs v es Ho Hin. apply (Hf (cs ++ [Respond (Some (IOFlushed (io_new (rs_v (en_state x.1))))) (RVote x.2) tx])).
        * unpush. rewrite Ho, <- app_assoc. reflexivity.
        * apply elem_of_app. left. exact Hin.
      + intros D1 R1 I1. apply respond_moved. exact I1.
    - rok Hu. injection Hu as <-. eapply core_install_moved; eauto.
    - rok Hu. injection Hu as <-. eapply transfer_moved; eauto.
    - rok Hu. injection Hu as <-. cbn [fst nd_set_eng nd_eng] in *. unfold core_initialize in Hx. rok Hx. injection Hx as <-.
      eapply moved_trans with (e1 := x.1).
      + apply grown_moved. eapply initialize_runs; [exact I|exact Hx0|exact Hm].
      + intros D1 R1 I1. apply respond_moved. exact I1.
    - eapply write_moved; eauto.
    - unfold core_change in Hu. destruct (ms_change _ _ _); [eapply write_moved; eauto|]. injection Hu as <-. apply moved_refl. exact I.
    - unfold core_read in Hu. destruct (en_leader (nd_eng n)) as [l|].
      + destruct (joint_is_quorum _ _).
        * injection Hu as <-. apply moved_refl. exact I.
        * destruct (forallb _ _); [|discriminate]. injection Hu as <-. apply moved_refl. exact I.
      + injection Hu as <-. apply moved_refl. exact I.
    - rok Hu. injection Hu as <-. cbn [fst nd_set_eng nd_eng] in *. destruct (rs_is_voter _ _).
      + destruct I as [J1 J2 J3 J4 J5 J6]. destruct (elect_runs now D _ x0 J1 J3 Hm J6 Hx) as (D2 & R2 & I2 & _). exists D2. auto.
      + injection Hx as <-. apply moved_refl. exact I.
    - cbn in Hu. injection Hu as <-. apply calm_moved. eapply calm_of; [|apply core_heartbeat_prims|exact I]. reflexivity.
    - cbn in Hu. injection Hu as <-. apply calm_moved. eapply calm_of with (ks := [KBuild]); [reflexivity|apply sh_trigger_prims; reflexivity|exact I].
    - rok Hu. injection Hu as <-. apply calm_moved. eapply calm_of; [|eapply en_trigger_purge_prims; exact Hx|exact I]. reflexivity.
    - cbn in Hu. injection Hu as <-. apply calm_moved. eapply calm_of; [|apply en_trigger_transfer_prims|exact I]. reflexivity.
  Qed.

  Lemma cursor_moved f n D : (forall s, io_accepted (f s) = io_accepted s) -> ei D (nd_eng n) -> moved D (nd_eng n) (nd_eng (nd_upd_io f n)).
  Proof using HE.
    intros Hf [I1 I2 I3 I4 I5 I6]. exists D. split; [apply runs_quiet; reflexivity|].
    constructor; auto.
    - destruct I1. constructor; auto.
    - unfold acc_ok in *. cbn. rewrite Hf. exact I3.
  Qed.
  Lemma matches_leader v e l : vote_matches v e = true -> v_committed v = true -> en_leader e = Some l -> v = ld_vote l.
  Proof. unfold vote_matches. intros Hm Hc Hl. rewrite Hc, Hl in Hm. apply vote_eqb_true in Hm. exact Hm. Qed.

  Lemma note_moved now x n y D : ei D (nd_eng n) -> note_ok D x (nd_eng n) -> handle_note now x n = Ok y ->
    fits (dlast D) (nd_eng n) (nd_eng y.1) -> moved D (nd_eng n) (nd_eng y.1).
  Proof using HE.
    intros I Hn Hu Hf. destruct x as [t resp sv|v sv|io|ss t r|ss t time|r]; cbn [handle_note] in Hu; unfold lift in Hu.
    - destruct (en_cand (nd_eng n)) as [c|] eqn:Hc; [|injection Hu as <-; apply moved_refl; exact I].
      destruct (vote_matches _ _); [|injection Hu as <-; apply moved_refl; exact I].
      rok Hu. injection Hu as <-. apply grown_moved. eapply vote_resp_runs; [exact I|apply foreign_or_old_or; exact Hn|exact Hx|exact Hf].
    - destruct (vote_matches _ _); [|injection Hu as <-; apply moved_refl; exact I].
      rok Hu. injection Hu as <-. rok Hx. injection Hx as <-. apply grown_moved.
      eapply update_vote_grown; [exact I|apply foreign_or_old_or; exact Hn|exact Hx0|exact Hf].
    - assert (Hcur : moved D (nd_eng n) (nd_eng (nd_upd_io (io_set_flushed io) n))) by (apply cursor_moved; [intros []; reflexivity|exact I]).
      destruct io as [v|v lid]; [injection Hu as <-; exact Hcur|].
      destruct (en_leader (nd_eng (nd_upd_io (io_set_flushed (IOLog v lid)) n))) as [l|] eqn:Hl; [|injection Hu as <-; exact Hcur].
      destruct (vote_matches _ _) eqn:Hvm; [|injection Hu as <-; exact Hcur].
      rok Hu. injection Hu as <-. eapply moved_trans; [exact Hcur|]. intros D1 R1 I1. apply calm_moved.
      eapply update_local_calm; [exact I1| |exact Hx].
      assert (dlast D1 = dlast D) as ->.
      { rewrite <- (ec_last _ _ (ei_ec _ _ I1)), <- (ec_last _ _ (ei_ec _ _ I)). reflexivity. }
      destruct Hn as [Hle Hn]. change (en_leader (nd_eng n) = Some l) in Hl. destruct I as [_ _ _ I4 I5 _]. destruct (I4 l Hl) as (L1 & L2 & L3 & _).
      assert (Hvl : v_leader v = v_leader (ld_vote l)).
      { unfold vote_matches in Hvm. change (en_leader (nd_eng (nd_upd_io (io_set_flushed (IOLog v lid)) n))) with (en_leader (nd_eng n)) in Hvm.
        change (en_cand (nd_eng (nd_upd_io (io_set_flushed (IOLog v lid)) n))) with (en_cand (nd_eng n)) in Hvm.
        rewrite Hl in Hvm. destruct (v_committed v).
        - apply vote_eqb_true in Hvm. congruence.
        - destruct (en_cand (nd_eng n)) as [c|] eqn:Hc; [|discriminate]. destruct (I5 c Hc) as (_ & _ & _ & _ & Hno). congruence. }
      apply Hn; congruence.
    - destruct (session_matches _ _) eqn:Hs; [|injection Hu as <-; apply moved_refl; exact I].
      rok Hu. injection Hu as <-. apply calm_moved. eapply update_progress_calm; [exact I| |exact Hx].
      intros m ->. destruct Hn as [Hle Hn]. unfold session_matches in Hs. apply andb_true_iff in Hs as [Hvm _].
      destruct I as [_ _ _ I4 I5 I6]. unfold vote_matches in Hvm. destruct (v_committed (ss_vote ss)).
      + destruct (en_leader (nd_eng n)) as [l|] eqn:Hl; [|discriminate]. apply vote_eqb_true in Hvm.
        destruct (I4 l Hl) as (L1 & L2 & L3 & _). apply Hn; congruence.
      + destruct (en_cand (nd_eng n)) as [c|] eqn:Hc; [|discriminate]. apply vote_eqb_true in Hvm.
        destruct (I5 c Hc) as (L1 & L2 & L3 & _). apply Hn; congruence.
    - destruct (session_matches _ _) eqn:Hs; [|injection Hu as <-; apply moved_refl; exact I].
      rok Hu. injection Hu as <-. apply calm_moved. eapply update_clock_calm; eauto.
    - destruct r as [meta|io meta|since es la].
      + rok Hu. injection Hu as <-. cbn [fst].
        eapply moved_trans with (e1 := nd_eng (nd_set_eng x n)).
        * eapply finish_moved; [exact I|exact Hn|exact Hx].
        * intros D1 R1 I1. apply cursor_moved; [intros []; reflexivity|exact I1].
      + injection Hu as <-. apply cursor_moved; [intros []; reflexivity|exact I].
      + destruct (apply_results _ _) as [c outs]. injection Hu as <-.
        apply (cursor_moved (io_set_applied (Some la)) n); [intros []; reflexivity|exact I].
  Qed.

  Lemma idle_moved D e e' : ei D e -> rh_initiate e = Ok e' -> moved D e e'.
  Proof using HE.
    intros I Hu. apply calm_moved. eapply calm_of; [|eapply rh_initiate_prims; exact Hu|exact I]. reflexivity.
  Qed.
End eng.
