(** Votes of a node over its whole life: proofs for C02, C03. *)
From Coq Require Import Bool Lia ZifyBool ZifyNat.
From stdpp Require Import base numbers option gmap relations sorting list.
From Verif Require Import Types TypesProofs LogIdList Quorum Membership Progress RaftState ProgressEntry
  Engine EnginePrims Store StoreProofs RaftCore NodeSpec NodePrims.

(** ** The queue of commands determines the vote at each position *)

Definition vote_after (v : Vote) (c : Command) : Vote :=
  match c with SaveVote v' => v' | _ => v end.
Definition vote_cmd_ok (v : Vote) (c : Command) : Prop :=
  match c with
  | SaveVote v' => vote_lt v v'
  | Respond w (RVote x) _ => vr_vote x = v /\ w = Some (IOFlushed (io_new v))
  | Respond _ (RAppend (AHigherVote hv)) _ => hv = v
  | Respond _ (RSnapshot hv) _ => hv = v
  | SendVote req => vq_vote req = v
  | _ => True
  end.
Fixpoint vchain (v : Vote) (cs : list Command) (w : Vote) : Prop :=
  match cs with
  | [] => v = w
  | c :: r => vote_cmd_ok v c /\ vchain (vote_after v c) r w
  end.

Lemma vchain_app v cs w cs' z : vchain v cs w -> vchain w cs' z -> vchain v (cs ++ cs') z.
Proof.
  revert v. induction cs as [|c r IH]; intros v; cbn [vchain app].
  - intros ->. auto.
  - intros [H1 H2] H3. split; [exact H1|]. apply IH; assumption.
Qed.

(** the engine's vote and queue *)
Definition vrel (e e' : Engine) : Prop :=
  exists cs, en_out e' = en_out e ++ cs /\ vchain (rs_v (en_state e)) cs (rs_v (en_state e')).

Lemma vrel_refl e : vrel e e.
Proof. exists []. rewrite app_nil_r. split; reflexivity. Qed.
Lemma vrel_trans a b c : vrel a b -> vrel b c -> vrel a c.
Proof.
  intros (cs1 & Ho1 & Hc1) (cs2 & Ho2 & Hc2). exists (cs1 ++ cs2).
  rewrite Ho2, Ho1, app_assoc. split; [reflexivity|]. eapply vchain_app; eassumption.
Qed.

(** commands that say nothing about votes *)
Definition vneutral (c : Command) : Prop :=
  match c with SaveVote _ => False | Respond _ _ _ => False | SendVote _ => False | _ => True end.
Lemma vchain_neutral v cs : Forall vneutral cs -> vchain v cs v.
Proof.
  induction 1 as [|c r Hc Hr IH]; [reflexivity|]. cbn [vchain].
  destruct c; cbn in Hc; try contradiction; cbn; auto.
Qed.
Lemma vrel_neutral e e' cs :
  en_out e' = en_out e ++ cs -> rs_v (en_state e') = rs_v (en_state e) -> Forall vneutral cs -> vrel e e'.
Proof. intros Ho Hv Hn. exists cs. split; [exact Ho|]. rewrite Hv. apply vchain_neutral. exact Hn. Qed.

Lemma rs_accept_io_v x s : rs_v (rs_accept_io x s) = rs_v s.
Proof. unfold rs_accept_io. repeat match goal with |- context [if ?b then _ else _] => destruct b end; reflexivity. Qed.

Ltac vn cs := apply (vrel_neutral _ _ cs);
  [cbn; rewrite ?app_nil_r; reflexivity | | repeat constructor].

Lemma fh_truncate_neutral since e : exists cs,
  en_out (fh_truncate since e) = en_out e ++ cs /\ rs_v (en_state (fh_truncate since e)) = rs_v (en_state e) /\
  Forall vneutral cs.
Proof.
  rewrite fh_truncate_eq. destruct (rs_get_log_id _ _) as [lid|].
  - exists [TruncateLog lid]. repeat split; [|repeat constructor]. cbn [push upd en_state].
    cbv zeta. destruct (onat_leb _ _); reflexivity.
  - exists []. rewrite app_nil_r. repeat split. constructor.
Qed.
Lemma logh_purge_neutral e : exists cs,
  en_out (logh_purge e) = en_out e ++ cs /\ rs_v (en_state (logh_purge e)) = rs_v (en_state e) /\
  Forall vneutral cs.
Proof.
  rewrite logh_purge_eq. destruct (rs_purge_upto _) as [u|]; [destruct (ologid_leb _ _)|].
  1,3: exists []; rewrite app_nil_r; repeat split; constructor.
  exists [PurgeLog u]. repeat split. repeat constructor.
Qed.
Lemma fh_do_append_neutral lv es e :
  en_out (fh_do_append lv es e) = en_out e ++ [AppendInputEntries lv es] /\
  rs_v (en_state (fh_do_append lv es e)) = rs_v (en_state e).
Proof.
  rewrite fh_do_append_eq. split; [reflexivity|]. cbn [push upd en_state]. cbv zeta.
  destruct (last_two_memberships es); reflexivity.
Qed.

Lemma prim_vrel k e e' : prim k e e' -> k <> KInitVote -> k <> KPop -> vrel e e'.
Proof.
  intros H Hi Hp. destruct H; try congruence; try (vn ([] : list Command); fail).
  - exists [SaveVote v]. split; [reflexivity|]. cbn [vchain vote_cmd_ok vote_after push upd en_state].
    split; [exact H|]. rewrite rs_accept_io_v. reflexivity.
  - vn ([] : list Command). reflexivity.
  - vn ([] : list Command). reflexivity.
  - vn ([] : list Command). reflexivity.
  - vn ([] : list Command). reflexivity.
  - vn ([] : list Command). reflexivity.
  - vn ([] : list Command). reflexivity.
  - vn ([] : list Command). reflexivity.
  - vn ([] : list Command). reflexivity.
  - vn ([] : list Command). reflexivity.
  - vn ([] : list Command). reflexivity.
  - vn ([] : list Command). reflexivity.
  - vn ([] : list Command). reflexivity.
  - vn ([] : list Command). reflexivity.
  - vn ([] : list Command). reflexivity.
  - vn ([] : list Command). cbn. apply rs_accept_io_v.
  - vn ([] : list Command). cbn. apply rs_accept_io_v.
  - vn [UpdateIOProgress w io]. reflexivity.
  - apply (vrel_neutral _ _ cs); [reflexivity..|]. apply Forall_forall. intros c Hc.
    rewrite forallb_forall in H. apply elem_of_list_In in Hc. apply H in Hc. destruct c; cbn in *; congruence || exact I.
  - exists [SendVote req]. split; [reflexivity|]. cbn [vchain vote_cmd_ok vote_after push upd en_state]. split; [exact H|reflexivity].
  - exists [Respond w r tx]. split; [reflexivity|]. cbn [vchain vote_after push upd en_state]. split; [|reflexivity].
    destruct r as [x|[]| |]; cbn in *; tauto.
  - rewrite leader_appended_eq. cbv zeta.
    eapply vrel_neutral; [reflexivity| |repeat constructor].
    cbn [push set_leader upd en_state]. destruct (last_membership _ None) as [[? ?]|]; rewrite rs_accept_io_eq; reflexivity.
  - pose proof (fh_do_append_neutral lv entries e) as (Ho & Hv). eapply vrel_neutral; [exact Ho|exact Hv|repeat constructor].
  - destruct (fh_truncate_neutral since e) as (cs & Ho & Hv & Hn). eapply vrel_neutral; eassumption.
  - vn [ReplicateCommitted (Some c); SaveCommitted c; CmdApply (rs_committed (en_state e)) c]. reflexivity.
  - vn [SaveCommitted c; CmdApply (rs_committed (en_state e)) c]. reflexivity.
  - rewrite sh_trigger_eq by assumption. vn [BuildSnapshot]. reflexivity.
  - vn ([] : list Command). reflexivity.
  - vn ([] : list Command). reflexivity.
  - vn ([] : list Command). reflexivity.
  - vn ([] : list Command). reflexivity.
  - destruct (logh_purge_neutral e) as (cs & Ho & Hv & Hn). eapply vrel_neutral; eassumption.
  - rewrite fh_install_eq. destruct (sm_last (sn_meta sn)) as [sl|]; [|apply vrel_refl].
    destruct (ologid_leb _ _); [apply vrel_refl|]. destruct (ologid_leb _ _); [apply vrel_refl|].
    cbv zeta. set (e1 := upd (set_snap (sn_meta sn)) e).
    assert (H1 : vrel e e1) by (vn ([] : list Command); reflexivity).
    assert (H2 : vrel e1 (install_cut sl e1)).
    { unfold install_cut. destruct (rs_get_log_id _ _); [|apply vrel_refl]. destruct (logid_eqb _ _); [apply vrel_refl|].
      destruct (fh_truncate_neutral (next_index (rs_committed (en_state e1))) e1) as (cs & Ho & Hv & Hn).
      eapply vrel_neutral; eassumption. }
    eapply vrel_trans; [exact H1|]. eapply vrel_trans; [exact H2|].
    set (e2 := install_cut sl e1). clearbody e2.
    match goal with |- vrel _ (logh_purge ?x) => set (e3 := x) end.
    eapply vrel_trans with (b := e3).
    + subst e3. vn [InstallSnapshot sn (IOLog lv (Some sl))]. cbn. apply (rs_accept_io_v (IOLog lv (Some sl)) (en_state e2)).
    + destruct (logh_purge_neutral e3) as (cs & Ho & Hv & Hn). eapply vrel_neutral; eassumption.
  - vn ([] : list Command). reflexivity.
Qed.

Lemma prims_vrel ks e e' :
  forallb (fun k => negb (bool_decide (k = KInitVote)) && negb (bool_decide (k = KPop))) ks = true ->
  prims ks e e' -> vrel e e'.
Proof.
  intros Hks. apply prims_ind_rel; [exact vrel_refl|exact vrel_trans|].
  intros k a b Hk Hp. rewrite forallb_forall in Hks. specialize (Hks k). rewrite <- elem_of_list_In in Hks.
  apply Hks in Hk. apply andb_true_iff in Hk as [H1 H2].
  eapply prim_vrel; [exact Hp| |]; intros ->; discriminate.
Qed.

Lemma uninit_vote s : rs_is_initialized s = false -> rs_v s = vote_default.
Proof.
  unfold rs_is_initialized. destruct (rs_last s); [discriminate|]. intros H.
  apply vote_eqb_true. destruct (vote_eqb _ _); [reflexivity|discriminate].
Qed.

Lemma handled_vrel e e' : handled e e' -> vrel e e'.
Proof.
  intros [H|(now & m & Hi & _ & H)]; [eapply prims_vrel; [|exact H]; reflexivity|].
  eapply vrel_trans; [|eapply prims_vrel; [|exact H]; reflexivity].
  exists [AppendInputEntries (into_committed vote_default) [init_entry m]; SaveVote (vote_new 1 (en_id e))].
  split.
  - cbn [vote_stored push en_out upd en_new_candidate set_cand]. unfold initialized.
    match goal with |- context [en_out (fh_do_append ?lv ?es ?x)] =>
      rewrite (proj1 (fh_do_append_neutral lv es x)) end. cbn [upd en_out]. rewrite <- app_assoc. reflexivity.
  - rewrite (uninit_vote _ Hi). cbn. split; [exact I|]. split; [reflexivity|].
    rewrite rs_accept_io_v. reflexivity.
Qed.

(** ** Storage *)

Definition no_wvote (s : Store) : Prop :=
  Forall (fun x => match x.1 with WVote _ => False | _ => True end) (so_pending s).

Lemma foldl_no_wvote ops d :
  Forall (fun op => match op with WVote _ => False | _ => True end) ops ->
  dk_vote (foldl wop_apply d ops) = dk_vote d.
Proof.
  intros H. revert d. induction H as [|op r Ho Hr IH]; intros d; [reflexivity|].
  cbn [foldl]. rewrite IH. destruct op; cbn in *; reflexivity || contradiction.
Qed.
Lemma no_wvote_take k s : no_wvote s ->
  Forall (fun op => match op with WVote _ => False | _ => True end) (map fst (take k (so_pending s))).
Proof. intros H. apply Forall_map. apply Forall_take. exact H. Qed.
Lemma no_wvote_submit op io s :
  no_wvote s -> match op with WVote _ => False | _ => True end -> no_wvote (so_submit op io s).
Proof. intros H Ho. apply Forall_app. split; [exact H|]. constructor; [exact Ho|constructor]. Qed.
Lemma so_flush_vote k s : no_wvote s -> dk_vote (so_disk (so_flush k s)) = dk_vote (so_disk s).
Proof. intros H. cbn [so_flush so_disk]. apply foldl_no_wvote, no_wvote_take. exact H. Qed.
Lemma so_flush_no_wvote k s : no_wvote s -> no_wvote (so_flush k s).
Proof. intros H. apply Forall_drop. exact H. Qed.
Lemma so_save_vote_vote v s : dk_vote (so_disk (so_save_vote v s)) = Some v.
Proof.
  unfold so_save_vote. cbn [so_flush so_submit so_disk so_pending].
  rewrite take_ge by lia. rewrite map_app, foldl_app. reflexivity.
Qed.
Lemma so_save_vote_pending v s : so_pending (so_save_vote v s) = [].
Proof. unfold so_save_vote. cbn [so_flush so_submit so_pending]. apply drop_ge. lia. Qed.
Lemma crash_disk_vote k j s : no_wvote s -> dk_vote (crash_disk k j s) = dk_vote (so_disk s).
Proof.
  intros H. unfold crash_disk.
  assert (Hd : dk_vote (foldl wop_apply (so_disk s) (map fst (take k (so_pending s)))) = dk_vote (so_disk s))
    by (apply foldl_no_wvote, no_wvote_take; exact H).
  destruct (map fst (so_pending s) !! k) as [[]|]; exact Hd.
Qed.

(** ** The node *)

Definition vinv (n : Node) : Prop :=
  no_wvote (nd_store n) /\ vchain (stored_vote n) (en_out (nd_eng n)) (rs_v (nd_state n)).

Lemma replied_map {A} (f : A -> Out) l :
  (forall x, match f x with OReply _ _ => False | _ => True end) -> replied_votes (map f l) = [].
Proof.
  intros H. induction l as [|a l IH]; [reflexivity|]. unfold replied_votes in *. cbn.
  specialize (H a). destruct (f a); [exact IH|contradiction|exact IH].
Qed.

(** what run_cmd does to vote, queue and store *)
Lemma run_cmd_vinv now c r n n' outs :
  vote_cmd_ok (stored_vote n) c -> no_wvote (nd_store n) ->
  vchain (vote_after (stored_vote n) c) r (rs_v (nd_state n)) -> en_out (nd_eng n) = r ->
  run_cmd now c n = Ok (n', outs) ->
  vinv n' /\ stored_vote n' = vote_after (stored_vote n) c /\
  Forall (fun v => v = stored_vote n) (replied_votes outs) /\
  rs_v (nd_state n') = rs_v (nd_state n).
Proof.
  intros Hok Hnw Hch Ho H. unfold vinv, stored_vote, nd_state in *.
  destruct c; cbn [run_cmd vote_after] in *;
    repeat match type of H with
    | context [match ?t with _ => _ end] => destruct t eqn:?; try discriminate H
    end;
    injection H as <- <-; cbn;
    try (split; [split; [exact Hnw|rewrite Ho; exact Hch]|repeat split; constructor]; fail).
  - split; [split; [apply no_wvote_submit; [exact Hnw|exact I]|rewrite Ho; exact Hch]|repeat split; constructor].
  - split; [split; [apply no_wvote_submit; [exact Hnw|exact I]|rewrite Ho; exact Hch]|repeat split; constructor].
  - split; [split; [exact Hnw|rewrite Ho; exact Hch]|]. repeat split.
    rewrite replied_map by (intros; exact I). constructor.
  - assert (Hd : dk_vote (foldl wop_apply (so_disk (nd_store n)) (map fst (take (length (so_pending (nd_store n) ++ [(WVote v, None)])) (so_pending (nd_store n) ++ [(WVote v, None)])))) = Some v).
    { rewrite take_ge by lia. rewrite map_app, foldl_app. reflexivity. }
    rewrite Hd. cbn. repeat split; [|rewrite Ho; exact Hch|constructor].
    unfold no_wvote. cbn. rewrite drop_ge by lia. constructor.
  - split; [split; [exact Hnw|rewrite Ho; exact Hch]|]. repeat split.
    rewrite replied_map by (intros; exact I). constructor.
  - split; [split; [apply no_wvote_submit; [exact Hnw|exact I]|rewrite Ho; exact Hch]|repeat split; constructor].
  - split; [split; [apply no_wvote_submit; [exact Hnw|exact I]|rewrite Ho; exact Hch]|repeat split].
    rewrite replied_map by (intros; exact I). constructor.
  - split; [split; [exact Hnw|rewrite Ho; exact Hch]|]. repeat split.
    destruct resp; cbn in *; constructor; [|constructor]. apply Hok.
Qed.

Lemma vchain_le v cs w : vchain v cs w -> vote_le v w.
Proof.
  revert v. induction cs as [|c r IH]; intros v; cbn [vchain].
  - intros ->. apply vote_geb_refl.
  - intros [Hok H]. apply IH in H. unfold vote_le in *. eapply vote_geb_trans; [exact H|].
    destruct c; try apply vote_geb_refl. cbn in *. apply vote_gtb_geb. exact Hok.
Qed.

Lemma no_reply_votes outs : no_reply outs -> replied_votes outs = [].
Proof.
  induction 1 as [|o r Ho Hr IH]; [reflexivity|]. unfold replied_votes in *. cbn.
  destruct o; [exact IH|contradiction|exact IH].
Qed.

Lemma node_step_vinv now ev n n' outs :
  vinv n -> node_step now ev n = Ok (n', outs) ->
  vinv n' /\ vote_le (stored_vote n) (stored_vote n') /\
  Forall (fun v => v = stored_vote n) (replied_votes outs).
Proof.
  intros [Hnw Hch] H. apply node_step_cases in H as [-> ->|c r -> Ho _ H|_ _ H (Hs & _) _ Hr|t c x r -> _ _ (? & ? & _ & Hc & _) H Hn' ->|He Hs Hr].
  - repeat split; auto; [apply vote_geb_refl|constructor].
  - rewrite Ho in Hch. destruct Hch as [Hok Hch].
    assert (Hle : vote_le (stored_vote n) (vote_after (stored_vote n) c)).
    { unfold vote_le. destruct c; try apply vote_geb_refl. apply vote_gtb_geb. exact Hok. }
    eapply run_cmd_vinv in H; [|exact Hok|exact Hnw|exact Hch|reflexivity].
    destruct H as (Hi & Hsv & Hrep & _). rewrite Hsv. auto.
  - apply handled_vrel in H as (cs & Ho & Hc). unfold vinv, stored_vote, nd_state in *.
    rewrite Hs, Ho, (no_reply_votes _ Hr). repeat split; auto; [|apply vote_geb_refl].
    eapply vchain_app; eassumption.
  - pose proof (grant_counted_prims _ _ _ _ _ Hc H) as Hp. apply prims_vrel in Hp as (cs & Ho & Hcs); [|reflexivity].
    assert (Hs : nd_store n' = nd_store n) by (rewrite Hn'; reflexivity).
    unfold vinv, stored_vote, nd_state in *. rewrite Hs, Ho. repeat split; auto; [|apply vote_geb_refl|constructor].
    eapply vchain_app; eassumption.
  - rewrite (no_reply_votes _ Hr).
    assert (Hd : no_wvote (nd_store n') /\ dk_vote (so_disk (nd_store n')) = dk_vote (so_disk (nd_store n))).
    { destruct Hs as [->|[(k & _ & ->)|(i & io & _ & _ & ->)]].
      - auto.
      - split; [apply so_flush_no_wvote; exact Hnw|apply so_flush_vote; exact Hnw].
      - split; [exact Hnw|reflexivity]. }
    destruct Hd as [Hn1 Hd]. unfold vinv, stored_vote, nd_state in *. rewrite Hd, He.
    repeat split; auto. apply vote_geb_refl.
Qed.

Lemma node_start_vinv now cfg d sm n :
  node_start now cfg d sm = Ok n -> vinv n /\ stored_vote n = default vote_default (dk_vote d) /\
  rs_v (nd_state n) = default vote_default (dk_vote d).
Proof.
  unfold node_start. intros H. rok H. destruct x as [[s d1] sm1]. rok H. injection H as <-.
  apply helper_initial_inv in Hx as (sm0 & ll & lp & ids & Hx). cbv zeta in Hx.
  destruct Hx as (_ & Hd & _ & _ & Hs).
  assert (Hdv : dk_vote d1 = dk_vote d).
  { destruct Hd as [(_ & Hd & _)|(_ & -> & _)]; [rewrite Hd|]; reflexivity. }
  assert (Hv : rs_v s = default vote_default (dk_vote d)) by (rewrite Hs; reflexivity).
  apply en_startup_prims in Hx0.
  assert (Hsame : rs_v (en_state x) = rs_v s).
  { change (rs_v s) with (rs_v (en_state (engine_new s cfg))). symmetry. revert Hx0.
    apply (prims_ind_rel ks_startup (fun a b => rs_v (en_state a) = rs_v (en_state b))); [reflexivity|congruence|].
    intros k a b Hk Hp. destruct Hp; try (exfalso; revert Hk; rewrite elem_of_list_In; cbn; intuition discriminate);
      try reflexivity.
    - cbn. rewrite rs_accept_io_v. reflexivity.
    - rewrite leader_appended_eq. cbn [push set_leader upd en_state]. cbv zeta.
      destruct (last_membership _ None) as [[? ?]|]; rewrite rs_accept_io_eq; reflexivity. }
  apply prims_vrel in Hx0 as (cs & Ho & Hc); [|reflexivity]. cbn [engine_new en_out en_state app] in Ho, Hc.
  unfold vinv, stored_vote, nd_state. cbn. rewrite Hdv, Ho, Hsame, Hv. repeat split; [constructor|].
  rewrite Hsame, Hv in Hc. exact Hc.
Qed.

Lemma node_act_vinv a n n' outs :
  vinv n -> node_act a n = Ok (n', outs) ->
  vinv n' /\ vote_le (stored_vote n) (stored_vote n') /\
  Forall (fun v => v = stored_vote n) (replied_votes outs).
Proof.
  destruct a as [now ev|now k j keep]; cbn [node_act]; [apply node_step_vinv|].
  intros [Hnw Hch] H. rok H. injection H as <- <-. unfold node_restart in Hx.
  apply node_start_vinv in Hx as (Hi & Hs & _). split; [exact Hi|]. split; [|constructor].
  rewrite Hs, crash_disk_vote by exact Hnw. apply vote_geb_refl.
Qed.

Lemma replied_app a b : replied_votes (a ++ b) = replied_votes a ++ replied_votes b.
Proof. apply omap_app. Qed.

Lemma node_run_vinv acts n n' outs :
  vinv n -> node_run acts n = Ok (n', outs) ->
  vinv n' /\ vote_le (stored_vote n) (stored_vote n') /\
  StronglySorted vote_le (replied_votes outs) /\
  Forall (vote_le (stored_vote n)) (replied_votes outs) /\
  Forall (fun v => vote_le v (stored_vote n')) (replied_votes outs).
Proof.
  revert n outs. induction acts as [|a r IH]; intros n outs Hi H; cbn [node_run] in H.
  - injection H as <- <-. repeat split; try apply Hi; try constructor. apply vote_geb_refl.
  - rok H. rok H. injection H as <- <-. destruct x as [n1 o1]. destruct x0 as [n2 o2]. cbn [fst snd] in *.
    apply node_act_vinv in Hx as (Hi1 & Hle1 & Ho1); [|exact Hi].
    apply IH in Hx0 as (Hi2 & Hle2 & Hs2 & Hlo2 & Hhi2); [|exact Hi1].
    assert (Htrans : forall a b c, vote_le a b -> vote_le b c -> vote_le a c).
    { intros x y z Hxy Hyz. eapply vote_geb_trans; eassumption. }
    split; [exact Hi2|]. split; [eapply Htrans; eassumption|]. rewrite replied_app.
    assert (Hlo2' : Forall (vote_le (stored_vote n)) (replied_votes o2)).
    { eapply Forall_impl; [exact Hlo2|]. cbn. intros v Hv. eapply Htrans; eassumption. }
    repeat split.
    + clear -Ho1 Hs2 Hlo2'. induction Ho1 as [|v l Hv Hl IHl]; [exact Hs2|]. cbn. constructor; [exact IHl|].
      apply Forall_app. subst v. split; [|exact Hlo2'].
      eapply Forall_impl; [exact Hl|]. cbn. intros x ->. apply vote_geb_refl.
    + apply Forall_app. split; [|exact Hlo2']. eapply Forall_impl; [exact Ho1|]. cbn. intros v ->. apply vote_geb_refl.
    + apply Forall_app. split; [|exact Hhi2]. eapply Forall_impl; [exact Ho1|]. cbn. intros v ->. eapply Htrans; eassumption.
Qed.

Lemma reachable_vinv cfg n : reachable cfg n -> vinv n.
Proof.
  intros (now & n0 & acts & outs & Hf & Hr). apply node_start_vinv in Hf as (Hi & _).
  apply node_run_vinv in Hr as (Hi' & _); [exact Hi'|exact Hi].
Qed.

Lemma granted_sublist outs : granted_votes outs `sublist_of` replied_votes outs.
Proof.
  induction outs as [|o r IH]; [constructor|]. unfold granted_votes, replied_votes in *. cbn.
  destruct o as [|tx [x| | |]|]; try exact IH. destruct (vr_granted x); constructor; exact IH.
Qed.

(** ** C02 *)

Lemma vchain_saved v cs w : vchain v cs w ->
  last (v :: saved_votes cs) = Some w /\ StronglySorted vote_lt (v :: saved_votes cs).
Proof.
  revert v. induction cs as [|c r IH]; intros v; cbn [vchain].
  - intros <-. split; [reflexivity|]. repeat constructor.
  - intros [Hok H]. apply IH in H as [Hl Hs]. destruct c; try (split; assumption).
    cbn [vote_after] in *. cbn. split; [exact Hl|]. constructor; [exact Hs|].
    cbn in Hok. constructor; [exact Hok|].
    apply StronglySorted_inv in Hs as [_ Hf]. eapply Forall_impl; [exact Hf|].
    cbn. intros x Hx. unfold vote_lt in *. apply vote_gtb_iff in Hx as [Hx Hne]. apply vote_gtb_iff in Hok as [Hok Hne2].
    apply vote_gtb_iff. split; [eapply vote_geb_trans; eassumption|]. intros ->.
    apply Hne2. apply vote_geb_antisym; assumption.
Qed.

Lemma saved_app a b : saved_votes (a ++ b) = saved_votes a ++ saved_votes b.
Proof. apply omap_app. Qed.

Lemma step_vote now ev n n' outs :
  node_step now ev n = Ok (n', outs) ->
  vote_le (rs_v (nd_state n)) (rs_v (nd_state n')) /\
  (ev = ERun -> rs_v (nd_state n') = rs_v (nd_state n)) /\
  (ev <> ERun -> exists vs,
     saved_votes (en_out (nd_eng n')) = saved_votes (en_out (nd_eng n)) ++ vs /\
     last (rs_v (nd_state n) :: vs) = Some (rs_v (nd_state n')) /\
     StronglySorted vote_lt (rs_v (nd_state n) :: vs)).
Proof.
  intros H.
  assert (Hsame : forall s : Node, exists vs, saved_votes (en_out (nd_eng s)) = saved_votes (en_out (nd_eng s)) ++ vs /\
     last (rs_v (nd_state s) :: vs) = Some (rs_v (nd_state s)) /\ StronglySorted vote_lt (rs_v (nd_state s) :: vs)).
  { intros s. exists []. rewrite app_nil_r. repeat split. repeat constructor. }
  apply node_step_cases in H as [-> ->|c r -> Ho _ H|Hne _ H (Hs & _) _ Hrep|t c x r -> _ _ (? & ? & _ & Hc & _) H Hn' ->|He Hs Hr].
  - split; [apply vote_geb_refl|]. split; [reflexivity|]. intros _. apply Hsame.
  - assert (Hv : rs_v (nd_state n') = rs_v (nd_state n)).
    { destruct c; cbn [run_cmd] in H;
      repeat match type of H with
      | context [match ?t with _ => _ end] => destruct t eqn:?; try discriminate H
      end; injection H as <- <-; reflexivity. }
    rewrite Hv. split; [apply vote_geb_refl|]. split; [reflexivity|]. congruence.
  - pose proof (handled_vrel _ _ H) as (cs & Ho & Hc).
    pose proof (vchain_le _ _ _ Hc) as Hle. split; [exact Hle|]. apply vchain_saved in Hc. split.
    + intros ->. congruence.
    + intros _. exists (saved_votes cs). rewrite Ho, saved_app. unfold nd_state. repeat split; apply Hc.
  - pose proof (grant_counted_prims _ _ _ _ _ Hc H) as Hp. apply prims_vrel in Hp as (cs & Ho & Hcs); [|reflexivity].
    split; [eapply vchain_le; exact Hcs|]. split; [discriminate|]. intros _.
    apply vchain_saved in Hcs. exists (saved_votes cs). rewrite Ho, saved_app. unfold nd_state. repeat split; apply Hcs.
  - unfold nd_state. rewrite He. split; [apply vote_geb_refl|]. split; [reflexivity|]. intros _. apply Hsame.
Qed.
