(** Every answer a node has given is supported by its disk at every crash point. *)
From Coq Require Import Bool Lia ZifyBool ZifyNat.
From stdpp Require Import base numbers option gmap relations list.
From Verif Require Import Types TypesProofs LogIdList LogIdListProofs Quorum Membership Progress RaftState
  ProgressEntry Engine EnginePrims Store RaftCore NodeSpec NodePrims KindProofs VoteNodeProofs LogSpec LogProofs WalkProofs
  EngLogProofs NodeLogProofs StepLogProofs LogPropSpec LogStateProofs LeadProofs OwnProofs ClNodeProofs ClStepProofs ClientProofs
  DurIoProofs DurProofs DurStepProofs DurNodeProofs DurableSpec.
Import NodeSpec.

Lemma replied_in tx r outs : OReply tx (RVote r) ∈ outs -> vr_vote r ∈ replied_votes outs.
Proof. intros Hin. unfold replied_votes. apply elem_of_list_omap. exists (OReply tx (RVote r)). auto. Qed.
Theorem replies_kept cfg now0 n0 acts n outs : node_fresh now0 cfg = Ok n0 -> node_run acts n0 = Ok (n, outs) ->
  forall tx r, OReply tx (RVote r) ∈ outs -> at_any_crash n (vote_kept (vr_vote r)).
Proof.
  intros Hfr Hr tx r Hin k j. unfold node_fresh in Hfr. destruct (node_start_vinv _ _ _ _ _ Hfr) as (Hv & _).
  destruct (node_run_vinv _ _ _ _ Hv Hr) as (Hv' & _ & _ & _ & Ha). rewrite Forall_forall in Ha.
  specialize (Ha _ (replied_in _ _ _ Hin)). unfold vote_kept, disk_vote. rewrite crash_disk_vote by apply Hv'. exact Ha.
Qed.

Section durable.
  Context (E : Env) (me : nat) (HE : env_ok E).
  Notation H := (ev_hist E).
  Let Hok : hist_ok H := proj1 HE.

  Lemma dok_mono (P Q : nat -> Vote -> option LogId -> Prop) d A c : (forall tx v x, P tx v x -> Q tx v x) -> dok E me P d A c -> dok E me Q d A c.
  Proof.
    intros HPQ. destruct c; try exact (fun x => x). destruct resp as [|[]| |]; try exact (fun x => x). cbn [dok].
    intros (x & y & K1 & K2). exists x, y. split; [apply HPQ; exact K1|exact K2].
  Qed.
  Lemma dwalk_mono (P Q : nat -> Vote -> option LogId -> Prop) cs : (forall tx v x, P tx v x -> Q tx v x) -> forall d A, dwalk E me P d A cs -> dwalk E me Q d A cs.
  Proof.
    intros HPQ. induction cs as [|c r IH]; intros d A; cbn [dwalk]; [auto|]. intros [K1 K2]. split; [eapply dok_mono; eassumption|apply IH; exact K2].
  Qed.
  Lemma DI_mono (P Q : nat -> Vote -> option LogId -> Prop) n A R : (forall tx v x, P tx v x -> Q tx v x) -> DI E me P n A R -> DI E me Q n A R.
  Proof.
    intros HPQ [J1 J2 J3 J4 J5 J6 J7 J8 J9 J10]. constructor; auto. eapply dwalk_mono; eassumption.
  Qed.
  Definition sentq (acts : list Action) (tx : nat) (v : Vote) (x : option LogId) : Prop :=
    exists now prev es lc, Act now (EMsg (MAppend v prev es lc tx)) ∈ acts /\ x = es_last prev es /\ chain H prev es /\ li_node (v_leader v) <> me.
  Lemma sentq_mono a b tx v x : sentq a tx v x -> sentq (a ++ b) tx v x.
  Proof. intros (now & prev & es & lc & Hin & K). exists now, prev, es, lc. split; [apply elem_of_app; left; exact Hin|exact K]. Qed.
  Lemma acked_mono (P Q : nat -> Vote -> option LogId -> Prop) os R R' : (forall tx v x, P tx v x -> Q tx v x) -> (forall i, i ∈ R -> i ∈ R') ->
    acked P os R -> acked Q os R'.
  Proof. intros HPQ HR Ha tx Hin. destruct (Ha tx Hin) as (v & x & K1 & K2). exists v, x. auto. Qed.
  Lemma acked_app (P : nat -> Vote -> option LogId -> Prop) a b R : acked P a R -> acked P b R -> acked P (a ++ b) R.
  Proof. intros Ha Hb tx Hin. apply elem_of_app in Hin as [Hin|Hin]; [apply Ha|apply Hb]; exact Hin. Qed.
  Theorem run_di_all now0 cfg n0 acts : forall n outs, node_fresh now0 cfg = Ok n0 -> ec_id cfg = me -> run_fits E acts n0 -> no_snapshots acts ->
    node_run acts n0 = Ok (n, outs) -> exists A R, DI E me (sentq acts) n A R /\ acked (sentq acts) outs R.
  Proof using HE.
    induction acts as [|a acts IH] using rev_ind; intros n outs Hfr Hme Hf Hns Hr.
    - cbn in Hr. injection Hr as <- <-. exists [], []. split; [|apply acked_nil].
      pose proof (fresh_inv E me HE _ _ _ Hfr Hme) as [HN Hid].
      assert (Ho : en_out (nd_eng n0) = []).
      { unfold node_fresh, node_start in Hfr. rok Hfr. destruct x as [[s d1] sm1]. rok Hfr. injection Hfr as <-.
        apply StoreProofs.helper_initial_inv in Hx as (? & ? & ? & ? & Hx). cbv zeta in Hx. destruct Hx as (_ & _ & _ & _ & Hx).
        unfold en_startup in Hx0. cbn [engine_new en_state] in Hx0.
        assert (Hl : rs_is_leader s (en_id (engine_new s cfg)) = false).
        { rewrite Hx. unfold rs_is_leader. cbn. apply andb_false_r. }
        rewrite Hl in Hx0. injection Hx0 as <-. reflexivity. }
      unfold node_fresh in Hfr. eapply start_di; [exact HE| | |exact Hfr|exact Hid| | |].
      + constructor; cbn; try constructor; try exact Logic.I; try constructor; try discriminate; cbn; auto.
      + left. constructor.
      + rewrite Ho. intros v es Hin. inversion Hin.
      + intros i Hi. apply elem_of_nil in Hi as [].
      + intros v x Hi. apply elem_of_nil in Hi as [].
    - pose proof Hr as Hr0. apply node_run_snoc in Hr as (n1 & o1 & o & Hr1 & Ha & ->). destruct (run_fits_snoc _ _ _ _ Hf _ _ Hr1) as [Hf1 Hfa].
      pose proof (Hfa _ Ha) as Hfa1. cbn [fst] in Hfa1.
      assert (HN : node_inv E me n1) by (apply (reachable_inv E me HE cfg); [exists now0, n0, acts, o1; auto|exact Hme]).
      assert (HN' : node_inv E me n) by (apply (reachable_inv E me HE cfg); [exists now0, n0, (acts ++ [a]), (o1 ++ o); auto|exact Hme]).
      assert (Hns1 : no_snapshots acts) by (intros now v sn tx Hin; apply (Hns now v sn tx), elem_of_app; left; exact Hin).
      destruct (IH n1 o1 Hfr Hme Hf1 Hns1 Hr1) as (A & R & K & Hack). clear IH.
      apply (DI_mono _ (sentq (acts ++ [a]))) in K; [|intros; apply sentq_mono; assumption].
      assert (Hack' : forall R', (forall i, i ∈ R -> i ∈ R') -> acked (sentq (acts ++ [a])) o1 R').
      { intros R' HR. eapply acked_mono; [intros; apply sentq_mono; eassumption|exact HR|exact Hack]. }
      destruct a as [now ev|now k j keep]; cbn [node_act act_fits] in *.
      + destruct Hfa1 as [F1 F2]. destruct (is_run ev) as [->|He].
        * destruct (run_di E me HE _ _ _ _ _ _ _ Ha HN K) as (A' & R' & K' & HR & Hak). exists A', R'. split; [exact K'|].
          apply acked_app; [apply Hack'; exact HR|exact Hak].
        * exists A, R. split.
          -- eapply step_di; [exact HE|exact He|exact Ha|exact F1|exact F2|exact HN|exact HN'| |exact K].
             destruct ev as [|m| | | | | | | | | | | |]; try exact Logic.I. destruct m; try exact Logic.I; cbn [asked].
             ++ destruct F1 as ((_ & Hid & _) & Hch & _). rewrite (node_id E me n1 HN) in Hid. eexists now, _, _, _. split; [apply elem_of_app; right; left|]. auto.
             ++ eapply Hns. apply elem_of_app. right. left.
          -- apply acked_app; [apply Hack'; auto|]. intros tx Hin. apply (step_replies _ _ _ _ _ Ha) in Hin as [Hin _]. contradiction.
      + rok Ha. injection Ha as -> <-. destruct Hfa1 as [F1 F2]. rewrite app_nil_r. exists [], R. split; [|apply Hack'; auto].
        pose proof (node_id E me n1 HN) as Hid. pose proof (node_id E me n HN') as Hid'. rewrite Hid in F2.
        eapply restart_di; [exact HE|exact Hx|exact F1|exact HN|exact Hid'|exact F2|exact K].
  Qed.
  Lemma hold_pos l p : log_ok H l -> pfx H p (ls_last l) -> holds_pos l p.
  Proof using HE.
    intros Hl Hx. destruct p as [x|]; [|exact Logic.I]. cbn [holds_pos]. pose proof (log_ok_pfx H _ Hl) as Hpu.
    destruct (le_lt_dec (next_index (ls_purged l)) (lid_index x)) as [Hi|Hi].
    - right. right. destruct (chain_in H Hok _ _ x (proj2 Hl)) as (e & He & Hid); [rewrite <- ls_last_es; exact Hx|exact Hi|].
      exists e. split; [eapply elem_of_list_lookup_2; exact He|exact Hid].
    - destruct (pfx_linear H _ _ _ Hx Hpu) as [Hxy|Hxy].
      + destruct (decide (S (lid_index x) < next_index (ls_purged l))) as [Hlt|Hlt]; [right; left; exact Hlt|left].
        symmetry. apply (pfx_eq_idx H Hok _ _ Hxy). cbn [next_index]. lia.
      + left. apply (pfx_eq_idx H Hok _ _ Hxy). cbn [next_index]. lia.
  Qed.
  Lemma hold_entry l e p : log_ok H l -> H (e_log_id e) = Some (p, e_payload e) -> pfx H (Some (e_log_id e)) (ls_last l) ->
    e ∈ ls_entries l \/ e_index e < next_index (ls_purged l).
  Proof using HE.
    intros Hl He Hx. destruct (le_lt_dec (next_index (ls_purged l)) (e_index e)) as [Hi|Hi]; [left|right; exact Hi].
    destruct (chain_in H Hok _ _ (e_log_id e) (proj2 Hl)) as (e' & He' & Hid); [rewrite <- ls_last_es; exact Hx|exact Hi|].
    apply elem_of_list_lookup_2 in He'. destruct (chain_elem H Hok _ _ _ (proj2 Hl) He') as (_ & _ & _ & _ & q & Hq). rewrite Hid, He in Hq.
    injection Hq as _ Hp. destruct e, e'. cbn in *. subst. exact He'.
  Qed.
  Theorem append_durable now0 cfg n0 acts n outs : node_fresh now0 cfg = Ok n0 -> ec_id cfg = me -> run_fits E acts n0 -> no_snapshots acts ->
    node_run acts n0 = Ok (n, outs) -> forall tx, OReply tx (RAppend ASuccess) ∈ outs ->
    exists now v prev es lc, Act now (EMsg (MAppend v prev es lc tx)) ∈ acts /\
      (li_term (v_leader v) <> 0 -> at_any_crash n (append_kept v prev es)).
  Proof using HE.
    intros Hfr Hme Hf Hns Hr tx Hin. destruct (run_di_all _ _ _ _ _ _ Hfr Hme Hf Hns Hr) as (A & R & K & Hack).
    destruct (Hack tx Hin) as (v & x & (now & prev & es & lc & Ha & -> & Hch & Hnm) & HR). exists now, v, prev, es, lc. split; [exact Ha|].
    intros Ht k j. assert (HN : node_inv E me n) by (apply (reachable_inv E me HE cfg); [exists now0, n0, acts, outs; auto|exact Hme]).
    pose proof (crash_cov E me HE k j _ _ (di_pend _ _ _ _ _ _ K) (di_R _ _ _ _ _ _ K _ HR)) as [_ C]. cbn [io_vote] in C.
    pose proof (do_log _ _ _ (crash_disk_ok E me HE k j 0 n HN)) as Hl.
    assert (Hfg : fgn me (v_leader v)) by (split; assumption).
    destruct (C Hfg) as (C1 & C2 & C3). split; [exact C2|]. intros Hv. destruct C3 as [_ C3]; [symmetry; exact Hv|]. split.
    - apply hold_pos; [exact Hl|]. eapply pfx_trans; [apply chain_pfx; exact Hch|exact C3].
    - intros e He. destruct (chain_elem H Hok _ _ _ Hch He) as (Hpl & _ & _ & _ & p & Hp). eapply hold_entry; [exact Hl|exact Hp|].
      eapply pfx_trans; [exact Hpl|exact C3].
  Qed.
End durable.
