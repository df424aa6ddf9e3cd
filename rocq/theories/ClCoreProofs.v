(** The votes and logs of the nodes against the record of a run: what each kind of step
    does to them. *)
From Coq Require Import Bool Lia ZifyBool ZifyNat.
From stdpp Require Import base numbers option gmap relations list.
From Verif Require Import Types TypesProofs LogIdList Quorum QuorumSpec Membership Progress RaftState ProgressEntry Engine Store RaftCore
  NodeSpec LogSpec LogProofs ProtoProofs ClVoteProofs.
Import NodeSpec.

(** [a] is committed by a leader up to [v] *)
Definition CO (w : World) (a : option LogId) (v : Vote) : Prop :=
  a = None \/ exists L x, wd_com w L x /\ pfx (wh w) a (Some x) /\ vote_le (mkVote L true) v.
(** [v] is the vote of a candidate, of a leader if it is committed *)
Definition VK (w : World) (v : Vote) : Prop :=
  v = vote_default \/ (wd_cand w (v_leader v) /\ (v_committed v = true -> wd_elec w (v_leader v))).

(** node [i] has vote [v] and a log that ends at [lst], committed up to [com] *)
Record core (w : World) (i : nat) (v : Vote) (com lst : option LogId) : Prop := {
  c_v : VK w v;
  c_com : CO w com v;
  c_lead : forall L, li_node L = i -> v = mkVote L true -> wtip w L = lst /\ wd_ack w i L lst;
  c_own : forall L, li_node L = i -> wd_cand w L -> vote_le (mkVote L false) v;
  c_own' : forall L, li_node L = i -> wd_elec w L -> vote_le (mkVote L true) v;
  c_cand : forall L, li_node L = i -> v = mkVote L false -> v <> vote_default -> wd_init w L = lst;
  c_ack : forall L m, ackc w i L m -> vote_le (mkVote L true) v /\
            (pfx (wh w) m lst \/ lost w L m (fun M => vote_le (mkVote M true) v));
  c_grant : forall L g, wd_grant w i L g -> vote_le (mkVote L false) v;
  c_mine : forall L x, li_node L = i -> wd_com w L x -> ologid_leb (Some x) com = true;
}.

(** *** orders *)
Lemma vle_refl v : vote_le v v.
Proof. apply vote_geb_refl. Qed.
Lemma vle_trans a b c : vote_le a b -> vote_le b c -> vote_le a c.
Proof. unfold vote_le. intros H1 H2. eapply vote_geb_trans; eauto. Qed.
Ltac vord := unfold vote_le, leader_lt in *; rewrite <- ?not_true_iff_false in *; rewrite ?vote_geb_true, ?leader_leb_true in *; cbn in *.
Lemma vle_tf L : ~ vote_le (mkVote L true) (mkVote L false).
Proof. vord. intros H. destruct H as [?|[? [?|[? [?|?]]]]]; try lia; discriminate. Qed.
Lemma vle_tf_lt M L : vote_le (mkVote M true) (mkVote L false) -> leader_lt M L.
Proof. intros H. vord. destruct H as [?|[? [?|[? [?|?]]]]]; try lia; discriminate. Qed.
Lemma vle_leader v v' : vote_le v v' -> leader_leb (v_leader v) (v_leader v') = true.
Proof. intros H. vord. lia. Qed.
Lemma vle_of_lt M L b c : leader_lt M L -> vote_le (mkVote M b) (mkVote L c).
Proof. intros H. vord. lia. Qed.
Lemma vle_same L b : vote_le (mkVote L b) (mkVote L true).
Proof. vord. right. split; [reflexivity|]. right. auto. Qed.
Lemma vle_default L : ~ vote_le (mkVote L true) vote_default.
Proof. vord. intros H. destruct H as [?|[? [?|[? [?|?]]]]]; try lia; discriminate. Qed.
Lemma nlt_of_vle L L' : vote_le (mkVote L' false) (mkVote L true) -> ~ leader_lt L L'.
Proof. intros H. vord. lia. Qed.
Lemma vle_committed v L : vote_le (mkVote L true) v -> v_leader v = L -> v = mkVote L true.
Proof. destruct v as [L' []]; cbn; intros H ->; [reflexivity|]. destruct (vle_tf _ H). Qed.
Lemma next_leader_lt L v i : leader_leb L (v_leader v) = true -> leader_lt L (mkLeaderId (S (li_term (v_leader v))) i).
Proof.
  intros H. vord. lia.
Qed.

Section core.
  Context (qs : list (gset nat)).

  Lemma CO_mono i w w' a v : wle i w w' -> CO w a v -> CO w' a v.
  Proof.
    intros Hl [->|(L & x & H1 & H2 & H3)]; [left; reflexivity|]. right. exists L, x. split; [apply Hl, H1|]. split; [eapply wle_pfx; eauto|exact H3].
  Qed.
  Lemma CO_vote w a v v' : vote_le v v' -> CO w a v -> CO w a v'.
  Proof. intros Hv [->|(L & x & H1 & H2 & H3)]; [left; reflexivity|]. right. exists L, x. split; [exact H1|]. split; [exact H2|eapply vle_trans; eauto]. Qed.
  Lemma CO_down w a b v : pfx (wh w) a b -> CO w b v -> CO w a v.
  Proof.
    intros Hp [->|(L & x & H1 & H2 & H3)]; [left; apply pfx_none_inv in Hp; exact Hp|].
    right. exists L, x. split; [exact H1|]. split; [eapply pfx_trans; eauto|exact H3].
  Qed.
  Lemma CO_tip w a v : qs <> [] -> world_ok qs w -> CO w a v -> wd_elec w (v_leader v) -> pfx (wh w) a (wtip w (v_leader v)).
  Proof.
    intros Hqs W [->|(L & x & H1 & H2 & H3)] He; [apply (wk_env _ _ W)|]. eapply pfx_trans; [exact H2|].
    eapply (leader_has qs Hqs w W); [exact He|exact H1|]. apply vle_leader in H3. exact H3.
  Qed.
  Lemma VK_mono i w w' v : wle i w w' -> VK w v -> VK w' v.
  Proof. intros Hl [->|[H1 H2]]; [left; reflexivity|]. right. split; [apply Hl, H1|]. intros Hc. apply Hl, H2, Hc. Qed.

  (** nothing new about node [j] *)
  Record still (j : nat) (w w' : World) : Prop := {
    sl_tip : forall L, li_node L = j -> wtip w' L = wtip w L;
    sl_cand : forall L, li_node L = j -> wd_cand w' L -> wd_cand w L;
    sl_elec : forall L, li_node L = j -> wd_elec w' L -> wd_elec w L;
    sl_ack : forall L x, wd_ack w' j L x -> wd_ack w j L x;
    sl_grant : forall L g, wd_grant w' j L g -> wd_grant w j L g;
    sl_com : forall L x, li_node L = j -> wd_com w' L x -> wd_com w L x;
  }.
  Lemma still_other i j w w' : wle i w w' -> j <> i -> still j w w'.
  Proof.
    intros Hl Hn. constructor.
    - intros L HL. apply (wl_tip_f _ _ _ Hl). congruence.
    - intros L HL Hc. apply (wl_cand_f _ _ _ Hl); [exact Hc|congruence].
    - intros L HL Hc. apply (wl_elec_f _ _ _ Hl); [exact Hc|congruence].
    - intros L x Ha. apply (wl_ack_f _ _ _ Hl); [exact Ha|exact Hn].
    - intros L x Ha. apply (wl_grant_f _ _ _ Hl); [exact Ha|exact Hn].
    - intros L x HL Hc. apply (wl_com_f _ _ _ Hl); [exact Hc|congruence].
  Qed.
  Lemma ackc_still i j w w' L m : world_ok qs w -> wle i w w' -> still j w w' -> ackc w' j L m -> ackc w j L m.
  Proof.
    intros W Hl S (x & Ha & Hp). pose proof (sl_ack _ _ _ S _ _ Ha) as Ha'. exists x. split; [exact Ha'|]. eapply pfx_back; [apply Hl| |exact Hp]. eapply ack_rooted; eauto.
  Qed.
  Lemma core_still i j w w' v com lst : world_ok qs w -> wle i w w' -> still j w w' -> core w j v com lst -> core w' j v com lst.
  Proof.
    intros W Hl S C. constructor.
    - eapply VK_mono; [exact Hl|apply C].
    - eapply CO_mono; [exact Hl|apply C].
    - intros L HL Hv. destruct (c_lead _ _ _ _ _ C L HL Hv) as [H1 H2]. split; [rewrite (sl_tip _ _ _ S L HL); exact H1|apply Hl, H2].
    - intros L HL Hc. apply (c_own _ _ _ _ _ C L HL), (sl_cand _ _ _ S L HL Hc).
    - intros L HL Hc. apply (c_own' _ _ _ _ _ C L HL), (sl_elec _ _ _ S L HL Hc).
    - intros L HL Hv Hd. rewrite (wl_init _ _ _ Hl L); [apply (c_cand _ _ _ _ _ C L HL Hv Hd)|].
      destruct (c_v _ _ _ _ _ C) as [?|[H1 _]]; [contradiction|]. rewrite Hv in H1. exact H1.
    - intros L m Ha. eapply ackc_still in Ha; [|exact W|exact Hl|exact S]. destruct (c_ack _ _ _ _ _ C L m Ha) as [H1 [H2|H2]]; (split; [exact H1|]).
      + left. eapply wle_pfx; eauto.
      + right. eapply wle_lost; eauto.
    - intros L g Hg. apply (c_grant _ _ _ _ _ C L g), (sl_grant _ _ _ S _ _ Hg).
    - intros L x HL Hc. apply (c_mine _ _ _ _ _ C L x HL), (sl_com _ _ _ S _ _ HL Hc).
  Qed.

  Context (w : World) (W : world_ok qs w) (i : nat).

  (** a vote of another node *)
  Lemma core_vote v v' com lst : core w i v com lst -> VK w v' -> vote_le v v' -> li_node (v_leader v') <> i -> core w i v' com lst.
  Proof.
    intros C HV Hle Hn. constructor.
    - exact HV.
    - eapply CO_vote; [exact Hle|apply C].
    - intros L HL ->. cbn in Hn. congruence.
    - intros L HL Hc. eapply vle_trans; [apply (c_own _ _ _ _ _ C L HL Hc)|exact Hle].
    - intros L HL Hc. eapply vle_trans; [apply (c_own' _ _ _ _ _ C L HL Hc)|exact Hle].
    - intros L HL ->. cbn in Hn. congruence.
    - intros L m Ha. destruct (c_ack _ _ _ _ _ C L m Ha) as [H1 H2]. split; [eapply vle_trans; eauto|].
      destruct H2 as [H2|H2]; [left; exact H2|right]. eapply lost_impl; [|exact H2]. intros M HM. eapply vle_trans; [exact HM|exact Hle].
    - intros L g Hg. eapply vle_trans; [apply (c_grant _ _ _ _ _ C L g Hg)|exact Hle].
    - apply C.
  Qed.
  (** the entry of [initialize] *)
  Lemma core_first com x : core w i vote_default com None -> core w i vote_default com x.
  Proof.
    intros C. constructor; try apply C.
    - intros L HL Hv. discriminate Hv.
    - intros L HL _ Hd. congruence.
    - intros L m Ha. destruct (c_ack _ _ _ _ _ C L m Ha) as [H1 _]. destruct (vle_default _ H1).
  Qed.
  (** standing for election *)
  Lemma core_elect v com lst : let L := mkLeaderId (S (li_term (v_leader v))) i in let w' := ext_cand L lst w in
    core w i v com lst -> pfx (wh w) None lst -> oleader_le lst (v_leader v) ->
    world_ok qs w' /\ wle i w w' /\ core w' i (mkVote L false) com lst /\ wd_cand w' L /\ wd_init w' L = lst.
  Proof using W.
    intros L w' C Hr Ho.
    assert (Hlt : forall M, leader_leb M (v_leader v) = true -> leader_lt M L) by (intros M HM; apply next_leader_lt, HM).
    assert (Hvl : vote_le v (mkVote L false)) by (destruct v as [vl vc]; apply vle_of_lt, Hlt, leader_leb_refl).
    assert (Hnc : ~ wd_cand w L).
    { intros Hc. pose proof (c_own _ _ _ _ _ C L eq_refl Hc) as Hv. apply vle_leader in Hv. specialize (Hlt _ Hv). apply leader_lt_irrefl in Hlt. exact Hlt. }
    assert (Hlo : forall (L0 : LeaderId) (m : option LogId), ackc w i L0 m -> pfx (wh w) m lst \/ lost w L0 m (fun M => leader_lt M L)).
    { intros L0 m Ha. destruct (c_ack _ _ _ _ _ C L0 m Ha) as [_ [H2|H2]]; [left; exact H2|right]. eapply lost_impl; [|exact H2].
      intros M HM. apply Hlt. apply vle_leader in HM. exact HM. }
    assert (Hw : world_ok qs w').
    { apply ext_cand_ok; [exact W|exact Hnc|discriminate|exact Hr| |intros L0 m Ha _; exact (Hlo L0 m Ha)]. destruct lst as [x|]; [|exact Logic.I]. apply Hlt. exact Ho. }
    pose proof (ext_cand_le w L lst Hnc) as Hl. cbn [li_node L] in Hl.
    assert (Hi : wd_init w' L = lst) by (cbn; rewrite decide_True by reflexivity; reflexivity).
    split; [exact Hw|]. split; [exact Hl|]. split; [|split; [right; reflexivity|exact Hi]].
    constructor.
    - right. cbn. split; [right; reflexivity|discriminate].
    - eapply CO_vote; [exact Hvl|]. eapply CO_mono; [exact Hl|apply C].
    - intros M _ Hv. discriminate Hv.
    - intros M HM [Hc| ->]; [|apply vle_refl]. eapply vle_trans; [apply (c_own _ _ _ _ _ C M HM Hc)|exact Hvl].
    - intros M HM Hc. eapply vle_trans; [apply (c_own' _ _ _ _ _ C M HM Hc)|exact Hvl].
    - intros M HM [= <-] _. exact Hi.
    - intros M m Ha. eapply ackc_back in Ha; [|exact W|exact Hl|left; reflexivity].
      destruct (c_ack _ _ _ _ _ C M m Ha) as [H1 H2]. split; [eapply vle_trans; eauto|].
      destruct H2 as [H2|H2]; [left; exact H2|right]. eapply wle_lost; [exact W|exact Hl|]. eapply lost_impl; [|exact H2]. intros M' HM. eapply vle_trans; [exact HM|exact Hvl].
    - intros M g [Hg|(_ & -> & ->)]; [|apply vle_refl]. eapply vle_trans; [apply (c_grant _ _ _ _ _ C M g Hg)|exact Hvl].
    - apply C.
  Qed.
  (** a request of a leader accepted; it may have replaced what that leader does not have *)
  Lemma core_append v com lst v' com' lst' : (forall m, pfx (wh w) m (wtip w (v_leader v')) \/ ~ pfx (wh w) m (wtip w (v_leader v'))) ->
    core w i v com lst -> v_committed v' = true -> wd_elec w (v_leader v') -> vote_le v v' -> li_node (v_leader v') <> i ->
    (forall y, pfx (wh w) y (wtip w (v_leader v')) -> pfx (wh w) y lst -> pfx (wh w) y lst') ->
    CO w com' v' -> ologid_leb com com' = true -> core w i v' com' lst'.
  Proof using W.
    intros Hdec C Hcm He Hle Hn Hk Hco Hcc.
    assert (Hvk : VK w v') by (right; split; [apply (wk_elec _ _ W _ He)|auto]).
    pose proof (core_vote _ _ _ _ C Hvk Hle Hn) as C'. constructor; try apply C'.
    - exact Hco.
    - intros L HL ->. cbn in Hn. congruence.
    - intros L HL ->. cbn in Hn. congruence.
    - intros L m Ha. destruct (c_ack _ _ _ _ _ C' L m Ha) as [H1 H2]. split; [exact H1|]. destruct H2 as [H2|H2]; [|right; exact H2].
      destruct (Hdec m) as [Hm|Hm]; [left; apply Hk; assumption|]. right. exists (v_leader v'). split; [exact He|].
      destruct v' as [M b]. cbn in *. subst b. split; [|split; [apply vle_refl|]].
      + apply vle_leader in H1. cbn in H1. unfold leader_lt. destruct (leader_leb M L) eqn:HML; [|reflexivity]. exfalso. apply Hm.
        assert (L = M) as -> by (apply leader_ord_antisym; assumption). destruct Ha as (x & Ha & Hp). eapply pfx_trans; [exact Hp|]. apply (wk_ack _ _ W _ _ _ Ha).
      + intros Hi. apply Hm. eapply pfx_trans; [exact Hi|]. apply (wk_elec _ _ W _ He).
    - intros L x HL Hc. pose proof (c_mine _ _ _ _ _ C L x HL Hc). clear - H Hcc. ord.
  Qed.
  (** acknowledging what the leader it follows sent *)
  Lemma core_ack L com lst x : core w i (mkVote L true) com lst -> wd_elec w L -> pfx (wh w) x (wtip w L) -> pfx (wh w) x lst ->
    world_ok qs (ext_ack i L x w) /\ wle i w (ext_ack i L x w) /\ core (ext_ack i L x w) i (mkVote L true) com lst.
  Proof using W.
    intros C He Hx Hxl. assert (Hw : world_ok qs (ext_ack i L x w)).
    { apply ext_ack_ok; auto. intros L' g Hg. apply nlt_of_vle, (c_grant _ _ _ _ _ C L' g Hg). }
    pose proof (ext_ack_le w i L x) as Hl. split; [exact Hw|]. split; [exact Hl|]. constructor; try apply C.
    - intros M HM HvM. destruct (c_lead _ _ _ _ _ C M HM HvM) as [H1 H2]. split; [exact H1|left; exact H2].
    - intros M m (z & [Ha|(_ & -> & ->)] & Hp).
      + destruct (c_ack _ _ _ _ _ C M m) as [H1 H2]; [exists z; auto|]. split; [exact H1|]. destruct H2 as [H2|H2]; [left; exact H2|right; eapply wle_lost; [exact W|exact Hl|exact H2]].
      + split; [apply vle_refl|]. left. eapply pfx_trans; [exact Hp|exact Hxl].
  Qed.
  (** a new entry of a leader *)
  Lemma core_entry L com lst pl : let y := mkLogId L (next_index lst) in let w' := ext_ack i L (Some y) (ext_entry L pl w) in
    core w i (mkVote L true) com lst -> li_node L = i ->
    world_ok qs w' /\ wle i w w' /\ core w' i (mkVote L true) com (Some y) /\ wh w' y = Some (lst, pl) /\ wtip w L = lst.
  Proof using W.
    intros y w' C HL. destruct (c_lead _ _ _ _ _ C L HL eq_refl) as [Ht Ha0].
    assert (He : wd_elec w L) by (destruct (c_v _ _ _ _ _ C) as [?|[_ H]]; [discriminate|apply H; reflexivity]).
    pose proof (ext_entry_ok _ _ W L pl He) as W1. pose proof (ext_entry_le _ _ W L pl He) as Hl1. rewrite HL in Hl1.
    pose proof (ext_entry_tip w L pl) as Et. pose proof (ext_entry_hist w L pl) as Eh. rewrite Ht in Et, Eh. fold y in Et, Eh.
    set (w1 := ext_entry L pl w) in *.
    assert (Hstep : pfx (wh w1) lst (Some y)) by (eapply pfx_step; [exact Eh|constructor]).
    assert (W2 : world_ok qs w').
    { apply (ext_ack_ok _ _ W1); [exact He|rewrite Et; constructor|]. intros L' g Hg. apply nlt_of_vle, (c_grant _ _ _ _ _ C L' g Hg). }
    pose proof (ext_ack_le w1 i L (Some y)) as Hl2. pose proof (wle_trans _ _ _ _ Hl1 Hl2) as Hl.
    split; [exact W2|]. split; [exact Hl|]. split; [|split; [exact Eh|exact Ht]]. constructor.
    - eapply VK_mono; [exact Hl|apply C].
    - eapply CO_mono; [exact Hl|apply C].
    - intros M HM [= <-]. split; [exact Et|right; auto].
    - apply C.
    - apply C.
    - intros M HM Hv. discriminate Hv.
    - intros M m (z & [Ha|(_ & -> & ->)] & Hp).
      + change (wd_ack w i M z) in Ha. assert (Hm : ackc w i M m).
        { exists z. split; [exact Ha|]. eapply pfx_back; [apply Hl| |exact Hp]. eapply ack_rooted; [exact W|exact Ha]. }
        destruct (c_ack _ _ _ _ _ C M m Hm) as [H1 H2]. split; [exact H1|]. destruct H2 as [H2|H2]; [left|right; eapply wle_lost; [exact W|exact Hl|exact H2]].
        eapply pfx_trans; [eapply wle_pfx; [exact Hl|exact H2]|exact Hstep].
      + split; [apply vle_refl|]. left. exact Hp.
    - apply C.
    - apply C.
  Qed.
  (** winning an election *)
  Lemma core_win L com lst G : let w' := ext_ack i L lst (ext_elec L w) in
    core w i (mkVote L false) com lst -> li_node L = i -> mkVote L false <> vote_default -> quorum qs G ->
    (forall j, j ∈ G -> exists g, wd_grant w j L g /\ ologid_leb g (wd_init w L) = true) ->
    world_ok qs w' /\ wle i w w' /\ core w' i (mkVote L true) com lst.
  Proof using W.
    intros w' C HL Hd QG HG. assert (Hc : wd_cand w L) by (destruct (c_v _ _ _ _ _ C) as [?|[H _]]; [contradiction|exact H]).
    assert (Hne : ~ wd_elec w L) by (intros He; apply (vle_tf L), (c_own' _ _ _ _ _ C L HL He)).
    pose proof (c_cand _ _ _ _ _ C L HL eq_refl Hd) as Hi.
    pose proof (ext_elec_ok _ _ W L G Hc Hne QG HG) as W1. pose proof (ext_elec_le _ _ W L Hc Hne) as Hl1. rewrite HL in Hl1.
    pose proof (ext_elec_tip w L) as Et. rewrite Hi in Et. set (w1 := ext_elec L w) in *.
    assert (W2 : world_ok qs w').
    { apply (ext_ack_ok _ _ W1); [right; reflexivity|rewrite Et; constructor|]. intros L' g Hg. apply nlt_of_vle.
      eapply vle_trans; [apply (c_grant _ _ _ _ _ C L' g Hg)|apply vle_same]. }
    pose proof (ext_ack_le w1 i L lst) as Hl2. pose proof (wle_trans _ _ _ _ Hl1 Hl2) as Hl.
    assert (Hup : vote_le (mkVote L false) (mkVote L true)) by apply vle_same.
    split; [exact W2|]. split; [exact Hl|]. constructor.
    - right. cbn. split; [exact Hc|]. intros _. right. reflexivity.
    - eapply CO_vote; [exact Hup|]. eapply CO_mono; [exact Hl|apply C].
    - intros M HM [= <-]. split; [exact Et|right; auto].
    - intros M HM HcM. eapply vle_trans; [apply (c_own _ _ _ _ _ C M HM HcM)|exact Hup].
    - intros M HM [HeM| ->]; [|apply vle_refl]. eapply vle_trans; [apply (c_own' _ _ _ _ _ C M HM HeM)|exact Hup].
    - intros M HM Hv. discriminate Hv.
    - intros M m (z & [Ha|(_ & -> & ->)] & Hp).
      + change (wd_ack w i M z) in Ha. assert (Hm : ackc w i M m) by (exists z; split; [exact Ha|exact Hp]).
        destruct (c_ack _ _ _ _ _ C M m Hm) as [H1 H2]. split; [eapply vle_trans; eauto|].
        destruct H2 as [H2|H2]; [left; exact H2|right]. eapply wle_lost; [exact W|exact Hl|]. eapply lost_impl; [|exact H2]. intros M' HM'. eapply vle_trans; [exact HM'|exact Hup].
      + split; [apply vle_refl|]. left. exact Hp.
    - intros M g Hg. eapply vle_trans; [apply (c_grant _ _ _ _ _ C M g Hg)|exact Hup].
    - apply C.
  Qed.
  (** granting a vote *)
  Lemma core_grant v com lst L : core w i v com lst -> vote_le v (mkVote L false) -> li_node L <> i -> wd_cand w L ->
    world_ok qs (ext_grant i L lst w) /\ wle i w (ext_grant i L lst w) /\ core (ext_grant i L lst w) i (mkVote L false) com lst.
  Proof using W.
    intros C Hle Hn Hc. assert (Hw : world_ok qs (ext_grant i L lst w)).
    { apply (ext_grant_ok _ _ W). intros L0 m Ha Hlt. destruct (c_ack _ _ _ _ _ C L0 m Ha) as [_ [H2|H2]]; [left; exact H2|right].
      eapply lost_impl; [|exact H2]. intros M HM. apply vle_tf_lt. eapply vle_trans; [exact HM|exact Hle]. }
    pose proof (ext_grant_le w i L lst) as Hl. split; [exact Hw|]. split; [exact Hl|].
    assert (HV : VK w (mkVote L false)) by (right; split; [exact Hc|discriminate]).
    pose proof (core_vote _ _ _ _ C HV Hle Hn) as C'. constructor; try apply C'.
    - intros M g [Hg|(_ & -> & ->)]; [apply (c_grant _ _ _ _ _ C' M g Hg)|apply vle_refl].
  Qed.
  (** a leader commits *)
  Lemma core_commit L com lst c A : core w i (mkVote L true) com lst -> li_node L = i -> lid_leader c = L -> pfx (wh w) (Some c) lst ->
    quorum qs A -> (forall j, j ∈ A -> ackc w j L (Some c)) -> ologid_leb com (Some c) = true ->
    world_ok qs (ext_com L c w) /\ wle i w (ext_com L c w) /\ core (ext_com L c w) i (mkVote L true) (Some c) lst.
  Proof using W.
    intros C HL Hlc Hc QA HA Hcc. destruct (c_lead _ _ _ _ _ C L HL eq_refl) as [Ht _].
    assert (He : wd_elec w L) by (destruct (c_v _ _ _ _ _ C) as [?|[_ H]]; [discriminate|apply H; reflexivity]).
    assert (Hw : world_ok qs (ext_com L c w)) by (eapply ext_com_ok; eauto; rewrite Ht; exact Hc).
    pose proof (ext_com_le w i L c HL) as Hl. split; [exact Hw|]. split; [exact Hl|].
    constructor; try apply C.
    - right. exists L, c. split; [right; auto|]. split; [constructor|apply vle_refl].
    - intros M x HM [Hx|[-> ->]]; [|clear; ord]. pose proof (c_mine _ _ _ _ _ C M x HM Hx). clear - H Hcc. ord.
  Qed.
End core.
