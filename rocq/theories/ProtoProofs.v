(** The protocol argument: what is written down of a cluster's past (who was elected with
    which log, who acknowledged what, who granted whom, what leaders committed), and why
    a later leader has everything an earlier one committed. *)
From Coq Require Import Bool Lia ZifyBool ZifyNat.
From stdpp Require Import base numbers option gmap relations list.
From Verif Require Import Types TypesProofs Quorum QuorumSpec QuorumProofs LogSpec LogProofs.

Definition leader_lt (a b : LeaderId) : Prop := leader_leb b a = false.
Lemma leader_ind (P : LeaderId -> Prop) : (forall L, (forall M, leader_lt M L -> P M) -> P L) -> forall L, P L.
Proof.
  intros IH. enough (Q : forall t n, P (mkLeaderId t n)) by (intros [t n]; apply Q).
  intros t. induction t as [t IHt] using (well_founded_induction Nat.lt_wf_0).
  intros n. induction n as [n IHn] using (well_founded_induction Nat.lt_wf_0).
  apply IH. intros [t2 n2] Hlt. unfold leader_lt in Hlt.
  destruct (decide (t2 < t)) as [?|?]; [apply IHt; assumption|].
  destruct (decide (t2 = t)) as [->|?].
  - apply IHn. unfold leader_leb, leader_cmp in Hlt. cbn in Hlt. rewrite Nat.compare_refl in Hlt.
    destruct (Nat.compare_spec n n2); try discriminate; lia.
  - exfalso. unfold leader_leb, leader_cmp in Hlt. cbn in Hlt. destruct (Nat.compare_spec t t2); try discriminate; lia.
Qed.

(** What has happened: [wd_cand L]: [L] has stood for election, with the log position
    [wd_init L], and [wd_elec L]: was elected;
    [wd_ack j L x]: node [j] had [x] in its log as a follower of [L];
    [wd_grant j L g]: node [j], whose log ended at [g], granted its vote to [L];
    [wd_com L x]: leader [L] committed [x]. *)
Record World := mkWorld {
  wd_env : Env;
  wd_cand : LeaderId -> Prop;
  wd_elec : LeaderId -> Prop;
  wd_init : LeaderId -> option LogId;
  wd_ack : nat -> LeaderId -> option LogId -> Prop;
  wd_grant : nat -> LeaderId -> option LogId -> Prop;
  wd_com : LeaderId -> LogId -> Prop;
}.
Definition wh (w : World) : Hist := ev_hist (wd_env w).
Definition wtip (w : World) : LeaderId -> option LogId := ev_tip (wd_env w).
Definition ackc (w : World) (j : nat) (L : LeaderId) (m : option LogId) : Prop :=
  exists x, wd_ack w j L x /\ pfx (wh w) m x.
Definition oleader_lt (a : option LogId) (l : LeaderId) : Prop :=
  match a with Some x => leader_lt (lid_leader x) l | None => True end.
(** some leader after [L] was elected without [m] *)
Definition lost (w : World) (L : LeaderId) (m : option LogId) (P : LeaderId -> Prop) : Prop :=
  exists M, wd_elec w M /\ leader_lt L M /\ P M /\ ~ pfx (wh w) m (wd_init w M).
(** the entry of [initialize] *)
Definition first_id : LogId := mkLogId (mkLeaderId 0 0) 0.

Record world_ok (qs : list (gset nat)) (w : World) : Prop := {
  wk_env : env_ok (wd_env w);
  wk_hist : forall y, is_Some (wh w y) -> y = first_id \/ (wd_elec w (lid_leader y) /\ pfx (wh w) (Some y) (wtip w (lid_leader y)));
  wk_cand : forall L, wd_cand w L -> li_term L <> 0 /\ pfx (wh w) None (wd_init w L) /\ oleader_lt (wd_init w L) L /\
              wd_grant w (li_node L) L (wd_init w L);
  wk_elec : forall L, wd_elec w L -> wd_cand w L /\ pfx (wh w) (wd_init w L) (wtip w L) /\
              (forall y, pfx (wh w) (Some y) (wtip w L) -> lid_leader y <> L -> pfx (wh w) (Some y) (wd_init w L));
  wk_tip0 : forall L, wtip w L = None \/ wd_elec w L;
  wk_quorum : forall L, wd_elec w L -> exists G, quorum qs G /\
                forall j, j ∈ G -> exists g, wd_grant w j L g /\ ologid_leb g (wd_init w L) = true;
  wk_ack : forall j L x, wd_ack w j L x -> wd_elec w L /\ pfx (wh w) x (wtip w L);
  wk_com : forall L x, wd_com w L x -> wd_elec w L /\ lid_leader x = L /\ pfx (wh w) (Some x) (wtip w L) /\
             exists A, quorum qs A /\ forall j, j ∈ A -> ackc w j L (Some x);
  wk_keep : forall j L L' m g, ackc w j L m -> wd_grant w j L' g -> leader_lt L L' ->
             pfx (wh w) m g \/ lost w L m (fun M => leader_lt M L');
}.

Lemma leader_le_via x g z : leader_leb (lid_leader x) (lid_leader g) = true -> ologid_leb (Some g) (Some z) = true ->
  leader_leb (lid_leader x) (lid_leader z) = true.
Proof. ord. Qed.
Lemma leader_ord_antisym a b : leader_leb a b = true -> leader_leb b a = true -> a = b.
Proof. ord. Qed.
Lemma leader_ord_total a b : leader_leb a b = true \/ leader_leb b a = true.
Proof. destruct (leader_leb a b) eqn:H; [auto|right]. ord. Qed.
Lemma same_leader_idx g z : lid_leader g = lid_leader z -> ologid_leb (Some g) (Some z) = true -> lid_index g <= lid_index z.
Proof. destruct g as [gl gi], z as [zl zi]. cbn. intros ->. ord. Qed.

Section proto.
  Context (qs : list (gset nat)) (Hqs : qs <> []) (w : World) (HW : world_ok qs w).
  Let H := wh w.
  Let Hok : hist_ok H := proj1 (wk_env _ _ HW).

  Lemma leader_lt_irrefl L : ~ leader_lt L L.
  Proof. unfold leader_lt. rewrite leader_leb_refl. discriminate. Qed.

  (** every leader was elected with everything committed under earlier leaders *)
  Lemma leader_complete L' : wd_elec w L' -> forall L x, wd_com w L x -> leader_lt L L' -> pfx H (Some x) (wd_init w L').
  Proof using Hqs HW.
    induction L' as [L' IH] using leader_ind. intros He L x Hc Hlt.
    destruct (wk_com _ _ HW _ _ Hc) as (HeL & Hlx & Hxt & A & QA & HA).
    destruct (wk_quorum _ _ HW _ He) as (G & QG & HG).
    destruct (quorum_intersect_same qs A G Hqs QA QG) as (j & c & _ & _ & J1 & J2).
    specialize (HA j J1). destruct (HG j J2) as (g & Hg & Hgi).
    destruct (wk_keep _ _ HW _ _ _ _ _ HA Hg Hlt) as [Hk|(M & HM & HM1 & HM2 & HM3)].
    2:{ destruct HM3. apply (IH M HM2 HM L x Hc HM1). }
    destruct (wk_elec _ _ HW _ He) as (Hca & Hit & _). destruct (wk_cand _ _ HW _ Hca) as (_ & _ & Hlti & _).
    destruct (wk_elec _ _ HW _ HeL) as (HcL & _). destruct (wk_cand _ _ HW _ HcL) as (HtL & _).
    destruct g as [g|]; [|apply pfx_none_inv in Hk; discriminate].
    destruct (wd_init w L') as [z|] eqn:Hz; [|apply (pfx_le H Hok) in Hk; ord].
    pose proof (pfx_le H Hok _ _ Hk) as Hxg. pose proof (pfx_leader H Hok _ _ Hk) as Hxl.
    assert (Hzr : is_Some (H z)).
    { pose proof (proj1 (proj2 (wk_env _ _ HW) L')) as Hr.
      pose proof (pfx_rooted H _ _ Hr Hit) as Hrz. inversion Hrz; subst. unfold H, wh. eauto. }
    assert (Hlz : leader_leb L (lid_leader z) = true) by (rewrite <- Hlx; eapply leader_le_via; eassumption).
    destruct (wk_hist _ _ HW _ Hzr) as [->|[HeM Hzt]].
    { exfalso. clear - HtL Hlz. destruct L as [t n]. cbn in *. unfold leader_leb, leader_cmp in Hlz. cbn in Hlz.
      destruct t; [congruence|discriminate]. }
    destruct (leader_leb (lid_leader z) L) eqn:HzL.
    - assert (HL : lid_leader z = L) by (apply leader_ord_antisym; assumption). rewrite HL in Hzt.
      eapply (pfx_of_idx H Hok); [exact Hxt|exact Hzt|].
      assert (Hgl : lid_leader g = lid_leader z).
      { apply leader_ord_antisym; [apply (leader_le_via g g z); [apply leader_leb_refl|exact Hgi]|rewrite HL, <- Hlx; exact Hxl]. }
      apply (pfx_idx H Hok) in Hk. pose proof (same_leader_idx _ _ Hgl Hgi). cbn in *. lia.
    - assert (HlM : leader_lt L (lid_leader z)) by exact HzL.
      assert (HM' : leader_lt (lid_leader z) L') by exact Hlti.
      pose proof (IH _ HM' HeM L x Hc HlM) as Hxi.
      destruct (wk_elec _ _ HW _ HeM) as (HcM & Hi2 & _). destruct (wk_cand _ _ HW _ HcM) as (_ & _ & Hl2 & _).
      eapply (pfx_trans H); [exact Hxi|]. destruct (pfx_linear H _ _ _ Hi2 Hzt) as [?|Hbad]; [assumption|].
      exfalso. destruct (wd_init w (lid_leader z)) as [iz|]; [|apply pfx_none_inv in Hbad; discriminate].
      apply (pfx_leader H Hok) in Hbad. cbn in Hl2. unfold leader_lt in Hl2. congruence.
  Qed.
  (** hence the log of every later leader has it *)
  Lemma leader_has L L' x : wd_elec w L' -> wd_com w L x -> leader_leb L L' = true -> pfx H (Some x) (wtip w L').
  Proof using Hqs HW.
    intros He Hc Hle. destruct (leader_leb L' L) eqn:Hl2.
    - assert (L' = L) as -> by (apply leader_ord_antisym; assumption). apply (wk_com _ _ HW _ _ Hc).
    - eapply (pfx_trans H); [apply (leader_complete L' He L x Hc Hl2)|]. apply (wk_elec _ _ HW _ He).
  Qed.
  (** what two leaders committed lies on one path *)
  Lemma commits_agree L x L' x' : wd_com w L x -> wd_com w L' x' -> pfx H (Some x) (Some x') \/ pfx H (Some x') (Some x).
  Proof using Hqs HW.
    intros H1 H2. pose proof (wk_com _ _ HW _ _ H1) as (E1 & _). pose proof (wk_com _ _ HW _ _ H2) as (E2 & _).
    destruct (leader_ord_total L L') as [Ht|Ht].
    - eapply (pfx_linear H); [apply (leader_has L L' x E2 H1 Ht)|apply (leader_has L' L' x' E2 H2 (leader_leb_refl _))].
    - eapply (pfx_linear H); [apply (leader_has L L x E1 H1 (leader_leb_refl _))|apply (leader_has L' L x' E1 H2 Ht)].
  Qed.
End proto.


(** ** How the record grows *)

Definition hist_le (H H' : Hist) : Prop := forall y v, H y = Some v -> H' y = Some v.
Lemma pfx_mono H H' a b : hist_le H H' -> pfx H a b -> pfx H' a b.
Proof. intros Hl. induction 1 as [|a y p pl Hy Hp IH]; [constructor|]. econstructor; [apply Hl; exact Hy|exact IH]. Qed.
Lemma pfx_back H H' a z : hist_le H H' -> pfx H None z -> pfx H' a z -> pfx H a z.
Proof.
  intros Hl Hz. remember None as o eqn:Ho. revert a. induction Hz as [x|o y p pl Hy Hp IH]; intros a Ha; subst.
  - apply pfx_none_inv in Ha as ->. constructor.
  - inversion Ha as [|a' y' p' pl' Hy' Hp']; subst; [constructor|]. rewrite (Hl _ _ Hy) in Hy'. injection Hy' as <- <-.
    econstructor; [exact Hy|]. apply IH; [reflexivity|exact Hp'].
Qed.

(** [w'] is [w] after a step of node [i] *)
Record wle (i : nat) (w w' : World) : Prop := {
  wl_hist : hist_le (wh w) (wh w');
  wl_tip : forall L, pfx (wh w') (wtip w L) (wtip w' L);
  wl_tip_f : forall L, li_node L <> i -> wtip w' L = wtip w L;
  wl_cand : forall L, wd_cand w L -> wd_cand w' L;
  wl_cand_f : forall L, wd_cand w' L -> li_node L <> i -> wd_cand w L;
  wl_init : forall L, wd_cand w L -> wd_init w' L = wd_init w L;
  wl_elec : forall L, wd_elec w L -> wd_elec w' L;
  wl_elec_f : forall L, wd_elec w' L -> li_node L <> i -> wd_elec w L;
  wl_ack : forall j L x, wd_ack w j L x -> wd_ack w' j L x;
  wl_ack_f : forall j L x, wd_ack w' j L x -> j <> i -> wd_ack w j L x;
  wl_grant : forall j L x, wd_grant w j L x -> wd_grant w' j L x;
  wl_grant_f : forall j L x, wd_grant w' j L x -> j <> i -> wd_grant w j L x;
  wl_com : forall L x, wd_com w L x -> wd_com w' L x;
  wl_com_f : forall L x, wd_com w' L x -> li_node L <> i -> wd_com w L x;
}.
Lemma wle_refl i w : wle i w w.
Proof. constructor; auto. intros y v; auto. constructor. Qed.
Lemma wle_trans i a b c : wle i a b -> wle i b c -> wle i a c.
Proof.
  intros A B. constructor.
  - intros y v Hy. apply (wl_hist _ _ _ B), (wl_hist _ _ _ A), Hy.
  - intros L. eapply pfx_trans; [eapply pfx_mono; [apply B|apply A]|apply B].
  - intros L Hn. rewrite (wl_tip_f _ _ _ B L Hn). apply (wl_tip_f _ _ _ A L Hn).
  - intros L Hc. apply (wl_cand _ _ _ B), (wl_cand _ _ _ A), Hc.
  - intros L Hc Hn. apply (wl_cand_f _ _ _ A); [|exact Hn]. apply (wl_cand_f _ _ _ B); assumption.
  - intros L Hc. rewrite (wl_init _ _ _ B); [apply (wl_init _ _ _ A), Hc|]. apply (wl_cand _ _ _ A), Hc.
  - intros L Hc. apply (wl_elec _ _ _ B), (wl_elec _ _ _ A), Hc.
  - intros L Hc Hn. apply (wl_elec_f _ _ _ A); [|exact Hn]. apply (wl_elec_f _ _ _ B); assumption.
  - intros j L x Hc. apply (wl_ack _ _ _ B), (wl_ack _ _ _ A), Hc.
  - intros j L x Hc Hn. apply (wl_ack_f _ _ _ A); [|exact Hn]. apply (wl_ack_f _ _ _ B); assumption.
  - intros j L x Hc. apply (wl_grant _ _ _ B), (wl_grant _ _ _ A), Hc.
  - intros j L x Hc Hn. apply (wl_grant_f _ _ _ A); [|exact Hn]. apply (wl_grant_f _ _ _ B); assumption.
  - intros L x Hc. apply (wl_com _ _ _ B), (wl_com _ _ _ A), Hc.
  - intros L x Hc Hn. apply (wl_com_f _ _ _ A); [|exact Hn]. apply (wl_com_f _ _ _ B); assumption.
Qed.
Lemma wle_pfx i w w' a b : wle i w w' -> pfx (wh w) a b -> pfx (wh w') a b.
Proof. intros L. apply pfx_mono, L. Qed.
Lemma wle_ackc i w w' j L m : wle i w w' -> ackc w j L m -> ackc w' j L m.
Proof. intros Hl (x & Ha & Hp). exists x. split; [apply (wl_ack _ _ _ Hl), Ha|eapply wle_pfx; eauto]. Qed.
Lemma wle_lost qs i w w' L m P : world_ok qs w -> wle i w w' -> lost w L m P -> lost w' L m P.
Proof.
  intros W Hl (M & He & Hlt & HP & Hn). exists M. split; [apply (wl_elec _ _ _ Hl), He|]. split; [exact Hlt|]. split; [exact HP|].
  destruct (wk_elec _ _ W _ He) as (Hc & _). rewrite (wl_init _ _ _ Hl _ Hc). intros Hp. apply Hn.
  eapply pfx_back; [apply Hl| |exact Hp]. apply (wk_cand _ _ W _ Hc).
Qed.
Lemma lost_impl w L m (P Q : LeaderId -> Prop) : (forall M, P M -> Q M) -> lost w L m P -> lost w L m Q.
Proof. intros HPQ (M & He & Hlt & HP & Hn). exists M. auto. Qed.
Lemma ack_rooted qs w j L x : world_ok qs w -> wd_ack w j L x -> pfx (wh w) None x.
Proof. intros W Ha. apply (wk_ack _ _ W) in Ha as [_ Hp]. eapply pfx_rooted; [apply (wk_env _ _ W)|exact Hp]. Qed.
(** what other nodes acknowledged, after the history has grown *)
Lemma ackc_back qs i w w' j L m : world_ok qs w -> wle i w w' -> (wd_ack w' j L = wd_ack w j L \/ j <> i) -> ackc w' j L m -> ackc w j L m.
Proof.
  intros W Hl Hd (x & Ha & Hp). assert (Hx : wd_ack w j L x).
  { destruct Hd as [Hd|Hd]; [rewrite <- Hd; exact Ha|eapply wl_ack_f; eauto]. }
  exists x. split; [exact Hx|]. eapply pfx_back; [apply Hl| |exact Hp]. eapply ack_rooted; eauto.
Qed.

(** *** the entry of [initialize] *)
Definition ext_first (pl : Payload) (w : World) : World :=
  mkWorld (mkEnv (fun y => if decide (y = first_id) then Some (None, pl) else wh w y) (wtip w))
    (wd_cand w) (wd_elec w) (wd_init w) (wd_ack w) (wd_grant w) (wd_com w).
(** *** an entry of leader [L] after its last one *)
Definition ext_entry (L : LeaderId) (pl : Payload) (w : World) : World :=
  let y := mkLogId L (next_index (wtip w L)) in
  mkWorld (mkEnv (fun z => if decide (z = y) then Some (wtip w L, pl) else wh w z)
                 (fun M => if decide (M = L) then Some y else wtip w M))
    (wd_cand w) (wd_elec w) (wd_init w) (wd_ack w) (wd_grant w) (wd_com w).
(** *** [L] stands for election with a log that ends at [g] *)
Definition ext_cand (L : LeaderId) (g : option LogId) (w : World) : World :=
  mkWorld (wd_env w) (fun M => wd_cand w M \/ M = L) (wd_elec w) (fun M => if decide (M = L) then g else wd_init w M)
    (wd_ack w) (fun j M x => wd_grant w j M x \/ (j = li_node L /\ M = L /\ x = g)) (wd_com w).
(** *** [L] is elected *)
Definition ext_elec (L : LeaderId) (w : World) : World :=
  mkWorld (mkEnv (wh w) (fun M => if decide (M = L) then wd_init w L else wtip w M))
    (wd_cand w) (fun M => wd_elec w M \/ M = L) (wd_init w) (wd_ack w) (wd_grant w) (wd_com w).
Definition ext_ack (i : nat) (L : LeaderId) (x : option LogId) (w : World) : World :=
  mkWorld (wd_env w) (wd_cand w) (wd_elec w) (wd_init w)
    (fun j M z => wd_ack w j M z \/ (j = i /\ M = L /\ z = x)) (wd_grant w) (wd_com w).
Definition ext_grant (i : nat) (L : LeaderId) (g : option LogId) (w : World) : World :=
  mkWorld (wd_env w) (wd_cand w) (wd_elec w) (wd_init w) (wd_ack w)
    (fun j M z => wd_grant w j M z \/ (j = i /\ M = L /\ z = g)) (wd_com w).
Definition ext_com (L : LeaderId) (x : LogId) (w : World) : World :=
  mkWorld (wd_env w) (wd_cand w) (wd_elec w) (wd_init w) (wd_ack w) (wd_grant w)
    (fun M z => wd_com w M z \/ (M = L /\ z = x)).

Section ext.
  Context (qs : list (gset nat)) (w : World) (W : world_ok qs w).

  (** a new log id at the end of a known path *)
  Lemma hist_ext_ok H y p pl : hist_ok H -> H y = None -> pfx H None p -> lid_index y = next_index p ->
    oleader_le p (lid_leader y) -> hist_ok (fun z => if decide (z = y) then Some (p, pl) else H z).
  Proof.
    intros Hok Hn Hr Hi Hl z q ql. destruct (decide (z = y)) as [->|Hz].
    - intros [= <- <-]. split; [exact Hi|]. destruct p as [x|]; [|exact I]. split; [exact Hl|].
      destruct (decide (x = y)); [eauto|]. inversion Hr; subst. eauto.
    - intros Hy. destruct (Hok _ _ _ Hy) as [H1 H2]. split; [exact H1|]. destruct q as [x|]; [|exact I].
      destruct H2 as [H2 H3]. split; [exact H2|]. destruct (decide (x = y)); [eauto|exact H3].
  Qed.
  Lemma hist_ext_le (H : Hist) y v : H y = None -> hist_le H (fun z => if decide (z = y) then Some v else H z).
  Proof. intros Hn z u Hz. destruct (decide (z = y)) as [->|]; [congruence|exact Hz]. Qed.

  Lemma ext_first_le i pl : wh w first_id = None -> wle i w (ext_first pl w).
  Proof. intros Hn. constructor; cbn; auto. apply hist_ext_le, Hn. intros L. constructor. Qed.
  Lemma ext_first_ok pl : wh w first_id = None -> world_ok qs (ext_first pl w).
  Proof using W.
    intros Hn. pose proof (ext_first_le 0 pl Hn) as Hl. destruct (wk_env _ _ W) as [Hok Ht].
    constructor.
    - split; [apply hist_ext_ok; auto; constructor|]. intros L. split; [|apply Ht]. eapply wle_pfx; [exact Hl|apply Ht].
    - intros y Hy. unfold wh in Hy. cbn in Hy. destruct (decide (y = first_id)) as [->|]; [auto|].
      destruct (wk_hist _ _ W y Hy) as [->|[H1 H2]]; [auto|]. right. split; [exact H1|]. eapply wle_pfx; eauto.
    - intros L Hc. destruct (wk_cand _ _ W L Hc) as (H1 & H2 & H3 & H4). repeat split; auto. eapply wle_pfx; eauto.
    - intros L Hc. destruct (wk_elec _ _ W L Hc) as (H1 & H2 & H3). repeat split; auto; [eapply wle_pfx; eauto|].
      intros y Hy Hne. eapply wle_pfx; [exact Hl|]. apply H3; [|exact Hne]. eapply pfx_back; [apply Hl|apply Ht|exact Hy].
    - apply W.
    - apply W.
    - intros j L x Ha. destruct (wk_ack _ _ W _ _ _ Ha) as [H1 H2]. split; [exact H1|]. eapply wle_pfx; eauto.
    - intros L x Hc. destruct (wk_com _ _ W _ _ Hc) as (H1 & H2 & H3 & A & H4 & H5). split; [exact H1|]. split; [exact H2|].
      split; [eapply wle_pfx; eauto|]. exists A. split; [exact H4|]. intros j Hj. eapply wle_ackc; eauto.
    - intros j L L' m g Ha Hg Hlt. eapply ackc_back in Ha; [|exact W|exact Hl|auto].
      destruct (wk_keep _ _ W _ _ _ _ _ Ha Hg Hlt) as [Hp|Hp]; [left; eapply wle_pfx; eauto|right; eapply wle_lost; eauto].
  Qed.

  Lemma entry_fresh L : wd_elec w L -> wh w (mkLogId L (next_index (wtip w L))) = None.
  Proof using W.
    intros He. destruct (wh w _) as [v|] eqn:Hy; [|reflexivity]. exfalso. destruct (wk_env _ _ W) as [Hok Ht].
    destruct (wk_hist _ _ W (mkLogId L (next_index (wtip w L)))) as [Hf|[_ Hp]]; [eauto| |].
    - destruct (wk_elec _ _ W _ He) as (Hc & _). apply (wk_cand _ _ W) in Hc as [Hc _]. injection Hf as -> _. apply Hc. reflexivity.
    - cbn in Hp. apply (pfx_idx _ Hok) in Hp. cbn in Hp. lia.
  Qed.
  Lemma ext_entry_le L pl : wd_elec w L -> wle (li_node L) w (ext_entry L pl w).
  Proof using W.
    intros He. pose proof (entry_fresh L He) as Hf. constructor; cbn; auto.
    - apply hist_ext_le, Hf.
    - intros M. unfold wtip at 2. cbn. destruct (decide (M = L)) as [->|]; [|constructor].
      eapply pfx_step; [|constructor]. unfold wh. cbn. rewrite decide_True by reflexivity. reflexivity.
    - intros M Hn. unfold wtip at 1. cbn. destruct (decide (M = L)) as [->|]; [congruence|reflexivity].
  Qed.
  Lemma ext_entry_tip L pl : wtip (ext_entry L pl w) L = Some (mkLogId L (next_index (wtip w L))).
  Proof. unfold wtip at 1. cbn. rewrite decide_True by reflexivity. reflexivity. Qed.
  Lemma ext_entry_hist L pl : wh (ext_entry L pl w) (mkLogId L (next_index (wtip w L))) = Some (wtip w L, pl).
  Proof. unfold wh at 1. cbn. rewrite decide_True by reflexivity. reflexivity. Qed.
  Lemma ext_entry_ok L pl : wd_elec w L -> world_ok qs (ext_entry L pl w).
  Proof using W.
    intros He. pose proof (ext_entry_le L pl He) as Hl. pose proof (entry_fresh L He) as Hf. destruct (wk_env _ _ W) as [Hok Ht].
    pose proof (ext_entry_tip L pl) as Etip. pose proof (ext_entry_hist L pl) as Ehist.
    set (y := mkLogId L (next_index (wtip w L))) in *.
    assert (Hy : pfx (wh (ext_entry L pl w)) (wtip w L) (Some y)) by (eapply pfx_step; [exact Ehist|constructor]).
    assert (Hle : oleader_le (wtip w L) L) by apply Ht.
    assert (Hok' : hist_ok (wh (ext_entry L pl w))) by (apply hist_ext_ok; auto; apply Ht).
    constructor.
    - split; [exact Hok'|]. intros M. destruct (decide (M = L)) as [->|Hn].
      + change (ev_tip (wd_env (ext_entry L pl w)) L) with (wtip (ext_entry L pl w) L). rewrite Etip. split.
        * eapply pfx_trans; [|exact Hy]. eapply wle_pfx; [exact Hl|apply Ht].
        * cbn. apply leader_leb_refl.
      + assert (EM : wtip (ext_entry L pl w) M = wtip w M) by (unfold wtip at 1; cbn; destruct (decide (M = L)); [congruence|reflexivity]).
        change (ev_tip (wd_env (ext_entry L pl w)) M) with (wtip (ext_entry L pl w) M). rewrite EM.
        split; [|apply Ht]. eapply wle_pfx; [exact Hl|apply Ht].
    - intros z Hz. unfold wh in Hz. cbn in Hz. fold y in Hz. destruct (decide (z = y)) as [->|Hn].
      + right. split; [exact He|]. cbn [y lid_leader]. rewrite Etip. constructor.
      + destruct (wk_hist _ _ W z Hz) as [->|[H1 H2]]; [auto|]. right. split; [exact H1|].
        eapply pfx_trans; [eapply wle_pfx; [exact Hl|exact H2]|apply Hl].
    - intros M Hc. destruct (wk_cand _ _ W M Hc) as (H1 & H2 & H3 & H4). repeat split; auto. eapply wle_pfx; eauto.
    - intros M Hc. destruct (wk_elec _ _ W M Hc) as (H1 & H2 & H3). repeat split; auto.
      + eapply pfx_trans; [eapply wle_pfx; [exact Hl|exact H2]|apply Hl].
      + intros z Hz Hne. eapply wle_pfx; [exact Hl|]. apply H3; [|exact Hne].
        eapply pfx_back; [apply Hl|apply Ht|]. destruct (decide (M = L)) as [->|Hn].
        * rewrite Etip in Hz. inversion Hz as [|? ? ? ? Hz1 Hz2]; subst; [destruct Hne; reflexivity|].
          rewrite Ehist in Hz1. injection Hz1 as <- <-. exact Hz2.
        * unfold wtip in Hz at 1. cbn in Hz. destruct (decide (M = L)); [congruence|]. exact Hz.
    - intros M. unfold wtip at 1. cbn. destruct (decide (M = L)) as [->|]; [right; exact He|]. apply (wk_tip0 _ _ W).
    - apply W.
    - intros j M x Ha. destruct (wk_ack _ _ W _ _ _ Ha) as [H1 H2]. split; [exact H1|].
      eapply pfx_trans; [eapply wle_pfx; [exact Hl|exact H2]|apply Hl].
    - intros M x Hc. destruct (wk_com _ _ W _ _ Hc) as (H1 & H2 & H3 & A & H4 & H5). split; [exact H1|]. split; [exact H2|].
      split; [eapply pfx_trans; [eapply wle_pfx; [exact Hl|exact H3]|apply Hl]|]. exists A. split; [exact H4|]. intros j Hj. eapply wle_ackc; eauto.
    - intros j M L' m g Ha Hg Hlt. eapply ackc_back in Ha; [|exact W|exact Hl|auto].
      destruct (wk_keep _ _ W _ _ _ _ _ Ha Hg Hlt) as [Hp|Hp]; [left; eapply wle_pfx; eauto|right; eapply wle_lost; eauto].
  Qed.

  Lemma ext_cand_le L g : ~ wd_cand w L -> wle (li_node L) w (ext_cand L g w).
  Proof.
    intros Hn. constructor; cbn; auto.
    - intros y v; auto.
    - intros M. constructor.
    - intros M [Hc| ->] Hne; [exact Hc|congruence].
    - intros M Hc. destruct (decide (M = L)) as [->|]; [contradiction|reflexivity].
    - intros j M x [Hc|(-> & _)] Hne; [exact Hc|congruence].
  Qed.
  Lemma ext_cand_ok L g : ~ wd_cand w L -> li_term L <> 0 -> pfx (wh w) None g -> oleader_lt g L ->
    (forall L0 m, ackc w (li_node L) L0 m -> leader_lt L0 L -> pfx (wh w) m g \/ lost w L0 m (fun M => leader_lt M L)) ->
    world_ok qs (ext_cand L g w).
  Proof using W.
    intros Hn Ht Hr Ho Hk. pose proof (ext_cand_le L g Hn) as Hl.
    assert (Hne : forall M, wd_cand w M -> M <> L) by congruence.
    assert (Hi : forall M, wd_cand w M -> wd_init (ext_cand L g w) M = wd_init w M) by apply Hl.
    constructor.
    - apply W.
    - apply W.
    - intros M [Hc| ->].
      + rewrite (Hi M Hc). destruct (wk_cand _ _ W M Hc) as (H1 & H2 & H3 & H4). repeat split; auto. left. exact H4.
      + cbn. destruct (decide (L = L)); [|congruence]. repeat split; auto.
    - intros M He. destruct (wk_elec _ _ W M He) as (H1 & H2 & H3). rewrite (Hi M H1). repeat split; auto. left. exact H1.
    - apply W.
    - intros M He. destruct (wk_elec _ _ W M He) as (H1 & _). rewrite (Hi M H1).
      destruct (wk_quorum _ _ W M He) as (G & QG & HG). exists G. split; [exact QG|]. intros j Hj. destruct (HG j Hj) as (x & H2 & H3).
      exists x. split; [left; exact H2|exact H3].
    - apply W.
    - intros M x Hc. destruct (wk_com _ _ W _ _ Hc) as (H1 & H2 & H3 & A & H4 & H5). split; [exact H1|]. split; [exact H2|].
      split; [exact H3|]. exists A. split; [exact H4|]. intros j Hj. eapply wle_ackc; eauto.
    - intros j M L' m x Ha Hg Hlt. eapply ackc_back in Ha; [|exact W|exact Hl|auto].
      destruct Hg as [Hg|(-> & -> & ->)].
      + destruct (wk_keep _ _ W _ _ _ _ _ Ha Hg Hlt) as [Hp|Hp]; [left; exact Hp|right; eapply wle_lost; eauto].
      + destruct (Hk _ _ Ha Hlt) as [Hp|Hp]; [left; exact Hp|right; eapply wle_lost; eauto].
  Qed.

  Lemma ext_elec_le L : wd_cand w L -> ~ wd_elec w L -> wle (li_node L) w (ext_elec L w).
  Proof using W.
    intros Hc Hn. constructor; cbn; auto.
    - intros y v; auto.
    - intros M. unfold wtip at 2. cbn. destruct (decide (M = L)) as [->|]; [|constructor].
      destruct (wk_tip0 _ _ W L) as [->|?]; [|contradiction]. apply (wk_cand _ _ W L Hc).
    - intros M Hne. unfold wtip at 1. cbn. destruct (decide (M = L)) as [->|]; [congruence|reflexivity].
    - intros M [He| ->] Hne; [exact He|congruence].
  Qed.
  Lemma ext_elec_tip L : wtip (ext_elec L w) L = wd_init w L.
  Proof. unfold wtip at 1. cbn. rewrite decide_True by reflexivity. reflexivity. Qed.
  Lemma ext_elec_ok L G : wd_cand w L -> ~ wd_elec w L -> quorum qs G ->
    (forall j, j ∈ G -> exists g, wd_grant w j L g /\ ologid_leb g (wd_init w L) = true) ->
    world_ok qs (ext_elec L w).
  Proof using W.
    intros Hc Hn QG HG. pose proof (ext_elec_le L Hc Hn) as Hl. pose proof (ext_elec_tip L) as Etip.
    destruct (wk_cand _ _ W L Hc) as (C1 & C2 & C3 & C4).
    assert (Hti : forall M, wd_elec w M -> wtip (ext_elec L w) M = wtip w M).
    { intros M HM. unfold wtip at 1. cbn. destruct (decide (M = L)) as [->|]; [contradiction|reflexivity]. }
    constructor.
    - destruct (wk_env _ _ W) as [Hok Ht]. split; [exact Hok|]. intros M. cbn. destruct (decide (M = L)) as [->|]; [|apply Ht].
      split; [exact C2|]. destruct (wd_init w L) as [z|]; [|exact I]. cbn in *. unfold leader_lt in C3.
      destruct (leader_ord_total (lid_leader z) L); congruence.
    - intros y Hy. destruct (wk_hist _ _ W y Hy) as [->|[H1 H2]]; [auto|]. right. split; [left; exact H1|]. rewrite (Hti _ H1). exact H2.
    - apply W.
    - intros M [He| ->].
      + destruct (wk_elec _ _ W M He) as (H1 & H2 & H3). rewrite (Hti M He). repeat split; auto.
      + rewrite Etip. repeat split; auto. constructor.
    - intros M. destruct (decide (M = L)) as [->|Hne]; [right; right; reflexivity|].
      destruct (wk_tip0 _ _ W M) as [Hm|Hm]; [|right; left; exact Hm]. left. unfold wtip. cbn. destruct (decide (M = L)); [congruence|exact Hm].
    - intros M [He| ->]; [apply (wk_quorum _ _ W M He)|]. exists G. split; [exact QG|exact HG].
    - intros j M x Ha. destruct (wk_ack _ _ W _ _ _ Ha) as [H1 H2]. split; [left; exact H1|]. rewrite (Hti _ H1). exact H2.
    - intros M x Hcm. destruct (wk_com _ _ W _ _ Hcm) as (H1 & H2 & H3 & H4). split; [left; exact H1|]. split; [exact H2|].
      split; [rewrite (Hti _ H1); exact H3|]. exact H4.
    - intros j M L' m x Ha Hg Hlt. destruct (wk_keep _ _ W _ _ _ _ _ Ha Hg Hlt) as [Hp|Hp]; [left; exact Hp|right; eapply wle_lost; eauto].
  Qed.

  Lemma ext_ack_le i L x : wle i w (ext_ack i L x w).
  Proof.
    constructor; cbn; auto; [intros y v; auto|intros M; constructor|]. intros j M z [Ha|(-> & _)] Hn; [exact Ha|congruence].
  Qed.
  Lemma ext_ack_ok i L x : wd_elec w L -> pfx (wh w) x (wtip w L) -> (forall L' g, wd_grant w i L' g -> ~ leader_lt L L') ->
    world_ok qs (ext_ack i L x w).
  Proof using W.
    intros He Hx Hg. pose proof (ext_ack_le i L x) as Hl. constructor; try apply W.
    - intros j M z [Ha|(-> & -> & ->)]; [apply (wk_ack _ _ W _ _ _ Ha)|auto].
    - intros M z Hc. destruct (wk_com _ _ W _ _ Hc) as (H1 & H2 & H3 & A & H4 & H5). split; [exact H1|]. split; [exact H2|].
      split; [exact H3|]. exists A. split; [exact H4|]. intros j Hj. eapply wle_ackc; eauto.
    - intros j M L' m g (z & [Ha|(-> & -> & ->)] & Hp) Hgr Hlt.
      + assert (Hac : ackc w j M m) by (exists z; auto).
        destruct (wk_keep _ _ W _ _ _ _ _ Hac Hgr Hlt) as [?|?]; [left; assumption|right; eapply wle_lost; eauto].
      + destruct (Hg _ _ Hgr Hlt).
  Qed.
  Lemma ext_grant_le i L g : wle i w (ext_grant i L g w).
  Proof.
    constructor; cbn; auto; [intros y v; auto|intros M; constructor|]. intros j M z [Ha|(-> & _)] Hn; [exact Ha|congruence].
  Qed.
  Lemma ext_grant_ok i L g :
    (forall L0 m, ackc w i L0 m -> leader_lt L0 L -> pfx (wh w) m g \/ lost w L0 m (fun M => leader_lt M L)) ->
    world_ok qs (ext_grant i L g w).
  Proof using W.
    intros Hk. pose proof (ext_grant_le i L g) as Hl. constructor; try apply W.
    - intros M Hc. destruct (wk_cand _ _ W M Hc) as (H1 & H2 & H3 & H4). repeat split; auto. left. exact H4.
    - intros M He. destruct (wk_quorum _ _ W M He) as (G & QG & HG). exists G. split; [exact QG|]. intros j Hj.
      destruct (HG j Hj) as (x & H2 & H3). exists x. split; [left; exact H2|exact H3].
    - intros j M L' m x Ha [Hg|(-> & -> & ->)] Hlt.
      + destruct (wk_keep _ _ W _ _ _ _ _ Ha Hg Hlt) as [?|?]; [left; assumption|right; eapply wle_lost; eauto].
      + destruct (Hk _ _ Ha Hlt) as [?|?]; [left; assumption|right; eapply wle_lost; eauto].
  Qed.
  Lemma ext_com_le i L x : li_node L = i -> wle i w (ext_com L x w).
  Proof.
    intros HL. constructor; cbn; auto; [intros y v; auto|intros M; constructor|]. intros M z [Hc|[-> ->]] Hn; [exact Hc|congruence].
  Qed.
  Lemma ext_com_ok L x A : wd_elec w L -> lid_leader x = L -> pfx (wh w) (Some x) (wtip w L) -> quorum qs A ->
    (forall j, j ∈ A -> ackc w j L (Some x)) -> world_ok qs (ext_com L x w).
  Proof using W.
    intros He Hlx Hx QA HA. constructor; try apply W.
    - intros M z [Hc|(-> & ->)]; [|split; [exact He|]; split; [exact Hlx|]; split; [exact Hx|]; exists A; auto].
      apply (wk_com _ _ W _ _ Hc).
  Qed.
End ext.
