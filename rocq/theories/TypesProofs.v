(** Facts about the orders of [Types.v], and the tactic [ord] that decides
    goals about them. *)
From Verif Require Import Types.
From stdpp Require Import base numbers list gmap option.
From Coq Require Import Bool Lia ZifyBool ZifyNat.

Lemma cmp_cases (x y : nat) :
  (Nat.compare x y = Eq /\ x = y) \/ (Nat.compare x y = Lt /\ x < y) \/
  (Nat.compare x y = Gt /\ y < x).
Proof. destruct (Nat.compare_spec x y); auto. Qed.

Lemma leader_ltb_true a b :
  leader_ltb a b = true <->
  li_term a < li_term b \/ (li_term a = li_term b /\ li_node a < li_node b).
Proof.
  unfold leader_ltb, leader_cmp.
  destruct (cmp_cases (li_term a) (li_term b)) as [[EH H]|[[EH H]|[EH H]]]; rewrite ?EH; cbn;
  destruct (cmp_cases (li_node a) (li_node b)) as [[EH' H']|[[EH' H']|[EH' H']]]; rewrite ?EH'; cbn; split; try lia; try congruence.
Qed.
Lemma leader_leb_true a b :
  leader_leb a b = true <->
  li_term a < li_term b \/ (li_term a = li_term b /\ li_node a <= li_node b).
Proof.
  unfold leader_leb, leader_cmp.
  destruct (cmp_cases (li_term a) (li_term b)) as [[EH H]|[[EH H]|[EH H]]]; rewrite ?EH; cbn;
  destruct (cmp_cases (li_node a) (li_node b)) as [[EH' H']|[[EH' H']|[EH' H']]]; rewrite ?EH'; cbn; split; try lia; try congruence.
Qed.
Lemma leader_eqb_true a b :
  leader_eqb a b = true <-> (li_term a = li_term b /\ li_node a = li_node b).
Proof. unfold leader_eqb. rewrite andb_true_iff, !Nat.eqb_eq. tauto. Qed.
Lemma leader_eq_iff (a b : LeaderId) :
  a = b <-> (li_term a = li_term b /\ li_node a = li_node b).
Proof. destruct a, b; cbn. split; [by intros [= -> ->]|by intros [-> ->]]. Qed.

Lemma logid_ltb_true a b :
  logid_ltb a b = true <->
  (li_term (lid_leader a) < li_term (lid_leader b) \/
   (li_term (lid_leader a) = li_term (lid_leader b) /\
    (li_node (lid_leader a) < li_node (lid_leader b) \/
     (li_node (lid_leader a) = li_node (lid_leader b) /\ lid_index a < lid_index b)))).
Proof.
  unfold logid_ltb, logid_cmp, leader_cmp.
  destruct (cmp_cases (li_term (lid_leader a)) (li_term (lid_leader b))) as [[EH H]|[[EH H]|[EH H]]]; rewrite ?EH; cbn;
  destruct (cmp_cases (li_node (lid_leader a)) (li_node (lid_leader b))) as [[EH' H']|[[EH' H']|[EH' H']]]; rewrite ?EH'; cbn;
  destruct (cmp_cases (lid_index a) (lid_index b)) as [[EH'' H'']|[[EH'' H'']|[EH'' H'']]]; rewrite ?EH''; cbn;
  split; try lia; try congruence.
Qed.
Lemma logid_leb_true a b :
  logid_leb a b = true <->
  (li_term (lid_leader a) < li_term (lid_leader b) \/
   (li_term (lid_leader a) = li_term (lid_leader b) /\
    (li_node (lid_leader a) < li_node (lid_leader b) \/
     (li_node (lid_leader a) = li_node (lid_leader b) /\ lid_index a <= lid_index b)))).
Proof.
  unfold logid_leb, logid_cmp, leader_cmp.
  destruct (cmp_cases (li_term (lid_leader a)) (li_term (lid_leader b))) as [[EH H]|[[EH H]|[EH H]]]; rewrite ?EH; cbn;
  destruct (cmp_cases (li_node (lid_leader a)) (li_node (lid_leader b))) as [[EH' H']|[[EH' H']|[EH' H']]]; rewrite ?EH'; cbn;
  destruct (cmp_cases (lid_index a) (lid_index b)) as [[EH'' H'']|[[EH'' H'']|[EH'' H'']]]; rewrite ?EH''; cbn;
  split; try lia; try congruence.
Qed.
Lemma logid_eq_iff (a b : LogId) :
  a = b <-> (li_term (lid_leader a) = li_term (lid_leader b) /\
             li_node (lid_leader a) = li_node (lid_leader b) /\ lid_index a = lid_index b).
Proof. destruct a as [[] ?], b as [[] ?]; cbn. split; [by intros [= -> -> ->]|by intros (-> & -> & ->)]. Qed.
Lemma logid_eqb_true a b : logid_eqb a b = true <-> a = b.
Proof.
  unfold logid_eqb. rewrite andb_true_iff, leader_eqb_true, Nat.eqb_eq, logid_eq_iff. tauto.
Qed.

Lemma logid_cmp_eq a b : logid_cmp a b = Eq <-> a = b.
Proof.
  rewrite logid_eq_iff. unfold logid_cmp, leader_cmp.
  destruct (cmp_cases (li_term (lid_leader a)) (li_term (lid_leader b))) as [[EH H]|[[EH H]|[EH H]]]; rewrite ?EH; cbn;
  destruct (cmp_cases (li_node (lid_leader a)) (li_node (lid_leader b))) as [[EH' H']|[[EH' H']|[EH' H']]]; rewrite ?EH'; cbn;
  destruct (cmp_cases (lid_index a) (lid_index b)) as [[EH'' H'']|[[EH'' H'']|[EH'' H'']]]; rewrite ?EH''; cbn;
  split; try lia; try congruence.
Qed.

(** option log ids *)
Lemma ologid_ltb_NN : ologid_ltb None None = false. Proof. done. Qed.
Lemma ologid_ltb_NS b : ologid_ltb None (Some b) = true. Proof. done. Qed.
Lemma ologid_ltb_SN a : ologid_ltb (Some a) None = false. Proof. done. Qed.
Lemma ologid_ltb_SS a b : ologid_ltb (Some a) (Some b) = logid_ltb a b. Proof. done. Qed.
Lemma ologid_leb_N b : ologid_leb None b = true. Proof. by destruct b. Qed.
Lemma ologid_leb_SN a : ologid_leb (Some a) None = false. Proof. done. Qed.
Lemma ologid_leb_SS a b : ologid_leb (Some a) (Some b) = logid_leb a b. Proof. done. Qed.
Lemma ologid_eqb_true a b : ologid_eqb a b = true <-> a = b.
Proof.
  unfold ologid_eqb, ologid_cmp.
  destruct a as [a|], b as [b|]; cbn; split; try done.
  - intros H. f_equal. apply logid_cmp_eq. destruct (logid_cmp a b); cbn in *; congruence.
  - intros [= ->]. by rewrite (proj2 (logid_cmp_eq b b)).
Qed.

Lemma onat_leb_N b : onat_leb None b = true. Proof. by destruct b. Qed.
Lemma onat_leb_SN a : onat_leb (Some a) None = false. Proof. done. Qed.
Lemma onat_leb_SS a b : onat_leb (Some a) (Some b) = (a <=? b).
Proof.
  unfold onat_leb, onat_cmp. cbn.
  destruct (cmp_cases a b) as [[EH H]|[[EH H]|[EH H]]]; rewrite ?EH; cbn; symmetry; lia.
Qed.
Lemma onat_ltb_NN : onat_ltb None None = false. Proof. done. Qed.
Lemma onat_ltb_NS b : onat_ltb None (Some b) = true. Proof. done. Qed.
Lemma onat_ltb_SN a : onat_ltb (Some a) None = false. Proof. done. Qed.
Lemma onat_ltb_SS a b : onat_ltb (Some a) (Some b) = (a <? b).
Proof.
  unfold onat_ltb, onat_cmp. cbn [opt_cmp].
  destruct (cmp_cases a b) as [[EH H]|[[EH H]|[EH H]]]; rewrite ?EH; cbn [cmp_eqb]; symmetry; lia.
Qed.

(** votes *)
Lemma vote_geb_true a b :
  vote_geb a b = true <->
  (li_term (v_leader b) < li_term (v_leader a) \/
   (li_term (v_leader b) = li_term (v_leader a) /\
    (li_node (v_leader b) < li_node (v_leader a) \/
     (li_node (v_leader b) = li_node (v_leader a) /\
      (v_committed b = false \/ v_committed a = true))))).
Proof.
  unfold vote_geb, vote_pcmp, vote_pcmp_of, leader_cmp.
  destruct (cmp_cases (li_term (v_leader a)) (li_term (v_leader b))) as [[EH H]|[[EH H]|[EH H]]]; rewrite ?EH; cbn;
  destruct (cmp_cases (li_node (v_leader a)) (li_node (v_leader b))) as [[EH' H']|[[EH' H']|[EH' H']]]; rewrite ?EH'; cbn;
  destruct (v_committed a), (v_committed b); cbn; split; try lia; try congruence.
Qed.
Lemma vote_gtb_true a b :
  vote_gtb a b = true <->
  (li_term (v_leader b) < li_term (v_leader a) \/
   (li_term (v_leader b) = li_term (v_leader a) /\
    (li_node (v_leader b) < li_node (v_leader a) \/
     (li_node (v_leader b) = li_node (v_leader a) /\
      (v_committed b = false /\ v_committed a = true))))).
Proof.
  unfold vote_gtb, vote_pcmp, vote_pcmp_of, leader_cmp.
  destruct (cmp_cases (li_term (v_leader a)) (li_term (v_leader b))) as [[EH H]|[[EH H]|[EH H]]]; rewrite ?EH; cbn;
  destruct (cmp_cases (li_node (v_leader a)) (li_node (v_leader b))) as [[EH' H']|[[EH' H']|[EH' H']]]; rewrite ?EH'; cbn;
  destruct (v_committed a), (v_committed b); cbn; split; try lia; try congruence.
Qed.
Lemma vote_eq_iff (a b : Vote) :
  a = b <-> (li_term (v_leader a) = li_term (v_leader b) /\
             li_node (v_leader a) = li_node (v_leader b) /\ v_committed a = v_committed b).
Proof. destruct a as [[] ?], b as [[] ?]; cbn. split; [by intros [= -> -> ->]|by intros (-> & -> & ->)]. Qed.
Lemma vote_eqb_true a b : vote_eqb a b = true <-> a = b.
Proof.
  unfold vote_eqb. rewrite andb_true_iff, leader_eqb_true, Bool.eqb_true_iff, vote_eq_iff. tauto.
Qed.
Lemma vote_pcmp_total a b : exists c, vote_pcmp a b = PC (Some c).
Proof.
  unfold vote_pcmp, vote_pcmp_of. destruct (leader_cmp _ _); eauto.
Qed.

Lemma not_true_is_false_iff (b : bool) (P : Prop) : (b = true <-> P) -> (b = false <-> ~ P).
Proof. destruct b; intros [H1 H2]; split; intros H3; try done; [exfalso; auto|intros H4; by apply H2 in H4]. Qed.
Definition leader_ltb_false a b := not_true_is_false_iff _ _ (leader_ltb_true a b).
Definition leader_leb_false a b := not_true_is_false_iff _ _ (leader_leb_true a b).
Definition leader_eqb_false a b := not_true_is_false_iff _ _ (leader_eqb_true a b).
Definition logid_ltb_false a b := not_true_is_false_iff _ _ (logid_ltb_true a b).
Definition logid_leb_false a b := not_true_is_false_iff _ _ (logid_leb_true a b).
Definition logid_eqb_false a b := not_true_is_false_iff _ _ (logid_eqb_true a b).
Definition vote_geb_false a b := not_true_is_false_iff _ _ (vote_geb_true a b).
Definition vote_gtb_false a b := not_true_is_false_iff _ _ (vote_gtb_true a b).
Definition vote_eqb_false a b := not_true_is_false_iff _ _ (vote_eqb_true a b).
Definition ologid_eqb_false a b := not_true_is_false_iff _ _ (ologid_eqb_true a b).

(** [ord]: decide goals about the orders; destructs options that occur under
    [ologid_*]. *)
Ltac ord_opt :=
  repeat match goal with
  | |- context [ologid_max ?a ?b] => unfold ologid_max
  | H : context [ologid_max ?a ?b] |- _ => unfold ologid_max in H
  | |- context [ologid_min ?a ?b] => unfold ologid_min
  | H : context [ologid_min ?a ?b] |- _ => unfold ologid_min in H
  end;
  repeat match goal with
  | H : ?a = ?b |- _ =>
      match type of a with option LogId =>
        (is_var a + is_var b); subst
      end
  end;
  repeat match goal with
  | |- context [ologid_ltb ?a _] => is_var a; destruct a
  | |- context [ologid_ltb _ ?a] => is_var a; destruct a
  | |- context [ologid_leb ?a _] => is_var a; destruct a
  | |- context [ologid_leb _ ?a] => is_var a; destruct a
  | |- context [next_index ?a] => is_var a; destruct a
  | H : context [next_index ?a] |- _ => is_var a; destruct a
  | H : context [ologid_ltb ?a _] |- _ => is_var a; destruct a
  | H : context [ologid_ltb _ ?a] |- _ => is_var a; destruct a
  | H : context [ologid_leb ?a _] |- _ => is_var a; destruct a
  | H : context [ologid_leb _ ?a] |- _ => is_var a; destruct a
  end;
  cbn [next_index olid_index] in *;
  rewrite ?ologid_ltb_NN, ?ologid_ltb_NS, ?ologid_ltb_SN, ?ologid_ltb_SS,
    ?ologid_leb_N, ?ologid_leb_SN, ?ologid_leb_SS,
    ?onat_leb_N, ?onat_leb_SN, ?onat_leb_SS,
    ?onat_ltb_NN, ?onat_ltb_NS, ?onat_ltb_SN, ?onat_ltb_SS in *.

Ltac ord_hyps :=
  repeat match goal with
  | H : leader_ltb _ _ = true |- _ => apply leader_ltb_true in H
  | H : leader_ltb _ _ = false |- _ => apply leader_ltb_false in H
  | H : leader_leb _ _ = true |- _ => apply leader_leb_true in H
  | H : leader_leb _ _ = false |- _ => apply leader_leb_false in H
  | H : leader_eqb _ _ = true |- _ => apply leader_eqb_true in H
  | H : leader_eqb _ _ = false |- _ => apply leader_eqb_false in H
  | H : logid_ltb _ _ = true |- _ => apply logid_ltb_true in H
  | H : logid_ltb _ _ = false |- _ => apply logid_ltb_false in H
  | H : logid_leb _ _ = true |- _ => apply logid_leb_true in H
  | H : logid_leb _ _ = false |- _ => apply logid_leb_false in H
  | H : logid_eqb _ _ = true |- _ => apply logid_eqb_true in H
  | H : logid_eqb _ _ = false |- _ => apply logid_eqb_false in H
  | H : ologid_eqb _ _ = true |- _ => apply ologid_eqb_true in H
  | H : ologid_eqb _ _ = false |- _ => apply ologid_eqb_false in H
  | H : vote_geb _ _ = true |- _ => apply vote_geb_true in H
  | H : vote_geb _ _ = false |- _ => apply vote_geb_false in H
  | H : vote_gtb _ _ = true |- _ => apply vote_gtb_true in H
  | H : vote_gtb _ _ = false |- _ => apply vote_gtb_false in H
  | H : vote_eqb _ _ = true |- _ => apply vote_eqb_true in H
  | H : vote_eqb _ _ = false |- _ => apply vote_eqb_false in H
  | H : is_same_leader _ _ = true |- _ => apply leader_eqb_true in H
  | H : is_same_leader _ _ = false |- _ => apply leader_eqb_false in H
  | H : @eq LeaderId ?a ?b |- _ => apply leader_eq_iff in H
  | H : @eq LogId ?a ?b |- _ => apply logid_eq_iff in H
  | H : @eq Vote ?a ?b |- _ => apply vote_eq_iff in H
  | H : ~ (@eq LeaderId ?a ?b) |- _ => rewrite leader_eq_iff in H
  | H : ~ (@eq LogId ?a ?b) |- _ => rewrite logid_eq_iff in H
  | H : ~ (@eq Vote ?a ?b) |- _ => rewrite vote_eq_iff in H
  end.
Ltac ord_goal :=
  match goal with
  | |- leader_ltb _ _ = true => apply leader_ltb_true
  | |- leader_ltb _ _ = false => apply leader_ltb_false
  | |- leader_leb _ _ = true => apply leader_leb_true
  | |- leader_leb _ _ = false => apply leader_leb_false
  | |- leader_eqb _ _ = true => apply leader_eqb_true
  | |- leader_eqb _ _ = false => apply leader_eqb_false
  | |- logid_ltb _ _ = true => apply logid_ltb_true
  | |- logid_ltb _ _ = false => apply logid_ltb_false
  | |- logid_leb _ _ = true => apply logid_leb_true
  | |- logid_leb _ _ = false => apply logid_leb_false
  | |- logid_eqb _ _ = true => apply logid_eqb_true, logid_eq_iff
  | |- logid_eqb _ _ = false => apply logid_eqb_false; rewrite logid_eq_iff
  | |- vote_geb _ _ = true => apply vote_geb_true
  | |- vote_geb _ _ = false => apply vote_geb_false
  | |- vote_gtb _ _ = true => apply vote_gtb_true
  | |- vote_gtb _ _ = false => apply vote_gtb_false
  | |- vote_eqb _ _ = true => apply vote_eqb_true, vote_eq_iff
  | |- vote_eqb _ _ = false => apply vote_eqb_false; rewrite vote_eq_iff
  | |- is_same_leader _ _ = true => apply leader_eqb_true
  | |- is_same_leader _ _ = false => apply leader_eqb_false
  | |- @eq LeaderId _ _ => apply leader_eq_iff
  | |- @eq LogId _ _ => apply logid_eq_iff
  | |- @eq Vote _ _ => apply vote_eq_iff
  | |- @eq (option LogId) (Some _) (Some _) => f_equal; apply logid_eq_iff
  | |- ~ (@eq LogId _ _) => rewrite logid_eq_iff
  | |- ~ (@eq Vote _ _) => rewrite vote_eq_iff
  | |- ~ (@eq LeaderId _ _) => rewrite leader_eq_iff
  | |- _ => idtac
  end.
Ltac ord_core :=
  ord_opt;
  repeat match goal with
  | H : @eq (option LogId) (Some _) (Some _) |- _ => injection H as H
  | H : @eq (option LogId) (Some _) None |- _ => discriminate H
  | H : @eq (option LogId) None (Some _) |- _ => discriminate H
  end;
  ord_hyps; cbn [li_term li_node lid_leader lid_index v_leader v_committed vote_new into_committed vote_default] in *.
Ltac ord :=
  intros; ord_core; try done;
  first [ done | ord_goal; cbn [li_term li_node lid_leader lid_index v_leader v_committed vote_new into_committed vote_default] in *; lia
        | exfalso; lia ].

(** Laws of the log-id order. *)
Lemma logid_leb_refl a : logid_leb a a = true. Proof. ord. Qed.
Lemma logid_leb_trans a b c : logid_leb a b = true -> logid_leb b c = true -> logid_leb a c = true.
Proof. ord. Qed.
Lemma logid_leb_antisym a b : logid_leb a b = true -> logid_leb b a = true -> a = b.
Proof. ord. Qed.
Lemma logid_leb_total a b : logid_leb a b = true \/ logid_leb b a = true.
Proof. destruct (logid_leb a b) eqn:E; auto. right. ord. Qed.
Lemma logid_ltb_irrefl a : logid_ltb a a = false. Proof. ord. Qed.
Lemma logid_ltb_leb a b : logid_ltb a b = true -> logid_leb a b = true. Proof. ord. Qed.
Lemma logid_ltb_negb a b : logid_ltb a b = negb (logid_leb b a).
Proof. destruct (logid_leb b a) eqn:E; cbn; ord. Qed.

Lemma ologid_leb_refl a : ologid_leb a a = true. Proof. ord. Qed.
Lemma ologid_leb_trans a b c : ologid_leb a b = true -> ologid_leb b c = true -> ologid_leb a c = true.
Proof. ord. Qed.
Lemma ologid_leb_antisym a b : ologid_leb a b = true -> ologid_leb b a = true -> a = b.
Proof. ord. Qed.
Lemma ologid_ltb_negb a b : ologid_ltb a b = negb (ologid_leb b a).
Proof. destruct (ologid_leb b a) eqn:E; cbn; ord. Qed.
Lemma ologid_ltb_leb a b : ologid_ltb a b = true -> ologid_leb a b = true. Proof. ord. Qed.
Lemma ologid_leb_total a b : ologid_leb a b = true \/ ologid_leb b a = true.
Proof. destruct (ologid_leb a b) eqn:E; auto. right. ord. Qed.
Lemma ologid_max_leb_l a b : ologid_leb a (ologid_max a b) = true.
Proof. unfold ologid_max. destruct (ologid_ltb a b) eqn:E; ord. Qed.
Lemma ologid_max_leb_r a b : ologid_leb b (ologid_max a b) = true.
Proof. unfold ologid_max. destruct (ologid_ltb a b) eqn:E; ord. Qed.
Lemma ologid_max_cases a b : ologid_max a b = a \/ ologid_max a b = b.
Proof. unfold ologid_max. destruct (ologid_ltb a b); auto. Qed.
Lemma ologid_min_leb_l a b : ologid_leb (ologid_min a b) a = true.
Proof. unfold ologid_min. destruct (ologid_leb a b) eqn:E; ord. Qed.
Lemma ologid_min_leb_r a b : ologid_leb (ologid_min a b) b = true.
Proof. unfold ologid_min. destruct (ologid_leb a b) eqn:E; ord. Qed.
Lemma ologid_min_cases a b : ologid_min a b = a \/ ologid_min a b = b.
Proof. unfold ologid_min. destruct (ologid_leb a b); auto. Qed.
Lemma leader_eqb_eq a b : leader_eqb a b = true <-> a = b.
Proof. rewrite leader_eqb_true, leader_eq_iff. tauto. Qed.
Lemma leader_eqb_refl a : leader_eqb a a = true. Proof. ord. Qed.
Lemma logid_eqb_refl a : logid_eqb a a = true. Proof. by apply logid_eqb_true. Qed.

(** Laws of the vote order. *)
Lemma vote_geb_refl a : vote_geb a a = true.
Proof. apply vote_geb_true. destruct (v_committed a); lia. Qed.
Lemma vote_geb_trans a b c : vote_geb a b = true -> vote_geb b c = true -> vote_geb a c = true.
Proof. ord. Qed.
Lemma vote_geb_antisym a b : vote_geb a b = true -> vote_geb b a = true -> a = b.
Proof. intros. ord_hyps. apply vote_eq_iff. destruct (v_committed a), (v_committed b); lia. Qed.
Lemma vote_geb_total a b : vote_geb a b = true \/ vote_geb b a = true.
Proof. destruct (vote_geb a b) eqn:E; auto. right. ord. Qed.
Lemma vote_gtb_iff a b : vote_gtb a b = true <-> vote_geb a b = true /\ a <> b.
Proof.
  rewrite vote_gtb_true, vote_geb_true, vote_eq_iff.
  destruct (v_committed a), (v_committed b); lia.
Qed.
Lemma vote_gtb_geb a b : vote_gtb a b = true -> vote_geb a b = true.
Proof. rewrite vote_gtb_iff. tauto. Qed.
Lemma vote_gtb_negb a b : vote_gtb a b = negb (vote_geb b a).
Proof. destruct (vote_geb b a) eqn:E; cbn; ord. Qed.

Lemma io_cmp_some a b : exists c, io_cmp a b = Some c.
Proof.
  unfold io_cmp. destruct (vote_pcmp_total (io_vote a) (io_vote b)) as [c ->]. destruct c; eauto.
Qed.

Global Arguments Nat.ltb : simpl never.
Global Arguments Nat.leb : simpl never.
