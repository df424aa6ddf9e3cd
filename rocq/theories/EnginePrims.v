(** Every engine operation is a sequence of a few kinds of primitive state changes.
    This file defines the primitives, with the facts the code has checked when it
    performs them, and proves the decomposition.  Properties that hold of every
    operation are then proved by cases over the primitives. *)
From Coq Require Import Bool Lia ZifyBool ZifyNat.
From stdpp Require Import base numbers option gmap relations list.
From Verif Require Import Types TypesProofs LogIdList Quorum Membership Progress RaftState ProgressEntry Engine.

Inductive Kind :=
| KVote        (* a greater vote is stored *)
| KTouch       (* the lease is renewed *)
| KLease       (* the lease is disabled *)
| KInitVote    (* [initialize] sets the initial committed vote *)
| KServer      (* the reported role is set *)
| KProgress    (* the leader's progress or timers change; no target matches more *)
| KMatch       (* a target is recorded to match up to a log id *)
| KLeaderVote  (* an existing leader adopts the committed vote *)
| KLeaderFresh (* leadership taken from a committed own vote *)
| KEstablish   (* a candidate becomes leader *)
| KTransfer    (* the leader marks itself as handing over *)
| KFollow      (* stop leading and being a candidate *)
| KCandNew     (* start as a candidate *)
| KAskVote     (* a command to ask for votes *)
| KCandGrant   (* a grant is counted *)
| KCandDrop    (* stop being a candidate *)
| KGreater     (* the flag "seen a greater log" changes *)
| KAccept      (* the accepted-IO cursor *)
| KLeadAccept  (* the accepted-IO cursor of a leader: its vote and last log id *)
| KUpdIO       (* a command to advance the IO cursors *)
| KSend        (* commands to replication, heartbeat, transfer *)
| KRespond     (* a response command *)
| KLeadAppend  (* the leader appends to its log *)
| KFollowAppend(* a follower appends to its log *)
| KTruncate    (* a follower truncates its log *)
| KLeadCommit  (* the leader advances its commit position *)
| KFollowCommit(* a follower advances its commit position *)
| KBuild       (* a snapshot build starts or ends *)
| KSnapshot    (* the snapshot position is updated after building one *)
| KPurgePlan   (* the planned purge position is set *)
| KPurge       (* the log is purged to the planned position *)
| KInstall     (* a snapshot is installed *)
| KCursor      (* an IO cursor other than the accepted one is set *)
| KPop.        (* the first queued command is taken *)
Global Instance kind_eq_dec : EqDecision Kind.
Proof. solve_decision. Defined.

(** commands that only concern other nodes *)
Definition is_send (c : Command) : bool :=
  match c with
  | BroadcastHeartbeat _ _ | CmdReplicate _ _ | BroadcastTransferLeader _
  | RebuildReplicationStreams _ => true
  | _ => false
  end.
Definition is_respond (c : Command) : bool :=
  match c with Respond _ _ _ => true | _ => false end.

Definition leader_appended (ps : list Payload) (l : Leader) (e : Engine) : Engine :=
  let entries := assign_ids (v_leader (ld_vote l)) (next_index (ld_last l)) ps in
  let l1 := ld_set_last (match last entries with Some x => Some (e_log_id x) | None => ld_last l end) l in
  let e3 := push (AppendInputEntries (ld_vote l1) entries)
              (upd (rs_accept_io (IOLog (ld_vote l1) (ld_last l1)))
                 (upd (rs_extend_same entries) (set_leader (Some l1) e))) in
  match last_membership entries None with
  | Some (lid, m) => upd (fun s => set_mem (ms_append (rs_mem s) (mkEM (Some lid) m)) s) e3
  | None => e3
  end.

(** what is known of a response when it is queued *)
Definition resp_ok (e : Engine) (w : option Condition) (r : Resp) : Prop :=
  match r with
  | RVote x =>
      w = Some (IOFlushed (io_new (rs_v (en_state e)))) /\ vr_vote x = rs_v (en_state e)
  | RAppend ASuccess =>
      exists i, io_accepted (rs_io (en_state e)) = Some i /\ w = Some (IOFlushed i)
  | RAppend (AHigherVote v) => v = rs_v (en_state e)
  | RAppend AConflict => True
  | RSnapshot v => v = rs_v (en_state e)
  | RInitialize _ => True
  end.

(** what the leader's progress says: who matches up to where, and the value it takes as
    acknowledged by a quorum *)
Definition matched (l : Leader) : list (nat * option LogId) :=
  map (fun x => (x.1, pe_matching x.2)) (vp_vec (ld_progress l)).
Definition lgranted (l : Leader) : option LogId := vp_granted (ld_progress l).
(** [l'] matches no more than [l] and [new]; its quorum value is the old one, that of some
    target, or none *)
Definition progress_ok (new : list (nat * option LogId)) (l l' : Leader) : Prop :=
  (forall p, p ∈ matched l' -> p ∈ matched l \/ p.2 = None \/ p ∈ new) /\
  (lgranted l' = lgranted l \/ lgranted l' = None \/ exists id, (id, lgranted l') ∈ matched l ++ matched l').

(** what is known of a command to another task when it is queued *)
Definition send_ok (e : Engine) (c : Command) : Prop :=
  match c with
  | BroadcastHeartbeat ss lc =>
      exists l, en_leader e = Some l /\ ss_vote ss = ld_vote l /\ lc = rs_committed (en_state e)
  | CmdReplicate _ (ReplLogs r) =>
      (exists l, en_leader e = Some l) /\
      exists i j, lr_prev r = rs_prev_log_id (en_state e) i /\ lr_last r = rs_prev_log_id (en_state e) j
  | CmdReplicate _ (ReplSnapshot _) => exists l, en_leader e = Some l
  | BroadcastTransferLeader req => exists l, en_leader e = Some l /\ tq_from req = ld_vote l
  | RebuildReplicationStreams ts =>
      exists l, en_leader e = Some l /\ forall x, x ∈ ts -> (x.1, pe_matching x.2) ∈ matched l
  | _ => False
  end.

Inductive prim : Kind -> Engine -> Engine -> Prop :=
| pr_vote now v e :
    vote_gtb v (rs_v (en_state e)) = true ->
    prim KVote e
      (push (SaveVote v)
         (upd (rs_accept_io (io_new v))
            (upd (fun s => set_vote (leased_update now (if v_committed v then ec_leader_lease (en_cfg e) else 0)
                                       v (rs_vote s)) s) e)))
| pr_touch now e :
    prim KTouch e (upd (fun s => set_vote (leased_touch now (if v_committed (rs_v (en_state e)) then ec_leader_lease (en_cfg e) else 0)
                                             (rs_vote s)) s) e)
| pr_lease e :
    prim KLease e (upd (fun s => set_vote (leased_disable (rs_vote s)) s) e)
| pr_init_vote now e :
    rs_is_initialized (en_state e) = false ->
    prim KInitVote e
      (upd (fun s => set_vote (leased_update now 0 (into_committed vote_default) (rs_vote s)) s) e)
| pr_server ss e : prim KServer e (upd (set_server ss) e)
| pr_progress l l' e :
    en_leader e = Some l -> ld_vote l' = ld_vote l -> ld_last l' = ld_last l ->
    ld_noop l' = ld_noop l -> ld_transfer l' = ld_transfer l -> progress_ok [] l l' ->
    prim KProgress e (set_leader (Some l') e)
| pr_match l l' t x e :
    en_leader e = Some l -> ld_vote l' = ld_vote l -> ld_last l' = ld_last l ->
    ld_noop l' = ld_noop l -> ld_transfer l' = ld_transfer l -> progress_ok [(t, x)] l l' ->
    prim KMatch e (set_leader (Some l') e)
| pr_leader_vote l e :
    en_leader e = Some l -> v_leader (ld_vote l) = v_leader (rs_v (en_state e)) ->
    rs_is_leader (en_state e) (en_id e) = true ->
    prim KLeaderVote e (set_leader (Some (ld_set_vote (into_committed (rs_v (en_state e))) l)) e)
| pr_leader_fresh now e :
    rs_is_leader (en_state e) (en_id e) = true ->
    (forall l, en_leader e = Some l -> v_leader (ld_vote l) <> v_leader (rs_v (en_state e))) ->
    prim KLeaderFresh e (set_leader (Some (rs_new_leader now (en_state e))) e)
| pr_establish now c e :
    en_cand e = Some c -> vp_granted (cd_progress c) = true ->
    (forall l, en_leader e = Some l -> vote_gtb (cd_vote c) (ld_vote l) = true) ->
    prim KEstablish e (set_leader (Some (cand_into_leader now c)) (set_cand None e))
| pr_transfer l to e :
    en_leader e = Some l ->
    prim KTransfer e (set_leader (Some (ld_set_transfer (Some to) l)) e)
| pr_follow e :
    rs_is_leading (en_state e) (en_id e) = false ->
    prim KFollow e (set_cand None (set_leader None e))
| pr_cand_new now e :
    prim KCandNew e
      (en_new_candidate now (vote_new (S (li_term (v_leader (rs_v (en_state e))))) (en_id e)) e)
| pr_cand_grant c c' ok target e :
    en_cand e = Some c -> cand_grant c target = Ok (c', ok) ->
    prim KCandGrant e (set_cand (Some c') e)
| pr_cand_drop e : prim KCandDrop e (set_cand None e)
| pr_greater b e : prim KGreater e (set_greater b e)
| pr_accept io e : prim KAccept e (upd (rs_accept_io io) e)
| pr_lead_accept l e :
    en_leader e = Some l ->
    prim KLeadAccept e (upd (rs_accept_io (IOLog (ld_vote l) (ld_last l))) e)
| pr_upd_io w io e : prim KUpdIO e (push (UpdateIOProgress w io) e)
| pr_send cs e : forallb is_send cs = true -> (forall c, c ∈ cs -> send_ok e c) -> prim KSend e (push_all cs e)
| pr_send_vote req e :
    vq_vote req = rs_v (en_state e) -> vq_last req = rs_last (en_state e) ->
    prim KAskVote e (push (SendVote req) e)
| pr_respond w r tx e : resp_ok e w r -> prim KRespond e (push (Respond w r tx) e)
| pr_lead_append ps l e :
    en_leader e = Some l -> length ps = 1 -> prim KLeadAppend e (leader_appended ps l e)
| pr_follow_append lv entries e :
    entries <> [] ->
    (match head entries with
     | Some x => next_index (rs_committed (en_state e)) <= e_index x \/ rs_last (en_state e) = None
     | None => True
     end) ->
    prim KFollowAppend e (fh_do_append lv entries e)
| pr_truncate since e :
    next_index (rs_committed (en_state e)) <= since ->
    prim KTruncate e (fh_truncate since e)
| pr_lead_commit c e l :
    en_leader e = Some l ->
    is_same_leader (rs_v (en_state e)) (lid_leader c) = true ->
    ologid_ltb (rs_committed (en_state e)) (Some c) = true ->
    vp_granted (ld_progress l) = Some c ->
    prim KLeadCommit e
      (push_all [ReplicateCommitted (Some c); SaveCommitted c; CmdApply (rs_committed (en_state e)) c]
         (upd (fun s => set_mem (ms_commit (rs_mem s) (Some c)) (set_committed (Some c) s)) e))
| pr_follow_commit c i lc e :
    ologid_ltb (rs_committed (en_state e)) (Some c) = true ->
    io_accepted (rs_io (en_state e)) = Some i ->
    Some c = ologid_min (io_last_log_id i) lc ->
    prim KFollowCommit e
      (push_all [SaveCommitted c; CmdApply (rs_committed (en_state e)) c]
         (upd (fun s => set_mem (ms_commit (rs_mem s) (Some c)) (set_committed (Some c) s)) e))
| pr_build_start e :
    io_building (rs_io (en_state e)) = false -> prim KBuild e (sh_trigger e)
| pr_build_end e :
    prim KBuild e (upd (fun s => set_io (io_set_building false (rs_io s)) s) e)
| pr_snapshot meta e :
    ologid_leb (sm_last meta) (rs_snap_last (en_state e)) = false ->
    prim KSnapshot e (upd (set_snap meta) e)
| pr_purge_plan_policy lid e :
    logh_calc_purge_upto e = Some lid ->
    prim KPurgePlan e (upd (set_purge_upto (Some lid)) e)
| pr_purge_plan_trigger lid index sl e :
    rs_snap_last (en_state e) = Some sl ->
    next_index (rs_purge_upto (en_state e)) <= index ->
    rs_get_log_id (en_state e) (Nat.min index (lid_index sl)) = Some lid ->
    prim KPurgePlan e (upd (set_purge_upto (Some lid)) e)
| pr_purge e :
    (forall l upto, en_leader e = Some l -> rs_purge_upto (en_state e) = Some upto ->
       existsb (fun x => pe_is_log_range_inflight x.2 upto) (vp_vec (ld_progress l)) = false) ->
    prim KPurge e (logh_purge e)
| pr_install lv sn e :
    prim KInstall e (fh_install lv sn e).1
| pr_cursor f e :
    (forall io, io_accepted (f io) = io_accepted io /\ io_building (f io) = io_building io) ->
    prim KCursor e (upd (fun s => set_io (f (rs_io s)) s) e)
| pr_pop c r e :
    en_out e = c :: r ->
    prim KPop e (mkEngine (en_cfg e) (en_state e) (en_seen_greater e) (en_leader e) (en_cand e) r).

Definition prim_in (ks : list Kind) (e e' : Engine) : Prop := exists k, k ∈ ks /\ prim k e e'.
Definition prims (ks : list Kind) : Engine -> Engine -> Prop := rtc (prim_in ks).

Lemma prims_refl ks e : prims ks e e.
Proof. apply rtc_refl. Qed.
Lemma prims_trans ks a b c : prims ks a b -> prims ks b c -> prims ks a c.
Proof. apply rtc_transitive. Qed.
Lemma prims_one ks k a b : bool_decide (k ∈ ks) = true -> prim k a b -> prims ks a b.
Proof. intros Hk H. apply bool_decide_eq_true in Hk. apply rtc_once. exists k; auto. Qed.
Lemma prims_weak ks ks' a b :
  forallb (fun k => bool_decide (k ∈ ks')) ks = true -> prims ks a b -> prims ks' a b.
Proof.
  intros Hk. apply rtc_subrel. intros x y (k & Hin & Hp). exists k. split; [|exact Hp].
  rewrite forallb_forall in Hk. specialize (Hk k). rewrite <- elem_of_list_In in Hk.
  apply Hk in Hin. apply bool_decide_eq_true in Hin. exact Hin.
Qed.
(** a relation that is a preorder and contains the primitives contains the closure *)
Lemma prims_ind_rel ks (R : Engine -> Engine -> Prop) :
  (forall e, R e e) -> (forall a b c, R a b -> R b c -> R a c) ->
  (forall k a b, k ∈ ks -> prim k a b -> R a b) ->
  forall a b, prims ks a b -> R a b.
Proof.
  intros Hr Ht Hp a b H. induction H as [|x y z (k & Hk & H1) H2 IH]; [apply Hr|].
  eapply Ht; [eapply Hp; eauto|exact IH].
Qed.
Lemma prims_inv ks (I : Engine -> Prop) :
  (forall k a b, k ∈ ks -> prim k a b -> I a -> I b) ->
  forall a b, prims ks a b -> I a -> I b.
Proof.
  intros Hp a b H. induction H as [|x y z (k & Hk & H1) H2 IH]; [auto|].
  intros Hx. apply IH. eapply Hp; eauto.
Qed.

Lemma prims_one' ks k a b : prim k a b -> bool_decide (k ∈ ks) = true -> prims ks a b.
Proof. intros H Hk. eapply prims_one; eassumption. Qed.
Ltac pone H := eapply prims_one'; [eapply H|reflexivity].
Tactic Notation "pw" uconstr(H) := eapply prims_weak; [|eapply H]; [reflexivity|..].
Ltac rok H := let x := fresh "x" in let Hx := fresh "Hx" in
  match type of H with
  | res_bind ?t _ = Ok _ => destruct t as [x|] eqn:Hx; cbn [res_bind] in H; [|discriminate H]
  end.

Lemma push_push_all c e : push c e = push_all [c] e.
Proof. reflexivity. Qed.

(** ** Progress updates *)

Lemma vp_index_elem {V} (vec : list (nat * V)) t i : vp_index vec t = Some i ->
  exists x, vec !! i = Some x /\ x.1 = t.
Proof.
  revert i. induction vec as [|a r IH]; cbn [vp_index]; [discriminate|]. intros i.
  destruct (a.1 =? t) eqn:E; [intros [= <-]; exists a; split; [reflexivity|lia]|].
  destruct (vp_index r t) as [j|] eqn:Hj; [|discriminate]. intros [= <-]. cbn. apply IH. reflexivity.
Qed.

Section vals.
  Context {V P : Type} (pleb : P -> P -> bool) (borrow : V -> P).
  Definition vvals (vec : list (nat * V)) : list (nat * P) := map (fun x => (x.1, borrow x.2)) vec.
  Lemma vvals_elem vec p : p ∈ vvals vec <-> exists x, x ∈ vec /\ p = (x.1, borrow x.2).
  Proof.
    unfold vvals. rewrite elem_of_list_fmap. split; intros (x & H1 & H2); exists x; auto.
  Qed.
  Lemma move_up_elem i : forall vec x, x ∈ (move_up pleb borrow i vec).1 -> x ∈ vec.
  Proof.
    induction i as [|i IH]; cbn [move_up]; [auto|]. intros vec x.
    destruct (vec !! i) as [a|] eqn:Ha; [|auto]. destruct (vec !! S i) as [b|] eqn:Hb; [|auto].
    destruct (pltb _ _ _); [|auto]. intros H. apply IH in H.
    apply elem_of_list_lookup in H as (k & Hk).
    destruct (decide (k = i)) as [->|Hki].
    - rewrite list_lookup_insert in Hk; [|rewrite insert_length; apply lookup_lt_Some in Ha; exact Ha].
      injection Hk as <-. eapply elem_of_list_lookup_2; eauto.
    - rewrite list_lookup_insert_ne in Hk by congruence.
      destruct (decide (k = S i)) as [->|Hks].
      + rewrite list_lookup_insert in Hk; [|apply lookup_lt_Some in Hb; exact Hb].
        injection Hk as <-. eapply elem_of_list_lookup_2; eauto.
      + rewrite list_lookup_insert_ne in Hk by congruence. eapply elem_of_list_lookup_2; eauto.
  Qed.
  Lemma find_granted_vals qs g vec n : forall i,
    find_granted pleb borrow qs g vec i n = g \/ exists id, (id, find_granted pleb borrow qs g vec i n) ∈ vvals vec.
  Proof.
    induction n as [|n IH]; cbn [find_granted]; [auto|]. intros i.
    destruct (vec !! i) as [e|] eqn:He; [|auto]. destruct (pleb _ _); [auto|].
    destruct (joint_is_quorum _ _); [|apply IH]. right. exists e.1. apply vvals_elem. exists e.
    split; [eapply elem_of_list_lookup_2; eauto|reflexivity].
  Qed.
  Lemma vp_update_vals vp id f :
    let vp' := (vp_update_with pleb borrow vp id f).1 in
    (forall p, p ∈ vvals (vp_vec vp') -> p ∈ vvals (vp_vec vp) \/
       exists v, (id, v) ∈ vp_vec vp /\ p = (id, borrow (f v))) /\
    (vp_granted vp' = vp_granted vp \/ exists i, (i, vp_granted vp') ∈ vvals (vp_vec vp')).
  Proof.
    cbv zeta. unfold vp_update_with, vp_update_gen.
    destruct (vp_index (vp_vec vp) id) as [i|] eqn:Hi; [|split; auto].
    apply vp_index_elem in Hi as ([id0 v] & Hi & Hid). cbn in Hid. subst id0. rewrite Hi. cbn [fst snd].
    assert (Hins : forall x, x ∈ <[i := (id, f v)]> (vp_vec vp) -> x ∈ vp_vec vp \/ x = (id, f v)).
    { intros x Hx. apply elem_of_list_lookup in Hx as (k & Hk). destruct (decide (k = i)) as [->|Hne].
      - rewrite list_lookup_insert in Hk; [|apply lookup_lt_Some in Hi; exact Hi]. injection Hk as <-. auto.
      - rewrite list_lookup_insert_ne in Hk by congruence. left. eapply elem_of_list_lookup_2; eauto. }
    assert (Hv : forall vec, (forall x, x ∈ vec -> x ∈ <[i := (id, f v)]> (vp_vec vp)) ->
      forall p, p ∈ vvals vec -> p ∈ vvals (vp_vec vp) \/ exists v, (id, v) ∈ vp_vec vp /\ p = (id, borrow (f v))).
    { intros vec Hvec p Hp. apply vvals_elem in Hp as (x & Hx & ->). apply Hvec, Hins in Hx as [Hx| ->].
      - left. apply vvals_elem. eauto.
      - right. exists v. split; [eapply elem_of_list_lookup_2; eauto|reflexivity]. }
    destruct (_ && _); cbn [fst]; [split; [apply Hv; auto|left; reflexivity]|].
    destruct (vp_voters vp <=? i); cbn [fst]; [split; [apply Hv; auto|left; reflexivity]|].
    destruct (_ && _); cbn [fst]; [|split; [apply Hv; auto|left; reflexivity]].
    destruct (move_up _ _ _ _) as [vec2 ni] eqn:Hm. cbn [fst vp_vec vp_granted]. split.
    - apply Hv. intros x Hx. apply (move_up_elem i). rewrite Hm. exact Hx.
    - apply find_granted_vals.
  Qed.
  Lemma vp_new_vals qs learners dflt :
    (forall p, p ∈ vvals (vp_vec (vp_new borrow qs learners dflt)) -> p.2 = borrow dflt) /\
    vp_granted (vp_new borrow qs learners dflt) = borrow dflt.
  Proof.
    split; [|reflexivity]. intros p Hp. apply vvals_elem in Hp as (x & Hx & ->). cbn in Hx |- *.
    apply elem_of_app in Hx. rewrite !elem_of_list_fmap in Hx. destruct Hx as [(y & -> & _)|(y & -> & _)]; reflexivity.
  Qed.
  Lemma vp_upgrade_vals vp qs learners dflt :
    let vp' := vp_upgrade pleb borrow vp qs learners dflt in
    (forall p, p ∈ vvals (vp_vec vp') -> p ∈ vvals (vp_vec vp) \/ p.2 = borrow dflt) /\
    (vp_granted vp' = borrow dflt \/ (exists i, (i, vp_granted vp') ∈ vvals (vp_vec vp)) ).
  Proof.
    cbv zeta. unfold vp_upgrade.
    assert (H : forall l acc, (forall x, x ∈ l -> x ∈ vp_vec vp) ->
      (forall p, p ∈ vvals (vp_vec acc) -> p ∈ vvals (vp_vec vp) \/ p.2 = borrow dflt) ->
      (vp_granted acc = borrow dflt \/ (exists i, (i, vp_granted acc) ∈ vvals (vp_vec vp))) ->
      let vp' := foldl (fun acc e => (vp_update pleb borrow acc e.1 e.2).1) acc l in
      (forall p, p ∈ vvals (vp_vec vp') -> p ∈ vvals (vp_vec vp) \/ p.2 = borrow dflt) /\
      (vp_granted vp' = borrow dflt \/ (exists i, (i, vp_granted vp') ∈ vvals (vp_vec vp)))).
    { induction l as [|a l IH]; intros acc Hl Hp Hg; cbn [foldl]; [auto|].
      destruct (vp_update_vals acc a.1 (fun _ => a.2)) as [H1 H2].
      assert (Hvals : forall p, p ∈ vvals (vp_vec (vp_update pleb borrow acc a.1 a.2).1) ->
        p ∈ vvals (vp_vec vp) \/ p.2 = borrow dflt).
      { intros p Hpp. apply H1 in Hpp as [Hpp|(v & Hv & ->)]; [auto|]. left. apply vvals_elem.
        exists a. split; [apply Hl; left|]. reflexivity. }
      apply IH; [intros x Hx; apply Hl; right; exact Hx|exact Hvals|].
      destruct H2 as [H2|(i & H2)].
      - unfold vp_update. rewrite H2. exact Hg.
      - apply Hvals in H2 as [H2|H2]; [right; exists i; exact H2|left; exact H2]. }
    destruct (vp_new_vals qs learners dflt) as [Hn Hg].
    apply H; [auto| |left; exact Hg]. intros p Hp. right. apply Hn. exact Hp.
  Qed.
End vals.

Lemma progress_ok_same l l' :
  matched l' = matched l -> lgranted l' = lgranted l -> progress_ok [] l l'.
Proof. intros H1 H2. split; [rewrite H1; auto|left; exact H2]. Qed.

Lemma matched_set p l : matched (ld_set_progress p l) = vvals pe_matching (vp_vec p).
Proof. reflexivity. Qed.
Lemma matched_vp_set l id pe pe1 :
  vp_get (ld_progress l) id = Some pe -> pe_matching pe1 = pe_matching pe ->
  progress_ok [] l (ld_set_progress (vp_set (ld_progress l) id pe1) l).
Proof.
  unfold vp_get, vp_set. destruct (vp_index (vp_vec (ld_progress l)) id) as [i|] eqn:Hi; [|discriminate].
  pose proof (vp_index_elem _ _ _ Hi) as ([id0 v] & Hv & Hid). cbn in Hid. subst id0. rewrite Hv.
  intros [= <-] Hm. split; [|left; reflexivity]. intros p Hp. left. rewrite matched_set in Hp. cbn [vp_vec] in Hp.
  apply vvals_elem in Hp as (x & Hx & ->). apply elem_of_list_lookup in Hx as (k & Hk).
  assert (exists y, vp_vec (ld_progress l) !! k = Some y /\ (y.1, pe_matching y.2) = (x.1, pe_matching x.2)) as (y & Hy & <-).
  { destruct (decide (k = i)) as [->|Hne].
    - rewrite list_lookup_insert in Hk; [|apply lookup_lt_Some in Hv; exact Hv]. injection Hk as <-.
      exists (id, v). cbn. cbn in Hm. rewrite Hm. auto.
    - rewrite list_lookup_insert_ne in Hk by congruence. exists x. auto. }
  apply vvals_elem. exists y. split; [eapply elem_of_list_lookup_2; eauto|reflexivity].
Qed.

(** ** Decomposition of the handlers *)

Lemma prims_server ks e : bool_decide (KServer ∈ ks) = true -> prims ks e (ssh_update e).
Proof.
  intros Hk. unfold ssh_update. destruct (bool_decide (rs_server _ = _)); [apply prims_refl|].
  eapply prims_one; [exact Hk|apply pr_server].
Qed.

Lemma send_ok_is_send e c : send_ok e c -> is_send c = true.
Proof. destruct c; cbn; try reflexivity; intros []. Qed.
Lemma prims_push_send ks c e :
  bool_decide (KSend ∈ ks) = true -> send_ok e c -> prims ks e (push c e).
Proof.
  intros Hk Hc. rewrite push_push_all. eapply prims_one; [exact Hk|apply pr_send].
  - cbn. rewrite (send_ok_is_send _ _ Hc). reflexivity.
  - intros c' Hin. apply elem_of_list_singleton in Hin as ->. exact Hc.
Qed.

Definition ks_repl : list Kind := [KProgress; KSend].

Lemma rh_rebuild_progresses_prims e e' : rh_rebuild_progresses e = Ok e' -> prims ks_repl e e'.
Proof.
  unfold rh_rebuild_progresses. destruct (en_leader e) as [l|] eqn:Hl; [|discriminate].
  intros [= <-]. pone pr_progress; [exact Hl|reflexivity..|].
  match goal with |- context [vp_upgrade ologid_leb pe_matching ?p ?a ?b ?c] =>
    destruct (vp_upgrade_vals ologid_leb pe_matching p a b c) as [H1 H2] end.
  split.
  - intros p Hp. apply H1 in Hp as [Hp|Hp]; [left; exact Hp|right; left; exact Hp].
  - destruct H2 as [H2|(i & H2)]; [right; left; exact H2|]. right. right. exists i. apply elem_of_app. left. exact H2.
Qed.

Lemma rh_reset_matching my vec : vvals pe_matching (map (rh_reset_inflight my) vec) = vvals pe_matching vec.
Proof.
  unfold vvals. rewrite map_map. apply map_ext. intros [id p]. unfold rh_reset_inflight. cbn.
  destruct (id =? my); reflexivity.
Qed.
Lemma rh_rebuild_streams_prims e e' : rh_rebuild_streams e = Ok e' -> prims ks_repl e e'.
Proof.
  unfold rh_rebuild_streams. destruct (en_leader e) as [l|] eqn:Hl; [|discriminate].
  intros [= <-]. eapply prims_trans; [|apply prims_push_send; [reflexivity|]].
  - pone pr_progress; [exact Hl|reflexivity..|]. apply progress_ok_same; [|reflexivity].
    apply rh_reset_matching.
  - eexists. split; [reflexivity|]. intros x Hx. apply elem_of_list_filter in Hx as [_ Hx].
    unfold matched. apply elem_of_list_fmap. exists x. split; [reflexivity|exact Hx].
Qed.

Lemma rh_send_all_send my mx s vec x :
  rh_send_all my mx s vec = Ok x -> forallb is_send x.2 = true.
Proof.
  revert x. induction vec as [|[id p] r IH]; cbn [rh_send_all]; intros x H.
  - injection H as <-. reflexivity.
  - destruct (id =? my).
    + rok H. injection H as <-. cbn. apply (IH _ eq_refl).
    + destruct (pe_next_send s mx p) as [p1 ok]. destruct ok; [destruct (pe_inflight p1)|];
        try discriminate H; rok H; injection H as <-; cbn; apply (IH _ eq_refl).
Qed.

Lemma pe_next_send_matching s mx p : pe_matching (pe_next_send s mx p).1 = pe_matching p.
Proof.
  unfold pe_next_send. destruct (pe_inflight p); [|reflexivity..].
  destruct (_ <? _); [reflexivity|]. destruct (_ =? _); reflexivity.
Qed.
Lemma rh_send_all_matching my mx s vec x :
  rh_send_all my mx s vec = Ok x -> vvals pe_matching x.1 = vvals pe_matching vec.
Proof.
  revert x. induction vec as [|[id p] r IH]; cbn [rh_send_all]; intros x H.
  - injection H as <-. reflexivity.
  - destruct (id =? my).
    + rok H. injection H as <-. specialize (IH _ eq_refl). cbn. unfold vvals in IH. rewrite IH. reflexivity.
    + pose proof (pe_next_send_matching s mx p) as Hm. destruct (pe_next_send s mx p) as [p1 ok]. cbn in Hm.
      destruct ok; [destruct (pe_inflight p1)|];
        try discriminate H; rok H; injection H as <-; specialize (IH _ eq_refl); cbn; unfold vvals in IH; rewrite IH, Hm; reflexivity.
Qed.

Definition repl_ok (s : RaftState) (c : Command) : Prop :=
  match c with
  | CmdReplicate _ (ReplLogs r) => exists i j, lr_prev r = rs_prev_log_id s i /\ lr_last r = rs_prev_log_id s j
  | CmdReplicate _ (ReplSnapshot _) => True
  | _ => False
  end.
Lemma pe_next_send_range s mx p p1 r :
  pe_next_send s mx p = (p1, true) -> pe_inflight p1 = InfLogs r ->
  exists i j, lr_prev r = rs_prev_log_id s i /\ lr_last r = rs_prev_log_id s j.
Proof.
  unfold pe_next_send. destruct (pe_inflight p) eqn:Hi; [|intros [=]..].
  destruct (_ <? _); [intros [= <-]; discriminate|]. destruct (_ =? _); [discriminate|].
  intros [= <-]. cbn. unfold inf_logs. destruct (ologid_ltb _ _); [|discriminate]. intros [= <-]. cbn. eauto.
Qed.
Lemma rh_send_all_ok my mx s vec x :
  rh_send_all my mx s vec = Ok x -> forall c, c ∈ x.2 -> repl_ok s c.
Proof.
  revert x. induction vec as [|[id p] r IH]; cbn [rh_send_all]; intros x H c Hc.
  - injection H as <-. apply elem_of_nil in Hc as [].
  - destruct (id =? my).
    + rok H. injection H as <-. eapply (IH _ eq_refl). exact Hc.
    + destruct (pe_next_send s mx p) as [p1 ok] eqn:Hs. destruct ok; [destruct (pe_inflight p1) eqn:Hp|];
        try discriminate H; rok H; injection H as <-; cbn [snd] in Hc.
      * apply elem_of_cons in Hc as [->|Hc]; [|eapply (IH _ eq_refl); exact Hc].
        cbn. eapply pe_next_send_range; eassumption.
      * apply elem_of_cons in Hc as [->|Hc]; [exact I|eapply (IH _ eq_refl); exact Hc].
      * eapply (IH _ eq_refl). exact Hc.
Qed.
Lemma repl_ok_send_ok e l c : en_leader e = Some l -> repl_ok (en_state e) c -> send_ok e c.
Proof. intros Hl. destruct c; cbn; try (intros []; fail). destruct req; eauto. Qed.

Lemma rh_initiate_prims e e' : rh_initiate e = Ok e' -> prims ks_repl e e'.
Proof.
  unfold rh_initiate. destruct (en_leader e) as [l|] eqn:Hl; [|discriminate]. intros H. rok H.
  injection H as <-. eapply prims_trans; [|pone pr_send; [eapply rh_send_all_send; exact Hx|]].
  - pone pr_progress; [exact Hl|reflexivity..|]. apply progress_ok_same; [|reflexivity].
    eapply rh_send_all_matching. exact Hx.
  - intros c Hc. eapply repl_ok_send_ok; [reflexivity|]. eapply rh_send_all_ok; eassumption.
Qed.

Lemma sh_trigger_prims ks e : bool_decide (KBuild ∈ ks) = true -> prims ks e (sh_trigger e).
Proof.
  intros Hk. destruct (io_building (rs_io (en_state e))) eqn:Hb.
  - unfold sh_trigger. rewrite Hb. apply prims_refl.
  - eapply prims_one; [exact Hk|apply pr_build_start; exact Hb].
Qed.

Definition ks_commit : list Kind := [KLeadCommit; KBuild].
Lemma rh_try_commit_prims e l :
  en_leader e = Some l -> prims ks_commit e (rh_try_commit (vp_granted (ld_progress l)) e).
Proof.
  intros Hl. unfold rh_try_commit.
  destruct (vp_granted (ld_progress l)) as [c|] eqn:Hg.
  - destruct (is_same_leader (rs_v (en_state e)) (lid_leader c)) eqn:Hs; cbn [negb]; [|apply prims_refl].
    unfold rs_update_committed. destruct (ologid_ltb (rs_committed (en_state e)) (Some c)) eqn:Hlt;
      [|apply prims_refl]. cbn [rs_committed set_mem set_committed].
    assert (Hp : prims ks_commit e
      (push_all [ReplicateCommitted (Some c); SaveCommitted c; CmdApply (rs_committed (en_state e)) c]
         (upd (fun s => set_mem (ms_commit (rs_mem s) (Some c)) (set_committed (Some c) s)) e)))
      by (pone pr_lead_commit; eauto).
    match goal with |- context [if ?b then _ else _] => destruct b end; [|exact Hp].
    eapply prims_trans; [exact Hp|apply sh_trigger_prims; reflexivity].
  - cbn [negb]. unfold rs_update_committed. destruct (ologid_ltb (rs_committed (en_state e)) None) eqn:Hlt; [|apply prims_refl].
    cbn. apply prims_refl.
Qed.

Definition ks_progress : list Kind := [KProgress; KMatch; KLeadCommit; KBuild; KPurge].
Lemma rh_update_matching_prims node lid e e' :
  rh_update_matching node lid e = Ok e' -> prims ks_progress e e'.
Proof.
  unfold rh_update_matching. destruct (en_leader e) as [l|] eqn:Hl; [|discriminate].
  destruct (vp_get (ld_progress l) node) as [pe|]; [|discriminate]. intros H. rok H. injection H as <-.
  match goal with |- prims _ _ (rh_try_commit _ (set_leader (Some ?l1) _)) =>
    change (vp_granted _) with (vp_granted (ld_progress l1)); eapply prims_trans with (b := set_leader (Some l1) e) end.
  - eapply prims_one'; [eapply pr_match with (t := node) (x := lid); [exact Hl|reflexivity..|]|reflexivity].
    destruct (vp_update_vals ologid_leb pe_matching (ld_progress l) node (fun _ => x)) as [H1 H2].
    assert (Hm : pe_matching x = lid).
    { unfold pe_update_matching in Hx. rok Hx. injection Hx as <-. reflexivity. }
    split.
    + intros p Hp. apply H1 in Hp as [Hp|(v & _ & ->)]; [left; exact Hp|]. right. right. rewrite Hm. apply elem_of_list_here.
    + destruct H2 as [H2|(i & H2)]; [left; exact H2|]. right. right. exists i. apply elem_of_app. right. exact H2.
  - pw rh_try_commit_prims. reflexivity.
Qed.

Lemma rh_set_entry_prims target f e e' :
  (forall pe pe1, f pe = Ok pe1 -> pe_matching pe1 = pe_matching pe) ->
  rh_set_entry target f e = Ok e' -> prims ks_progress e e'.
Proof.
  intros Hf. unfold rh_set_entry. destruct (en_leader e) as [l|] eqn:Hl; [|discriminate].
  destruct (vp_get (ld_progress l) target) as [pe|] eqn:Hg; [|discriminate]. intros H. rok H. injection H as <-.
  pone pr_progress; [exact Hl|reflexivity..|]. eapply matched_vp_set; [exact Hg|]. apply Hf. exact Hx.
Qed.

Lemma rh_try_purge_prims e e' : rh_try_purge e = Ok e' -> prims ks_progress e e'.
Proof.
  unfold rh_try_purge. destruct (en_leader e) as [l|] eqn:Hl; [|discriminate].
  destruct (ologid_leb _ _); [intros [= <-]; apply prims_refl|].
  destruct (rs_purge_upto (en_state e)) as [u|] eqn:Hu; [|intros [= <-]; apply prims_refl].
  destruct (existsb _ _) eqn:Hex; intros [= <-]; [apply prims_refl|].
  pone pr_purge. intros l0 u0 Hl0 Hu0. rewrite Hl in Hl0. rewrite Hu in Hu0. injection Hl0 as <-. injection Hu0 as <-. exact Hex.
Qed.

Lemma rh_update_progress_prims target r e e' :
  rh_update_progress target r e = Ok e' -> prims ks_progress e e'.
Proof.
  unfold rh_update_progress. intros H. rok H. eapply prims_trans; [|eapply rh_try_purge_prims; exact H].
  destruct r; [eapply rh_update_matching_prims; exact Hx|eapply rh_set_entry_prims; [|exact Hx]..].
  - intros pe pe1 H1. unfold pe_update_conflicting in H1. rok H1. injection H1 as <-. reflexivity.
  - intros pe pe1 [= <-]. reflexivity.
Qed.

Lemma rh_update_local_prims upto e e' : rh_update_local upto e = Ok e' -> prims ks_progress e e'.
Proof.
  unfold rh_update_local. destruct upto as [u|]; [|intros [= <-]; apply prims_refl].
  destruct (en_leader e) as [l|] eqn:Hl; [|discriminate].
  destruct (vp_get (ld_progress l) (en_id e)) as [pe|] eqn:Hg; [|intros [= <-]; apply prims_refl].
  destruct (ologid_leb _ _); [intros [= <-]; apply prims_refl|]. intros H.
  eapply prims_trans; [|eapply rh_update_matching_prims; exact H].
  pone pr_progress; [exact Hl|reflexivity..|]. eapply matched_vp_set; [exact Hg|reflexivity].
Qed.

Lemma rh_update_clock_prims node t e e' : rh_update_clock node t e = Ok e' -> prims ks_progress e e'.
Proof.
  unfold rh_update_clock. destruct (en_leader e) as [l|] eqn:Hl; [|discriminate].
  destruct (vp_increase_to _ _ _ _ _ _) as [c ok]. destruct ok; [|discriminate]. intros [= <-].
  pone pr_progress; [exact Hl|reflexivity..|]. apply progress_ok_same; reflexivity.
Qed.

Definition ks_lead_append : list Kind := [KLeadAppend; KProgress; KSend].
Lemma lh_append_prims ps e e' : length ps <= 1 -> lh_append ps e = Ok e' -> prims ks_lead_append e e'.
Proof.
  intros Hone. unfold lh_append. destruct (en_leader e) as [l|] eqn:Hl; [|discriminate].
  destruct ps as [|p ps]; [intros [= <-]; apply prims_refl|]. intros H.
  set (pps := p :: ps) in *. assert (Hne : length pps = 1) by (cbn in *; lia). clearbody pps.
  pose proof (pr_lead_append pps l e Hl Hne) as Hp. unfold leader_appended in Hp.
  destruct (last_membership _ None) as [[lid m]|].
  - rok H. eapply prims_trans; [eapply prims_one'; [exact Hp|reflexivity]|].
    unfold rh_append_membership in Hx. rok Hx. rok Hx.
    eapply prims_trans; [pw rh_rebuild_progresses_prims; eassumption|].
    eapply prims_trans; [pw rh_rebuild_streams_prims; eassumption|].
    eapply prims_trans; pw rh_initiate_prims; eassumption.
  - cbn [res_bind] in H. eapply prims_trans; [eapply prims_one'; [exact Hp|reflexivity]|].
    pw rh_initiate_prims; eassumption.
Qed.

Definition ks_internal : list Kind :=
  [KServer; KLeaderVote; KLeaderFresh; KFollow; KLeadAccept; KUpdIO; KProgress; KSend; KLeadAppend].

Lemma vh_become_leader_prims now e e' :
  rs_is_leader (en_state e) (en_id e) = true ->
  vh_become_leader now e = Ok e' -> prims ks_internal e e'.
Proof.
  intros Hlead. unfold vh_become_leader.
  set (fresh := res_bind _ _).
  assert (Hfresh : (forall l, en_leader e = Some l -> v_leader (ld_vote l) <> v_leader (rs_v (en_state e))) ->
                   fresh = Ok e' -> prims ks_internal e e').
  { subst fresh. intros Hne H. rok H.
    eapply prims_trans; [pone pr_leader_fresh; [exact Hlead|exact Hne]|].
    eapply prims_trans; [pone pr_lead_accept; reflexivity|].
    eapply prims_trans; [pone pr_upd_io|].
    eapply prims_trans; [apply prims_server; reflexivity|].
    eapply prims_trans; [pw rh_rebuild_streams_prims; exact Hx|].
    destruct (ologid_ltb _ _) in H.
    - pw lh_append_prims; [|exact H]; cbn; lia.
    - pw rh_initiate_prims. exact H. }
  destruct (en_leader e) as [l|] eqn:Hl.
  - destruct (leader_eqb _ _) eqn:Heq.
    + intros [= <-]. eapply prims_trans; [|apply prims_server; reflexivity].
      pone pr_leader_vote; [exact Hl| |exact Hlead]. apply leader_eqb_eq. exact Heq.
    + intros H. apply Hfresh; [|exact H]. intros l0 [= <-] Heq2. apply leader_eqb_eq in Heq2. congruence.
  - intros H. apply Hfresh; [|exact H]. discriminate.
Qed.

Lemma vh_update_internal_prims now e e' :
  vh_update_internal now e = Ok e' -> prims ks_internal e e'.
Proof.
  unfold vh_update_internal. destruct (rs_is_leader _ _) eqn:Hl; [apply vh_become_leader_prims; exact Hl|].
  destruct (rs_is_leading _ _) eqn:Hing; intros [= <-]; [apply prims_refl|].
  unfold vh_become_following. eapply prims_trans; [|apply prims_server; reflexivity].
  pone pr_follow. exact Hing.
Qed.

Definition ks_vote : list Kind := KVote :: KTouch :: ks_internal.
Lemma vh_update_vote_prims now v e x : vh_update_vote now v e = Ok x -> prims ks_vote e x.1.
Proof.
  unfold vh_update_vote. destruct (vote_geb v (rs_v (en_state e))) eqn:Hge; cbn [negb]; [|intros [= <-]; apply prims_refl].
  intros H. rok H. injection H as <-. cbn [fst].
  eapply prims_trans; [|pw vh_update_internal_prims; exact Hx].
  destruct (vote_gtb v (rs_v (en_state e))) eqn:Hgt; [pone pr_vote; exact Hgt|].
  assert (v = rs_v (en_state e)) as ->.
  { apply vote_geb_antisym; [exact Hge|]. rewrite vote_gtb_negb in Hgt. destruct (vote_geb (rs_v _) v); [reflexivity|discriminate]. }
  pone pr_touch.
Qed.

Definition ks_all : list Kind :=
  [KVote; KTouch; KLease; KInitVote; KServer; KProgress; KMatch; KLeadAccept; KLeaderVote; KLeaderFresh; KEstablish; KTransfer;
   KFollow; KCandNew; KAskVote; KCandGrant; KCandDrop; KGreater; KAccept; KUpdIO; KSend; KRespond; KLeadAppend;
   KFollowAppend; KTruncate; KLeadCommit; KFollowCommit; KBuild; KSnapshot; KPurgePlan; KPurge; KInstall; KCursor; KPop].
Lemma ks_all_all k : k ∈ ks_all.
Proof. apply (bool_decide_eq_true (k ∈ ks_all)). destruct k; reflexivity. Qed.

(** [accept_io] changes nothing but the accepted cursor *)
Definition io_accept (x : IOId) (io : IOState) : IOState :=
  if match io_accepted io with None => true | Some c => io_gtb x c end then io_set_accepted x io else io.
Lemma rs_accept_io_eq x s : rs_accept_io x s = set_io (io_accept x (rs_io s)) s.
Proof.
  unfold rs_accept_io, io_accept. destruct (match io_accepted (rs_io s) with None => _ | Some _ => _ end); [reflexivity|].
  destruct s; reflexivity.
Qed.

Lemma vh_update_internal_uncommitted now e e' :
  vh_update_internal now e = Ok e' -> v_committed (rs_v (en_state e)) = false ->
  exists ss, en_state e' = set_server ss (en_state e).
Proof.
  unfold vh_update_internal. intros H Hc. unfold rs_is_leader in H. rewrite Hc, andb_false_r in H.
  destruct (rs_is_leading _ _); injection H as <-.
  - exists (rs_server (en_state e)). destruct (en_state e); reflexivity.
  - unfold vh_become_following, ssh_update. destruct (bool_decide (rs_server _ = _)).
    + exists (rs_server (en_state e)). cbn. destruct (en_state e); reflexivity.
    + eexists. reflexivity.
Qed.
Lemma rs_accept_io_v x s : rs_v (rs_accept_io x s) = rs_v s.
Proof. unfold rs_accept_io. destruct (match io_accepted _ with None => _ | _ => _ end); reflexivity. Qed.
Lemma rs_accept_io_last x s : rs_last (rs_accept_io x s) = rs_last s.
Proof. unfold rs_accept_io. destruct (match io_accepted _ with None => _ | _ => _ end); reflexivity. Qed.
Lemma elect_vote_gt (w : Vote) id : vote_gtb (vote_new (S (li_term (v_leader w))) id) w = true.
Proof. destruct w as [[t n0] c]. apply vote_gtb_true. cbn. lia. Qed.
Lemma en_elect_update now e x :
  let v := vote_new (S (li_term (v_leader (rs_v (en_state e))))) (en_id e) in
  vh_update_vote now v (en_new_candidate now v e) = Ok x ->
  rs_v (en_state x.1) = v /\ rs_last (en_state x.1) = rs_last (en_state e).
Proof.
  cbv zeta. unfold vh_update_vote.
  change (rs_v (en_state (en_new_candidate now (vote_new (S (li_term (v_leader (rs_v (en_state e))))) (en_id e)) e)))
    with (rs_v (en_state e)).
  pose proof (elect_vote_gt (rs_v (en_state e)) (en_id e)) as Hgt.
  rewrite (vote_gtb_geb _ _ Hgt), Hgt. cbn [negb]. intros H. rok H. injection H as <-. cbn [fst].
  apply vh_update_internal_uncommitted in Hx as (ss & ->).
  - unfold push, upd, en_new_candidate, set_cand. cbn [en_state].
    rewrite rs_accept_io_eq. split; reflexivity.
  - unfold push, upd. cbn [en_state]. rewrite rs_accept_io_v. reflexivity.
Qed.

Definition ks_elect : list Kind := KCandNew :: KAskVote :: ks_vote.
Lemma en_elect_prims now e e' : en_elect now e = Ok e' -> prims ks_elect e e'.
Proof.
  unfold en_elect. intros H. rok H. destruct x as [e1 ok]. cbn [snd fst] in H. destruct ok; [|discriminate].
  injection H as <-.
  eapply prims_trans; [pone pr_cand_new|].
  eapply prims_trans; [pw (vh_update_vote_prims _ _ _ _ Hx)|].
  eapply prims_trans; [|apply prims_server; reflexivity].
  apply en_elect_update in Hx as [Hv Hl]. pone pr_send_vote; symmetry; assumption.
Qed.

Definition ks_append : list Kind := [KAccept; KTruncate; KFollowAppend; KUpdIO].

Lemma has_log_id_false s l :
  rs_has_log_id s l = false -> next_index (rs_committed s) <= lid_index l.
Proof. unfold rs_has_log_id. destruct (lid_index l <? _) eqn:E; [discriminate|]. lia. Qed.

Lemma ssh_update_state e : en_state (ssh_update e) = set_server (rs_calc_server (en_state e) (en_id e)) (en_state e).
Proof.
  unfold ssh_update. case_bool_decide as Hb; [|reflexivity].
  unfold set_server. rewrite <- Hb. destruct (en_state e); reflexivity.
Qed.

Lemma fh_ensure_consecutive_prims prev e : prims [KTruncate] e (fh_ensure_consecutive prev e).1.
Proof.
  unfold fh_ensure_consecutive. destruct prev as [p|]; [|apply prims_refl].
  destruct (rs_has_log_id _ _) eqn:Hh; [apply prims_refl|]. cbn [fst].
  pone pr_truncate. apply has_log_id_false. exact Hh.
Qed.

Lemma ssh_update_committed e : rs_committed (en_state (ssh_update e)) = rs_committed (en_state e).
Proof. rewrite ssh_update_state. reflexivity. Qed.
Lemma fh_truncate_committed since e :
  rs_committed (en_state (fh_truncate since e)) = rs_committed (en_state e).
Proof.
  unfold fh_truncate. destruct (rs_get_log_id _ _); [|reflexivity].
  destruct (onat_leb _ _); [rewrite ssh_update_committed|]; reflexivity.
Qed.

Lemma drop_conflicting s entries :
  match drop (rs_first_conflicting s entries) entries with
  | x :: _ => rs_has_log_id s (e_log_id x) = false
  | [] => True
  end.
Proof.
  induction entries as [|e r IH]; cbn [rs_first_conflicting]; [exact I|].
  destruct (rs_has_log_id s (e_log_id e)) eqn:Hh; cbn [drop]; [exact IH|exact Hh].
Qed.

Lemma fh_append_entries_prims lv prev entries e : prims ks_append e (fh_append_entries lv prev entries e).
Proof.
  unfold fh_append_entries.
  set (lst := ologid_max _ _). set (e1 := upd (rs_accept_io (IOLog lv lst)) e).
  assert (Hacc : prims ks_append e e1) by (pone pr_accept).
  pose proof (drop_conflicting (en_state e1) entries) as Hc.
  destruct (drop _ _) as [|x r].
  - destruct (some_io_leb _ _); [exact Hacc|]. eapply prims_trans; [exact Hacc|pone pr_upd_io].
  - apply has_log_id_false in Hc.
    eapply prims_trans; [exact Hacc|]. eapply prims_trans; [pone pr_truncate; exact Hc|].
    pone pr_follow_append; [discriminate|]. cbn [head]. left. rewrite fh_truncate_committed. exact Hc.
Qed.

Definition ks_commit_follow : list Kind := [KFollowCommit; KBuild].
Lemma fh_commit_prims lc e : prims ks_commit_follow e (fh_commit lc e).
Proof.
  unfold fh_commit. set (acc := match io_accepted _ with Some _ => _ | None => _ end).
  unfold rs_update_committed. destruct (ologid_ltb (rs_committed (en_state e)) (ologid_min acc lc)) eqn:Hlt;
    [|apply prims_refl].
  destruct (ologid_min acc lc) as [c|] eqn:Hmin; [|apply prims_refl].
  assert (Hp : prims ks_commit_follow e
      (push_all [SaveCommitted c; CmdApply (rs_committed (en_state e)) c]
         (upd (fun s => set_mem (ms_commit (rs_mem s) (Some c)) (set_committed (Some c) s)) e))).
  { subst acc. destruct (io_accepted (rs_io (en_state e))) as [i|] eqn:Hi.
    - pone pr_follow_commit; [exact Hlt|exact Hi|symmetry; exact Hmin].
    - destruct lc; cbn in Hmin; discriminate. }
  match goal with |- context [if ?b then _ else _] => destruct b end; [|exact Hp].
  eapply prims_trans; [exact Hp|apply sh_trigger_prims; reflexivity].
Qed.

(** ** Engine operations *)

Definition ks_startup : list Kind := ks_internal.
Lemma en_startup_prims now e e' : en_startup now e = Ok e' -> prims ks_startup e e'.
Proof.
  unfold en_startup. destruct (rs_is_leader _ _).
  - intros H. pw vh_update_internal_prims. exact H.
  - intros [= <-]. pone pr_server.
Qed.

Definition ks_init : list Kind := KInitVote :: KFollowAppend :: ks_elect.
Lemma en_initialize_prims now m e x : en_initialize now m e = Ok x -> prims ks_init e x.1.
Proof.
  unfold en_initialize. destruct (rs_is_initialized (en_state e)) eqn:Hi; [intros [= <-]; apply prims_refl|].
  destruct (m_is_voter m (en_id e)); cbn [negb]; [|intros [= <-]; apply prims_refl].
  intros H. rok H. injection H as <-. cbn [fst].
  eapply prims_trans; [pone pr_init_vote; exact Hi|].
  eapply prims_trans; [|pw en_elect_prims; exact Hx].
  pone pr_follow_append; [discriminate|]. cbn [head]. right.
  change (rs_last (en_state e) = None). unfold rs_is_initialized in Hi.
  destruct (rs_last (en_state e)); [discriminate|reflexivity].
Qed.

Lemma en_vote_req_prims now req e x : en_vote_req now req e = Ok x -> prims ks_vote e x.1.
Proof.
  unfold en_vote_req. destruct (_ && _); [intros [= <-]; apply prims_refl|].
  destruct (ologid_leb _ _); cbn [negb]; [|intros [= <-]; apply prims_refl].
  intros H. rok H. injection H as <-. cbn [fst]. eapply vh_update_vote_prims. exact Hx.
Qed.

Definition ks_establish : list Kind := KCandDrop :: KEstablish :: KAccept :: ks_vote.
Lemma en_establish_prims now c e e' :
  en_cand e = Some c -> vp_granted (cd_progress c) = true ->
  en_establish now e = Ok e' -> prims ks_establish e e'.
Proof.
  intros Hc Hg. unfold en_establish. rewrite Hc. unfold eh_establish.
  destruct (match en_leader (set_cand None e) with Some _ => _ | None => _ end) eqn:Hok.
  - intros H. rok H. rok H.
    eapply prims_trans.
    { pone (pr_establish now c e); [exact Hc|exact Hg|]. intros l Hl. cbn [en_leader set_cand] in Hok.
      rewrite Hl in Hok. exact Hok. }
    eapply prims_trans; [pw rh_rebuild_streams_prims; exact Hx|].
    eapply prims_trans; [pw vh_update_vote_prims; exact Hx0|].
    eapply prims_trans; [pone pr_accept|]. pw lh_append_prims; [|exact H]; cbn; lia.
  - intros [= <-]. pone pr_cand_drop.
Qed.

Definition ks_vote_resp : list Kind := KCandGrant :: KGreater :: ks_establish.
Lemma cand_grant_granted c t c' ok : cand_grant c t = Ok (c', ok) -> vp_granted (cd_progress c') = ok.
Proof.
  unfold cand_grant. destruct (vp_update _ _ _ _ _) as [p b]. destruct b; [|discriminate].
  intros [= <- <-]. reflexivity.
Qed.
Lemma en_vote_resp_prims now t resp e e' : en_vote_resp now t resp e = Ok e' -> prims ks_vote_resp e e'.
Proof.
  unfold en_vote_resp. destruct (en_cand e) as [c|] eqn:Hc; [|intros [= <-]; apply prims_refl].
  destruct (_ && _).
  - intros H. rok H. destruct x as [c' ok]. cbn [fst snd] in H.
    eapply prims_trans; [pone pr_cand_grant; [exact Hc|exact Hx]|].
    destruct ok.
    + pw en_establish_prims; [| |exact H]; [reflexivity|]. apply cand_grant_granted in Hx. exact Hx.
    + injection H as <-. apply prims_refl.
  - intros H. rok H. injection H as <-.
    eapply prims_trans; [|pw vh_update_vote_prims; exact Hx].
    destruct (ologid_ltb _ _); [pone pr_greater|apply prims_refl].
Qed.

Definition ks_append_entries : list Kind := KRespond :: ks_append ++ ks_vote.
Lemma en_append_prims now v prev entries e x :
  en_append now v prev entries e = Ok x -> prims ks_append_entries e x.1.
Proof.
  unfold en_append. intros H. rok H. pose proof (vh_update_vote_prims _ _ _ _ Hx) as Hv.
  destruct (negb x0.2); [injection H as <-; pw Hv|].
  pose proof (fh_ensure_consecutive_prims prev x0.1) as Hc.
  destruct (fh_ensure_consecutive prev x0.1) as [e2 ok]. cbn [fst] in Hc.
  destruct ok; injection H as <-; cbn [fst]; (eapply prims_trans; [pw Hv|]).
  - eapply prims_trans; [pw Hc|]. pw fh_append_entries_prims.
  - pw Hc.
Qed.
Lemma vh_update_vote_false now v e x :
  vh_update_vote now v e = Ok x -> x.2 = false -> x.1 = e.
Proof.
  unfold vh_update_vote. destruct (vote_geb v (rs_v (en_state e))); cbn [negb].
  - intros H. rok H. injection H as <-. discriminate.
  - intros [= <-] _. reflexivity.
Qed.
Lemma en_append_higher now v prev entries e e1 hv :
  en_append now v prev entries e = Ok (e1, AHigherVote hv) -> e1 = e /\ hv = rs_v (en_state e).
Proof.
  unfold en_append. intros H. rok H. destruct x as [e2 ok]. cbn [fst snd] in *. destruct ok; cbn [negb] in H.
  - destruct (fh_ensure_consecutive prev e2) as [e3 []]; discriminate.
  - injection H as <- <-. apply vh_update_vote_false in Hx; [|reflexivity]. cbn in Hx. subst. auto.
Qed.
Lemma en_append_entries_prims now v prev entries tx e x :
  en_append_entries now v prev entries tx e = Ok x -> prims ks_append_entries e x.1.
Proof.
  unfold en_append_entries. intros H. rok H. pose proof (en_append_prims _ _ _ _ _ _ Hx) as Ha.
  destruct x0 as [e1 r]. cbn [fst snd] in *. destruct r.
  - destruct (io_accepted (rs_io (en_state e1))) eqn:Hacc; [|discriminate]. injection H as <-. cbn [fst].
    eapply prims_trans; [exact Ha|pone pr_respond]. cbn. eauto.
  - injection H as <-. eapply prims_trans; [exact Ha|pone pr_respond].
    apply en_append_higher in Hx as [-> ->]. reflexivity.
  - injection H as <-. eapply prims_trans; [exact Ha|pone pr_respond]. exact I.
Qed.

Definition ks_install : list Kind := KInstall :: KRespond :: ks_vote.
Lemma en_install_snapshot_prims now v sn tx e e' :
  en_install_snapshot now v sn tx e = Ok e' -> prims ks_install e e'.
Proof.
  unfold en_install_snapshot, vh_accept_vote. intros H. rok H. rok Hx.
  pose proof (vh_update_vote_prims _ _ _ _ Hx0) as Hv. destruct x0 as [e1 ok]. cbn [fst snd] in *.
  destruct ok; injection Hx as <-; cbn [fst snd negb] in H.
  - destruct (fh_install (fh_vote e1) sn e1) as [e2 cond] eqn:Hi. injection H as <-.
    eapply prims_trans; [pw Hv|]. eapply prims_trans; [|pone pr_respond; reflexivity].
    pose proof (pr_install (fh_vote e1) sn e1) as Hp. rewrite Hi in Hp. eapply prims_one'; [exact Hp|reflexivity].
  - injection H as <-. eapply prims_trans; [pw Hv|pone pr_respond; reflexivity].
Qed.

Lemma en_step_down_prims now e e' : en_step_down now e = Ok e' -> prims ks_internal e e'.
Proof.
  unfold en_step_down. destruct (ologid_leb _ _); [apply vh_update_internal_prims|].
  intros [= <-]. apply prims_refl.
Qed.

Lemma en_try_purge_prims e e' : en_try_purge e = Ok e' -> prims [KPurge] e e'.
Proof.
  unfold en_try_purge. destruct (en_leader e) as [l|] eqn:Hl.
  - unfold rh_try_purge. rewrite Hl.
    destruct (ologid_leb _ _); [intros [= <-]; apply prims_refl|].
    destruct (rs_purge_upto (en_state e)) as [u|] eqn:Hu; [|intros [= <-]; apply prims_refl].
    destruct (existsb _ _) eqn:Hex; intros [= <-]; [apply prims_refl|].
    pone pr_purge. intros l0 u0 Hl0 Hu0. rewrite Hl in Hl0. rewrite Hu in Hu0. injection Hl0 as <-. injection Hu0 as <-. exact Hex.
  - intros [= <-]. pone pr_purge. rewrite Hl. discriminate.
Qed.

Definition ks_finish : list Kind := [KBuild; KSnapshot; KPurgePlan; KPurge].
Lemma en_finish_building_prims meta e e' : en_finish_building meta e = Ok e' -> prims ks_finish e e'.
Proof.
  unfold en_finish_building. intros H. eapply prims_trans; [pone pr_build_end|].
  unfold sh_update in H. match type of H with context [if ?b then _ else _] => destruct b eqn:Hle end.
  - injection H as <-. apply prims_refl.
  - eapply prims_trans; [pone pr_snapshot; exact Hle|].
    eapply prims_trans; [|pw en_try_purge_prims; exact H].
    unfold logh_schedule. destruct (logh_calc_purge_upto _) eqn:Hc; [|apply prims_refl].
    pone pr_purge_plan_policy. exact Hc.
Qed.

Definition ks_trigger_purge : list Kind := [KPurgePlan; KPurge].
Lemma en_trigger_purge_prims index e e' : en_trigger_purge index e = Ok e' -> prims ks_trigger_purge e e'.
Proof.
  unfold en_trigger_purge. destruct (rs_snap_last (en_state e)) as [sl|] eqn:Hs; [|intros [= <-]; apply prims_refl].
  destruct (index <? _) eqn:Hlt; [intros [= <-]; apply prims_refl|].
  destruct (rs_get_log_id _ _) as [lid|] eqn:Hg; [|discriminate]. intros H.
  eapply prims_trans; [|pw en_try_purge_prims; exact H].
  pone pr_purge_plan_trigger; [exact Hs| |].
  - instantiate (1 := index). lia.
  - rewrite <- Hg. f_equal. destruct (lid_index sl <? index) eqn:Hx; lia.
Qed.

Definition ks_trigger_transfer : list Kind := [KTransfer; KLease; KSend].
Lemma en_trigger_transfer_prims to e : prims ks_trigger_transfer e (en_trigger_transfer to e).
Proof.
  unfold en_trigger_transfer. destruct (en_leader e) as [l|] eqn:Hl; [|apply prims_refl].
  unfold lh_transfer. eapply prims_trans; [pone pr_transfer; exact Hl|].
  eapply prims_trans; [pone pr_lease|]. apply prims_push_send; [reflexivity|].
  eexists. split; reflexivity.
Qed.

(** ** Shapes of the composite primitives *)

Lemma ssh_update_eq e : ssh_update e = upd (set_server (rs_calc_server (en_state e) (en_id e))) e.
Proof.
  unfold ssh_update. destruct (bool_decide (rs_server (en_state e) = _)) eqn:Hb; [|reflexivity].
  apply bool_decide_eq_true in Hb. rewrite <- Hb. destruct e as [? [] ? ? ? ?]. reflexivity.
Qed.

Lemma sh_trigger_eq e :
  io_building (rs_io (en_state e)) = false ->
  sh_trigger e = push BuildSnapshot (upd (fun s => set_io (io_set_building true (rs_io s)) s) e).
Proof. unfold sh_trigger. intros ->. reflexivity. Qed.

Lemma fh_do_append_eq lv es e :
  fh_do_append lv es e =
  push (AppendInputEntries lv es)
    (upd (fun s =>
       let s1 := rs_extend es s in
       match last_two_memberships es with
       | [] => s1
       | ms => let s2 := set_mem (foldl ms_append (rs_mem s1) ms) s1 in
               set_server (rs_calc_server s2 (en_id e)) s2
       end) e).
Proof.
  unfold fh_do_append, fh_append_membership. destruct (last_two_memberships es) as [|m ms]; [reflexivity|].
  rewrite ssh_update_eq. reflexivity.
Qed.

Lemma fh_truncate_eq since e :
  fh_truncate since e =
  match rs_get_log_id (en_state e) since with
  | None => e
  | Some lid =>
      push (TruncateLog lid)
        (upd (fun s =>
           let s1 := set_log_ids (lil_truncate (rs_log_ids s) since) s in
           if onat_leb (Some since) (olid_index (em_log_id (rs_eff s1)))
           then let s2 := set_mem (ms_truncate (rs_mem s1) since) s1 in
                set_server (rs_calc_server s2 (en_id e)) s2
           else s1) e)
  end.
Proof.
  unfold fh_truncate. destruct (rs_get_log_id (en_state e) since) as [lid|]; [|reflexivity].
  cbv zeta. cbn [en_state upd push].
  destruct (onat_leb _ _) eqn:Hc; unfold upd, push; cbn [en_state]; rewrite ?Hc; [|reflexivity].
  rewrite ssh_update_eq. reflexivity.
Qed.

Lemma logh_purge_eq e :
  logh_purge e =
  match rs_purge_upto (en_state e) with
  | Some upto =>
      if ologid_leb (Some upto) (rs_last_purged (en_state e)) then e
      else push (PurgeLog upto) (upd (rs_purge_log upto) e)
  | None => e
  end.
Proof.
  unfold logh_purge. destruct (rs_purge_upto (en_state e)); [reflexivity|].
  rewrite ologid_leb_N. reflexivity.
Qed.

(** [fh_install] in three stages *)
Definition install_cut (sl : LogId) (e : Engine) : Engine :=
  match rs_get_log_id (en_state e) (lid_index sl) with
  | Some local => if logid_eqb local sl then e
                  else fh_truncate (next_index (rs_committed (en_state e))) e
  | None => e
  end.
Definition install_state (lv : Vote) (sl : LogId) (m : EffMem) (id : nat) (s : RaftState) : RaftState :=
  let s1 := set_committed (Some sl) (rs_accept_io (IOLog lv (Some sl)) s) in
  let s2 := set_mem (ms_update_committed (rs_mem s1) m) s1 in
  set_server (rs_calc_server s2 id) s2.

Lemma fh_install_eq lv sn e :
  (fh_install lv sn e).1 =
  match sm_last (sn_meta sn) with
  | None => e
  | Some sl =>
      if ologid_leb (Some sl) (rs_committed (en_state e)) then e
      else if ologid_leb (Some sl) (rs_snap_last (en_state e)) then e
      else
        let e2 := install_cut sl (upd (set_snap (sn_meta sn)) e) in
        let e3 := upd (fun s => set_purge_upto (Some sl) (install_state lv sl (sm_mem (sn_meta sn)) (en_id e2) s)) e2 in
        logh_purge (push (InstallSnapshot sn (IOLog lv (Some sl))) e3)
  end.
Proof.
  unfold fh_install. destruct (sm_last (sn_meta sn)) as [sl|] eqn:Hsl; [|rewrite ologid_leb_N; reflexivity].
  destruct (ologid_leb (Some sl) (rs_committed (en_state e))); [reflexivity|].
  unfold sh_update. rewrite Hsl. destruct (ologid_leb (Some sl) (rs_snap_last (en_state e))); [reflexivity|].
  cbv zeta. fold (install_cut sl (upd (set_snap (sn_meta sn)) e)). cbn [fst].
  unfold fh_update_committed_membership. rewrite ssh_update_eq. reflexivity.
Qed.

Lemma leader_appended_eq ps l e :
  let entries := assign_ids (v_leader (ld_vote l)) (next_index (ld_last l)) ps in
  let lst := match last entries with Some x => Some (e_log_id x) | None => ld_last l end in
  leader_appended ps l e =
  push (AppendInputEntries (ld_vote l) entries)
    (set_leader (Some (ld_set_last lst l))
      (upd (fun s =>
         let s1 := rs_accept_io (IOLog (ld_vote l) lst) (rs_extend_same entries s) in
         match last_membership entries None with
         | Some (lid, m) => set_mem (ms_append (rs_mem s1) (mkEM (Some lid) m)) s1
         | None => s1
         end) e)).
Proof.
  cbv zeta. unfold leader_appended. destruct (last_membership _ None) as [[lid m]|]; reflexivity.
Qed.

