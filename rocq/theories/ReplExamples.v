(** Concrete logs for the theorems about replication. *)
From Coq Require Import Bool Lia ZifyBool ZifyNat.
From stdpp Require Import base numbers option list list_numbers.
From Verif Require Import Types TypesProofs LogIdList LogIdSpec Membership RaftState ProgressEntry ReplSpec ReplProofs.

Definition rx_id (t i : nat) : LogId := mkLogId (mkLeaderId t 1) i.
Definition rx_log (n : nat) : list LogId := map (rx_id 2) (seq 0 n).
(** a leader with [n] entries of term 2, the first [p] of which are in a snapshot and may be purged *)
Definition rx_state (n p : nat) : RaftState :=
  let last := match p with 0 => None | S q => Some (rx_id 2 q) end in
  mkRS leased_default last p (if n =? 0 then [] else compress (drop (p - 1) (rx_log n))) ms_default
    (mkSnapMeta last em_default 0) SLeader io_default last.

Lemma rx_lookup n i : i < n -> rx_log n !! i = Some (rx_id 2 i).
Proof. intros Hi. unfold rx_log. change (map (rx_id 2) (seq 0 n)) with (rx_id 2 <$> seq 0 n). rewrite list_lookup_fmap, lookup_seq_lt by assumption. reflexivity. Qed.
Lemma rx_consecutive n : consecutive 0 (rx_log n).
Proof.
  intros k x H. pose proof (lookup_lt_Some _ _ _ H) as Hl. unfold rx_log in Hl. rewrite map_length, seq_length in Hl.
  rewrite rx_lookup in H by assumption. injection H as <-. reflexivity.
Qed.
Lemma rx_sorted n : leaders_sorted (rx_log n).
Proof.
  intros i j x y _ Hx Hy. pose proof (lookup_lt_Some _ _ _ Hx) as H1. pose proof (lookup_lt_Some _ _ _ Hy) as H2.
  unfold rx_log in H1, H2. rewrite map_length, seq_length in *.
  rewrite rx_lookup in Hx, Hy by assumption. injection Hx as <-. injection Hy as <-. reflexivity.
Qed.
(** the finite part of [leader_view], computed *)
Definition rx_viewb (n p : nat) : bool :=
  let s := rx_state n p in
  bool_decide (rs_last s = last (rx_log n)) && (p <=? n) &&
  forallb (fun i => bool_decide (rs_get_log_id s i = rx_log n !! i)) (seq (p - 1) (n - (p - 1))) .
Lemma rx_view n p : rx_viewb n p = true -> leader_view (rx_state n p) (rx_log n).
Proof.
  unfold rx_viewb. intros H. apply andb_prop in H as [H H3]. apply andb_prop in H as [H1 H2].
  apply bool_decide_eq_true in H1. rewrite forallb_forall in H3.
  assert (Hp : next_index (rs_purge_upto (rx_state n p)) = p) by (destruct p; reflexivity).
  assert (Hlen : length (rx_log n) = n) by (unfold rx_log; rewrite map_length, seq_length; reflexivity).
  split.
  - apply rx_consecutive.
  - apply rx_sorted.
  - exact H1.
  - rewrite Hp, Hlen. lia.
  - intros i x Hi Hx. rewrite Hp in Hi. pose proof (lookup_lt_Some _ _ _ Hx) as Hl. rewrite Hlen in Hl.
    specialize (H3 i). rewrite <- Hx. refine (bool_decide_eq_true_1 _ (H3 _)). apply in_seq. lia.
  - rewrite Hp. destruct p; cbn; lia.
  - intros x Hx. destruct p as [|q]; [discriminate Hx|]. injection Hx as <-. apply rx_lookup. lia.
Qed.

(** the leader holds 40 entries from 3 on; the follower has 5 of them and 3 of another leader *)
Definition rx_follower : list LogId := take 5 (rx_log 40) ++ [rx_id 1 5; rx_id 1 6; rx_id 1 7].
Definition rx_start : Exch := mkX (rx_state 40 3) (rx_log 40) (pe_empty 40) rx_follower.
Lemma rx_started : xstart rx_start.
Proof.
  split; [apply rx_view; vm_compute; reflexivity|]. split; [|reflexivity].
  cbn [rx_start x_ids x_f]. intros i x Hx Hf. destruct (decide (i < 8)) as [Hi|Hi].
  - do 5 (destruct i as [|i]; [reflexivity|]).
    do 3 (destruct i as [|i]; [exfalso; vm_compute in Hx, Hf; congruence|]). lia.
  - exfalso. apply lookup_lt_Some in Hf. vm_compute in Hf. lia.
Qed.
(** the first request starts at 16 and is refused; the second starts at 3, the first entry the
    leader still has, and stores 3 .. 12; the third goes on from there *)
Definition rx_send (x : Exch) : Exch :=
  mkX (x_s x) (x_ids x) (pe_next_send (x_s x) 10 (x_pe x)).1 (x_f x).
Definition rx_refused (x : Exch) : Exch :=
  match pe_inflight (x_pe x) with
  | InfLogs (mkRange (Some c) _) =>
      match pe_update_conflicting (x_pe x) (lid_index c) with
      | Ok p => mkX (x_s x) (x_ids x) p (x_f x)
      | Panic => x
      end
  | _ => x
  end.
Definition rx_probed : Exch := rx_send (rx_refused (rx_send rx_start)).
Definition rx_stored : Exch :=
  match pe_update_matching (x_pe rx_probed) (Some (rx_id 2 12)) with
  | Ok p => mkX (x_s rx_probed) (x_ids rx_probed) p (stored (x_ids rx_probed) 13 (x_f rx_probed))
  | Panic => rx_probed
  end.
Definition rx_narrowed : Exch := rx_send rx_stored.
Lemma rx_run : xrun 10 [XSend; XReply; XSend; XReply; XSend] rx_start rx_narrowed.
Proof.
  eapply (xr_cons _ _ _ _ (rx_send rx_start)); [eapply xs_send; vm_compute; reflexivity|].
  eapply (xr_cons _ _ _ _ (rx_refused (rx_send rx_start))).
  { eapply xs_conflict; [vm_compute; reflexivity|vm_compute; reflexivity|vm_compute; congruence|vm_compute; reflexivity]. }
  eapply (xr_cons _ _ _ _ rx_probed); [eapply xs_send; vm_compute; reflexivity|].
  eapply (xr_cons _ _ _ _ rx_stored).
  { eapply (xs_success 10 (x_s rx_probed) (x_ids rx_probed) (x_pe rx_probed) (x_f rx_probed)
      (x_pe rx_stored) _ (rx_id 2 12)); [vm_compute; reflexivity|vm_compute; reflexivity|vm_compute; reflexivity|vm_compute; reflexivity
      |vm_compute; lia|vm_compute; reflexivity]. }
  eapply (xr_cons _ _ _ _ rx_narrowed); [eapply xs_send; vm_compute; reflexivity|]. apply xr_nil.
Qed.
(** a leader that has purged all its 4 entries *)
Definition rx_purged : Exch := mkX (rx_state 4 4) (rx_log 4) (pe_empty 4) [].
Lemma rx_purged_start : xstart rx_purged.
Proof.
  split; [apply rx_view; vm_compute; reflexivity|]. split; [|reflexivity].
  intros i x Hx Hf. discriminate Hf.
Qed.
