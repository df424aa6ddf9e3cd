(** C26: what a client may conclude from the answer to its request.  The vocabulary
    ([proposed], [asked], [answered]) is in ClientSpec.v. *)
From stdpp Require Import base numbers option gmap list.
From Verif Require Import Types LogIdList Membership RaftState ProgressEntry Engine Store RaftCore NodeSpec NodeExamples
  LogSpec LogPropSpec LogExamples ClientSpec TxProofs ClientProofs ClientExamples.

(** ** C26: a client hears success only for the entry it proposed *)
(** Whenever a step of a node, after any run with crashes, tells the client on channel [tx]
    that its write succeeded at log id [l] with payload [p], then a request on that channel made
    this very node, as leader and since its last crash, append an entry with exactly this log id
    and this payload; the node considers it committed, and its state machine has applied it.
    Missing: runs in which an election is triggered on a node that already leads, see
    [C26_elect_on_leader_refuted]; [run_fits] also assumes that leaders follow one history. *)
Theorem C26_success_is_own_applied_entry_partial : forall E now0 cfg n0 acts n outs now ev n' o tx l p,
  env_ok E -> node_fresh now0 cfg = Ok n0 -> run_fits E acts n0 -> node_run acts n0 = Ok (n, outs) ->
  node_step now ev n = Ok (n', o) -> OClient tx (CWriteOk l p) ∈ o ->
  exists e, proposed acts n0 tx e /\ e_log_id e = l /\ e_payload e = p /\ e ∈ sm_entries (nd_sm n') /\
    pos_le (Some l) (rs_committed (nd_state n)).
Proof.
  intros E now0 cfg n0 acts n outs now ev n' o tx l p HE Hfresh.
  exact (success_own E (ec_id cfg) HE now0 cfg n0 acts n outs now ev n' o tx l p Hfresh eq_refl).
Qed.
Print Assumptions C26_success_is_own_applied_entry_partial.

(** Leader 1's entry for the client on channel 20 is committed and applied, and the next
    step answers the client. *)
Example C26_success_ex : exists n0 n outs n' o,
  node_fresh 0 (ex_cfg 1) = Ok n0 /\ run_fits ex_env wx_done n0 /\ node_run wx_done n0 = Ok (n, outs) /\
  node_step 5 ENote n = Ok (n', o) /\ OClient 20 (CWriteOk (ex_lid 1 1 2) (PNormal 5)) ∈ o.
Proof.
  do 5 eexists. split; [vm_compute; reflexivity|]. split; [apply fitsb_ok; vm_compute; reflexivity|].
  split; [vm_compute; reflexivity|]. split; [vm_compute; reflexivity|]. vm_compute. left.
Qed.
(** When another leader's entry takes its index first, the same client is told to go
    elsewhere, although an entry with that index is applied. *)
Example C26_lost_ex : ex_fits ex_env (ex_cfg 1) wx_lost = true /\
  wx_summary wx_lost = Some ([OClient 20 (CForward (Some 3))], Some (ex_lid 2 3 3), Some (ex_lid 2 3 3), [], 0).
Proof. split; vm_compute; reflexivity. Qed.

(** [run_fits] excludes an election triggered by hand on a node that already leads.  There
    the property fails (finding F2): the node accepts a write at an index that it then uses
    again for the blank entry of its next term, and the client still waits at that index; a
    log store that keeps one entry per index then applies the blank entry, and the client is
    told that its write succeeded. *)
Theorem C26_elect_on_leader_refuted : exists acts n0 n outs x y tx,
  node_fresh 0 (ex_cfg 1) = Ok n0 /\ node_run acts n0 = Ok (n, outs) /\
  x ∈ ls_entries (dk_log (so_disk (nd_store n))) /\ y ∈ ls_entries (dk_log (so_disk (nd_store n))) /\ e_index x = e_index y /\ x <> y /\
  Act 6 (EMsg (MWrite 5 tx)) ∈ acts /\ e_payload x = PNormal 5 /\ e_payload y = PBlank /\
  nd_clients n !! e_index y = Some tx /\ OClient tx (CWriteOk (e_log_id y) (e_payload y)) ∈ (apply_results [y] (nd_clients n)).2.
Proof. exact elect_refuted. Qed.
Print Assumptions C26_elect_on_leader_refuted.

(** ** C26: each request gets at most one answer *)
(** In any run of a node, with any messages and any crashes, a channel is answered at most
    as often as it was handed in; with one channel per request, nobody is answered twice, and
    nobody who did not ask is answered. *)
Theorem C26_at_most_one_reply : forall now cfg n0 acts n outs,
  node_fresh now cfg = Ok n0 -> node_run acts n0 = Ok (n, outs) ->
  answered outs ⊆+ asked acts /\ (NoDup (asked acts) -> NoDup (answered outs)).
Proof. exact answered_once. Qed.
Print Assumptions C26_at_most_one_reply.

Example C26_at_most_one_ex : asked (wx_done ++ [Act 5 ENote]) = [20] /\ asked wx_lost = [20] /\
  (exists n o, ex_end (ex_cfg 1) (wx_done ++ [Act 5 ENote]) = Ok (n, o) /\ answered o = [20]) /\
  (exists n o, ex_end (ex_cfg 1) wx_lost = Ok (n, o) /\ answered o = [20]).
Proof.
  split; [vm_compute; reflexivity|]. split; [vm_compute; reflexivity|].
  split; do 2 eexists; (split; [vm_compute; reflexivity|vm_compute; reflexivity]).
Qed.
