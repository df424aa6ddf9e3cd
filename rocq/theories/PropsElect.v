(** Properties of votes, elections and leadership transfer on one node
    (C02-C06, C28, C43). *)
From Coq Require Import Sorted.
From stdpp Require Import base numbers option gmap list.
From Verif Require Import Types Quorum QuorumSpec Membership RaftState Engine Store RaftCore NodeSpec
  EnginePrims VoteSpec VoteProofs NodePrims VoteNodeProofs ElectProofs LeadProofs NodeExamples LogSpec LogPropSpec LogExamples RoleSpec MemSpec PanicExamples
  TransferProofs RoleExamples FlightExamples.
Import NodeSpec.

(** ** C02 *)

(** Without a restart the vote only grows, whatever events the node processes. *)
Theorem C02_vote_only_grows : forall acts n n' outs,
  Forall (fun a => exists now ev, a = Act now ev) acts -> node_run acts n = Ok (n', outs) ->
  vote_le (rs_v (nd_state n)) (rs_v (nd_state n')).
Proof. exact acts_vote. Qed.
Print Assumptions C02_vote_only_grows.

(** Each event that changes the vote queues, in increasing order, save-vote requests of
    which the last carries exactly the new vote; running a queued command changes nothing. *)
Theorem C02_every_new_vote_is_saved : forall now ev n n' outs,
  node_step now ev n = Ok (n', outs) ->
  vote_le (rs_v (nd_state n)) (rs_v (nd_state n')) /\
  (ev = ERun -> rs_v (nd_state n') = rs_v (nd_state n)) /\
  (ev <> ERun -> exists vs,
     saved_votes (en_out (nd_eng n')) = saved_votes (en_out (nd_eng n)) ++ vs /\
     last (rs_v (nd_state n) :: vs) = Some (rs_v (nd_state n')) /\
     StronglySorted vote_lt (rs_v (nd_state n) :: vs)).
Proof. exact step_vote. Qed.
Print Assumptions C02_every_new_vote_is_saved.

(** Also across crashes and restarts: the stored vote never goes back, and the votes in
    all vote replies ever sent never go back and lie between the stored votes. *)
Theorem C02_stored_and_replied_votes : forall cfg n acts n' outs,
  reachable cfg n -> node_run acts n = Ok (n', outs) ->
  vote_le (stored_vote n) (stored_vote n') /\
  StronglySorted vote_le (replied_votes outs) /\
  Forall (vote_le (stored_vote n)) (replied_votes outs) /\
  Forall (fun v => vote_le v (stored_vote n')) (replied_votes outs).
Proof. exact (fun cfg n acts n' outs Hr H => proj2 (node_run_vinv acts n n' outs (reachable_vinv cfg n Hr) H)). Qed.
Print Assumptions C02_stored_and_replied_votes.

(** The only votes an event makes a node store are the ones it carries, the node's own
    next vote where the event may start an election, or its candidate's vote, committed,
    where a grant arrives. *)
Theorem C02_where_votes_come_from : forall now ev n n' outs,
  ev <> ERun -> node_step now ev n = Ok (n', outs) ->
  exists vs, saved_votes (en_out (nd_eng n')) = saved_votes (en_out (nd_eng n)) ++ vs /\
    last (rs_v (nd_state n) :: vs) = Some (rs_v (nd_state n')) /\
    Forall (fun v => v ∈ event_votes ev n) vs.
Proof. exact step_saved. Qed.
Print Assumptions C02_where_votes_come_from.

(** Node 1 is initialized, campaigns with (1,1) and leads: its vote grows three times. *)
Example C02_ex : exists n outs,
  ex_node ex_lead = Ok (n, outs) /\ rs_v (nd_state n) = mkVote (mkLeaderId 1 1) true /\
  saved_votes (en_out (nd_eng n)) = [mkVote (mkLeaderId 1 1) true] /\ stored_vote n = mkVote (mkLeaderId 1 1) false.
Proof. eexists _, _. split; [vm_compute; reflexivity|]. vm_compute. auto. Qed.

(** ** C03, C04, C05: what a vote request does *)

(** The request is granted exactly if no lease of an established leader is live, the
    candidate's last log id is not behind and its vote is not behind.  If granted the
    node's vote is the requested one; if refused nothing changes at all.  The reply tells
    the node's vote and last log id. *)
Theorem C04_vote_request_decision : forall now req e e' resp,
  en_vote_req now req e = Ok (e', resp) ->
  (vr_granted resp = true <->
     ~ lease_live now (en_state e) /\
     ologid_leb (rs_last (en_state e)) (vq_last req) = true /\
     vote_le (rs_v (en_state e)) (vq_vote req)) /\
  (vr_granted resp = true -> rs_v (en_state e') = vq_vote req) /\
  (vr_granted resp = false -> e' = e) /\
  vr_vote resp = rs_v (en_state e') /\ vr_last resp = rs_last (en_state e').
Proof. exact vote_req_spec. Qed.
Print Assumptions C04_vote_request_decision.

(** Granting (another node's vote) does not touch log, membership or commit position either. *)
Theorem C04_vote_request_keeps_log : forall now req e e' resp,
  en_vote_req now req e = Ok (e', resp) -> li_node (v_leader (vq_vote req)) <> en_id e ->
  same_log (en_state e) (en_state e').
Proof. exact vote_req_same_log. Qed.
Print Assumptions C04_vote_request_keeps_log.

(** In the node: an idle node handling a vote request does exactly this, and queues the
    reply to be sent once its vote is stored. *)
Theorem C04_vote_request_in_node : forall now req tx n n' outs,
  node_step now (EMsg (MVote req tx)) n = Ok (n', outs) -> runnable n = false ->
  exists e' resp, en_vote_req now req (nd_eng n) = Ok (e', resp) /\
    nd_eng n' = push (Respond (Some (IOFlushed (io_new (rs_v (en_state e'))))) (RVote resp) tx) e'.
Proof. exact vote_event_step. Qed.
Print Assumptions C04_vote_request_in_node.

(** Following leader (1,1) since time 3 with lease 5, node 2 refuses (2,3) at time 8, and
    at time 9 refuses a shorter log, and grants an equal one. *)
Example C04_ex : exists n outs, ex_node2 ex_follow = Ok (n, outs) /\
  lease_live 8 (nd_state n) /\ ~ lease_live 9 (nd_state n) /\
  let ask now l := match en_vote_req now (mkVoteReq (mkVote (mkLeaderId 2 3) false) l) (nd_eng n) with
                   | Ok (_, r) => Some (vr_granted r) | Panic => None end in
  ask 8 (Some (ex_lid 1 1 2)) = Some false /\ ask 9 (Some (ex_lid 1 1 1)) = Some false /\
  ask 9 (Some (ex_lid 1 1 2)) = Some true.
Proof.
  eexists _, _. split; [vm_compute; reflexivity|]. repeat split; try (vm_compute; reflexivity).
  - exists 3. split; [reflexivity|]. vm_compute. lia.
  - intros (_ & c & Hc & Hle). vm_compute in Hc. injection Hc as <-. vm_compute in Hle. lia.
Qed.

(** Granted votes, in the order of the replies, never decrease; they are not below what
    was stored before nor above what is stored after; also across crashes. *)
Theorem C03_grants_never_go_back : forall cfg n acts n' outs,
  reachable cfg n -> node_run acts n = Ok (n', outs) ->
  StronglySorted vote_le (granted_votes outs) /\
  Forall (vote_le (stored_vote n)) (granted_votes outs) /\
  Forall (fun v => vote_le v (stored_vote n')) (granted_votes outs).
Proof. exact run_granted_sorted. Qed.
Print Assumptions C03_grants_never_go_back.

(** Single-term-leader mode: of the (uncommitted) votes adopted one after the other, two
    of the same term name the same node. *)
Theorem C03_one_node_per_term : forall v0 reqs a b,
  a ∈ std_adopted v0 reqs -> b ∈ std_adopted v0 reqs ->
  sv_committed a = false -> sv_committed b = false ->
  sl_term (sv_leader a) = sl_term (sv_leader b) ->
  sl_voted (sv_leader a) <> None -> sl_voted (sv_leader b) <> None ->
  sv_leader a = sv_leader b.
Proof. exact std_adopted_promise. Qed.
Print Assumptions C03_one_node_per_term.

(** ** C05: the lease *)

Theorem C05_lease_value : forall cfg n,
  reachable cfg n ->
  let l := rs_vote (nd_state n) in
  (v_committed (l_vote l) = false -> l_lease l = 0) /\
  (l_enabled l = false -> l_lease l = 0) /\
  l_lease l <= ec_leader_lease (en_cfg (nd_eng n)).
Proof. exact reachable_linv. Qed.
Print Assumptions C05_lease_value.

(** Once disabled it stays so until the vote changes. *)
Theorem C05_disabled_until_vote_changes : forall now ev n n' outs,
  node_step now ev n = Ok (n', outs) ->
  rs_v (nd_state n) = rs_v (nd_state n') ->
  l_enabled (rs_vote (nd_state n)) = false -> l_enabled (rs_vote (nd_state n')) = false.
Proof. exact (fun now ev n n' outs H => proj2 (node_step_drel now ev n n' outs H)). Qed.
Print Assumptions C05_disabled_until_vote_changes.

(** ** C06 *)

(** A node that leads under leader id [L] has won an election for it at some point of the
    run (replies granting exactly that vote from a quorum of voters), or was handed the
    committed vote naming itself by another node. *)
Theorem C06_leader_won_election : forall now cfg n0 acts n outs L,
  node_fresh now cfg = Ok n0 -> node_run acts n0 = Ok (n, outs) -> leads n L ->
  li_node L = ec_id cfg /\
  (won_election acts n0 L \/ mkVote L true ∈ run_carried acts n0).
Proof. exact (fun now cfg n0 acts n outs L Hf Hr => proj2 (run_committed now cfg n0 acts n outs L Hf Hr)). Qed.
Print Assumptions C06_leader_won_election.

(** The same for the committed vote itself, before it is stored or sent anywhere. *)
Theorem C06_committed_vote_won_election : forall now cfg n0 acts n outs L,
  node_fresh now cfg = Ok n0 -> node_run acts n0 = Ok (n, outs) ->
  mkVote L true ∈ stored_vote n :: saved_votes (en_out (nd_eng n)) ->
  won_election acts n0 L \/ mkVote L true ∈ run_carried acts n0.
Proof. exact (fun now cfg n0 acts n outs L Hf Hr => proj1 (run_committed now cfg n0 acts n outs L Hf Hr)). Qed.
Print Assumptions C06_committed_vote_won_election.

(** The voter groups a candidate counts for are those of the effective membership when it
    started the election, and its vote is the node's vote. *)
Theorem C06_candidate_membership : forall now e e', en_elect now e = Ok e' ->
  forall c, en_cand e' = Some c ->
  cd_vote c = rs_v (en_state e') /\ cd_qs c = m_configs (em_mem (rs_eff (en_state e))) /\
  cd_last c = rs_last (en_state e).
Proof. exact elect_candidate. Qed.
Print Assumptions C06_candidate_membership.

(** With its own grant and a stale reply node 1 does not lead; with node 2's grant it does. *)
Example C06_ex : exists n0 n outs n' outs', node_fresh 0 (ex_cfg 1) = Ok n0 /\
  node_run ex_before_lead n0 = Ok (n, outs) /\ en_leader (nd_eng n) = None /\ is_Some (en_cand (nd_eng n)) /\
  node_run ex_lead n0 = Ok (n', outs') /\ leads n' (mkLeaderId 1 1) /\ mkVote (mkLeaderId 1 1) true ∉ run_carried ex_lead n0.
Proof.
  eexists _, _, _, _, _. split; [vm_compute; reflexivity|]. split; [vm_compute; reflexivity|].
  split; [reflexivity|]. split; [eexists; reflexivity|]. split; [vm_compute; reflexivity|].
  split; [eexists; split; reflexivity|].
  apply (bool_decide_eq_false_1 (_ ∈ _)). vm_compute. reflexivity.
Qed.

(** ** C28 *)

(** Triggering a transfer does nothing on a node that does not lead; on a leader it records
    the target, disables the lease and broadcasts the request with the leader's vote and
    last log id; vote, log and commit position stay. *)
Theorem C28_trigger : forall to e,
  (en_leader e = None -> en_trigger_transfer to e = e) /\
  (forall l, en_leader e = Some l ->
     let e' := en_trigger_transfer to e in
     en_leader e' = Some (ld_set_transfer (Some to) l) /\
     en_out e' = en_out e ++ [BroadcastTransferLeader (mkTransferReq (ld_vote l) to (ld_last l))] /\
     rs_v (en_state e') = rs_v (en_state e) /\
     l_lease (rs_vote (en_state e')) = 0 /\ l_enabled (rs_vote (en_state e')) = false /\
     same_log (en_state e) (en_state e') /\ en_cand e' = en_cand e).
Proof. exact trigger_transfer_spec. Qed.
Print Assumptions C28_trigger.

(** While the transfer is recorded, client writes are answered with a forward and change
    nothing, and no heartbeat is sent. *)
Theorem C28_no_writes : forall p tx n l to,
  en_leader (nd_eng n) = Some l -> ld_transfer l = Some to ->
  core_write p tx n = Ok (n, [OClient tx (CForward (fst <$> rs_new_forward (nd_state n) to))]).
Proof. exact transferring_write. Qed.
Print Assumptions C28_no_writes.

Theorem C28_no_heartbeats : forall e l to,
  en_leader e = Some l -> ld_transfer l = Some to -> core_heartbeat e = e.
Proof. exact transferring_heartbeat. Qed.
Print Assumptions C28_no_heartbeats.

(** The record lasts until the node stops leading: of the primitive updates that make up
    every operation only stepping down and beginning a new leadership remove it. *)
Theorem C28_record_lasts : forall k e e' l,
  prim k e e' -> k <> KLeaderFresh -> k <> KEstablish -> k <> KFollow ->
  en_leader e = Some l -> ld_transfer l <> None ->
  exists l', en_leader e' = Some l' /\ ld_transfer l' <> None /\ v_leader (ld_vote l') = v_leader (ld_vote l).
Proof. exact prim_transfer. Qed.
Print Assumptions C28_record_lasts.

(** So from the trigger to the end of that leadership, whatever the node receives that
    fits the history: the transfer stays recorded, idle clients' writes are forwarded and
    change nothing, no entry is proposed (no membership either), and ticks and requested
    heartbeats queue nothing. *)
Theorem C28_until_leadership_ends : forall E cfg, env_ok E -> forall n n',
  leads_on E cfg n n' -> (exists l to, en_leader (nd_eng n) = Some l /\ ld_transfer l = Some to) ->
  (exists l to, en_leader (nd_eng n') = Some l /\ ld_transfer l = Some to /\
     forall now d tx, runnable n' = false ->
       node_step now (EMsg (MWrite d tx)) n' = Ok (n', [OClient tx (CForward (fst <$> rs_new_forward (nd_state n') to))])) /\
  forall now ev n'' outs, fits_step E cfg now ev n' n'' outs ->
    proposals (nd_id n') (step_produced ev n' n'') = [] /\
    ((exists hb ee eh, ev = ETick hb ee eh) \/ ev = EMsg MHeartbeat -> step_produced ev n' n'' = []).
Proof. exact transfer_lasts. Qed.
Print Assumptions C28_until_leadership_ends.

(** Leader 1 hands over to node 2, runs its queue, passes two ticks, a vote request and
    replies, and is then asked for a heartbeat. *)
Example C28_until_ex : exists n0 n1 n2 n3 o1 o3, env_ok rm_env /\ fits_step rm_env (ex_cfg 1) 5 (EMsg (MTriggerTransfer 2)) n0 n1 o1 /\
  en_leader (nd_eng n0) <> None /\ leads_on rm_env (ex_cfg 1) n1 n2 /\ fits_step rm_env (ex_cfg 1) 6 (EMsg MHeartbeat) n2 n3 o3 /\
  (exists l, en_leader (nd_eng n1) = Some l /\ ld_transfer l = Some 2).
Proof.
  destruct (fx_check_ok rm_env (ex_cfg 1) fx_ready (EMsg (MTriggerTransfer 2)) tx_mid (EMsg MHeartbeat) tx_handing) as
    (n0 & n1 & n2 & n3 & o1 & o3 & H1 & H2 & H3 & H4 & _ & H5); [exact fx_ready_fits|vm_compute; reflexivity|].
  exists n0, n1, n2, n3, o1, o3. split; [exact rm_env_ok|]. split; [exact H1|]. split; [exact H2|]. split; [exact H3|]. split; [exact H4|].
  exact (tx_handing_ok _ _ _ _ H5).
Qed.

(** The receiver: ignores the request unless its vote is the transferring leader's; if it
    is not the target it only disables its lease; the target starts an election with a
    vote greater than the transferring leader's. *)
Theorem C28_receiver : forall now req e e', core_transfer now req e = Ok e' ->
  (rs_v (en_state e) <> tq_from req -> e' = e) /\
  (rs_v (en_state e) = tq_from req -> en_id e <> tq_to req ->
     rs_v (en_state e') = rs_v (en_state e) /\
     l_enabled (rs_vote (en_state e')) = false /\ l_lease (rs_vote (en_state e')) = 0 /\
     same_log (en_state e) (en_state e') /\
     en_leader e' = en_leader e /\ en_cand e' = en_cand e /\ en_out e' = en_out e) /\
  (rs_v (en_state e) = tq_from req -> en_id e = tq_to req ->
     rs_v (en_state e') = vote_new (S (li_term (v_leader (tq_from req)))) (en_id e) /\
     vote_lt (tq_from req) (rs_v (en_state e')) /\
     SendVote (mkVoteReq (rs_v (en_state e')) (rs_last (en_state e))) ∈ en_out e').
Proof. exact core_transfer_spec. Qed.
Print Assumptions C28_receiver.

(** Whatever it does, its log, commit position, membership and snapshot stay. *)
Theorem C28_receiver_keeps_log : forall now req e e', core_transfer now req e = Ok e' -> same_log (en_state e) (en_state e').
Proof. exact transfer_keeps_log. Qed.
Print Assumptions C28_receiver_keeps_log.

(** That the target carries the election through is false of the code if it is a learner
    (finding F9): it starts the election and panics when it counts its own grant. *)
Theorem C28_learner_target_refuted : exists E cfg acts n now n' outs, env_ok E /\ fits_reachable E cfg n /\
  m_is_voter (em_mem (rs_eff (nd_state n))) (ec_id cfg) = false /\
  node_run (Act now px_transfer :: acts) n = Ok (n', outs) /\ fits_reachable E cfg n' /\ node_step now ENote n' = Panic.
Proof. exact learner_target_panics. Qed.
Print Assumptions C28_learner_target_refuted.

(** Leader 1 hands over to node 2, which holds its vote. *)
Example C28_ex : exists n outs n2 outs2, ex_node ex_leading = Ok (n, outs) /\ ex_node2 ex_follow = Ok (n2, outs2) /\
  exists l, en_leader (nd_eng n) = Some l /\
  let req := mkTransferReq (ld_vote l) 2 (ld_last l) in
  rs_v (nd_state n2) = tq_from req /\ en_id (nd_eng n2) = tq_to req /\
  exists e', core_transfer 4 req (nd_eng n2) = Ok e' /\ rs_v (en_state e') = mkVote (mkLeaderId 2 2) false.
Proof.
  eexists _, _, _, _. split; [vm_compute; reflexivity|]. split; [vm_compute; reflexivity|].
  eexists. split; [reflexivity|]. cbn zeta. split; [reflexivity|]. split; [reflexivity|].
  eexists. split; vm_compute; reflexivity.
Qed.

(** ** C43 *)

(** A tick starts an election (changes the vote or makes a candidate) only if one is due,
    and if one is due and the node is idle the vote becomes its own next one. *)
Theorem C43_election_timer : forall now hb ee eh n n' outs,
  node_step now (ETick hb ee eh) n = Ok (n', outs) ->
  (rs_v (nd_state n') <> rs_v (nd_state n) \/
   (exists c, en_cand (nd_eng n') = Some c /\ en_cand (nd_eng n) <> Some c) ->
     election_due now ee (nd_eng n)) /\
  (runnable n = false -> election_due now ee (nd_eng n) -> rs_v (nd_state n') = own_next_vote n).
Proof. exact tick_event_spec. Qed.
Print Assumptions C43_election_timer.

(** Node 2 heard from the leader at time 3; lease 5, election timeout 10: due after 18. *)
Example C43_ex : exists n outs, ex_node2 ex_follow = Ok (n, outs) /\ runnable n = false /\
  election_due 19 true (nd_eng n) /\ ~ election_due 18 true (nd_eng n) /\
  exists n' outs', node_step 19 (ETick 1 true true) n = Ok (n', outs') /\ is_Some (en_cand (nd_eng n')).
Proof.
  eexists _, _. split; [vm_compute; reflexivity|]. split; [reflexivity|].
  split; [apply election_due_dec; vm_compute; auto|].
  split; [rewrite <- election_due_dec; vm_compute; intuition discriminate|].
  eexists _, _. split; [vm_compute; reflexivity|]. eexists. reflexivity.
Qed.
