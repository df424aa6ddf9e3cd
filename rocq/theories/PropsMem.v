(** Properties of the memberships a node holds (C13, C14). *)
From stdpp Require Import base numbers option gmap list.
From Verif Require Import Types LogIdList Membership Progress RaftState ProgressEntry Engine Store RaftCore NodeSpec NodeExamples
  LogSpec LogPropSpec LogExamples RoleExamples MemSpec MemProofs MemExamples FlightProofs FlightExamples.

(** ** C13, across the steps of a leader *)

(** While a node keeps leading and a membership with log id [y] is effective and not yet the
    committed one, its effective membership changes only when [y] is at or below the commit
    position, only by a change request, and the membership replaced then is the one
    recorded as committed.
    Missing: a leader whose effective membership, inherited from an earlier leader, already
    equals the recorded committed one; that record is not always backed by the commit
    position (finding F17). *)
Theorem C13_in_flight_until_committed_partial : forall E cfg, env_ok E -> forall n1 n2 n3 now ev outs y, leads_on E cfg n1 n2 ->
  mem_id n1 = Some y -> em_log_id (ms_committed (rs_mem (nd_state n1))) <> Some y ->
  fits_step E cfg now ev n2 n3 outs -> en_leader (nd_eng n3) <> None ->
  ms_effective (rs_mem (nd_state n3)) <> ms_effective (rs_mem (nd_state n2)) ->
  ologid_leb (Some y) (rs_committed (nd_state n2)) = true /\ (exists ch rt tx, ev = EMsg (MChange ch rt tx)) /\
  ms_committed (rs_mem (nd_state n3)) = ms_effective (rs_mem (nd_state n2)).
Proof. exact flight_until_committed. Qed.
Print Assumptions C13_in_flight_until_committed_partial.

(** So of two memberships one leader proposes, the first is committed before the second is
    proposed. *)
Theorem C13_one_change_in_flight : forall E cfg, env_ok E -> forall n0 n1 n2 n3 now ev outs now' ev' outs' y,
  fits_step E cfg now ev n0 n1 outs -> en_leader (nd_eng n0) <> None -> mem_id n1 <> mem_id n0 -> mem_id n1 = Some y ->
  leads_on E cfg n1 n2 -> fits_step E cfg now' ev' n2 n3 outs' -> en_leader (nd_eng n3) <> None ->
  ms_effective (rs_mem (nd_state n3)) <> ms_effective (rs_mem (nd_state n2)) ->
  ologid_leb (Some y) (rs_committed (nd_state n2)) = true.
Proof. exact one_in_flight. Qed.
Print Assumptions C13_one_change_in_flight.

(** Until then every change request is answered with the in-progress error, naming [y], and
    leaves the node as it was. *)
Theorem C13_refused_in_flight : forall E cfg, env_ok E -> forall n1 n2 y now ch rt tx, leads_on E cfg n1 n2 ->
  mem_id n1 = Some y -> em_log_id (ms_committed (rs_mem (nd_state n1))) <> Some y ->
  ologid_leb (Some y) (rs_committed (nd_state n2)) = false -> runnable n2 = false ->
  mem_id n2 = Some y /\
  node_step now (EMsg (MChange ch rt tx)) n2 =
    Ok (n2, [OClient tx (CChangeErr (EInProgress (em_log_id (ms_committed (rs_mem (nd_state n2)))) (Some y)))]).
Proof. exact refused_in_flight. Qed.
Print Assumptions C13_refused_in_flight.

(** Leader 1 replaces the voters {1,2} by {2}: the joint membership at index 2 is committed,
    then the final one is proposed at index 3. *)
Example C13_ex : exists n0 n1 n2 n3 o1 o3, fits_step rm_env (ex_cfg 1) 5 rm_change n0 n1 o1 /\ en_leader (nd_eng n0) <> None /\
  leads_on rm_env (ex_cfg 1) n1 n2 /\ fits_step rm_env (ex_cfg 1) 6 rm_change n2 n3 o3 /\ en_leader (nd_eng n3) <> None /\
  bool_decide ((mem_id n0, mem_id n1, mem_id n2, mem_id n3) = (Some (ex_lid 0 0 0), Some (ex_lid 1 1 2), Some (ex_lid 1 1 2), Some (ex_lid 1 1 3))) &&
  bool_decide (em_log_id (ms_committed (rs_mem (nd_state n1))) = Some (ex_lid 0 0 0)) &&
  bool_decide (rs_committed (nd_state n1) = Some (ex_lid 1 1 1) /\ rs_committed (nd_state n2) = Some (ex_lid 1 1 2)) = true.
Proof. eapply fx_check_ok with (mid := fx_mid); [apply fx_ready_fits|vm_compute; reflexivity]. Qed.
(** With the joint membership not yet replicated the second request changes nothing. *)
Example C13_ex_refused : exists n0 n1 n2 n3 o1 o3, fits_step rm_env (ex_cfg 1) 5 rm_change n0 n1 o1 /\ en_leader (nd_eng n0) <> None /\
  leads_on rm_env (ex_cfg 1) n1 n2 /\ fits_step rm_env (ex_cfg 1) 6 rm_change n2 n3 o3 /\ en_leader (nd_eng n3) <> None /\
  bool_decide ((mem_id n1, mem_id n3) = (Some (ex_lid 1 1 2), Some (ex_lid 1 1 2))) &&
  negb (ologid_leb (Some (ex_lid 1 1 2)) (rs_committed (nd_state n2))) && negb (runnable n2) = true.
Proof. eapply fx_check_ok with (mid := ex_settle 5); [apply fx_ready_fits|vm_compute; reflexivity]. Qed.

(** ** C14 *)

(** After any run, including restarts: the effective membership is the last membership of
    the history up to the end of the node's log; the committed membership is the effective
    one or the one before it, and the effective one is then beyond the commit position;
    and unless the committed membership is itself beyond the commit position, it is the
    last one at or below that.  It is never older than that.
    Missing: [mem_fits] is assumed of the requests the node follows. *)
Theorem C14_membership_follows_log_partial : forall E me, env_ok E -> forall cfg, ec_id cfg = me -> forall n, mem_reachable E cfg n ->
  let s := nd_state n in let ms := rs_mem s in
  path_mem (ev_hist E) (rs_last s) (ms_effective ms) /\
  (ms_committed ms = ms_effective ms \/
   exists p, just_before (ev_hist E) (ms_effective ms) p /\ path_mem (ev_hist E) p (ms_committed ms) /\ pfx (ev_hist E) (rs_committed s) p) /\
  (next_index (em_log_id (ms_committed ms)) <= next_index (rs_committed s) -> path_mem (ev_hist E) (rs_committed s) (ms_committed ms)) /\
  (forall m, path_mem (ev_hist E) (rs_committed s) m -> next_index (em_log_id m) <= next_index (em_log_id (ms_committed ms))).
Proof. exact mem_follows. Qed.
Print Assumptions C14_membership_follows_log_partial.

(** Node 2 holds leader 1's change at index 3, leader 3 replaces it by its own at index 2,
    commits up to index 3, and the node restarts. *)
Example C14_ex1 : exists n outs, ex_end (ex_cfg 2) mx_f1 = Ok (n, outs) /\ mem_reachable mx_env (ex_cfg 2) n /\
  mx_sum n = (Some (ex_lid 1 1 3), Some (ex_lid 0 0 0), mkEM (Some (ex_lid 1 1 3)) mx_mem1, mkEM (Some (ex_lid 0 0 0)) ex_mem) /\ en_out (nd_eng n) = [].
Proof. apply mx_mem_at. vm_compute. reflexivity. Qed.
Example C14_ex2 : exists n outs, ex_end (ex_cfg 2) (mx_f3 (ex_lid 1 1 1)) = Ok (n, outs) /\ mem_reachable mx_env (ex_cfg 2) n /\
  mx_sum n = (Some (ex_lid 2 3 4), Some (ex_lid 1 1 1), mkEM (Some (ex_lid 2 3 2)) mx_mem3, mkEM (Some (ex_lid 0 0 0)) ex_mem) /\ en_out (nd_eng n) = [].
Proof. apply mx_mem_at. vm_compute. reflexivity. Qed.
Example C14_ex3 : exists n outs, ex_end (ex_cfg 2) (mx_f2 (ex_lid 2 3 3)) = Ok (n, outs) /\ mem_reachable mx_env (ex_cfg 2) n /\
  mx_sum n = (Some (ex_lid 2 3 4), Some (ex_lid 2 3 3), mkEM (Some (ex_lid 2 3 2)) mx_mem3, mkEM (Some (ex_lid 2 3 2)) mx_mem3) /\ en_out (nd_eng n) = [].
Proof. apply mx_mem_at. vm_compute. reflexivity. Qed.

(** The full property is false of the code: a snapshot beyond the log leaves an effective
    membership that is not in the history up to the node's last log id (finding F10). *)
Theorem C14_effective_after_snapshot_refuted : exists E cfg n,
  env_ok E /\ fits_reachable E cfg n /\ en_out (nd_eng n) = [] /\
  rs_last (nd_state n) = Some (ex_lid 2 3 6) /\ rs_committed (nd_state n) = Some (ex_lid 2 3 6) /\
  em_log_id (ms_effective (rs_mem (nd_state n))) = Some (ex_lid 1 1 3) /\
  ~ path_mem (ev_hist E) (rs_last (nd_state n)) (ms_effective (rs_mem (nd_state n))).
Proof. exact effective_refuted. Qed.
Print Assumptions C14_effective_after_snapshot_refuted.

(** And a follower reports a membership as committed that is beyond its commit position. *)
Theorem C14_committed_beyond_commit_refuted : exists E cfg n,
  env_ok E /\ mem_reachable E cfg n /\ en_out (nd_eng n) = [] /\ rs_committed (nd_state n) = None /\
  em_log_id (ms_committed (rs_mem (nd_state n))) = Some (ex_lid 0 0 0) /\
  ~ path_mem (ev_hist E) (rs_committed (nd_state n)) (ms_committed (rs_mem (nd_state n))).
Proof. exact committed_refuted. Qed.
Print Assumptions C14_committed_beyond_commit_refuted.
