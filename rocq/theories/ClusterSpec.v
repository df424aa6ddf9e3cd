(** Vocabulary of the cluster properties. *)
From Verif Require Import Types LogIdList Quorum QuorumSpec Membership Progress RaftState ProgressEntry Engine Store RaftCore NodeSpec
  LogSpec Cluster.
From stdpp Require Import base numbers option gmap list.

(** ** The restrictions under which the cluster properties are proved

    They exclude crashes and snapshots sent to followers, which are left out of the
    proof, and the behaviours in which the code was found to break the properties. *)

(** the voters are those of [initialize] for ever (learners may come and go) *)
Definition same_voters (V : gset nat) (n : Node) : Prop :=
  let cs := m_configs (em_mem (rs_eff (nd_state n))) in cs = [] \/ cs = [V].
Definition plain_event (m0 : gmap nat nat) (n : Node) (ev : Event) : Prop :=
  match ev with
  | EMsg (MSnapshot _ _ _) => False
  | EMsg (MInitialize ms _) => ms = m0
  | EMsg MElect => en_leader (nd_eng n) = None                             (* finding F2 *)
  | EMsg (MTransfer req) => li_node (v_leader (tq_from req)) <> nd_id n
  | EStreamSend i _ _ =>
      forall s, nd_streams n !! i = Some s ->
        ss_vote (st_session s) = rs_v (nd_state n) /\                      (* finding F11 *)
        forall rng, st_action (stream_drain s) = Some (DLogs rng) ->
          next_index (ls_purged (so_log (nd_store n))) <= next_index (lr_prev rng)
  | EHeartbeatSend _ => forall ss c t, nd_hb n = Some (ss, c, t) -> ss_vote ss = rs_v (nd_state n)
  | _ => True
  end.
(** the matching positions a leader has recorded for its followers and itself *)
Definition recorded (l : Leader) (t : nat) (m : option LogId) : Prop :=
  exists e, (t, e) ∈ vp_vec (ld_progress l) /\ pe_matching e = m.
(** what a leader commits, a quorum has acknowledged according to its own records; the
    progress tracker can violate this, finding F1 *)
Definition counted (V : gset nat) (n n' : Node) : Prop :=
  forall l, en_leader (nd_eng n') = Some l -> rs_committed (nd_state n') <> rs_committed (nd_state n) ->
    exists A, quorum [V] A /\ forall t, t ∈ A -> exists m, recorded l t m /\ ologid_leb (rs_committed (nd_state n')) m = true.
Definition plain_act (m0 : gmap nat nat) (cl : Cluster) (a : CAct) (cl' : Cluster) : Prop :=
  match cl_event a cl with
  | Some (i, now, ev) =>
      plain_event m0 (cl_node cl i) ev /\ same_voters (dom m0) (cl_node cl' i) /\
      counted (dom m0) (cl_node cl i) (cl_node cl' i)
  | None => False      (* no crash *)
  end.
(** runs in which every step obeys the restrictions *)
Inductive plain_run (m0 : gmap nat nat) (cl0 : Cluster) : Cluster -> Prop :=
| plr_nil : plain_run m0 cl0 cl0
| plr_step a cl cl' : plain_run m0 cl0 cl -> cl_act a cl = Ok cl' -> plain_act m0 cl a cl' -> plain_run m0 cl0 cl'.
Definition plain_reachable (m0 : gmap nat nat) (cfg : nat -> EngineConfig) (cl : Cluster) : Prop :=
  exists cl0, cl_start cfg cl0 /\ plain_run m0 cl0 cl.

(** ** Logs, commits and leaders of nodes *)

(** the log of a node: on disk, with the writes it has handed to storage, or with all
    those it has decided on *)
Definition log_of (n : Node) (l : LogStore) : Prop :=
  l = dk_log (so_disk (nd_store n)) \/ l = so_log (nd_store n) \/ l = planned_log n.
(** the node considers the entry committed, or has applied it *)
Definition has_committed (n : Node) (e : Entry) : Prop :=
  (e ∈ ls_entries (planned_log n) /\ e_index e < next_index (rs_committed (nd_state n))) \/ e ∈ sm_entries (nd_sm n).
(** the log holds the entry, or has purged its index *)
Definition holds_entry (l : LogStore) (e : Entry) : Prop :=
  e ∈ ls_entries l \/ e_index e < next_index (ls_purged l).
