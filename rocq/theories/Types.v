(** Basic types of the model and their orders.

    All numbers ([u64], node ids, terms, indexes) are [nat] (no overflow).
    The default leader-id mode ("adv": leader id = (term, node_id), total order)
    is the one used by all other model files; the [single-term-leader] mode is
    modelled by the [Std*] definitions at the end of this file. *)
From stdpp Require Import base numbers list gmap.
From Coq Require Import Bool.

(** [vote/leader_id/leader_id_adv.rs:14-22] *)
Record LeaderId := mkLeaderId { li_term : nat; li_node : nat }.

(** derived [PartialOrd, Ord] of [LeaderId], [leader_id_adv.rs:15]: lexicographic
    (term, node_id). *)
Definition leader_cmp (a b : LeaderId) : comparison :=
  match Nat.compare (li_term a) (li_term b) with
  | Eq => Nat.compare (li_node a) (li_node b)
  | c => c
  end.

Definition cmp_eqb (c d : comparison) : bool :=
  match c, d with Eq, Eq | Lt, Lt | Gt, Gt => true | _, _ => false end.

Definition leader_eqb (a b : LeaderId) : bool :=
  (li_term a =? li_term b) && (li_node a =? li_node b).
Definition leader_ltb (a b : LeaderId) : bool := cmp_eqb (leader_cmp a b) Lt.
Definition leader_leb (a b : LeaderId) : bool := negb (cmp_eqb (leader_cmp a b) Gt).

(** [log_id/mod.rs:22-31].  [CommittedLeaderId = LeaderId]
    ([leader_id_adv.rs:68]). *)
Record LogId := mkLogId { lid_leader : LeaderId; lid_index : nat }.

(** derived order of [LogId], [log_id/mod.rs:22]: lexicographic (leader, index). *)
Definition logid_cmp (a b : LogId) : comparison :=
  match leader_cmp (lid_leader a) (lid_leader b) with
  | Eq => Nat.compare (lid_index a) (lid_index b)
  | c => c
  end.
Definition logid_eqb (a b : LogId) : bool :=
  leader_eqb (lid_leader a) (lid_leader b) && (lid_index a =? lid_index b).
Definition logid_ltb (a b : LogId) : bool := cmp_eqb (logid_cmp a b) Lt.
Definition logid_leb (a b : LogId) : bool := negb (cmp_eqb (logid_cmp a b) Gt).

(** Order of Rust [Option]: [None < Some _]. *)
Definition opt_cmp {A} (cmp : A -> A -> comparison) (a b : option A) : comparison :=
  match a, b with
  | None, None => Eq
  | None, Some _ => Lt
  | Some _, None => Gt
  | Some x, Some y => cmp x y
  end.
Definition ologid_cmp : option LogId -> option LogId -> comparison := opt_cmp logid_cmp.
Definition ologid_ltb (a b : option LogId) : bool := cmp_eqb (ologid_cmp a b) Lt.
Definition ologid_leb (a b : option LogId) : bool := negb (cmp_eqb (ologid_cmp a b) Gt).
Definition ologid_eqb (a b : option LogId) : bool := cmp_eqb (ologid_cmp a b) Eq.
Definition ologid_max (a b : option LogId) : option LogId :=
  if ologid_ltb a b then b else a.
(** [std::cmp::min(a, b)]: returns [a] if [a <= b]. *)
Definition ologid_min (a b : option LogId) : option LogId :=
  if ologid_leb a b then a else b.

Definition onat_cmp : option nat -> option nat -> comparison := opt_cmp Nat.compare.
Definition onat_leb (a b : option nat) : bool := negb (cmp_eqb (onat_cmp a b) Gt).
Definition onat_ltb (a b : option nat) : bool := cmp_eqb (onat_cmp a b) Lt.

(** [log_id/log_id_option_ext.rs:15-26] *)
Definition olid_index (o : option LogId) : option nat :=
  match o with None => None | Some l => Some (lid_index l) end.
Definition next_index (o : option LogId) : nat :=
  match o with None => 0 | Some l => S (lid_index l) end.

(** [vote/vote.rs:12-19] *)
Record Vote := mkVote { v_leader : LeaderId; v_committed : bool }.

(** [Vote::partial_cmp], [vote/vote.rs:24-41], generic in the comparison result of
    the two leader ids ([None]: incomparable).  [CmpPanic] is the
    [unreachable!] branch. *)
Inductive PCmp := PC (c : option comparison) | CmpPanic.
Definition bool_cmp (a b : bool) : comparison :=
  match a, b with
  | false, false | true, true => Eq
  | false, true => Lt
  | true, false => Gt
  end.
Definition vote_pcmp_of (lc : option comparison) (ca cb : bool) : PCmp :=
  match lc with
  | Some Eq => PC (Some (bool_cmp ca cb))
  | None =>
      match ca, cb with
      | false, false => PC None
      | true, false => PC (Some Gt)
      | false, true => PC (Some Lt)
      | true, true => CmpPanic
      end
  | c => PC c
  end.

(** [Vote::partial_cmp] in the default mode; leader ids are totally ordered so
    the [None] cases are not reachable. *)
Definition vote_pcmp (a b : Vote) : PCmp :=
  vote_pcmp_of (Some (leader_cmp (v_leader a) (v_leader b))) (v_committed a) (v_committed b).
(** [a >= b], [a > b] as used by Rust operators on [PartialOrd]. *)
Definition vote_geb (a b : Vote) : bool :=
  match vote_pcmp a b with PC (Some Eq) | PC (Some Gt) => true | _ => false end.
Definition vote_gtb (a b : Vote) : bool :=
  match vote_pcmp a b with PC (Some Gt) => true | _ => false end.
Definition vote_eqb (a b : Vote) : bool :=
  leader_eqb (v_leader a) (v_leader b) && Bool.eqb (v_committed a) (v_committed b).

(** [Vote::new], [vote.rs:56-61]; [Vote::default], derived: term 0, node 0. *)
Definition vote_new (term node : nat) : Vote := mkVote (mkLeaderId term node) false.
Definition vote_default : Vote := mkVote (mkLeaderId 0 0) false.
(** [into_committed], [vote.rs:76-79], [vote/committed.rs: CommittedVote::new]. *)
Definition into_committed (v : Vote) : Vote := mkVote (v_leader v) true.
(** [leader_id().voted_for()], [leader_id_adv.rs:33-35]. *)
Definition voted_for (v : Vote) : option nat := Some (li_node (v_leader v)).
(** [Vote::is_same_leader], [vote.rs:97-99]. *)
Definition is_same_leader (v : Vote) (l : LeaderId) : bool := leader_eqb (v_leader v) l.

(** [IOId], [raft_state/io_state/io_id.rs:31-39]; [LogIOId],
    [io_state/log_io_id.rs].  [IOVote v] carries an uncommitted vote, [IOLog v l]
    a committed vote. *)
Inductive IOId :=
| IOVote (v : Vote)
| IOLog (committed_vote : Vote) (log_id : option LogId).

(** [io_id.rs:87-98] *)
Definition io_vote (i : IOId) : Vote :=
  match i with IOVote v => v | IOLog v _ => v end.
Definition io_last_log_id (i : IOId) : option LogId :=
  match i with IOVote _ => None | IOLog _ l => l end.
(** [IOId::new], [io_id.rs:71-77] *)
Definition io_new (v : Vote) : IOId :=
  if v_committed v then IOLog (into_committed v) None else IOVote v.
(** [IOId::partial_cmp], [io_id.rs:58-65] *)
Definition io_cmp (a b : IOId) : option comparison :=
  match vote_pcmp (io_vote a) (io_vote b) with
  | PC (Some Eq) => Some (ologid_cmp (io_last_log_id a) (io_last_log_id b))
  | PC c => c
  | CmpPanic => None
  end.
Definition io_ltb (a b : IOId) : bool :=
  match io_cmp a b with Some Lt => true | _ => false end.
Definition io_leb (a b : IOId) : bool :=
  match io_cmp a b with Some Lt | Some Eq => true | _ => false end.
Definition io_gtb (a b : IOId) : bool :=
  match io_cmp a b with Some Gt => true | _ => false end.
(** [Some(a) <= o] on [Option<IOId>]. *)
Definition some_io_leb (a : IOId) (o : option IOId) : bool :=
  match o with None => false | Some b => io_leb a b end.

(** [Membership], [membership/membership.rs:20-34]; node info is an opaque [nat]. *)
Record Membership := mkMembership {
  m_configs : list (gset nat);
  m_nodes : gmap nat nat;
}.

(** [entry/payload.rs]: [EntryPayload]; application data is an opaque [nat]. *)
Inductive Payload :=
| PBlank
| PNormal (d : nat)
| PMembership (m : Membership).

(** [entry/mod.rs]: [Entry] *)
Record Entry := mkEntry { e_log_id : LogId; e_payload : Payload }.
Definition e_index (e : Entry) : nat := lid_index (e_log_id e).

(** ** [single-term-leader] mode *)

(** [vote/leader_id/leader_id_std.rs:10-16] *)
Record StdLeaderId := mkStdLeaderId { sl_term : nat; sl_voted : option nat }.

(** [LeaderId::partial_cmp], [leader_id_std.rs:18-40] *)
Definition std_leader_pcmp (a b : StdLeaderId) : option comparison :=
  match Nat.compare (sl_term a) (sl_term b) with
  | Eq =>
      match sl_voted a, sl_voted b with
      | None, None => Some Eq
      | Some _, None => Some Gt
      | None, Some _ => Some Lt
      | Some x, Some y => if x =? y then Some Eq else None
      end
  | c => Some c
  end.

Record StdVote := mkStdVote { sv_leader : StdLeaderId; sv_committed : bool }.

(** [Vote::partial_cmp] ([vote/vote.rs:24-41]) in [single-term-leader] mode. *)
Definition std_vote_pcmp (a b : StdVote) : PCmp :=
  vote_pcmp_of (std_leader_pcmp (sv_leader a) (sv_leader b)) (sv_committed a) (sv_committed b).
(** [vote >= self.state.vote] as evaluated by [update_vote] in this mode. *)
Definition std_vote_geb (a b : StdVote) : bool :=
  match std_vote_pcmp a b with PC (Some Eq) | PC (Some Gt) => true | _ => false end.

(** Decidable equality (derived [PartialEq, Eq] of the Rust types). *)
Global Instance leaderid_eq_dec : EqDecision LeaderId.
Proof. solve_decision. Defined.
Global Instance logid_eq_dec : EqDecision LogId.
Proof. solve_decision. Defined.
Global Instance vote_eq_dec : EqDecision Vote.
Proof. solve_decision. Defined.
Global Instance ioid_eq_dec : EqDecision IOId.
Proof. solve_decision. Defined.
Global Instance membership_eq_dec : EqDecision Membership.
Proof. solve_decision. Defined.
Global Instance payload_eq_dec : EqDecision Payload.
Proof. solve_decision. Defined.
Global Instance entry_eq_dec : EqDecision Entry.
Proof. solve_decision. Defined.
