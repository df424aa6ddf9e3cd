(** The message loop's load balancer and the configuration. *)
From Verif Require Import Types RaftState Engine.
From stdpp Require Import base numbers list.

(** ** Balancer, [core/balancer.rs:6-47] ([u64] arithmetic, no overflow for totals below 2^59) *)
Record Balancer := mkBal { bl_total : nat; bl_raft : nat }.
(** [balancer.rs:14-21] *)
Definition bal_new (total : nat) : Balancer := mkBal total (total / 10).
(** [balancer.rs:23-25] *)
Definition bal_raft_msg (b : Balancer) : nat := bl_raft b.
(** [balancer.rs:27-29]; the subtraction must not underflow *)
Definition bal_notification (b : Balancer) : res nat :=
  if bl_raft b <=? bl_total b then Ok (bl_total b - bl_raft b) else Panic.
(** [balancer.rs:31-36] *)
Definition bal_increase_notification (b : Balancer) : Balancer :=
  let r := bl_raft b * 15 / 16 in mkBal (bl_total b) (if r =? 0 then 1 else r).
(** [balancer.rs:38-45] *)
Definition bal_increase_raft_msg (b : Balancer) : Balancer :=
  let r := bl_raft b * 17 / 16 in mkBal (bl_total b) (if bl_total b / 2 <? r then bl_total b / 2 else r).

(** ** One round of [runtime_loop], [core/raft_core.rs:906-985] *)

(** [process_raft_msg], [process_notification], [raft_core.rs:987-1054]: handles messages
    until the queue is empty or the budget is used up; the count returned is one too many
    when the queue became empty.  Handling the messages is abstracted. *)
Definition process {A} (at_most : nat) (q : list A) : nat * list A * list A :=
  if length q <? at_most then (S (length q), q, []) else (at_most, take at_most q, drop at_most q).

(** the processing of both queues and the re-balancing, [raft_core.rs:959-973]; [a1] and
    [n1] arrive while client messages are handled, [n2] while notifications are.  The one
    message that wakes up the loop is not modelled.  Returns what was handled. *)
Definition loop_round {A B} (a1 : list A) (n1 n2 : list B) (b : Balancer) (api : list A) (notes : list B) :
  res (Balancer * list A * list B * list A * list B) :=
  let '(na, ha, ra) := process (bal_raft_msg b) api in
  let! budget := bal_notification b in
  let '(nn, hn, rn) := process budget (notes ++ n1) in
  let b' := if nn =? budget then bal_increase_notification b
            else if na =? bal_raft_msg b then bal_increase_raft_msg b else b in
  Ok (b', ra ++ a1, rn ++ n2, ha, hn).

Fixpoint loop_rounds {A B} (arrivals : list (list A * list B * list B)) (b : Balancer) (api : list A) (notes : list B) :
  res (Balancer * list A * list B) :=
  match arrivals with
  | [] => Ok (b, [], [])
  | (a1, n1, n2) :: r =>
      let! x := loop_round a1 n1 n2 b api notes in
      let '(b', api', notes', ha, hn) := x in
      let! y := loop_rounds r b' api' notes' in
      let '(b'', ha', hn') := y in
      Ok (b'', ha ++ ha', hn ++ hn')
  end.

(** ** Config, [config/config.rs:110-240] (the fields the engine uses) *)
Record Config := mkConfig {
  cf_timeout_min : nat; cf_timeout_max : nat; cf_heartbeat : nat; cf_max_payload : nat;
  cf_snapshot : option nat; cf_max_keep : nat; cf_purge_batch : nat }.

Inductive ConfigError := EElectionTimeout | EElectionTimeoutLTHeartBeat | EMaxPayloadIs0.

(** [validate], [config.rs:291-311] *)
Definition cfg_validate (c : Config) : Config + ConfigError :=
  if cf_timeout_max c <=? cf_timeout_min c then inr EElectionTimeout
  else if cf_timeout_min c <=? cf_heartbeat c then inr EElectionTimeoutLTHeartBeat
  else if cf_max_payload c =? 0 then inr EMaxPayloadIs0
  else inl c.

(** [gen_range(min..max)] of the [rand] crate: panics on an empty range; [r] is the
    random input *)
Definition gen_range (r lo hi : nat) : res nat :=
  if hi <=? lo then Panic else Ok (lo + r mod (hi - lo)).
(** [new_rand_election_timeout], [config.rs:251-254] *)
Definition cfg_rand_timeout (r : nat) (c : Config) : res nat := gen_range r (cf_timeout_min c) (cf_timeout_max c).
(** [EngineConfig::new], [engine/engine_config.rs:34-49] *)
Definition cfg_engine (id r : nat) (c : Config) : res EngineConfig :=
  let! t := cfg_rand_timeout r c in
  Ok (mkEC id (cf_snapshot c) (cf_max_keep c) (cf_purge_batch c) (cf_max_payload c) t
        (cf_timeout_max c * 2) (cf_timeout_max c)).
