# Formal model of openraft in Rocq (Coq 8.16.1)

This file is the plan and the trust statement. Source lines are cited as
`path:lines`, relative to `/repo/openraft/src`.

## 1. What is modelled, and how

The consensus logic of openraft is a deterministic `Engine` that consumes
events and emits commands, a runtime (`RaftCore`) that executes the commands,
and storage/network code around it.  The model follows that layering.
All model functions are total, computable Gallina functions; `&mut` arguments
become returned values; `Result`/`Option` stay data; a Rust panic
(`unwrap` on `None`, `unreachable!`) is an explicit value.

| layer | model files | specification | proofs | properties | code |
|-------|-------------|---------------|--------|------------|------|
| types & orders | `Types.v` | `VoteSpec.v` | `TypesProofs.v`, `VoteProofs.v` | `PropsVote.v` | `vote/`, `log_id/`, `entry/`, `raft_state/io_state/io_id.rs` |
| log-id index | `LogIdList.v` | `LogIdSpec.v` | `LogIdListProofs.v`, `LogIdLoadProofs.v` | `PropsLogId.v` | `engine/log_id_list.rs` |
| quorums, membership | `Quorum.v`, `Membership.v` | `QuorumSpec.v` | `QuorumProofs.v` | `PropsQuorum.v` | `quorum/`, `membership/` |
| progress tracking | `Progress.v`, `ProgressEntry.v` | `ProgressSpec.v`, `ReplSpec.v` | `ProgressProofs.v`, `ReplProofs.v` | `PropsProgress.v`, `PropsRepl.v` | `progress/` |
| acceptor state | `RaftState.v` | | | | `raft_state/`, `utime.rs` |
| engine | `Engine.v`, `LeaderTime.v` | `TimeSpec.v` | `EnginePrims.v` (every operation is a sequence of a few primitive changes), `KindProofs.v`, `EngLogProofs.v`, `TimeProofs.v` | `PropsTime.v` | `engine/engine_impl.rs`, `engine/handler/*`, `proposer/` |
| storage, restart | `Store.v` | | `StoreProofs.v`, `StartProofs.v` | | `storage/`, `storage/helper.rs` |
| node (runtime) | `RaftCore.v` | `NodeSpec.v`, `LogSpec.v`, `LogPropSpec.v`, `RoleSpec.v`, `HonestSpec.v` | `NodePrims.v`, `VoteNodeProofs.v`, `ElectProofs.v`, `LeadProofs.v`, `CommandProofs.v`, `LogProofs.v`, `WalkProofs.v`, `NodeLogProofs.v`, `StepLogProofs.v`, `LogStateProofs.v`, `RoleProofs.v`, `HonestProofs.v`, `OwnProofs.v`, `RolePropProofs.v` | `PropsElect.v`, `PropsCommand.v`, `PropsLog.v`, `PropsRole.v` | `core/raft_core.rs`, `core/sm/worker.rs`, `replication/`, `core/heartbeat/`, `engine/command.rs` |
| small units | `Runtime.v`, `Transport.v` | `MiscSpec.v` | `MiscProofs.v` | `PropsMisc.v` | `core/balancer.rs`, `config/config.rs`, `network/snapshot_transport.rs` |
| protocol | | | `ProtoProofs.v` (an abstract record of a run: leaders, acknowledgements, commits; leader completeness and commit agreement for it) | | the argument of `docs/data/` for leader completeness |
| memberships of a node | (same as node) | `MemSpec.v` | `MemLogProofs.v` (queued commands), `MemProofs.v` (runs), `FlightProofs.v`, `TransferProofs.v` (changes of one leader), `MemExamples.v`, `FlightExamples.v` | `PropsMem.v` | `raft_state/membership_state/mod.rs` |
| clients of a node | (same as node) | `ClientSpec.v` | `TxProofs.v` (at most one answer), `ClientProofs.v` (whose entry), `ClientExamples.v` | `PropsClient.v` | `core/raft_core.rs` write_entry, handle_apply_result |
| durability | (same as runtime) | `DurableSpec.v` | `DurIoProofs.v`, `DurProofs.v`, `DurStepProofs.v`, `DurNodeProofs.v`, `DurableProofs.v`, `DurMetricsProofs.v`, `DurableExamples.v` | `PropsDurable.v` | `core/raft_core.rs`, `engine/command.rs` Condition, `raft_log_storage.rs` |
| reads | (same as cluster) | `ReadSpec.v` | `ReadProofs.v`, `ReadLeadProofs.v`, `NoopProofs.v`, `ReadDoneProofs.v`, `ReadExamples.v` | `PropsRead.v` | `core/raft_core.rs` handle_check_is_leader_request, `raft/mod.rs` ensure_linearizable |
| interface calls | `Api.v` | `QuorumSpec.v`, `ApiSpec.v` | `ApiProofs.v` | `PropsApi.v` | `raft/impl_raft_blocking_write.rs` change_membership |
| metrics | `Metrics.v` | (same as log) | `MetricsProofs.v`, `MetricsExamples.v` | `PropsMetrics.v` | `core/raft_core.rs` report_metrics, `metrics/metric.rs` |
| cluster | `Cluster.v` (any number of nodes; network that delays, reorders, repeats and drops) | `ClusterSpec.v` | `ClNodeProofs.v`, `ClLogProofs.v`, `ClVoteProofs.v`, `ClCoreProofs.v`, `ClStepProofs.v`, `ClGrowProofs.v`, `ClItemProofs.v` (what one step adds to the record), `ClusterProofs.v` (every run has a record) | `PropsCluster.v` | `network/v2/network.rs` |

`*Examples.v` files hold the concrete runs used by the examples beside the theorems.

Definitions live in model files that contain no proofs; `*Spec.v` files contain
small independent specifications; `*Proofs.v` files contain lemmas; and
`Props*.v` files contain only the property theorems, each proved by
`exact <lemma>` and followed by `Print Assumptions`, plus an `Example` showing a
concrete non-trivial case that meets the hypotheses.

Common simplifications (repeated where they apply):
* `u64`/`usize` are `nat`: no overflow.  Node ids, terms, indexes are `nat`.
* `BTreeSet`/`BTreeMap` are std++ `gset`/`gmap`; iteration order of a set is not
  observable in the modelled code, except in the vector order of
  `VecProgress`, for which theorems quantify over all orders.
* Application data (`C::D`, `Node`, snapshot data) are opaque `nat`s.
* Logging, metrics text, tracing and serialization are not modelled.
* `debug_assert!` is not modelled as a panic (release-build semantics); where an
  assertion matters it is proved or refuted as a separate statement.
* Async tasks are modelled by interleaving: one event at a time, any order
  allowed by channels/contracts.
* Default features (`single-term-leader` off, `loosen-follower-log-revert` off).
  The other leader-id mode is modelled for the vote order and election safety.

## 2. Plan per property

| id | modelled by | proved by |
|----|-------------|-----------|
| C01 | vote order of both modes | algebraic laws, case analysis |
| C02 | engine step function over all operations | invariant: step-wise monotonicity lifted by induction |
| C03 | same | grant implies vote equality; monotonicity gives the rest |
| C04 | `handle_vote_req` | case analysis against an independent decision table |
| C05 | `Leased`, `handle_vote_req` | case analysis |
| C06 | `handle_vote_resp`, candidate | invariant over reply sequences relating granted set to history |
| C07 | cluster model | C06 + quorum intersection + C02, inductive invariant |
| C08 | `LogIdList` | refinement to a list of all log ids plus purge position |
| C09 | `load_log_ids` with explicit work stack | refinement; fuel shown sufficient |
| C10 | `Joint`, majority | counting on finite sets |
| C11, C12 | `Membership::change` | case analysis, set algebra |
| C13 | `ChangeHandler::apply` | case analysis; invariant over the steps of a leader (`leads_on`): a proposed membership stays effective until it is committed |
| C14 | `MembershipState` | queued commands walk the memberships along the log; REFUTED as stated (F10, F17), proved under `mem_fits` |
| C15 | `VecProgress` | REFUTED as stated (finding F1); proved for the sorted case, for up to three voters, for rebuild, and for the repaired function |
| C16 | `try_commit_quorum_accepted` | decision rule + monotonicity |
| C17-C20 | following handler on log-id level and entry level | refinement to list operations |
| C21 | log handler, replication handler | invariant of all engine operations |
| C22 | `ProgressEntry` | invariant and termination measure against an abstract follower |
| C23 | runtime with ordered asynchronous storage | invariant over runtime steps and crash: every write id reported complete and every answer sent is covered by the disk, every queued answer waits for one that covers it; the reported vote likewise; REFUTED with snapshots (F18) |
| C24 | `get_initial_state` | refinement to a recursive specification |
| C25 | `initialize` | decision table |
| C26 | runtime client channels | answers are a sub-multiset of requests, for all runs; success only for the own applied entry by an invariant tying each waiting channel to its entry; in cluster runs the acknowledged entry is never replaced (by C36, C37); REFUTED with an election triggered on a leader (F2) |
| C27 | `get_read_log_id`, check | invariant over cluster runs on the replies a read counts; a quorum's votes bound the read's from above, and committed entries follow from the record of the run (C36); the leader's recorded first log id is followed through its leadership; the wait of `ensure_linearizable` by joining this to C45 and C37 |
| C28, C29, C30 | engine | case analysis/invariant |
| C31 | chunk sender and receiver | refinement; REFUTED for a receiver fed arbitrary offsets (F7) |
| C32 | clock progress | REFUTED (F1, F5); conditional version |
| C33, C34 | engine / runtime | invariants; C34 has finding F6 |
| C35-C37 | cluster | inductive invariant; REFUTED for the unrestricted code by the run of F3, proved under explicit restrictions (`plain_run`) |
| C38 | cluster/runtime with crash | REFUTED (F3); proved for runs without crashes |
| C39 | leader append | refinement; REFUTED with F2 |
| C40, C41 | balancer, config | arithmetic |
| C42 | queue of commands | invariant |
| C43 | `handle_tick_election` | decision table |
| C44 | `Raft::change_membership` over `Membership::change` | algebraic law over all memberships and interleaved requests; REFUTED with a concurrent call (F19) |
| C45 | `report_metrics`, metric comparison | invariant: the completions not yet handled rise from the reported to the real position; the purge cursor equals the log's; REFUTED for the reported snapshot going back (F20) |

## 3. Findings (suspected defects found while modelling)

* **F1 (C15, C35-C37).** `VecProgress::update_with` (`progress/mod.rs:320-384`)
  re-sorts the updated voter only if its *previous* value was `<= granted`.
  A voter already above `granted` that grows past its left neighbour is left in
  place, so "ids of the target that has value GE `vector[i]`" is wrong later.
  Five voters, acks a:=6, b:=4, b:=8, c:=7: granted becomes 7 although only b
  and c have reached 7.
* **F2 (C26, C39).** `Trigger::elect` on a node that is the leader
  (`core/raft_core.rs` ExternalCommand::Elect, "TODO: reject if it is already a
  leader?") keeps the old leader usable; entries proposed meanwhile share
  indexes with the entries of the new term because the new leader's last log id
  was fixed when the election started.
* **F3 (C38, C37).** A leader replicates entries before its own disk has them
  (`engine/command.rs` `AppendInputEntries` followed by `Replicate`).  After a
  crash it restarts as the same leader at once (`engine_impl.rs` `startup`) and
  re-assigns the same log ids to different entries.
* **F4 (C37 with membership change).** `docs/data/extended-membership.md`
  requires (3) *initial-log* — a new leader must commit an entry of its own
  before proposing a membership.  `ChangeHandler::ensure_committed`
  (`change_handler.rs:46-59`) only checks that the last membership is committed,
  which may have been learned from a former leader.  (A deviation from the document;
  no run that breaks a property was constructed from it.)
* **F5 (C32).** `core/heartbeat/worker.rs` treats every successful RPC,
  including a `HigherVote` rejection, as an acknowledgement of the leader.
* **F6 (C34).** A queued `Apply` command resolves its first log id when run
  (`core/raft_core.rs` `run_command`), after a snapshot installation may have
  purged it: `unwrap` on `None` (`C34_queued_range_applied_refuted`).
* **F7 (C31).** `Streaming::receive` accepts a chunk at any offset.
* **F8 (C23).** IO progress cursors are set unconditionally in release builds;
  monotonicity relies on storage calling back in order.
* **F9 (C28).** `transfer_leader` to a learner makes it run an election
  (`engine_impl.rs` `handle_transfer_leader` → `elect`); it becomes a follower for
  its own vote but its own `VoteResponse` is still counted:
  `grant_by(self).expect(..)` panics because it is not a voter
  (`C28_learner_target_refuted`).
* **F10 (C14, C20).** `install_full_snapshot` when the local log is shorter than the
  snapshot: nothing is truncated, and `MembershipState::update_committed`
  (`membership_state/mod.rs`) compares by index only, so an uncommitted, conflicting
  effective membership stays effective although its entry is purged.
* **F11 (C35).** A replication stream of an old leadership reads the range it was told
  to send from the *current* local log (`replication/mod.rs` `read_to_send`) and sends it under
  the old vote.  If the node has meanwhile accepted entries of a newer leader, the
  receiver stores an entry after a predecessor it never followed.
* **F12 (C24).** Crash with the state machine durable ahead of the log, while the disk
  tail has a larger leader but smaller index than the applied position: nothing is
  purged and the node restarts with a last log behind its committed position.  Elected,
  it proposes entries at indexes it has already applied
  (`C24_last_behind_applied_refuted`).
* **F13 (C40).** `Balancer`: the budget of client messages, once below 16, can never
  grow again (`+ budget/16`); totals below 10 give a zero budget.
* **F14 (C24).** Restart with a stale disk tail whose log ids are smaller than the
  applied log id but whose indexes are greater: the log is purged up to the applied
  position and the stale entries beyond it stay (`C24_stale_tail_refuted`).
* **F15 (C24).** Restart with the state machine ahead of the log and an older
  snapshot: the log is purged beyond the snapshot (`C24_purged_beyond_snapshot_refuted`).
* **F16 (C22).** `ProgressEntry::next_send`: a leader whose purge position equals its last
  log and whose `searching_end` is the end of the log gets an empty range for a follower
  that lacks entries: neither entries nor the snapshot are sent until the next append.
* **F17 (C14).** `MembershipState::append` declares the previous effective membership
  committed; on a follower it may be beyond the commit position
  (`C14_committed_beyond_commit_refuted`).
* **F18 (C23).** `install_full_snapshot` (`following_handler/mod.rs:307-313`), when the
  local entry at the snapshot's index is another one, truncates the log after the
  *commit* position, not after the last position shared with the leader, and before the
  snapshot is installed (asynchronously, by the state machine worker).  Entries between
  the two that the node has acknowledged to this very leader are removed from disk; a
  crash before the snapshot is installed leaves neither.  The leader then sees a
  position it recorded as matching reverted, which `ProgressEntry::update_conflicting`
  (`progress/entry/mod.rs:116-140`) declares impossible without the feature
  `loosen-follower-log-revert`.
* **F19 (C44).** `Raft::change_membership` (`raft/impl_raft_blocking_write.rs:52-106`) sends
  the same request twice and returns the answer of the second without looking at its
  membership.  When another client's call is handled in between, the second request may
  itself make a joint membership, and the call reports success although two voter
  groups remain (`C44_change_call_refuted`).
* **F20 (C45).** `Notification::StateMachine` for a finished build (`core/raft_core.rs:1467-1471`)
  sets the reported snapshot even when `finish_building_snapshot` has found the new one to
  be older than the current one.  Builds run in a task of their own, so an installed
  snapshot can overtake one: the reported snapshot goes back, behind the reported purge
  position (`C45_snapshot_never_back_refuted`; in debug builds the assertion of
  `IOState::update_snapshot` fails), and purges waiting for the newer one are held up.

Smaller observations: a leader that loses leadership while a non-empty
`RebuildReplicationStreams` is queued panics; after a restart with its own uncommitted vote the
recorded server state is Follower although the vote names the node as candidate; a removed
leader that receives its own committed vote back steps down early; the planned purge
position may decrease; `initialize` queues the append before the vote; a new leader may
send appends before its committed vote is stored; transfer to self or to an unknown node blocks writes;
client channels are leaked when their entries are covered by an installed snapshot;
the lease is zero after a restart.

## 4. Trusted base

* Coq 8.16.1 kernel (and `vm_compute` where a witness is evaluated).
* `Print Assumptions` is printed below each property theorem; see section 5.
* Fidelity of the hand-written model to the Rust text (cited line by line).
  Not modelled: async task scheduling beyond the interleaving of events, metrics other than those of C45, tracing,
  serialization, the public `Raft` API wrappers, `RaftNetwork` implementations,
  storage implementations (their documented contract is assumed: writes complete in
  the order they were submitted), the legacy v1 storage adapters, the optional features
  `single-term-leader` (except the vote order and election safety) and
  `loosen-follower-log-revert`.
* Theorems about one node's log (`PropsLog.v`, `PropsRole.v`) are relative to the
  assumption `fits_reachable`: the messages the node receives are paths of one history
  (what the other nodes guarantee).  `LogSpec.v` states it in full.  C29 also assumes
  honest peers (`HonestSpec.v`); that the model's nodes are honest is proved beside it.
* Theorems about clusters (`PropsCluster.v`) assume no such thing: they start from empty
  storage on every node.  They are relative to `plain_run` (`ClusterSpec.v`), which
  excludes crashes, snapshots sent to followers, changes of the voters, and the
  behaviours of findings F1, F2 and F11.

## 5. Axioms

None.  Every property theorem is "Closed under the global context".
