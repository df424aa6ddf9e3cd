{"id": "C01", "title": "Vote comparison is a sound order", "statement": "Comparing two votes (default leader-id mode) is a total order: reflexive, antisymmetric, transitive and total; a committed vote is strictly greater than the uncommitted vote of the same leader, and a vote of a greater (term, node) is always greater. In single-term-leader mode the comparison is a partial order on every set of votes in which no two different nodes hold a committed vote of the same term; two uncommitted votes of the same term for different nodes are incomparable, and a committed vote of a term beats every uncommitted vote of that term.", "quantifier": "all pairs and triples of votes, in both leader-id modes", "why_tests_cant": "Transitivity and antisymmetry range over all triples of unbounded terms and node ids; a test samples a handful.", "anchors": ["openraft/src/vote/vote.rs: Vote::partial_cmp", "openraft/src/vote/leader_id/leader_id_adv.rs", "openraft/src/vote/leader_id/leader_id_std.rs"]}
{"id": "C02", "title": "A node's vote never goes backwards", "statement": "Whatever sequence of requests, replies, ticks, admin commands and client calls a node processes, its current vote only stays the same or grows in the vote order; every time it grows a save-vote request with exactly the new vote is issued to storage.", "quantifier": "all states reachable by any sequence of node operations with arbitrary arguments, and all further operations", "why_tests_cant": "A vote regression needs a particular interleaving of elections, append-entries and snapshot installs; the set of histories is unbounded.", "anchors": ["openraft/src/engine/handler/vote_handler/mod.rs: update_vote", "openraft/src/engine/engine_impl.rs: initialize, elect, handle_vote_req"]}
{"id": "C03", "title": "A vote granted is a promise", "statement": "If a node answers a vote request positively, its own vote at that moment equals the requested vote, was not greater before, and any vote request it later grants carries a vote at least as great; in single-term-leader mode it therefore never grants two different nodes in one term.", "quantifier": "all reachable states, all vote requests, all later operations", "why_tests_cant": "Double voting only shows in rare interleavings and after retries.", "anchors": ["openraft/src/engine/engine_impl.rs: handle_vote_req", "openraft/src/engine/handler/vote_handler/mod.rs"]}
{"id": "C04", "title": "A vote is only granted to an up-to-date candidate", "statement": "A vote request is granted only if the candidate's last log id is not behind the granting node's last log id and its vote is not behind the node's vote; when a request is refused for either reason, the node's log, membership, vote and commit position are unchanged.", "quantifier": "all node states and all vote requests", "why_tests_cant": "The comparison must be right for every pair of log ids, including empty logs.", "anchors": ["openraft/src/engine/engine_impl.rs: handle_vote_req"]}
{"id": "C05", "title": "A live leader lease blocks elections", "statement": "While a node's lease for an established leader has not expired, every vote request is refused and changes nothing on the node; once expired, the request is judged by vote and log only. The lease of an uncommitted vote is zero, and disabling the lease (leader transfer) makes it count as zero until the vote changes.", "quantifier": "all node states, vote requests and clock values", "why_tests_cant": "Timing races cannot be enumerated by wall-clock tests.", "anchors": ["openraft/src/engine/engine_impl.rs: handle_vote_req", "openraft/src/utime.rs: Leased"]}
{"id": "C06", "title": "Becoming leader needs a quorum of grants for exactly that vote", "statement": "A candidate becomes leader only after positive replies carrying exactly its own vote from a set of nodes that contains a majority of every voter group of its membership; replies for other votes, replies while not a candidate, duplicate replies and replies from non-voters never count towards it.", "quantifier": "all candidate states and all sequences of vote replies (duplicated, reordered, from any node)", "why_tests_cant": "Joint configurations and duplicate deliveries give unboundedly many reply sequences.", "anchors": ["openraft/src/engine/engine_impl.rs: handle_vote_resp, establish_leader", "openraft/src/proposer/candidate.rs"]}
{"id": "C07", "title": "At most one leader per vote in the cluster", "statement": "No two nodes ever lead under the same (term, node) leader id; and in single-term-leader mode, where leader identity is the term alone, no two different nodes lead in the same term.", "quantifier": "all executions of a cluster: message loss, duplication, reordering, crashes and restarts", "why_tests_cant": "Split votes and crash points form an unbounded schedule space.", "anchors": ["openraft/src/engine/engine_impl.rs", "openraft/src/proposer/candidate.rs", "openraft/src/vote/leader_id/leader_id_std.rs"]}
{"id": "C08", "title": "The compact log-id index answers like the full log", "statement": "The node stores only a few log ids (first of every leader, plus last) yet looking up the log id at any index gives exactly what a full list of log ids would give, after any sequence of appends, truncations and purges; last log id, first log id and the range of the last leader agree too.", "quantifier": "all sequences of append/extend/truncate/purge with in-order log ids, and all lookup indexes", "why_tests_cant": "The compressed form has many boundary cases (leader change at either end, purge inside a run, truncate to nothing).", "anchors": ["openraft/src/engine/log_id_list.rs: LogIdList"]}
{"id": "C09", "title": "Log ids are rebuilt correctly from storage on start", "statement": "When a node starts it probes the stored log by bisection; the resulting compact index is exactly the one obtained by reading every entry, for every non-decreasing log, and the bisection terminates.", "quantifier": "all stored logs with leader ids non-decreasing in index, all purge positions", "why_tests_cant": "Bisection over arbitrary leader-change patterns cannot be covered by example logs.", "anchors": ["openraft/src/engine/log_id_list.rs: load_log_ids", "openraft/src/storage/log_reader_ext.rs"]}
{"id": "C10", "title": "Quorums of one membership always intersect", "statement": "Any two sets of nodes accepted as quorums of the same membership (simple or joint, any number of voter groups, none empty) share a voter; a set is a quorum exactly when it contains more than half of every group; adding nodes to a quorum keeps it a quorum; and all voters together form a quorum.", "quantifier": "all memberships and all sets of nodes", "why_tests_cant": "Number of groups and nodes is unbounded.", "anchors": ["openraft/src/quorum/quorum_set_impl.rs", "openraft/src/quorum/joint.rs", "openraft/src/quorum/quorum_set.rs"]}
{"id": "C11", "title": "Consecutive memberships have intersecting quorums", "statement": "Every membership produced by a change request on a valid membership shares a voter group with the membership it replaces, so a quorum of the old and a quorum of the new always share a node; repeating the same voter-set request at most twice ends in the single-group configuration with exactly the requested voters.", "quantifier": "all current memberships, all kinds of change requests, retain flag both ways", "why_tests_cant": "The joint-consensus step function has to be right for all pairs of configurations.", "anchors": ["openraft/src/membership/membership.rs: change, next_coherent", "openraft/src/quorum/coherent_impl.rs"]}
{"id": "C12", "title": "Membership changes are validated and never lose node records", "statement": "A membership change is accepted only if every resulting voter group is non-empty and every voter has a node record; a rejected change leaves the node unchanged. Adding learners never changes voters; demoting with retain keeps the nodes as learners; without retain removed voters disappear; existing records are not overwritten by add, and are by set.", "quantifier": "all memberships and all change requests", "why_tests_cant": "Eight kinds of requests times arbitrary maps.", "anchors": ["openraft/src/membership/membership.rs: change, ensure_valid, extend_nodes", "openraft/src/core/raft_core.rs: change_membership"]}
{"id": "C13", "title": "At most one membership change is in flight", "statement": "A membership change request is refused with the in-progress error unless the latest membership seen by the leader is committed; hence at any time a node's log holds at most one uncommitted membership proposed by that leader.", "quantifier": "all leader states and change requests", "why_tests_cant": "Race between commit and next change request.", "anchors": ["openraft/src/raft_state/membership_state/change_handler.rs: apply, ensure_committed"]}
{"id": "C14", "title": "Effective and committed membership follow the log", "statement": "After any sequence of log appends, truncations, commits and snapshot installs, the effective membership a node uses is the last membership entry in its log (or the snapshot's, if none after it) and the committed membership is the last one at or below its commit position.", "quantifier": "all interleavings of append, truncate, commit and snapshot operations", "why_tests_cant": "Only two memberships are remembered, so correctness depends on every possible interleaving.", "anchors": ["openraft/src/raft_state/membership_state/mod.rs", "openraft/src/engine/handler/following_handler/mod.rs: append_membership, truncate_logs"]}
{"id": "C15", "title": "The value reported as quorum-acknowledged really is", "statement": "After any sequence of acknowledgements from any nodes in any order, the position a leader regards as granted is the greatest position acknowledged by a quorum of voters; learners never contribute; it never decreases.", "quantifier": "all memberships, all sequences of per-node monotone acknowledgements", "why_tests_cant": "Needs particular orders of acknowledgements of particular values from five or more voters; unit tests use up to five updates.", "anchors": ["openraft/src/progress/mod.rs: VecProgress::update_with, move_up"]}
{"id": "C16", "title": "A leader only commits entries of its own leadership", "statement": "The commit position of a leader advances only to a log id carrying the leader's own leader id, never to one merely replicated from an earlier leader, and never moves backwards.", "quantifier": "all leader states and all replication acknowledgements", "why_tests_cant": "Raft's figure-8 scenario: needs specific crash schedules.", "anchors": ["openraft/src/engine/handler/replication_handler/mod.rs: try_commit_quorum_accepted"]}
{"id": "C17", "title": "A successful append makes the follower's log match the leader's", "statement": "When a follower answers success to append-entries(prev, entries), its log contains prev and all the entries at their positions; entries below prev and entries that already matched are unchanged; anything after the first differing entry was replaced; if nothing differed, nothing was removed.", "quantifier": "all follower logs and all well-formed requests", "why_tests_cant": "Arbitrary overlap between follower log and request, stale and duplicated requests.", "anchors": ["openraft/src/engine/handler/following_handler/mod.rs: append_entries, ensure_log_consecutive, truncate_logs", "openraft/src/raft_state/mod.rs: first_conflicting_index"]}
{"id": "C18", "title": "Committed log entries are never truncated by a follower", "statement": "No append-entries, snapshot or vote message, whatever it contains, makes a node delete a log entry at or below its commit position other than by purging entries covered by a snapshot.", "quantifier": "all reachable node states, all messages including stale, forged or duplicated ones", "why_tests_cant": "Must hold for arbitrary message content.", "anchors": ["openraft/src/engine/handler/following_handler/mod.rs: truncate_logs", "openraft/src/raft_state/log_state_reader.rs: has_log_id"]}
{"id": "C19", "title": "Followers commit only what they share with the leader", "statement": "A follower's commit position moves only forward, and to at most the smaller of the leader's reported commit position and the last log id the follower has accepted from that same leader.", "quantifier": "all follower states, all append-entries and commit messages", "why_tests_cant": "Stale tail entries after partial replication are the classical hole.", "anchors": ["openraft/src/engine/handler/following_handler/mod.rs: commit_entries", "openraft/src/engine/engine_impl.rs: handle_commit_entries"]}
{"id": "C20", "title": "Snapshot installation never loses or rewinds committed data", "statement": "Installing a snapshot not newer than the commit position changes nothing; otherwise afterwards commit position, snapshot position and purge position equal the snapshot's last log id, the log above the snapshot survives only if it is consistent with it, and the membership in use is at least as new as the snapshot's.", "quantifier": "all node states and all snapshots", "why_tests_cant": "Overlap of snapshot position with local log / conflicting suffix has many cases.", "anchors": ["openraft/src/engine/handler/following_handler/mod.rs: install_full_snapshot"]}
{"id": "C21", "title": "Logs are purged only when covered by a snapshot and not being sent", "statement": "Purging never removes a log entry above the last snapshot, keeps at least the configured number of entries before it, purges only in batches of the configured size, respects the order purged <= planned purge <= snapshot <= committed <= last, and a leader does not purge a range some follower is currently being sent.", "quantifier": "all node states reachable by any operations, all configurations", "why_tests_cant": "Interaction of purge policy, manual purge trigger, replication in flight and snapshot install.", "anchors": ["openraft/src/engine/handler/log_handler/mod.rs", "openraft/src/engine/handler/replication_handler/mod.rs: try_purge_log", "openraft/src/raft_state/mod.rs"]}
{"id": "C22", "title": "Replication finds the follower's matching point", "statement": "For every follower log, the leader's probe sequence (send, conflict or success reply) stays within the interval known to contain the follower's last matching position, shrinks it at every reply and ends with everything up to the leader's last entry sent, or a snapshot when the needed entries have been purged; a request never carries more than the configured number of entries and never skips one.", "quantifier": "all leader and follower log lengths, all matching points, all payload limits", "why_tests_cant": "Bisection with purge and payload limits over unbounded logs.", "anchors": ["openraft/src/progress/entry/mod.rs: ProgressEntry", "openraft/src/progress/inflight/mod.rs: Inflight", "openraft/src/log_id_range.rs"]}
{"id": "C23", "title": "Nothing is acknowledged before it is durable", "statement": "A positive append-entries or vote reply is sent only after storage reported the completion of the vote and log writes it vouches for; if the process crashes at any instant, the state found on disk still supports every reply that was sent.", "quantifier": "all command schedules, completion orders allowed by the storage contract and all crash points", "why_tests_cant": "The number of crash points times IO interleavings is unbounded.", "anchors": ["openraft/src/engine/command.rs: Condition, Command::condition", "openraft/src/core/raft_core.rs: run_command, run_engine_commands", "openraft/src/raft_state/io_state/io_id.rs"]}
{"id": "C24", "title": "Restart restores exactly the durable state and replays the committed gap once", "statement": "On start the node's vote, log, purge, snapshot and membership equal those in storage; the entries between the state machine's applied position and the saved commit position are applied exactly once, in order; commit position afterwards is the larger of both; nothing above it is applied.", "quantifier": "all stored states, all log lengths", "why_tests_cant": "Chunked replay and gap handling for arbitrary log lengths.", "anchors": ["openraft/src/storage/helper.rs: get_initial_state, reapply_committed, last_membership_in_log"]}
{"id": "C25", "title": "A cluster can be initialized only once and only by a member", "statement": "Initialize succeeds only on a node with an empty log and the initial vote, and only if that node is a voter of the given membership; otherwise it returns the error and changes nothing. On success the first log entry is the given membership at index 0 and an election starts.", "quantifier": "all node states and all initial memberships", "why_tests_cant": "Must hold in every state, not only fresh and already-initialized ones.", "anchors": ["openraft/src/engine/engine_impl.rs: initialize, check_initialize, check_members_contain_me"]}
{"id": "C26", "title": "A client is told success only for its own entry once applied", "statement": "A client write gets a success reply only after exactly the entry it proposed was committed and applied, with the log id at which it was applied; each proposal gets at most one reply.", "quantifier": "all interleavings of writes, leader changes, elections triggered by the administrator, truncations and applies", "why_tests_cant": "Reply channels are kept by log index; overwriting an index needs a rare schedule.", "anchors": ["openraft/src/core/raft_core.rs: write_entry, handle_apply_result, run_command", "openraft/src/engine/handler/leader_handler/mod.rs"]}
{"id": "C27", "title": "Linearizable reads see every earlier committed write", "statement": "The read log id a leader returns is at least its commit position and at least the first entry of its own leadership; if the leadership check gathered a quorum of non-rejecting replies, no other leader was elected by a quorum before the check began, hence every write acknowledged before the read began is at or below the returned id.", "quantifier": "all leader states, all response sets, all concurrent elections", "why_tests_cant": "Stale-leader reads need concurrent elections in other partitions.", "anchors": ["openraft/src/engine/handler/leader_handler/mod.rs: get_read_log_id", "openraft/src/core/raft_core.rs: handle_check_is_leader_request", "openraft/src/raft/mod.rs: ensure_linearizable"]}
{"id": "C28", "title": "Leadership transfer hands over safely", "statement": "After a transfer is triggered the leader refuses writes and stops heartbeats; only a node that still holds the transferring leader's vote reacts; the target starts an election with a greater vote; any other node only disables its lease; no log or commit position changes.", "quantifier": "all states of leader and receiver, all transfer requests incl. stale ones", "why_tests_cant": "Stale transfer messages interleaved with new elections.", "anchors": ["openraft/src/engine/handler/leader_handler/mod.rs: transfer_leader", "openraft/src/core/raft_core.rs: HandleTransferLeader, write_entry", "openraft/src/engine/engine_impl.rs: trigger_transfer_leader"]}
{"id": "C29", "title": "A removed leader steps down only after the removal is committed", "statement": "A leader not contained in the latest membership keeps leading until that membership is committed, and from then on stops leading; a leader that is still in the membership is not affected.", "quantifier": "all leader states", "why_tests_cant": "Depends on commit/membership interleavings.", "anchors": ["openraft/src/engine/engine_impl.rs: leader_step_down", "openraft/src/core/raft_core.rs: Notify::Tick"]}
{"id": "C30", "title": "Reported role is determined by vote and membership", "statement": "After every operation the reported role is: leader iff the node's vote is committed, its own and it is a member; candidate iff the vote is its own and uncommitted; follower iff it is a voter otherwise; learner iff not a voter. Client forwarding hints point to the node owning a committed vote that is a member, never to the node itself when it is not a leader.", "quantifier": "all reachable states", "why_tests_cant": "Needs to hold after all operation sequences.", "anchors": ["openraft/src/raft_state/mod.rs: calc_server_state, forward_to_leader, is_leader, is_leading", "openraft/src/engine/handler/server_state_handler/mod.rs"]}
{"id": "C31", "title": "Chunked snapshot transport reproduces the snapshot", "statement": "If a chunked snapshot transfer completes, the received bytes are identical to the sender's, for every chunk size, every snapshot length, with any lost, retried or mismatched chunk, and with the receiver restarting at any time.", "quantifier": "all byte strings, chunk sizes and fault sequences", "why_tests_cant": "Fault position times length is unbounded.", "anchors": ["openraft/src/network/snapshot_transport.rs: Chunked::send_snapshot, receive_snapshot, Streaming::receive"]}
{"id": "C32", "title": "The quorum-acknowledged time is sound", "statement": "The time a leader reports as last acknowledged by a quorum is not later than the send time of some request that a quorum of voters (the leader counts itself) has accepted; a reply that rejects the leader never extends it.", "quantifier": "all memberships and sequences of heartbeat and replication replies", "why_tests_cant": "Rejections counted as acknowledgements only appear in a race with a new election.", "anchors": ["openraft/src/proposer/leader.rs: last_quorum_acked_time", "openraft/src/core/heartbeat/worker.rs", "openraft/src/engine/handler/replication_handler/mod.rs: update_leader_clock"]}
{"id": "C33", "title": "Log positions stay ordered", "statement": "In every state: last purged <= planned purge <= snapshot <= committed <= last log; the log between purged and last has no holes; and purged, snapshot, committed positions never decrease.", "quantifier": "all states reachable by any sequence of operations with arbitrary well-formed messages", "why_tests_cant": "An invariant over all operation sequences.", "anchors": ["openraft/src/raft_state/mod.rs: RaftState, validate"]}
{"id": "C34", "title": "State machine applies committed entries in order exactly once", "statement": "The commands sent to the state machine apply consecutive log ranges: each starts right after where the previous one (or an installed snapshot) ended, ends at a committed log id, and no range overlaps.", "quantifier": "all operation sequences, including snapshot installs between applies and postponed commands", "why_tests_cant": "Postponed commands interleaved with snapshot installs.", "anchors": ["openraft/src/core/raft_core.rs: run_command Apply, apply_to_state_machine", "openraft/src/engine/command.rs: Command::Apply", "openraft/src/core/sm/worker.rs: apply"]}
{"id": "C35", "title": "Log matching across the cluster", "statement": "If two nodes' logs contain an entry with the same log id, then the entries are identical and so are all earlier entries both nodes still hold.", "quantifier": "all cluster executions", "why_tests_cant": "Global property over all schedules and crash points.", "anchors": ["openraft/src/engine/handler/following_handler/mod.rs", "openraft/src/replication/mod.rs: send_log_entries", "openraft/src/engine/handler/leader_handler/mod.rs"]}
{"id": "C36", "title": "A new leader has every committed entry", "statement": "Every entry committed under some leader is in the log (or snapshot) of every leader with a greater vote.", "quantifier": "all cluster executions", "why_tests_cant": "Global property over all schedules and crash points.", "anchors": ["openraft/src/engine/engine_impl.rs: handle_vote_req, establish_leader", "openraft/src/engine/handler/replication_handler/mod.rs"]}
{"id": "C37", "title": "State machine safety", "statement": "No two nodes ever commit (hence apply) different entries at the same log index.", "quantifier": "all cluster executions: message loss, duplication, reordering, crashes at any point and restarts", "why_tests_cant": "The top-level guarantee of consensus; the space of schedules and crash points is unbounded.", "anchors": ["openraft/src/engine/engine_impl.rs", "openraft/src/core/raft_core.rs", "openraft/src/replication/mod.rs"]}
{"id": "C38", "title": "A restarted leader cannot reuse a log id", "statement": "A log id identifies one entry for ever: also when a leader crashes after sending an entry that its own storage had not yet made durable and then restarts, no different entry is ever proposed or replicated under the same log id.", "quantifier": "all crash points of a leader", "why_tests_cant": "Needs a crash between submission and completion of a log write while replication already went out.", "anchors": ["openraft/src/engine/engine_impl.rs: startup", "openraft/src/engine/handler/vote_handler/mod.rs: become_leader", "openraft/src/proposer/leader.rs: assign_log_ids", "openraft/src/engine/command.rs: AppendInputEntries"]}
{"id": "C39", "title": "Leader assigns consecutive fresh log ids", "statement": "Entries proposed by a leader get its own leader id and consecutive indexes directly following its last log entry; the first entry proposed after an election is a blank one; the leader's log never has an entry replaced by the leader itself.", "quantifier": "all leader states and all batches of proposals", "why_tests_cant": "Must hold over all interleavings of proposals and elections.", "anchors": ["openraft/src/proposer/leader.rs: assign_log_ids, new", "openraft/src/engine/handler/leader_handler/mod.rs: leader_append_entries"]}
{"id": "C40", "title": "Message queues are not starved", "statement": "The load balancer between client messages and internal notifications always leaves a budget of at least one for each side, never exceeds the total, and repeated skew adjustments stay within these bounds.", "quantifier": "all totals >= 1 and all adjustment sequences", "why_tests_cant": "Integer rounding near bounds.", "anchors": ["openraft/src/core/balancer.rs"]}
{"id": "C41", "title": "Accepted configurations are consistent", "statement": "A configuration accepted by validation has heartbeat interval < election timeout min < election timeout max and a non-zero payload limit, and every random election timeout drawn lies within [min, max).", "quantifier": "all configurations and all random draws", "why_tests_cant": "Unbounded input space.", "anchors": ["openraft/src/config/config.rs: validate, new_rand_election_timeout", "openraft/src/engine/engine_config.rs"]}
{"id": "C42", "title": "Commands run in order and conditional ones wait", "statement": "Commands produced by the node logic are executed in the order produced; a command whose condition is not yet met blocks all later ones and is executed as soon as the condition holds, never before, never twice and never dropped.", "quantifier": "all command sequences and all completion sequences", "why_tests_cant": "Interleavings of completions with new commands.", "anchors": ["openraft/src/core/raft_core.rs: run_engine_commands", "openraft/src/engine/engine_output.rs", "openraft/src/engine/command.rs"]}
{"id": "C43", "title": "Election timer respects role, lease and log staleness", "statement": "A node starts an election from its timer only if it is a voter, is not the leader, elections are enabled, and either it is the only voter or the election timeout since the last leader contact has passed (a longer timeout if it saw a greater log).", "quantifier": "all node states and clock values", "why_tests_cant": "Timer races.", "anchors": ["openraft/src/core/raft_core.rs: handle_tick_election"]}
{"id": "C44", "title": "A membership call finishes its change or fails", "statement": "A call to change the voters that returns success leaves exactly the requested voters as the only voter group, unless other changes of the voters are handled between its two steps; whatever is handled in between, the last voter group is the requested one. A call that fails does so with the error of a request the leader refused.", "quantifier": "all memberships, all change requests and all requests of other clients in between", "why_tests_cant": "Interleavings of the two steps of one call with those of other clients.", "anchors": ["openraft/src/raft/impl_raft_blocking_write.rs: change_membership", "openraft/src/core/raft_core.rs: change_membership", "openraft/src/membership/membership.rs: change"]}
{"id": "C45", "title": "Reported progress is true", "statement": "Whatever a node reports as applied is applied by its state machine, and this never goes back while the node runs; a reported snapshot is not ahead of the stored one and the reported purge position is that of the log and covered by the stored snapshot. A client that waited for an applied index finds every entry up to it in the state machine.", "quantifier": "all runs of a node, all schedules of storage and state machine and all crash points", "why_tests_cant": "Completions of storage, snapshot building and the state machine arrive in any order.", "anchors": ["openraft/src/core/raft_core.rs: report_metrics", "openraft/src/metrics/wait.rs", "openraft/src/metrics/metric.rs", "openraft/src/raft_state/io_state.rs"]}
