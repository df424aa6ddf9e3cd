{
 "claims": [
  {
   "property": "C01",
   "status": "proved",
   "theorems": [
    "C01_vote_total_order",
    "C01_committed_vote_is_greater",
    "C01_greater_leader_is_greater",
    "C01_std_partial_order",
    "C01_std_uncommitted_incomparable",
    "C01_std_committed_beats"
   ],
   "note": "Laws of the vote order in both leader-id modes, and equivalence with an independent lexicographic specification."
  },
  {
   "property": "C02",
   "status": "proved",
   "theorems": [
    "C02_vote_only_grows",
    "C02_every_new_vote_is_saved",
    "C02_stored_and_replied_votes",
    "C02_where_votes_come_from"
   ],
   "note": "Over every event with any arguments and over whole runs; stored and replied votes also across crashes at any point."
  },
  {
   "property": "C03",
   "status": "proved",
   "theorems": [
    "C03_grants_never_go_back",
    "C03_one_node_per_term"
   ],
   "note": "Grants in the order of the replies, also across crashes; single-term-leader mode at the level of the vote acceptor."
  },
  {
   "property": "C04",
   "status": "proved",
   "theorems": [
    "C04_vote_request_decision",
    "C04_vote_request_keeps_log",
    "C04_vote_request_in_node"
   ],
   "note": "Exact decision (iff) of a vote request plus everything that must not change."
  },
  {
   "property": "C05",
   "status": "proved",
   "theorems": [
    "C05_lease_value",
    "C05_disabled_until_vote_changes"
   ],
   "note": "Lease part of the decision is in C04_vote_request_decision (lease_live); value and disabling of the lease over all reachable states."
  },
  {
   "property": "C06",
   "status": "proved",
   "theorems": [
    "C06_leader_won_election",
    "C06_committed_vote_won_election",
    "C06_candidate_membership"
   ],
   "note": "Over whole runs from an empty node. The second alternative covers a committed vote naming this node arriving from outside, which no node sends unless the first holds somewhere."
  },
  {
   "property": "C07",
   "status": "proved",
   "theorems": [
    "C07_one_leader_per_id",
    "C07_one_leader_per_term"
   ],
   "note": "Default leader ids: two runs of nodes (any events, messages, crashes) that lead under the same leader id are of the same node. Single-term-leader mode: two votes of one term adopted by quorums of the same voters name the same node; this mode is modelled at the level of votes and voters only (the engine model uses the default leader id)."
  },
  {
   "property": "C08",
   "status": "proved",
   "theorems": [
    "C08_index_answers_like_full_log"
   ],
   "note": "Refinement of LogIdList to the list of all log ids over arbitrary call histories."
  },
  {
   "property": "C09",
   "status": "proved",
   "theorems": [
    "C09_load_log_ids_is_full_scan"
   ],
   "note": "Bisection equals the compact form of a full scan; fuel bound 2*length is proved sufficient, so the loop terminates."
  },
  {
   "property": "C10",
   "status": "proved",
   "theorems": [
    "C10_quorum_is_majority_of_every_group",
    "C10_quorums_intersect",
    "C10_quorum_monotone",
    "C10_all_voters_are_quorum",
    "C10_only_voters_matter"
   ],
   "note": "is_quorum loop equals majority of every group; intersection, monotonicity, all voters."
  },
  {
   "property": "C11",
   "status": "proved",
   "theorems": [
    "C11_consecutive_memberships_share_a_group",
    "C11_consecutive_quorums_intersect",
    "C11_two_requests_reach_the_goal"
   ],
   "note": "Every accepted change keeps a common voter group; quorums intersect; two requests reach the goal."
  },
  {
   "property": "C12",
   "status": "proved",
   "theorems": [
    "C12_accepted_change_is_valid",
    "C12_voter_groups_after_change",
    "C12_node_records_after_change",
    "C12_rejection_has_a_reason"
   ],
   "note": "Validation and node records of every kind of change."
  },
  {
   "property": "C13",
   "status": "partial",
   "theorems": [
    "C13_in_flight_until_committed_partial",
    "C13_one_change_in_flight",
    "C13_refused_in_flight",
    "C13_change_refused_while_in_progress",
    "C13_accepted_change_means_last_is_committed"
   ],
   "note": "Proved over every run of a leader (with crashes, restarts and other messages before it): from the step that proposes a membership, or from any leader state whose effective membership is not the committed one, every further change request is refused with the in-progress error and changes nothing until that membership is at or below the commit position, and only a change request replaces it. Missing: for a membership inherited from an earlier leader the code only compares two recorded log ids, and that the recorded committed one is truly committed at the moment of the first change is not proved (see C14 and finding F17)."
  },
  {
   "property": "C14",
   "status": "partial",
   "theorems": [
    "C14_membership_follows_log_partial",
    "C14_effective_after_snapshot_refuted",
    "C14_committed_beyond_commit_refuted"
   ],
   "note": "For every run of a node (restarts included) whose leaders follow one history: effective = last membership up to the end of the log, committed = effective or the one just before, and equals the last one at or below the commit position unless it is itself beyond it. Missing: mem_fits (the committed membership is on the path of the leader it follows; snapshots do not leave a conflicting effective membership) is assumed; the exact property is refuted twice (F10 and F17)."
  },
  {
   "property": "C15",
   "status": "partial",
   "theorems": [
    "C15_greatest_quorum_value_refuted",
    "C15_up_to_three_voters_partial",
    "C15_in_order_step_partial",
    "C15_repaired_greatest_quorum_value",
    "C15_rebuild_is_greatest",
    "C15_never_decreases",
    "C15_learners_never_contribute"
   ],
   "note": "False of the code in general: refuted with five voters because the re-sort stops on a stale quorum value (finding F1). Proved for up to three voters, for in-order steps of any size, after every rebuild, for monotonicity and learners; a repaired version is proved without restriction."
  },
  {
   "property": "C16",
   "status": "proved",
   "theorems": [
    "C16_only_own_entries",
    "C16_leader_commits_own"
   ],
   "note": "C16_only_own_entries for arbitrary states and message contents; C16_leader_commits_own adds, for well-formed runs, that the log id carries the leader's own id. 'Well-formed messages' = fits_step/fits_reachable (LogSpec.v): peers' messages lie in one history of log entries; that whole clusters produce such messages is C35-C37."
  },
  {
   "property": "C17",
   "status": "proved",
   "theorems": [
    "C17_accepted_append"
   ],
   "note": "Stated on the log as it will be once the writes already queued are done (planned_log), which is what the engine answers from; C23 covers when the answer is sent. 'Well-formed messages' = fits_step/fits_reachable (LogSpec.v): peers' messages lie in one history of log entries; that whole clusters produce such messages is C35-C37."
  },
  {
   "property": "C18",
   "status": "proved",
   "theorems": [
    "C18_truncates_above_commit",
    "C18_committed_entries_stay",
    "C18_purged_is_in_snapshot"
   ],
   "note": "The first two theorems hold for arbitrary states and message contents; the third shows that purges are covered by the snapshot. 'Well-formed messages' = fits_step/fits_reachable (LogSpec.v): peers' messages lie in one history of log entries; that whole clusters produce such messages is C35-C37."
  },
  {
   "property": "C19",
   "status": "proved",
   "theorems": [
    "C19_follower_commit"
   ],
   "note": "Covers append-entries and snapshot messages. 'Well-formed messages' = fits_step/fits_reachable (LogSpec.v): peers' messages lie in one history of log entries; that whole clusters produce such messages is C35-C37."
  },
  {
   "property": "C20",
   "status": "proved",
   "theorems": [
    "C20_install"
   ],
   "note": "The effective membership is compared by index, as the code does; by log id it can be older: see finding F10. 'Well-formed messages' = fits_step/fits_reachable (LogSpec.v): peers' messages lie in one history of log entries; that whole clusters produce such messages is C35-C37."
  },
  {
   "property": "C21",
   "status": "proved",
   "theorems": [
    "C21_planned_purge",
    "C21_purges_only_snapshotted"
   ],
   "note": "C21_planned_purge holds in arbitrary states. MPurge (explicit user request) ignores the configured number to keep, as in the code. 'Well-formed messages' = fits_step/fits_reachable (LogSpec.v): peers' messages lie in one history of log entries; that whole clusters produce such messages is C35-C37."
  },
  {
   "property": "C22",
   "status": "partial",
   "theorems": [
    "C22_search_interval",
    "C22_reply_shrinks_interval",
    "C22_search_terminates",
    "C22_search_ends_with_all_sent_partial",
    "C22_snapshot_when_all_purged_refuted"
   ],
   "note": "Invariant, strict progress and termination of the search against every follower log that matches; the final part assumes the leader still holds one entry, and is refuted for a leader that has purged its whole log (finding F16)."
  },
  {
   "property": "C23",
   "status": "partial",
   "theorems": [
    "C23_vote_reply_durable",
    "C23_append_reply_durable_partial",
    "C23_append_reply_durable_refuted",
    "C23_reported_vote_durable_partial"
   ],
   "note": "C23_vote_reply_durable: in every run, at every later crash point, the vote on disk is not behind any vote reply sent. C23_append_reply_durable_partial: in every run whose messages fit one history and contain no snapshot, every positive append reply answers a request of the run, and at every later crash point the vote on disk is at least the request's and, unless of another leader, the log on disk holds the request's position and entries. Missing: runs with snapshots, where it is refuted (C23_append_reply_durable_refuted, finding F18). C23_reported_vote_durable_partial: the vote a node reports in its metrics is on disk at every crash point (same restriction; for the node's own votes only up to the mark that it won the election)."
  },
  {
   "property": "C24",
   "status": "partial",
   "theorems": [
    "C24_restart_partial",
    "C24_stale_tail_refuted",
    "C24_last_behind_applied_refuted",
    "C24_purged_beyond_snapshot_refuted"
   ],
   "note": "Restart from whatever a crash leaves of the pending writes and the state machine. Missing: crashes that leave the state machine ahead of the stored log in ways excluded by crash_fits; for those the property is refuted by three runs (C24_stale_tail_refuted, C24_last_behind_applied_refuted, C24_purged_beyond_snapshot_refuted; findings F14, F12, F15)."
  },
  {
   "property": "C25",
   "status": "proved",
   "theorems": [
    "C25_initialize"
   ],
   "note": "Any idle node, any member map: success iff empty log, initial vote and own id among the members; effects and refusal described completely."
  },
  {
   "property": "C26",
   "status": "partial",
   "theorems": [
    "C26_success_is_own_applied_entry_partial",
    "C26_elect_on_leader_refuted",
    "C26_at_most_one_reply",
    "C26_acknowledged_write_is_kept_partial"
   ],
   "note": "At most one answer per request: any run, any messages, any crashes. Success only for the own, committed and applied entry: every run (crashes included) whose messages fit one history of leaders (run_fits). Missing: an election triggered by hand on a node that already leads is excluded; there the property is refuted (F2). C26_acknowledged_write_is_kept_partial (cluster runs without crashes, snapshots to followers and voter changes): an acknowledged write stays applied, nobody ever commits another entry at its index, and later leaders hold it."
  },
  {
   "property": "C27",
   "status": "partial",
   "theorems": [
    "C27_linearizable_read_partial",
    "C27_read_sees_all_partial",
    "C27_write_then_read_partial"
   ],
   "note": "C27_linearizable_read_partial: in unbounded runs of the cluster model, a read answered positively was received by a leader whose vote no other leader exceeded at that time, and its read log id is at or above everything any node had committed or applied when the read began and at or above the first entry of the leadership. C27_read_sees_all_partial: when ensure_linearizable returns, the state machine of that node holds every entry any node had committed or applied when the call began. C27_write_then_read_partial: in particular it holds every write acknowledged to any client before. Missing: runs with crashes, snapshots to followers, voter changes and findings F1, F2, F11."
  },
  {
   "property": "C28",
   "status": "proved",
   "theorems": [
    "C28_trigger",
    "C28_no_writes",
    "C28_no_heartbeats",
    "C28_record_lasts",
    "C28_until_leadership_ends",
    "C28_receiver",
    "C28_receiver_keeps_log",
    "C28_learner_target_refuted"
   ],
   "note": "Trigger, receiver (which never changes its log or commit position), and that from the trigger to the end of the leadership the leader forwards writes, proposes nothing and sends no heartbeats, over every run whose messages fit one history. Beyond the statement: a learner as target starts the election and then panics (F9, C28_learner_target_refuted)."
  },
  {
   "property": "C29",
   "status": "proved",
   "theorems": [
    "C29_when_leadership_ends_partial",
    "C29_when_leadership_ends",
    "C29_nodes_ask_honestly",
    "C29_nodes_refuse_honestly",
    "C29_removed_leader_steps_down"
   ],
   "note": "A leadership ends only with the adoption of another vote, or in a tick once the latest membership does not contain the leader and is committed and applied; the first such tick of the idle leader ends it. Assumes requests that fit the history (F2 excluded) and honest peers (vote requests are uncommitted, appends are refused for their vote only with a greater one), which the model's nodes are shown to be. The _partial theorem is the version without honest peers."
  },
  {
   "property": "C30",
   "status": "partial",
   "theorems": [
    "C30_role_partial",
    "C30_forward",
    "C30_role_refuted"
   ],
   "note": "Role is the one given by vote and latest membership with two exceptions, both reachable (C30_role_refuted): a leader removed by a membership not yet committed, and a node restarted with its own uncommitted vote. Forwarding hints proved in full."
  },
  {
   "property": "C31",
   "status": "partial",
   "theorems": [
    "C31_transfer_exact_partial",
    "C31_transfer_finishes",
    "C31_delayed_chunks_refuted"
   ],
   "note": "Transfer over a network that may lose or repeat requests and replies but not delay old ones: installed bytes equal the snapshot, and the transfer finishes. With delayed old chunks the claim is false of the code (finding F7), proved as a refutation."
  },
  {
   "property": "C32",
   "status": "partial",
   "theorems": [
    "C32_quorum_acked_time_is_vouched_for_partial",
    "C32_counted_replies_partial",
    "C32_rejection_never_extends_refuted"
   ],
   "note": "One voter group of at most three voters, without a membership change in between; larger groups are refuted with C15 (F1); that a rejection never extends the time is refuted (F5)."
  },
  {
   "property": "C33",
   "status": "proved",
   "theorems": [
    "C33_positions_ordered",
    "C33_log_without_holes",
    "C33_positions_grow"
   ],
   "note": "Also across crashes, which fits_reachable includes (crash_fits; findings F12, F14, F15 are the excluded cases). 'Well-formed messages' = fits_step/fits_reachable (LogSpec.v): peers' messages lie in one history of log entries; that whole clusters produce such messages is C35-C37."
  },
  {
   "property": "C34",
   "status": "proved",
   "theorems": [
    "C34_applied_in_order",
    "C34_queue_in_order",
    "C34_applied_grows",
    "C34_queued_range_applied_refuted"
   ],
   "note": "State machine content = list of applied entries; also across crashes and restarts. 'Well-formed messages' = fits_step/fits_reachable (LogSpec.v): peers' messages lie in one history of log entries; that whole clusters produce such messages is C35-C37. That a queued range always reaches the state machine is refuted (F6): the node can panic."
  },
  {
   "property": "C35",
   "status": "partial",
   "theorems": [
    "C35_log_matching_partial",
    "C35_log_matching_refuted"
   ],
   "note": "Refuted for the unrestricted code by a complete run (finding F3: a leader sends an entry before its own storage has it, crashes, and reuses the log id). Proved for runs of a cluster of any size without crashes, without snapshots sent to followers, with the voters of initialize, and without the behaviours of findings F1, F2, F11 (plain_run in ClusterSpec.v)."
  },
  {
   "property": "C36",
   "status": "partial",
   "theorems": [
    "C36_leader_completeness_partial",
    "C36_earlier_leader_partial",
    "C36_leader_completeness_refuted"
   ],
   "note": "Refuted for the unrestricted code (continuation of the run of finding F3). Proved for runs of a cluster of any size without crashes, without snapshots sent to followers, with the voters of initialize, and without the behaviours of findings F1, F2, F11 (plain_run in ClusterSpec.v)."
  },
  {
   "property": "C37",
   "status": "partial",
   "theorems": [
    "C37_state_machine_safety_partial",
    "C37_state_machine_safety_refuted"
   ],
   "note": "Refuted for the unrestricted code (run of finding F3: two state machines apply different entries at one index). Proved for runs of a cluster of any size without crashes, without snapshots sent to followers, with the voters of initialize, and without the behaviours of findings F1, F2, F11 (plain_run in ClusterSpec.v)."
  },
  {
   "property": "C38",
   "status": "partial",
   "theorems": [
    "C38_log_id_identifies_entry_partial",
    "C38_log_id_reused_refuted"
   ],
   "note": "Refuted with crashes (finding F3). Proved for runs of a cluster of any size without crashes, without snapshots sent to followers, with the voters of initialize, and without the behaviours of findings F1, F2, F11 (plain_run in ClusterSpec.v)."
  },
  {
   "property": "C39",
   "status": "proved",
   "theorems": [
    "C39_own_entries",
    "C39_leader_keeps_log"
   ],
   "note": "At most one own entry per step, own leader id, index directly after the last one; blank on becoming leader; a leader never truncates nor installs a snapshot."
  },
  {
   "property": "C40",
   "status": "proved",
   "theorems": [
    "C40_budgets",
    "C40_small_totals_refuted",
    "C40_no_starvation",
    "C40_budget_cannot_recover"
   ],
   "note": "Budgets always positive for the totals the code uses (and the exact condition), every backlogged queue served within a bound; also shows that a small budget cannot grow back (F13)."
  },
  {
   "property": "C41",
   "status": "proved",
   "theorems": [
    "C41_validate",
    "C41_election_timeout",
    "C41_every_timeout_possible"
   ],
   "note": "Validation, the random election timeout range, and that every value of the range is possible."
  },
  {
   "property": "C42",
   "status": "proved",
   "theorems": [
    "C42_in_order",
    "C42_only_when_met",
    "C42_blocks_then_runs"
   ],
   "note": "Over any run between crashes; the queue is in memory only, so a crash drops it."
  },
  {
   "property": "C43",
   "status": "proved",
   "theorems": [
    "C43_election_timer"
   ],
   "note": ""
  },
  {
   "property": "C44",
   "status": "partial",
   "theorems": [
    "C44_change_call_partial",
    "C44_requested_group_is_last",
    "C44_change_call_refuted"
   ],
   "note": "A call with no other change of the voters between its two requests (requests about nodes and refused ones allowed); and, for replacing all voters, that the last group is the requested one whatever happens in between. Missing: completeness with changes of the voters by other clients in between, where it is false (F19, C44_change_call_refuted)."
  },
  {
   "property": "C45",
   "status": "proved",
   "theorems": [
    "C45_metrics_are_true",
    "C45_waiting_for_applied",
    "C45_applied_never_back",
    "C45_snapshot_never_back_refuted"
   ],
   "note": "For every run whose messages fit one history. Beyond the statement: the reported snapshot can go back (F20, C45_snapshot_never_back_refuted). The reported vote and the replication tables are not covered."
  }
 ]
}