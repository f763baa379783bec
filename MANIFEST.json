{
 "claims": [
  {
   "property": "C01",
   "status": "proved",
   "theorems": [
    "C01_conservation"
   ],
   "note": "Over every run from any state."
  },
  {
   "property": "C02",
   "status": "proved",
   "theorems": [
    "C02_exact_split"
   ],
   "note": ""
  },
  {
   "property": "C03",
   "status": "proved",
   "theorems": [
    "C03_electra_proportional",
    "C03_electra_monotone"
   ],
   "note": ""
  },
  {
   "property": "C04",
   "status": "proved",
   "theorems": [
    "C04_equal_split_fork1",
    "C04_equal_split_prefork1"
   ],
   "note": ""
  },
  {
   "property": "C05",
   "status": "proved",
   "theorems": [
    "C05_shares_nonneg",
    "C05_prefork1_refuted"
   ],
   "note": "Holds from fork 1 on; before fork 1 the code can hand out negative shares, shown by a reachable state."
  },
  {
   "property": "C06",
   "status": "proved",
   "theorems": [
    "C06_monotone",
    "C06_published_monotone"
   ],
   "note": "From fork 1 on, with non-negative amounts entering."
  },
  {
   "property": "C07",
   "status": "proved",
   "theorems": [
    "C07_accumulated_sources"
   ],
   "note": ""
  },
  {
   "property": "C08",
   "status": "proved",
   "theorems": [
    "C08_only_earners",
    "C08_untracked"
   ],
   "note": ""
  },
  {
   "property": "C09",
   "status": "proved",
   "theorems": [
    "C09_transition_table",
    "C09_deterministic",
    "C09_slot_path"
   ],
   "note": "The state machine is the published diagram; every slot moves a status along diagram edges by events that occurred in that block."
  },
  {
   "property": "C10",
   "status": "proved",
   "theorems": [
    "C10_banned_hold_nothing",
    "C10_ban_permanent"
   ],
   "note": ""
  },
  {
   "property": "C100",
   "status": "proved",
   "theorems": [
    "C100_views",
    "C100_pairs",
    "C100_no_contract",
    "C100_root_exact",
    "C100_slot_exact",
    "C100_members_exact",
    "C100_config",
    "C100_sees"
   ],
   "note": "Every view answered by the contract is read exactly; nothing is read from short or empty answers; the configuration and the wire of C99 follow. go-ethereum reads addresses without looking at the twelve bytes before them."
  },
  {
   "property": "C101",
   "status": "partial",
   "theorems": [
    "C101_codes_partial",
    "C101_exclusive",
    "C101_key_refuted"
   ],
   "note": "Exact for every request except GET /registeredrelays with a malformed key, which is refused with 500 instead of 400 (C101_key_refuted)."
  },
  {
   "property": "C102",
   "status": "partial",
   "theorems": [
    "C102_alone",
    "C102_same",
    "C102_bytes",
    "C102_outcomes",
    "C102_lost",
    "C102_stop_refuted"
   ],
   "note": "The last part is false: when the two texts differ in length, an interleaving leaves the shorter text followed by the end of the longer one, and the process never starts from that file (C102_lost, concretely C102_stop_refuted). Proved: a save that is alone leaves a beginning of its text and in the end the text; equal texts leave that text under every interleaving; every byte left is one of the two texts' or a zero byte; with one write call per text the file is one of the two states or is never started from."
  },
  {
   "property": "C103",
   "status": "proved",
   "theorems": [
    "C103_copy",
    "C103_into",
    "C103_frozen"
   ],
   "note": "Values are modelled byte by byte; the messages that describe the types and the message frame are not, and amounts and texts are below some gigabytes, as gob demands."
  },
  {
   "property": "C104",
   "status": "partial",
   "theorems": [
    "C104_slot",
    "C104_constant",
    "C104_paid",
    "C104_event",
    "C104_current_refuted"
   ],
   "note": "Everything but the last sentence is proved. The last sentence is false of the code: a validator that is known already keeps the collateral of its first record, so one that was subscribed automatically, unsubscribed and then paid 1500 is still shown with collateral zero."
  },
  {
   "property": "C105",
   "status": "proved",
   "theorems": [
    "C105_block",
    "C105_load",
    "C105_history",
    "C105_every",
    "C105_leaves"
   ],
   "note": "A second model of the writing functions over a memory of addresses, in which x.Add changes the object that x points to. C105_block: on any memory with the amounts apart, one block ends exactly as the model with values says (errors and deaths included), leaves the amounts apart, and touches nothing that belongs to somebody else. C105_load: new and loaded states start apart. C105_history: both together over any number of blocks; the amounts that came with each block are still what they were. C105_every: no execution of the value model is lost. C105_leaves: building the leaves; no two of them are one object. Two examples show that a shared object would differ, and that a consolidation target really takes over the source's object."
  },
  {
   "property": "C106",
   "status": "partial",
   "theorems": [
    "C106_gauges_partial",
    "C106_beside",
    "C106_rounding",
    "C106_known",
    "C106_waiting",
    "C106_unsynced",
    "C106_started_refuted",
    "C106_distance_refuted"
   ],
   "note": "Slot and block: as stated once this process has processed a slot, up to the rounding of float64 (exact below 2^53, C106_rounding). Distance: exactly the one at that moment, without wrap. Roots: as stated for deployments that load their own files. False: after a start the gauges are zero (C106_started_refuted); the distance stays what it was while the loop waits for its root (C106_waiting, C106_distance_refuted) or for a node (C106_unsynced)."
  },
  {
   "property": "C107",
   "status": "partial",
   "theorems": [
    "C107_durations_partial",
    "C107_age_refuted"
   ],
   "note": "Up to 292 years in either direction the words are for the exact duration, negative if the contract is ahead, and the time left is exact; the age in seconds is exact only modulo 2^64 (C107_age_refuted). Example C107_limit: one slot above the limit the words are wrong. durafmt is an arbitrary function."
  },
  {
   "property": "C108",
   "status": "partial",
   "theorems": [
    "C108_compares_partial",
    "C108_refuted"
   ],
   "note": "C98 says when the comparison ends the process, for any answers; C108 shows that with the contract of QuorumSpec.v it does not. Proved for chains without chained consolidations and states in which no validator withdraws to the fee recipient; C108_refuted: with such a validator a process ends at its first comparison, before any claim."
  },
  {
   "property": "C11",
   "status": "proved",
   "theorems": [
    "C11_stranger_subscription",
    "C11_stranger_unsubscription"
   ],
   "note": ""
  },
  {
   "property": "C12",
   "status": "proved",
   "theorems": [
    "C12_deposit_table",
    "C12_one_verdict"
   ],
   "note": ""
  },
  {
   "property": "C13",
   "status": "proved",
   "theorems": [
    "C13_unsubscription",
    "C13_forfeit_keeps"
   ],
   "note": ""
  },
  {
   "property": "C14",
   "status": "proved",
   "theorems": [
    "C14_step",
    "C14_reject",
    "C14_block",
    "C14_block_history",
    "C14_history"
   ],
   "note": ""
  },
  {
   "property": "C15",
   "status": "proved",
   "theorems": [
    "C15_append_only",
    "C15_donations",
    "C15_records"
   ],
   "note": "C15_records assumes that the proposer does not also subscribe in the very block it proposes."
  },
  {
   "property": "C16",
   "status": "proved",
   "theorems": [
    "C16_slot",
    "C16_chain",
    "C16_chained_refuted"
   ],
   "note": "Order independence proved for every slot and chain without chained consolidations, as the property states; the stated exception is witnessed by C16_chained_refuted."
  },
  {
   "property": "C17",
   "status": "proved",
   "theorems": [
    "C17_cleanup",
    "C17_before_fork",
    "C17_schedule",
    "C17_owed",
    "C17_active_keeps"
   ],
   "note": "C17_cleanup gives the state after cleanup in closed form when no consolidation leads to an inactive validator; with chains the result is order dependent (C16_chained_refuted). C17_owed needs only that nobody consolidates into themselves."
  },
  {
   "property": "C18",
   "status": "partial",
   "theorems": [
    "C18_exited_partial",
    "C18_exited_refuted"
   ],
   "note": "False as claimed: an exited validator whose pending rewards are zero at the cleanup stays subscribed and keeps earning (C18_exited_refuted). Proved for exited validators with non-zero pending rewards."
  },
  {
   "property": "C19",
   "status": "partial",
   "theorems": [
    "C19_deposit_partial",
    "C19_deposit_refuted"
   ],
   "note": "False as claimed: a validator waiting for activation loses its deposit at the next cleanup (C19_deposit_refuted). Proved for validators reported active."
  },
  {
   "property": "C20",
   "status": "partial",
   "theorems": [
    "C20_all_credited_partial",
    "C20_all_credited_refuted"
   ],
   "note": "Proved when the amount of the MEV payment occurs once among the ether events; refuted in general: a second deposit of exactly that amount is credited to nobody and off-chain reconciliation fails from then on."
  },
  {
   "property": "C21",
   "status": "proved",
   "theorems": [
    "C21_leaves",
    "C21_total"
   ],
   "note": "Leaves are the fee leaf followed by exactly the withdrawal addresses in strictly increasing order, each with the published balance, summing to the ledger; aggregation succeeds on well-formed records when nobody withdraws to the pool address."
  },
  {
   "property": "C22",
   "status": "proved",
   "theorems": [
    "C22_leaves",
    "C22_checkpoint"
   ],
   "note": "For any two map iteration orders, leaves and whole frozen checkpoint are equal."
  },
  {
   "property": "C23",
   "status": "partial",
   "theorems": [
    "C23_distinct_partial",
    "C23_full_balance_partial",
    "C23_refuted"
   ],
   "note": "False of the code: merklelizer.go compares withdrawal addresses with the pool address, not with the fee address, so a validator withdrawing to the fee address yields two leaves and the fee leaf is overwritten. Proved when no validator withdraws to the fee address."
  },
  {
   "property": "C24",
   "status": "proved",
   "theorems": [
    "C24_stored_proofs",
    "C24_addresses",
    "C24_freezes",
    "C24_fits",
    "C24_words"
   ],
   "note": "Stored proofs verify with the OpenZeppelin algorithm for any hash function; Keccak-256 is modelled and replays the repository's root vectors."
  },
  {
   "property": "C25",
   "status": "proved",
   "theorems": [
    "C25_root",
    "C25_sound",
    "C25_keccak"
   ],
   "note": "Soundness up to an explicit collision among the strings hashed by verifier and oracle; the hash yields 32 bytes, which is proved of Keccak-256."
  },
  {
   "property": "C26",
   "status": "proved",
   "theorems": [
    "C26_immutable",
    "C26_freeze_frame"
   ],
   "note": "Stated over all interleavings of slots and checkpoints from a fresh oracle. The model has value semantics: that DeepCopy shares nothing with the live state is part of the trusted base."
  },
  {
   "property": "C27",
   "status": "proved",
   "theorems": [
    "C27_latest",
    "C27_any_order"
   ],
   "note": "For every order in which the checkpoint map is visited."
  },
  {
   "property": "C28",
   "status": "proved",
   "theorems": [
    "C28_checkpoint",
    "C28_error",
    "C28_fresh"
   ],
   "note": "With a positive checkpoint size; the code divides by zero otherwise."
  },
  {
   "property": "C29",
   "status": "partial",
   "theorems": [
    "C29_save_then_load",
    "C29_reachable",
    "C29_pool_owner_refuted"
   ],
   "note": "Proved for every saveable state with well-formed records in which no validator withdraws to the pool address; the reachable version needs no other assumption on the state. Refuted without that condition: computing the Merkle root at the end of a load ends the process. Strings are ASCII and integers within their Go ranges (saveable), which reachable states satisfy."
  },
  {
   "property": "C30",
   "status": "proved",
   "theorems": [
    "C30_authentic",
    "C30_tampered",
    "C30_refused"
   ],
   "note": "SHA-256 is a parameter. The recorded hash is compared without regard to case."
  },
  {
   "property": "C31",
   "status": "partial",
   "theorems": [
    "C31_matching_partial",
    "C31_fee_in_force_refuted"
   ],
   "note": "All fields but the fee match exactly. The fee is the configured one or the one in force at the state's slot; that it is always the one in force is refuted: a state past the change slot carrying the configured older fee is accepted."
  },
  {
   "property": "C32",
   "status": "partial",
   "theorems": [
    "C32_file_partial",
    "C32_given_slot_partial",
    "C32_configuration_refuted"
   ],
   "note": "State untouched and configuration unchanged but for the fee; the fee part is refuted with a witness."
  },
  {
   "property": "C33",
   "status": "proved",
   "theorems": [
    "C33_interruptions_change_nothing",
    "C33_resume"
   ],
   "note": "Any number of stops and restarts at operation boundaries, also requests for the hash in between."
  },
  {
   "property": "C34",
   "status": "partial",
   "theorems": [
    "C34_never_partial_content",
    "C34_torn_refused",
    "C34_survives_refuted"
   ],
   "note": "No partial content is ever accepted (proved for every cut). That the service survives is refuted: a torn state.json ends every start although a complete copy is in the folder."
  },
  {
   "property": "C35",
   "status": "proved",
   "theorems": [
    "C35_scheduled",
    "C35_unscheduled_stops",
    "C35_agree"
   ],
   "note": "Fee values of events are assumed to fit an int64 (the contract bounds them by 10000)."
  },
  {
   "property": "C36",
   "status": "partial",
   "theorems": [
    "C36_restart",
    "C36_rollback_partial",
    "C36_rollback_refuted"
   ],
   "note": "Restart proved for every reachable state before or after the change. Rollback proved between states of equal fee, refuted across the change."
  },
  {
   "property": "C37",
   "status": "proved",
   "theorems": [
    "C37_changed_stops",
    "C37_same_ignored"
   ],
   "note": ""
  },
  {
   "property": "C38",
   "status": "proved",
   "theorems": [
    "C38_reconciliation"
   ],
   "note": ""
  },
  {
   "property": "C39",
   "status": "proved",
   "theorems": [
    "C39_nothing_committed",
    "C39_verdict"
   ],
   "note": "Verdict of IsOracleInSyncWithChain for roots of equal length (66 characters)."
  },
  {
   "property": "C40",
   "status": "proved",
   "theorems": [
    "C40_only_the_next_is_submitted",
    "C40_submitted_root_is_of_the_history"
   ],
   "note": "Over whole lives of the process (start, loop steps, signals, crashes, restarts), with all answers of nodes and contract arbitrary."
  },
  {
   "property": "C41",
   "status": "partial",
   "theorems": [
    "C41_stop_skips_nothing_partial",
    "C41_stop_skips_checkpoint_refuted"
   ],
   "note": "False as stated: a signal between processing a checkpoint slot and freezing it loses that checkpoint (witness proved). Proved for all lives without a signal in that window, including torn files and restarts."
  },
  {
   "property": "C42",
   "status": "partial",
   "theorems": [
    "C42_all_calls_finish_partial",
    "C42_reading_requests_finish",
    "C42_requests_finish_while_waiting",
    "C42_only_nested_reads_deadlock",
    "C42_nested_read_is_fatal",
    "C42_state_request_deadlocks_refuted",
    "C42_signal_deadlocks_refuted",
    "C42_leaked_lock_is_kept"
   ],
   "note": "False as stated: two schedules of the real calls that end in a permanent deadlock, and a proof that this is the only way to one. Proved for all schedules without such a nesting. The error returns that keep the lock are modelled too."
  },
  {
   "property": "C43",
   "status": "partial",
   "theorems": [
    "C43_reported_partial",
    "C43_sent_bytes",
    "C43_failed_receipt_refuted",
    "C43_deadline_refuted",
    "C43_chain_refuted",
    "C43_tip_refuted"
   ],
   "note": "Refuted: a failed receipt, a passed deadline, a chain mismatch and a receipt of another transaction yield a nil error. Proved: with a nil error the transaction was sent with the right slot and root and was mined; all other failures are reported."
  },
  {
   "property": "C44",
   "status": "proved",
   "theorems": [
    "C44_priority_fees",
    "C44_nonnegative",
    "C44_recorded"
   ],
   "note": ""
  },
  {
   "property": "C45",
   "status": "proved",
   "theorems": [
    "C45_credentials",
    "C45_one_address",
    "C45_decoders_agree",
    "C45_bls"
   ],
   "note": ""
  },
  {
   "property": "C46",
   "status": "partial",
   "theorems": [
    "C46_classification",
    "C46_one_payment",
    "C46_honest_partial",
    "C46_honest_refuted",
    "C46_patched"
   ],
   "note": "The classification is characterised exactly. That an honest proposer is never classified as wrong holds unless the block's last transaction is an ordinary payment of the accepted builder (refuted with a witness)."
  },
  {
   "property": "C47",
   "status": "proved",
   "theorems": [
    "C47_served_proof"
   ],
   "note": "Over every execution with checkpoints: the proof endpoint's root is the contract's, the leaf, proof, validators and pending amount are those of the state that was frozen, and the proof verifies (C24 gives the range condition)."
  },
  {
   "property": "C48",
   "status": "proved",
   "theorems": [
    "C48_overlay"
   ],
   "note": "The environment is assumed consistent: the cached validators map knows the tracked validators, the event queries return the events of the blocks, and the proposers of these blocks are not themselves pool members (their blocks would change more than subscriptions)."
  },
  {
   "property": "C49",
   "status": "partial",
   "theorems": [
    "C49_never_exits",
    "C49_answers_partial",
    "C49_statistics_refuted",
    "C49_stale_refuted"
   ],
   "note": "The process never exits, but requests panic: the statistics endpoint when all subscribed validators hold a red card, the by-withdrawal endpoint when the cached validators map lacks a tracked validator that deposits again, the status endpoint on a nil answer without an error. In all other cases every request is answered."
  },
  {
   "property": "C50",
   "status": "partial",
   "theorems": [
    "C50_address",
    "C50_index",
    "C50_pubkey_partial",
    "C50_pubkey_refuted"
   ],
   "note": "Addresses and indices exactly as stated (indices below 2^64). The key check is characterised exactly and accepts non-hex characters."
  },
  {
   "property": "C51",
   "status": "partial",
   "theorems": [
    "C51_transparent_partial",
    "C51_total_partial",
    "C51_epoch0_refuted"
   ],
   "note": "Proved for all slots from epoch 1 on and any sequence of requests; refuted for epoch 0."
  },
  {
   "property": "C52",
   "status": "proved",
   "theorems": [
    "C52_complete"
   ],
   "note": ""
  },
  {
   "property": "C53",
   "status": "proved",
   "theorems": [
    "C53_records",
    "C53_identity"
   ],
   "note": ""
  },
  {
   "property": "C54",
   "status": "partial",
   "theorems": [
    "C54_donation_partial",
    "C54_zero_balance_refuted",
    "C54_goerli_refuted"
   ],
   "note": "Holds where the network has a fork table entry and validators have a positive effective balance; refuted otherwise."
  },
  {
   "property": "C55",
   "status": "partial",
   "theorems": [
    "C55_clean_partial",
    "C55_what_changes_partial",
    "C55_fee_refuted",
    "C55_cleanup_refuted"
   ],
   "note": "Holds for slots without a fee event that are not cleanup slots; refuted with witnesses for the other two."
  },
  {
   "property": "C56",
   "status": "proved",
   "theorems": [
    "C56_quiet_slot"
   ],
   "note": ""
  },
  {
   "property": "C57",
   "status": "proved",
   "theorems": [
    "C57_unique_addresses"
   ],
   "note": "If the fees address is also a withdrawal address it is listed twice, as the code does."
  },
  {
   "property": "C58",
   "status": "proved",
   "theorems": [
    "C58_slot",
    "C58_chain",
    "C58_fetched_slot",
    "C58_fetched_chain"
   ],
   "note": "All abort and error paths of the modelled functions are excluded under the listed conditions on the nodes."
  },
  {
   "property": "C59",
   "status": "partial",
   "theorems": [
    "C59_freezes_iff",
    "C59_never_again",
    "C59_cannot_be_stopped_refuted"
   ],
   "note": "Freezing succeeds exactly when no validator withdraws to the pool; refuted in general, and shown to be permanent."
  },
  {
   "property": "C60",
   "status": "partial",
   "theorems": [
    "C60_next_is_submitted_partial",
    "C60_skipped_checkpoint_silences_refuted",
    "C60_other_root_blocks_refuted",
    "C60_silent_beyond_next",
    "C60_waits_forever"
   ],
   "note": "False as stated (two witnesses, and the general theorems behind them). Proved: with the previous checkpoint on chain and no signal in the window of C41, the latest checkpoint is the one accepted next and is submitted."
  },
  {
   "property": "C61",
   "status": "proved",
   "theorems": [
    "C61_coherent",
    "C61_lazy"
   ],
   "note": ""
  },
  {
   "property": "C62",
   "status": "proved",
   "theorems": [
    "C62_config",
    "C62_typed",
    "C62_fee_owner_refuted",
    "C62_missed_refuted"
   ],
   "note": "The two refuted theorems record that the initialize call need not be one on this pool and that a missed slot crashes the start."
  },
  {
   "property": "C63",
   "status": "partial",
   "theorems": [
    "C63_one_changes_at_a_time_partial",
    "C63_guarded_threads_do_not_race",
    "C63_every_unlocked_read_races",
    "C63_request_reads_while_changed_refuted"
   ],
   "note": "False as stated for reads (schedule proved; and every read without the lock in any thread can meet a change, C63_every_unlocked_read_races). Proved: changes exclude each other, and threads that read under the lock never race."
  },
  {
   "property": "C64",
   "status": "proved",
   "theorems": [
    "C64_read_only"
   ],
   "note": "Sequential view; races with the main loop are C63."
  },
  {
   "property": "C65",
   "status": "proved",
   "theorems": [
    "C65_guard"
   ],
   "note": "Includes the underflow: a node that is behind the oracle makes the guarded endpoints refuse."
  },
  {
   "property": "C66",
   "status": "partial",
   "theorems": [
    "C66_statistics",
    "C66_balances",
    "C66_effective",
    "C66_checkpoints_refuted"
   ],
   "note": "All figures as stated, except the two checkpoint fields, which are refuted."
  },
  {
   "property": "C67",
   "status": "partial",
   "theorems": [
    "C67_by_index",
    "C67_all_reported_partial",
    "C67_all_reported_refuted"
   ],
   "note": "Exact characterisation of the answer; complete when the cached validators map has all tracked validators, refuted otherwise."
  },
  {
   "property": "C68",
   "status": "proved",
   "theorems": [
    "C68_validators",
    "C68_validator"
   ],
   "note": ""
  },
  {
   "property": "C69",
   "status": "proved",
   "theorems": [
    "C69_relays"
   ],
   "note": ""
  },
  {
   "property": "C70",
   "status": "proved",
   "theorems": [
    "C70_status",
    "C70_passed_on",
    "C70_answered"
   ],
   "note": "Distance under the hypothesis that the finalized slot is not behind the oracle."
  },
  {
   "property": "C71",
   "status": "proved",
   "theorems": [
    "C71_synced",
    "C71_goes_on",
    "C71_truncated"
   ],
   "note": "Hypotheses: the contract is not behind the provider's newest checkpoint or the client is in dry-run mode (otherwise C72), and no validator withdraws to the pool (otherwise nothing loads, C29)."
  },
  {
   "property": "C72",
   "status": "partial",
   "theorems": [
    "C72_ahead_refuted",
    "C72_ahead_dies",
    "C72_window_refuted",
    "C72_no_checkpoint_lost_partial"
   ],
   "note": "False: a provider ahead of the contract makes the client die, and a provider asked between processing and freezing a checkpoint makes it skip that checkpoint. Proved for fleets of processes that serve and stop outside that window."
  },
  {
   "property": "C73",
   "status": "partial",
   "theorems": [
    "C73_forged_state_accepted_refuted",
    "C73_trusts_provider",
    "C73_fleet_history_partial",
    "C73_fleet_submissions_partial"
   ],
   "note": "False: the hash is of the text itself, so any self-consistent state with the right parameters is accepted. Proved when processes sync only from each other."
  },
  {
   "property": "C74",
   "status": "partial",
   "theorems": [
    "C74_same_root_partial",
    "C74_same_state_partial",
    "C74_same_checkpoints_partial",
    "C74_chained_refuted"
   ],
   "note": "Proved for chains without chained consolidations. With a consolidation into a validator that has exited as well it is false: two oracles that process the same blocks compute different roots for the same checkpoint (C74_chained_refuted)."
  },
  {
   "property": "C75",
   "status": "proved",
   "theorems": [
    "C75_accepted_iff",
    "C75_accepted_is"
   ],
   "note": "url.Parse is an argument."
  },
  {
   "property": "C76",
   "status": "partial",
   "theorems": [
    "C76_pool_named_partial",
    "C76_bare_address_refuted"
   ],
   "note": "Holds for addresses of 42 characters. An address without 0x is accepted and then ends the process at the first slot with a block."
  },
  {
   "property": "C77",
   "status": "proved",
   "theorems": [
    "C77_checks_iff",
    "C77_reports_licensed",
    "C77_one_chain",
    "C77_connected",
    "C77_level"
   ],
   "note": "The whitelist and the balance are those of the start; they are not checked again later. Chain ids are compared as far as they fit an int64."
  },
  {
   "property": "C78",
   "status": "proved",
   "theorems": [
    "C78_loaded_iff",
    "C78_loaded",
    "C78_genesis_refuted"
   ],
   "note": "For answers in which every validator is filed under its own index. A chain with only genesis validators ends the process (C78_genesis_refuted)."
  },
  {
   "property": "C79",
   "status": "partial",
   "theorems": [
    "C79_read",
    "C79_cut",
    "C79_error_refuted",
    "C79_unlimited",
    "C79_limited",
    "C79_element_refuted"
   ],
   "note": "Reading, cuts and repetition are proved. An object without the field data, such as an error message with status 200, is taken for an answer without consolidations (C79_error_refuted). A null element, or one without an index, counts as validator 0 (C79_element_refuted)."
  },
  {
   "property": "C80",
   "status": "partial",
   "theorems": [
    "C80_root_partial",
    "C80_solvent_partial",
    "C80_any_root",
    "C80_root_refuted",
    "C80_nothing_before",
    "C80_one_state"
   ],
   "note": "Root and solvency are proved for chains without chained consolidations (as C74). On every chain the root is that of a state that the chain's blocks give for some order of answers (C80_any_root), but not always the canonical one (C80_root_refuted); whether the contract stays solvent then is open. Nothing is paid before the first report, on every chain. The contract is not in the repository; what is assumed of it is in QuorumSpec.v."
  },
  {
   "property": "C81",
   "status": "partial",
   "theorems": [
    "C81_claimable_partial",
    "C81_larger_partial",
    "C81_refuted"
   ],
   "note": "Proved for chains without chained consolidations, and for states in which no validator withdraws to the fee recipient (C23). Where one does, the claim is false: the address is never paid more than the larger of its two amounts (C81_larger_partial), and C81_refuted shows a pool in which the fees can no longer be claimed."
  },
  {
   "property": "C82",
   "status": "partial",
   "theorems": [
    "C82_events",
    "C82_fetched",
    "C82_till_head",
    "C82_keccak",
    "C82_cut",
    "C82_unreadable_refuted",
    "C82_readable"
   ],
   "note": "All well-formed events are delivered. False for logs that cannot be read: the iterator's error is never asked, so such a log and all later ones are dropped without an error (C82_cut, C82_unreadable_refuted). The slot 10400574 on mainnet is excluded in C82_fetched (set_block_events replaces its events)."
  },
  {
   "property": "C83",
   "status": "proved",
   "theorems": [
    "C83_fee",
    "C83_typed"
   ],
   "note": ""
  },
  {
   "property": "C84",
   "status": "proved",
   "theorems": [
    "C84_reaches",
    "C84_methods",
    "C84_answered",
    "C84_refused",
    "C84_unknown",
    "C84_moved",
    "C84_moved_once",
    "C84_unchanged",
    "C84_plain"
   ],
   "note": "The router is modelled from gorilla/mux's documented behaviour."
  },
  {
   "property": "C85",
   "status": "partial",
   "theorems": [
    "C85_counted",
    "C85_uncounted",
    "C85_passes_on",
    "C85_recorded",
    "C85_failed_refuted",
    "C85_bytes"
   ],
   "note": "Holds whenever the body can be written. If encoding or writing the body fails after the status was sent, http.Error overwrites the recorded status: sent 200, counted 500 (C85_failed_refuted)."
  },
  {
   "property": "C86",
   "status": "partial",
   "theorems": [
    "C86_amounts_partial",
    "C86_leaver_refuted"
   ],
   "note": "Accumulated rewards: always. Pending rewards: for every validator not subscribed after the blocks, and for all validators when nobody asks to leave and no donation arrives. False otherwise: C86_leaver_refuted (the share of what a leaver forfeits is not shown)."
  },
  {
   "property": "C87",
   "status": "proved",
   "theorems": [
    "C87_reads"
   ],
   "note": "Stated against a separate relation [reads] in ApiSpec.v."
  },
  {
   "property": "C88",
   "status": "proved",
   "theorems": [
    "C88_only_finalized",
    "C88_only_balanced"
   ],
   "note": "Any files, any checkpoint sync answer, any node answers."
  },
  {
   "property": "C89",
   "status": "proved",
   "theorems": [
    "C89_decodes",
    "C89_canonical",
    "C89_hash",
    "C89_unknown"
   ],
   "note": "RLP and the transaction types are modelled from go-ethereum's source, which is not in the repository."
  },
  {
   "property": "C90",
   "status": "proved",
   "theorems": [
    "C90_sender",
    "C90_unsigned",
    "C90_other_chain"
   ],
   "note": "Recovery of the key is an arbitrary function."
  },
  {
   "property": "C91",
   "status": "proved",
   "theorems": [
    "C91_payment",
    "C91_recorded",
    "C91_receipts",
    "C91_tips"
   ],
   "note": ""
  },
  {
   "property": "C92",
   "status": "proved",
   "theorems": [
    "C92_transaction",
    "C92_reported",
    "C92_injective"
   ],
   "note": "Signing is an arbitrary function with the key of the updater (key_of)."
  },
  {
   "property": "C93",
   "status": "partial",
   "theorems": [
    "C93_stop_start",
    "C93_copy_kept",
    "C93_only_files",
    "C93_saving_lost",
    "C93_saving_refuted"
   ],
   "note": "Proved wherever the loop is, except while it writes its own copy: then an orderly stop can leave a truncated state.json, and the process never starts from its files again (C93_saving_lost, witness C93_saving_refuted). Assumes that no validator withdraws to the pool (C59) and that the contract is not behind (else C36)."
  },
  {
   "property": "C94",
   "status": "proved",
   "theorems": [
    "C94_ends_for"
   ],
   "note": "For deployments that do not use checkpoint sync; checkpoint size and deployment slot positive."
  },
  {
   "property": "C95",
   "status": "proved",
   "theorems": [
    "C95_read",
    "C95_books",
    "C95_escapes",
    "C95_short",
    "C95_four",
    "C95_plain"
   ],
   "note": "The client (BodySpec.v) has its own list of keys and words. The words for a duration, the time of a registration and the balance of a validator are arbitrary values (record beside). C95_escapes: a \\u escape is read as the UTF-8 of its code point, for all code points below 2^16 that are not surrogates. C95_four: u is followed by four hex digits. C95_short: the other escapes that are read. C95_plain: exactly which printable characters are escaped."
  },
  {
   "property": "C96",
   "status": "proved",
   "theorems": [
    "C96_claim"
   ],
   "note": ""
  },
  {
   "property": "C97",
   "status": "partial",
   "theorems": [
    "C97_shape_partial",
    "C97_amounts_refuted",
    "C97_lists_refuted"
   ],
   "note": "True of all answers except: GET /memory/validator/{index} (and /state) prints amounts as JSON numbers, which clients with 53-bit numbers round; GET /memory/validatorsbyindex and /registeredrelays print null for an empty list. A reachable state shows each."
  },
  {
   "property": "C98",
   "status": "partial",
   "theorems": [
    "C98_compare_partial",
    "C98_shared",
    "C98_same_text_refuted",
    "C98_counted_twice_refuted"
   ],
   "note": "Proved if no validator withdraws to the fee recipient. Otherwise false, and C98_shared says exactly what happens: if the configured text of the fee recipient is lower case, every comparison ends the process (GetClaimedPerWithdrawalAddress calls log.Fatal on the duplicate); if not, what the fee recipient has claimed counts twice and the process ends unless that is zero. Both with a concrete life."
  },
  {
   "property": "C99",
   "status": "partial",
   "theorems": [
    "C99_pays",
    "C99_answered",
    "C99_between_refuted"
   ],
   "note": "Proved: a served proof is accepted by the contract and pays exactly the claimable amount, as long as the contract keeps the root that was read and nothing else was claimed for the address (C99_pays); and the exact condition for an answer (C99_answered). The second half of the statement is false while a report is consolidated: slot and root are two calls, so the slot of one report and the root of the next are refused with 500 although both checkpoints agree (C99_between_refuted)."
  }
 ]
}
