{
 "claims": [
  {
   "property": "C01",
   "status": "proved",
   "theorems": [
    "C01_quorum_bounds",
    "C01_quorum_is_max_faults_plus_one",
    "C01_quorum_contains_honest",
    "C01_thresholds_partition",
    "C01_thresholds_monotone",
    "C01_supermajority_meets_quorum",
    "C01_supermajorities_intersect",
    "C01_supermajorities_intersect_refuted",
    "C01_supermajority_positive_iff"
   ],
   "note": "Two supermajorities need not intersect for n=0,1,2,4: the _refuted theorem records this (not part of the property's claim)."
  },
  {
   "property": "C02",
   "status": "proved",
   "theorems": [
    "C02_conservation",
    "C02_no_overflow",
    "C02_transfers_keep_total",
    "C02_transfer_moves_exactly",
    "C02_fee_moves_exactly"
   ],
   "note": "Sum of balances per token equals genesis plus credits minus debits announced in events, for every history; no overflow; transfers move exactly the amount."
  },
  {
   "property": "C03",
   "status": "proved",
   "theorems": [
    "C03_issuance",
    "C03_lower_debits_exactly",
    "C03_transfers_keep_supply"
   ],
   "note": "Under the hypothesis that initial supply plus all credits fits u128 (issuance saturates)."
  },
  {
   "property": "C04",
   "status": "proved",
   "theorems": [
    "C04_needs_signature_over_current_nonce",
    "C04_payload_binds",
    "C04_nonce_steps",
    "C04_failure_changes_nothing",
    "C04_no_payload_accepted_twice",
    "C04_no_signature_accepted_twice"
   ],
   "note": "For histories shorter than 2^64 operations (nonces are u64 and wrap); signatures modelled as an arbitrary verifier, single-message assumption explicit in the last theorem."
  },
  {
   "property": "C05",
   "status": "partial",
   "theorems": [
    "C05_one_stage_partial",
    "C05_gone_is_explained",
    "C05_debit_when_executed",
    "C05_root_execute_reuses_id_refuted"
   ],
   "note": "Holds when root does not call execute_lower by hand; with it ids are reused (_refuted)."
  },
  {
   "property": "C06",
   "status": "partial",
   "theorems": [
    "C06_settled_once",
    "C06_refund_effect_partial",
    "C06_settled_only_when_ready",
    "C06_consumed_without_credit_refuted"
   ],
   "note": "At-most-once and readiness proved. 'Whenever consumed by a refund it has been credited' is false for zero or overflowing amounts (_refuted); _partial gives the exact effect."
  },
  {
   "property": "C07",
   "status": "proved",
   "theorems": [
    "C07_roundtrip",
    "C07_length",
    "C07_injective",
    "C07_decode_total",
    "C07_canonical_iff_zero_padding",
    "C07_padding_ignored_refuted"
   ],
   "note": "Round trip, exact length, injectivity and total decoding. The _refuted theorem records that decoding ignores the padding bytes, so encodings are canonical only up to padding."
  },
  {
   "property": "C08",
   "status": "proved",
   "theorems": [
    "C08_handled_at_most_once",
    "C08_handled_is_recorded",
    "C08_only_by_quorum",
    "C08_wanted_events_recorded",
    "C08_handed_over_records_refuted"
   ],
   "note": "For every history in which no other pallet takes the processed-event records over (no runtime in the repository configures that); the _refuted theorem shows the hypothesis is needed. Events brought in by the older ethereum-events pallet share the record and are included in the at-most-once claim."
  },
  {
   "property": "C09",
   "status": "proved",
   "theorems": [
    "C09_publish_returns_counter",
    "C09_ids_increase",
    "C09_outstanding_not_settled",
    "C09_reset_reuses_id_refuted"
   ],
   "note": "Absent an administrator reset and u32 wrap-around (both in the hypotheses); the _refuted theorem shows that the reset indeed reuses an id."
  },
  {
   "property": "C10",
   "status": "proved",
   "theorems": [
    "C10_queue",
    "C10_fifo",
    "C10_history",
    "C10_queued_behind"
   ],
   "note": "Queue bound, idle implies empty queue, FIFO per step and over the whole history."
  },
  {
   "property": "C11",
   "status": "proved",
   "theorems": [
    "C11_notified_exactly_once",
    "C11_only_when_leaving"
   ],
   "note": "Notifications are, one by one and in order, about the finished requests. The answer of the notified pallet is an arbitrary environment function."
  },
  {
   "property": "C12",
   "status": "proved",
   "theorems": [
    "C12_settled_needs_quorum",
    "C12_counted_once",
    "C12_success_told_iff_recorded"
   ],
   "note": "The quorum is that of the other validators (n-1) at the moment of recording; an account counted earlier may have left the set by then."
  },
  {
   "property": "C13",
   "status": "partial",
   "theorems": [
    "C13_confirmations_partial",
    "C13_proof_needs_supermajority",
    "C13_distinct_keys_if_signatures_unique",
    "C13_distinct_validators_refuted"
   ],
   "note": "Validity, provenance and no repeated signature proved; distinct signers refuted: the code compares signatures, and one validator can produce several valid ECDSA signatures of one hash. Distinct keys hold if signatures were unique."
  },
  {
   "property": "C14",
   "status": "partial",
   "theorems": [
    "C14_hash_set_once_by_sender_partial",
    "C14_confirmations_first_refuted",
    "C14_honest_worker_sends_confirmed"
   ],
   "note": "Set once and only by the sender proved; 'only after enough confirmations' is not enforced on chain (_refuted), it holds for honest off-chain workers."
  },
  {
   "property": "C15",
   "status": "proved",
   "theorems": [
    "C15_moves_only_by_quorum",
    "C15_walks_accepted_partitions",
    "C15_no_gaps",
    "C15_quorum_moves_on"
   ],
   "note": "walk (IncomingSpec) spells out how partitions and ranges follow one another, including u32/u16 saturation."
  },
  {
   "property": "C16",
   "status": "proved",
   "theorems": [
    "C16_first_range_backed_by_votes",
    "C16_minority_cannot_choose",
    "C16_first_range_aligned"
   ],
   "note": "At least a quorum asked for the start or a later one, and supermajority minus quorum plus one asked for the start or an earlier one; the fault corollary is separate."
  },
  {
   "property": "C17",
   "status": "proved",
   "theorems": [
    "C17_nothing_lost_or_duplicated",
    "C17_shape",
    "C17_all_but_last_full",
    "C17_empty",
    "C17_transactions_represented",
    "C17_acceptable_to_the_chain",
    "C17_same_transaction_refuted"
   ],
   "note": "For events with distinct (block, transaction). The _refuted theorem: two events of one transaction in one block do not both survive, because the order on discovered events ignores the rest of the event."
  },
  {
   "property": "C18",
   "status": "partial",
   "theorems": [
    "C18_sender_is_validator",
    "C18_round_robin",
    "C18_fair",
    "C18_selection_total_refuted",
    "C18_primary_for_block",
    "C18_primary_for_block_periodic",
    "C18_new_session_exact",
    "C18_removed_validator_is_gone"
   ],
   "note": "Round robin proved for up to 255 validators; with 256 the index computation panics (_refuted)."
  },
  {
   "property": "C19",
   "status": "proved",
   "theorems": [
    "C19_one_ballot_per_validator",
    "C19_tally_exact",
    "C19_ballots_only_in_open_sessions",
    "C19_threshold_fixed",
    "C19_outcome_exact",
    "C19_ended_session_frozen"
   ],
   "note": "Voting sessions of the summary pallet (the generic avn vote code instantiated there)."
  },
  {
   "property": "C20",
   "status": "partial",
   "theorems": [
    "C20_range_approved_once",
    "C20_approved_ranges_tile_partial",
    "C20_approved_ranges_tile_refuted"
   ],
   "note": "Tiling holds for histories that do not change the schedule period while a root is pending; _refuted shows overlapping approved ranges otherwise. No range approved twice holds always."
  },
  {
   "property": "C21",
   "status": "proved",
   "theorems": [
    "C21_published_once_after_approval",
    "C21_external_validation_required",
    "C21_failed_handover_not_recoverable_by_admin_refuted"
   ],
   "note": "Expired external votes count as passed, as in the code. The _refuted theorem is an additional liveness finding: failed hand-over inside the hook strands the root."
  },
  {
   "property": "C22",
   "status": "partial",
   "theorems": [
    "C22_upgrade",
    "C22_upgrade_punctual_refuted",
    "C22_slot_advances_by_one",
    "C22_void_slot_reported_exactly_once",
    "C22_slot_zero_never_reported"
   ],
   "note": "Slot 0 is never reported (C22_slot_zero_never_reported). C22_upgrade_punctual_refuted: an upgrade from version 0 dates the slot at block 28800 whatever the block."
  },
  {
   "property": "C23",
   "status": "partial",
   "theorems": [
    "C23_signature_check_partial",
    "C23_signature_binds_account_refuted"
   ],
   "note": "The code verifies under the key carried in the transaction, not under the key registered for the account: _refuted gives the witness, _partial what does hold."
  },
  {
   "property": "C24",
   "status": "proved",
   "theorems": [
    "C24_permanent",
    "C24_references_unique",
    "C24_ids_minted_once",
    "C24_taken_reference_rejected"
   ],
   "note": "Any two moments of any history; ids announced minted once; taken or empty references rejected."
  },
  {
   "property": "C25",
   "status": "proved",
   "theorems": [
    "C25_supply",
    "C25_created_once",
    "C25_mint_only_while_listed",
    "C25_listed_by_creator",
    "C25_failed_event_changes_nothing"
   ],
   "note": "Supply bound over announced mints, creation once, mint only while listed and authorised."
  },
  {
   "property": "C26",
   "status": "proved",
   "theorems": [
    "C26_owner_change",
    "C26_listed_exists",
    "C26_listed_by_owner"
   ],
   "note": "Owner changes need a listing by the owner plus a signature over the current nonce or a processed Ethereum event carrying it."
  },
  {
   "property": "C27",
   "status": "proved",
   "theorems": [
    "C27_nonce_counts_changes",
    "C27_needs_signature",
    "C27_no_payload_twice",
    "C27_payload_unambiguous",
    "C27_no_signature_twice",
    "C27_sale_event_once"
   ],
   "note": "Histories of fewer than 2^64 operations (nonces are u64 and wrap). Signature uniqueness is an explicit hypothesis of C27_no_signature_twice only."
  },
  {
   "property": "C28",
   "status": "proved",
   "theorems": [
    "C28_royalties_bounded",
    "C28_every_nft_has_royalties",
    "C28_royalties_as_given",
    "C28_royalties_never_change"
   ],
   "note": "Exact sum bound, although the code sums in u32."
  },
  {
   "property": "C29",
   "status": "proved",
   "theorems": [
    "C29_rejected_changes_nothing",
    "C29_charged_exactly_once",
    "C29_without_payment",
    "C29_accepted_when",
    "C29_nonces_only_by_payment",
    "C29_payment_binds",
    "C29_no_payment_twice",
    "C29_no_payment_signature_twice",
    "C29_composes"
   ],
   "note": "Inner calls of the token and NFT managers are the modelled ones; those of other pallets are arbitrary functions. Replay theorems for fewer than 2^64 operations."
  },
  {
   "property": "C30",
   "status": "partial",
   "theorems": [
    "C30_not_included",
    "C30_charge",
    "C30_pays_price",
    "C30_no_adjustment_no_difference",
    "C30_never_more_than_ordinary_partial",
    "C30_tip_in_full",
    "C30_count_exact",
    "C30_count_total",
    "C30_time_exact",
    "C30_unlimited",
    "C30_removed",
    "C30_only_root",
    "C30_stored_terms",
    "C30_fixed_fee_may_cost_more_refuted",
    "C30_no_refund_when_emptied_refuted"
   ],
   "note": "Price to the nearest unit, tip, expiry by count and by block, only root: proved. 'Never more than the unadjusted fee' holds for percentages and for fixed fees up to the network fee (_partial); a larger fixed fee costs more (_refuted), and a sender left with an empty account gets no refund (_refuted). The predicted and corrected fees of pallet-transaction-payment are parameters."
  },
  {
   "property": "C31",
   "status": "proved",
   "theorems": [
    "C31_lists",
    "C31_record_exact",
    "C31_no_candidate_no_lists"
   ],
   "note": "Invariant of every reachable state; genesis without initial candidates (they join by the same calls)."
  },
  {
   "property": "C32",
   "status": "proved",
   "theorems": [
    "C32_nominator_exact",
    "C32_nominations_are_listed",
    "C32_requests_fit",
    "C32_not_both"
   ],
   "note": "Totals, mutual listing with equal amounts, pending requests fit, nobody is both nominator and candidate."
  },
  {
   "property": "C33",
   "status": "proved",
   "theorems": [
    "C33_root_defined",
    "C33_path_verifies",
    "C33_root_commits",
    "C33_only_leaves_verify",
    "C33_inner_nodes_verify_refuted",
    "C33_order_refuted",
    "C33_nodes_agree",
    "C33_only_final",
    "C33_root_covers_range"
   ],
   "note": "For any hash function (keccak is a parameter); commitment is up to order within pairs and up to collisions. Two _refuted theorems show what is not bound: order within a pair (C33_order_refuted) and, as leaves and inner nodes are hashed alike, inner nodes verify as 64-byte leaves (C33_inner_nodes_verify_refuted)."
  },
  {
   "property": "C34",
   "status": "proved",
   "theorems": [
    "C34_periods_valid"
   ],
   "note": "Summary pallet; see DESIGN.md."
  },
  {
   "property": "C35",
   "status": "partial",
   "theorems": [
    "C35_enough_confirmations_complete_partial",
    "C35_completion_refuted"
   ],
   "note": "Completion proved for a stable validator set of at least two; _refuted: a single validator, or a shrinking set, leaves the proof and the whole queue stuck."
  },
  {
   "property": "C36",
   "status": "proved",
   "theorems": [
    "C36_reports_exactly_the_other_votes",
    "C36_one_standing_vote",
    "C36_all_other_votes_reported"
   ],
   "note": "Reporting itself (identification, is-known check) is not modelled; the reported accounts are."
  },
  {
   "property": "C37",
   "status": "partial",
   "theorems": [
    "C37_never_overstated",
    "C37_exact_refuted",
    "C37_join_counted",
    "C37_candidate_bond_extra_counted",
    "C37_bond_extra_counted",
    "C37_nominate_counted",
    "C37_exact_kept",
    "C37_exact_without_leaving"
   ],
   "note": "Never overstated, no overflow: proved. Exact as long as no candidate has left: every other call, accepted or not, keeps the record equal to the stake (C37_exact_kept, C37_exact_without_leaving), and what single calls add is exactly what they put at stake (_counted). After a candidate leaves exactness is false (_refuted): decreasing an uncounted nomination does not reduce the uncounted total, so too much is subtracted when the candidate leaves."
  },
  {
   "property": "C38",
   "status": "proved",
   "theorems": [
    "C38_nominator_lock",
    "C38_candidate_lock",
    "C38_locks_covered"
   ],
   "note": "Locks as recorded by the staking pallet; that the balances pallet keeps frozen amounts covered is an assumption of the model of the rest of the runtime (EnvBalances)."
  },
  {
   "property": "C39",
   "status": "proved",
   "theorems": [
    "C39_pool",
    "C39_pool_limit",
    "C39_selection",
    "C39_selection_stays",
    "C39_only_blocks_select"
   ],
   "note": "Pool exact and bounded; selection and snapshots at era starts."
  },
  {
   "property": "C40",
   "status": "proved",
   "theorems": [
    "C40_requests_were_scheduled",
    "C40_leaving_was_scheduled",
    "C40_unbond_was_scheduled",
    "C40_nominations_change_only_so",
    "C40_bonds_change_only_so",
    "C40_no_early_release",
    "C40_due_request_executes",
    "C40_due_nominator_leaves",
    "C40_due_candidate_unbonds",
    "C40_due_candidate_leaves"
   ],
   "note": "Delays as set at the time of asking; candidate delays are u32 sums modulo 2^32 as in the code, stated so."
  },
  {
   "property": "C41",
   "status": "proved",
   "theorems": [
    "C41_no_panic",
    "C41_failure_changes_nothing",
    "C41_calls_touch_nothing_else"
   ],
   "note": "'panic' outcomes of the model cover expect/unwrap/overflow sites listed in StakeModel.v."
  },
  {
   "property": "C42",
   "status": "proved",
   "theorems": [
    "C42_needs_signature",
    "C42_nonces_only_by_relayed",
    "C42_signature_binds",
    "C42_no_replay"
   ],
   "note": "For histories of fewer than 2^64 operations."
  },
  {
   "property": "C43",
   "status": "proved",
   "theorems": [
    "C43_nominate_exact",
    "C43_bond_extra_exact",
    "C43_unbond_exact"
   ],
   "note": "A candidate whose request list is full silently gets no request: stated in `asked` (finding)."
  },
  {
   "property": "C44",
   "status": "proved",
   "theorems": [
    "C44_only_new_checkpoints",
    "C44_permanent",
    "C44_numbered",
    "C44_origin_unique",
    "C44_recorded",
    "C44_can_anchor"
   ],
   "note": "All histories from genesis; balances may change arbitrarily in between (Elsewhere)."
  },
  {
   "property": "C45",
   "status": "proved",
   "theorems": [
    "C45_one_handler",
    "C45_changes",
    "C45_names_permanent"
   ],
   "note": "All histories from genesis."
  },
  {
   "property": "C46",
   "status": "partial",
   "theorems": [
    "C46_needs_signature",
    "C46_signature_binds",
    "C46_no_replay",
    "C46_registration_replay_refuted"
   ],
   "note": "Proved for hand-overs and submissions; C46_registration_replay_refuted shows that registrations, whose payload has no nonce, can be replayed after a hand-over."
  },
  {
   "property": "C47",
   "status": "proved",
   "theorems": [
    "C47_submission_pays",
    "C47_nothing_else_moves_money",
    "C47_fee_is_roots"
   ],
   "note": "The fee goes through TokenModel.pay_treasury."
  },
  {
   "property": "C48",
   "status": "proved",
   "theorems": [
    "C48_budget_covered",
    "C48_era_budget",
    "C48_only_from_pot"
   ],
   "note": "All histories from genesis; other pallets may change balances arbitrarily but not take from the pot (Elsewhere). Staking rewards are only active where is_staking_enabled() (config c_enabled); both values are covered."
  },
  {
   "property": "C49",
   "status": "proved",
   "theorems": [
    "C49_settlement",
    "C49_once",
    "C49_points",
    "C49_era_total",
    "C49_all_paid",
    "C49_all_settled"
   ],
   "note": "Snapshots are assumed to add up (bond plus nominations at most the total), which StakeProps3.snapshot_true proves of the snapshots staking takes. Perbill arithmetic is modelled from the dependency. Points below the u32 limit."
  },
  {
   "property": "C50",
   "status": "proved",
   "theorems": [
    "C50_reported"
   ],
   "note": "The sums are over the eras allotted in the history (ledger)."
  },
  {
   "property": "C51",
   "status": "partial",
   "theorems": [
    "C51_paid_once",
    "C51_marked_stays",
    "C51_payout",
    "C51_payout_total",
    "C51_exact_refuted",
    "C51_no_partial_payment_refuted"
   ],
   "note": "C51_exact_refuted and C51_no_partial_payment_refuted are counterexamples to exactness and all-or-nothing; the rest is proved."
  },
  {
   "property": "C52",
   "status": "proved",
   "theorems": [
    "C52_validators_follow_requests",
    "C52_bounded_and_distinct",
    "C52_add_request",
    "C52_remove_request",
    "C52_request_waits",
    "C52_changed_by_confirmation",
    "C52_decided_once",
    "C52_pending_id_used"
   ],
   "note": "Modelled: validators-manager lib.rs whole pallet; staking, session keys, balances and the bridge's acceptance are oracles that may change at any time. Bridge transaction ids are assumed never to be reset by the admin (set_eth_tx_id)."
  },
  {
   "property": "C53",
   "status": "proved",
   "theorems": [
    "C53_keys_follow_requests",
    "C53_tables_inverse",
    "C53_one_key_one_account",
    "C53_holders",
    "C53_changed_by",
    "C53_published"
   ],
   "note": "Modelled: validators-manager lib.rs whole pallet; staking, session keys, balances and the bridge's acceptance are oracles that may change at any time. Bridge transaction ids are assumed never to be reset by the admin (set_eth_tx_id)."
  },
  {
   "property": "C54",
   "status": "proved",
   "theorems": [
    "C54_failure_accepted",
    "C54_refused_request_undone"
   ],
   "note": "Modelled: validators-manager lib.rs whole pallet; staking, session keys, balances and the bridge's acceptance are oracles that may change at any time. Bridge transaction ids are assumed never to be reset by the admin (set_eth_tx_id)."
  },
  {
   "property": "C55",
   "status": "proved",
   "theorems": [
    "C55_joins_and_leaves_follow_requests",
    "C55_completed_once",
    "C55_completed_when_out"
   ],
   "note": "Modelled: validators-manager lib.rs whole pallet; staking, session keys, balances and the bridge's acceptance are oracles that may change at any time. Bridge transaction ids are assumed never to be reset by the admin (set_eth_tx_id)."
  },
  {
   "property": "C56",
   "status": "partial",
   "theorems": [
    "C56_confirmation_applied_partial",
    "C56_confirmation_applied_refuted"
   ],
   "note": "C56_confirmation_applied_refuted is a counterexample to the unconditional claim; the conditional claim is proved. Modelled: validators-manager lib.rs whole pallet; staking, session keys, balances and the bridge's acceptance are oracles that may change at any time. Bridge transaction ids are assumed never to be reset by the admin (set_eth_tx_id)."
  },
  {
   "property": "C57",
   "status": "proved",
   "theorems": [
    "C57_delivered_once",
    "C57_delivered_as_checked",
    "C57_processed_for_ever"
   ],
   "note": "Modelled: ethereum-events lib.rs (all calls, queues, off-chain decisions); receipts are parsed data, signatures an arbitrary predicate."
  },
  {
   "property": "C58",
   "status": "partial",
   "theorems": [
    "C58_one_place",
    "C58_add_accepted",
    "C58_waits",
    "C58_checked_kept_partial",
    "C58_processable",
    "C58_checked_lost_refuted"
   ],
   "note": "C58_checked_lost_refuted: a counterexample to 'kept'. Modelled: ethereum-events lib.rs (all calls, queues, off-chain decisions); receipts are parsed data, signatures an arbitrary predicate."
  },
  {
   "property": "C59",
   "status": "partial",
   "theorems": [
    "C59_challenge_accepted",
    "C59_challengers_distinct",
    "C59_decision",
    "C59_challenges_fit_partial",
    "C59_stale_challenges_refuted",
    "C59_too_many_validators_refuted"
   ],
   "note": "Stale challenges and the fifty-challenge bound refute the full claim. Modelled: ethereum-events lib.rs (all calls, queues, off-chain decisions); receipts are parsed data, signatures an arbitrary predicate."
  },
  {
   "property": "C60",
   "status": "proved",
   "theorems": [
    "C60_needs_signature",
    "C60_signature_binds",
    "C60_no_replay"
   ],
   "note": "Histories shorter than 2^64. Modelled: ethereum-events lib.rs (all calls, queues, off-chain decisions); receipts are parsed data, signatures an arbitrary predicate."
  },
  {
   "property": "C61",
   "status": "partial",
   "theorems": [
    "C61_once_per_registration",
    "C61_slash_only_if_on",
    "C61_offenders_handled",
    "C61_newly_handled",
    "C61_setting",
    "C61_record",
    "C61_forgiven_refuted"
   ],
   "note": "C61_forgiven_refuted is a counterexample to 'every offence under slashing leads to a slash'; the rest is proved. Enforcer is an oracle (() in the runtimes)."
  },
  {
   "property": "C62",
   "status": "partial",
   "theorems": [
    "C62_honest_check",
    "C62_honest_agree",
    "C62_false_check_challenged",
    "C62_suppression_refuted",
    "C62_next_to_check",
    "C62_next_to_check_found",
    "C62_next_to_validate",
    "C62_next_to_process",
    "C62_settings"
   ],
   "note": "C62_suppression_refuted. Modelled: ethereum-events lib.rs (all calls, queues, off-chain decisions); receipts are parsed data, signatures an arbitrary predicate."
  },
  {
   "property": "C63",
   "status": "partial",
   "theorems": [
    "C63_events_decoded_exactly",
    "C63_large_amounts_refused",
    "C63_trim_of_typed_arguments",
    "C63_nothing_else_decoded",
    "C63_mint_decoded",
    "C63_cancel_decoded",
    "C63_no_panic",
    "C63_panic_only_short_cancel",
    "C63_short_topic_panics_refuted",
    "C63_mint_reference",
    "C63_reference_exact_refuted",
    "C63_signatures_distinct",
    "C63_kind_of_signature",
    "C63_legacy_lifts_unknown",
    "C63_two_decoders_agree",
    "C63_pallet_refuses_transfers",
    "C63_valid_events"
   ],
   "note": "C63_short_topic_panics_refuted and C63_reference_exact_refuted are counterexamples to the full claim; the rest is proved. Modelled: all parsers of event_types.rs, the off-chain registry and parse_tier1_event, is_valid."
  },
  {
   "property": "C64",
   "status": "partial",
   "theorems": [
    "C64_reported_exactly",
    "C64_once_per_transaction",
    "C64_contents",
    "C64_lone_event_reported",
    "C64_success",
    "C64_others_harmless",
    "C64_no_panic",
    "C64_every_event_reported_refuted",
    "C64_unaffected_by_others_refuted"
   ],
   "note": "C64_every_event_reported_refuted, C64_unaffected_by_others_refuted are counterexamples to the full claim; the rest is proved. An honest node answers a filter with the matching logs of the chain, in order."
  },
  {
   "property": "C65",
   "status": "partial",
   "theorems": [
    "C65_votes_only_final",
    "C65_latest_block",
    "C65_votes_truthful",
    "C65_honest_nodes_agree",
    "C65_no_event_left_out",
    "C65_no_crash",
    "C65_confirmed_refuted",
    "C65_author"
   ],
   "note": "C65_confirmed_refuted. Composes the decoders (C63), discovery (C64) and the partitions (C17). Signing and submission of the vote to the pool are not modelled here (C15, C16)."
  },
  {
   "property": "C66",
   "status": "partial",
   "theorems": [
    "C66_sign_iff",
    "C66_key_named",
    "C66_either_case",
    "C66_transactions_ordered",
    "C66_pool_signed",
    "C66_once_per_request",
    "C66_tokens_separate",
    "C66_token_content",
    "C66_request_read_back",
    "C66_request_canonical",
    "C66_token_read_back",
    "C66_unauthorised_harmless_refuted",
    "C66_unauthorised_partial",
    "C66_token_used_once_refuted"
   ],
   "note": "C66_unauthorised_harmless_refuted, C66_token_used_once_refuted are counterexamples to the full claim; the rest is proved. Small-step model: requests and answers interleave, the web3 lock is explicit. Cryptography is an oracle."
  },
  {
   "property": "C67",
   "status": "partial",
   "theorems": [
    "C67_nonces_increase",
    "C67_nonces_consecutive",
    "C67_hash_means_taken",
    "C67_error_means_not_taken_partial",
    "C67_error_means_not_taken_refuted",
    "C67_low_nonce_recovers",
    "C67_ahead_is_permanent",
    "C67_nonces_distinct_across_restart_refuted"
   ],
   "note": "C67_error_means_not_taken_refuted, C67_nonces_distinct_across_restart_refuted, C67_ahead_is_permanent show what fails; the rest is proved under the stated behaviour of Ethereum (honest_event)."
  },
  {
   "property": "C68",
   "status": "partial",
   "theorems": [
    "C68_service_answers",
    "C68_service_answers_query",
    "C68_confirmations",
    "C68_depth",
    "C68_depth_refuted",
    "C68_pending_refuted",
    "C68_pending",
    "C68_status_read",
    "C68_status_only",
    "C68_no_status_no_report",
    "C68_query_read",
    "C68_report_iff",
    "C68_unknown_transaction",
    "C68_settled_only_refuted",
    "C68_settled_only_partial",
    "C68_no_answer",
    "C68_event_depth",
    "C68_worker",
    "C68_view_ignores_block"
   ],
   "note": "C68_depth_refuted, C68_pending_refuted, C68_settled_only_refuted are counterexamples to the full claim; the rest is proved. The expected call data are a parameter here; C69 says what they are."
  },
  {
   "property": "C69",
   "status": "partial",
   "theorems": [
    "C69_sent_is_signed",
    "C69_history",
    "C69_corroborate_asks",
    "C69_calldata_fixed_when_sent_refuted",
    "C69_malformed_panics_refuted"
   ],
   "note": "C69_calldata_fixed_when_sent_refuted and C69_malformed_panics_refuted are counterexamples to the full claim; the rest is proved for every order of the pallets. keccak is a parameter; that the four selectors differ is a hypothesis."
  },
  {
   "property": "C70",
   "status": "partial",
   "theorems": [
    "C70_one_order_one_contract",
    "C70_one_lower_one_contract",
    "C70_call_is_no_claim",
    "C70_instance_refuted",
    "C70_chain_numbers"
   ],
   "note": "Proved up to explicit keccak collisions among the messages hashed; C70_instance_refuted: salt and the spelling of the chain are not bound."
  },
  {
   "property": "C71",
   "status": "partial",
   "theorems": [
    "C71_proof_is_claim",
    "C71_history",
    "C71_current_instance_refuted"
   ],
   "note": "C71_current_instance_refuted is a counterexample for the current instance; the rest is proved."
  },
  {
   "property": "C72",
   "status": "partial",
   "theorems": [
    "C72_runs_strictly_increase",
    "C72_no_block_twice",
    "C72_already_run_has_a_reason",
    "C72_failure_has_a_reason",
    "C72_undisturbed_worker_runs",
    "C72_newest_block_runs_refuted"
   ],
   "note": "C72_newest_block_runs_refuted is a counterexample; the rest is proved."
  },
  {
   "property": "C73",
   "status": "partial",
   "theorems": [
    "C73_second_acquisition_is_after_the_deadline",
    "C73_one_holder",
    "C73_work_is_not_repeated_early",
    "C73_refusal_has_a_reason",
    "C73_lock_is_free_after_the_deadline",
    "C73_unused_lock_is_free",
    "C73_one_holder_refuted",
    "C73_failed_work_was_not_done_refuted",
    "C73_question_is_harmless_refuted"
   ],
   "note": "Three refutations; the rest is proved. Mutual exclusion is proved under the condition that no holder is overdue, which the refutation shows to be needed."
  },
  {
   "property": "C74",
   "status": "partial",
   "theorems": [
    "C74_locks_of_different_work_differ",
    "C74_records_and_locks_are_apart",
    "C74_instances_are_apart_refuted"
   ],
   "note": "C74_instances_are_apart_refuted is a counterexample; the rest is proved."
  },
  {
   "property": "C75",
   "status": "partial",
   "theorems": [
    "C75_one_session_per_era",
    "C75_fixed_within_an_era",
    "C75_authors_of_an_era",
    "C75_unselected_stop",
    "C75_avn_list_is_the_authors",
    "C75_keys_have_one_owner",
    "C75_selected_author_refuted"
   ],
   "note": "C75_selected_author_refuted is a counterexample (two eras of delay); the rest is proved."
  },
  {
   "property": "C76",
   "status": "partial",
   "theorems": [
    "C76_selection_never_empties",
    "C76_authors_never_run_out",
    "C76_blocks_go_on",
    "C76_guard_suffices_refuted"
   ],
   "note": "C76_guard_suffices_refuted is a counterexample; the rest is proved."
  },
  {
   "property": "C77",
   "status": "partial",
   "theorems": [
    "C77_leaves_only_when_out",
    "C77_only_deregistration_begins_it",
    "C77_deregistration_begins_it",
    "C77_does_leave",
    "C77_without_candidates_refuted",
    "C77_author_without_record_keeps_all"
   ],
   "note": "Proved when at every point a candidate can be selected and the delay stays below the last era number; C77_without_candidates_refuted shows that the first condition is needed."
  },
  {
   "property": "C78",
   "status": "partial",
   "theorems": [
    "C78_once",
    "C78_up_to_date",
    "C78_period",
    "C78_same_lowers",
    "C78_undecodable_kept",
    "C78_lowers_kept",
    "C78_own_check_refuted"
   ],
   "note": "C78_own_check_refuted is a counterexample (the assertion compares the period before the upgrade with the default); the rest is proved."
  },
  {
   "property": "C79",
   "status": "partial",
   "theorems": [
    "C79_once",
    "C79_up_to_date",
    "C79_version_and_size",
    "C79_queue_kept",
    "C79_active_kept",
    "C79_active_kept_from_3",
    "C79_range_kept",
    "C79_agrees_with_lowers",
    "C79_own_check",
    "C79_from_3_refuted",
    "C79_own_check_refuted"
   ],
   "note": "C79_from_3_refuted and C79_own_check_refuted are counterexamples; the rest is proved."
  },
  {
   "property": "C80",
   "status": "partial",
   "theorems": [
    "C80_inverse",
    "C80_once",
    "C80_own_check",
    "C80_restores",
    "C80_any_chain_refuted"
   ],
   "note": "C80_any_chain_refuted is a counterexample (version 0, two keys of one account); the rest is proved."
  },
  {
   "property": "C81",
   "status": "partial",
   "theorems": [
    "C81_honest_votes_are_true",
    "C81_false_root_needs_dishonest_quorum",
    "C81_offences_exact",
    "C81_honest_not_blamed_for_rejecting",
    "C81_honest_roots_are_true_partial",
    "C81_one_vote_per_run",
    "C81_honest_never_reported_refuted",
    "C81_votes_are_bound_to_the_hash_refuted",
    "C81_registered_keys_enforced_refuted",
    "C81_honest_roots_are_true_refuted",
    "C81_sent_once"
   ],
   "note": "C81_honest_roots_are_true_partial excludes changes of the schedule while a root is pending, where C81_honest_roots_are_true_refuted is a counterexample; C81_honest_never_reported_refuted, C81_votes_are_bound_to_the_hash_refuted and C81_registered_keys_enforced_refuted are counterexamples; the rest is proved."
  },
  {
   "property": "C82",
   "status": "partial",
   "theorems": [
    "C82_messages_distinct",
    "C82_signature_effective_once",
    "C82_votes_are_bound_to_the_instance_refuted"
   ],
   "note": "C82_votes_are_bound_to_the_instance_refuted is a counterexample; the rest is proved."
  },
  {
   "property": "C83",
   "status": "partial",
   "theorems": [
    "C83_submissions_pass_validation",
    "C83_record_accepted",
    "C83_vote_accepted",
    "C83_end_accepted",
    "C83_end_never_approves",
    "C83_enough_votes_approve_refuted",
    "C83_advance_accepted_iff_in_grace",
    "C83_challenge_accepted_iff_other"
   ],
   "note": "C83_enough_votes_approve_refuted is a counterexample; the rest is proved."
  },
  {
   "property": "C84",
   "status": "partial",
   "theorems": [
    "C84_overdue_slot_challenged",
    "C84_overdue_slot_ends_refuted",
    "C84_worker_votes",
    "C84_worker_ends",
    "C84_worker_records"
   ],
   "note": "C84_overdue_slot_ends_refuted shows a single validator stuck for ever; the rest is proved."
  },
  {
   "property": "C85",
   "status": "partial",
   "theorems": [
    "C85_success_is_signed",
    "C85_outcomes_are_true",
    "C85_honest_never_reported",
    "C85_failure_is_final",
    "C85_outcomes_are_true_refuted",
    "C85_confirming_or_sending_consents"
   ],
   "note": "C85_outcomes_are_true_refuted is the counterexample with SetEthBridgeInstance; the rest is proved. Assumed of Ethereum: the contract executes an id at most once and not after the expiry it was signed with, and its view answers accordingly; no reorganisations."
  },
  {
   "property": "C86",
   "status": "partial",
   "theorems": [
    "C86_messages_distinct",
    "C86_tokens_distinct",
    "C86_token_is_no_message",
    "C86_not_a_summary_message",
    "C86_hash_is_signed",
    "C86_hash_is_of_the_attempt_refuted"
   ],
   "note": "C86_hash_is_of_the_attempt_refuted is a counterexample; the rest is proved."
  },
  {
   "property": "C87",
   "status": "partial",
   "theorems": [
    "C87_valid",
    "C87_confirmation",
    "C87_hash",
    "C87_report",
    "C87_report_counts_refuted"
   ],
   "note": "C87_report_counts_refuted is a counterexample; the rest is proved."
  },
  {
   "property": "C88",
   "status": "partial",
   "theorems": [
    "C88_confirmations_come",
    "C88_sender_sends",
    "C88_reports_come",
    "C88_can_settle_refuted"
   ],
   "note": "C88_can_settle_refuted shows a single author stuck for ever; the rest is proved. The theorems say who acts next, not that a request ends in bounded time."
  },
  {
   "property": "C89",
   "status": "proved",
   "theorems": [
    "C89_authors_follow_requests",
    "C89_bounded_and_distinct",
    "C89_add_request",
    "C89_remove_request",
    "C89_request_becomes_pending",
    "C89_changed_by_confirmation",
    "C89_result_accepted",
    "C89_confirmation_applied",
    "C89_request_ends",
    "C89_session_authors"
   ],
   "note": "The pallet is in no runtime at this commit; the bridge's publish and the session's keys are environment."
  },
  {
   "property": "C90",
   "status": "partial",
   "theorems": [
    "C90_keys_follow_requests_partial",
    "C90_holders_partial",
    "C90_one_key_partial",
    "C90_rotation",
    "C90_rotation_effect",
    "C90_holders_refuted",
    "C90_one_key_refuted",
    "C90_author_loses_key_refuted",
    "C90_session_takes_key_refuted"
   ],
   "note": "Proved under the two conditions; four _refuted theorems show what happens without them."
  },
  {
   "property": "C91",
   "status": "partial",
   "theorems": [
    "C91_published",
    "C91_current_key_partial",
    "C91_current_key_refuted"
   ],
   "note": "C91_current_key_refuted is the counterexample; the exact content of what is published is proved for every history."
  },
  {
   "property": "C92",
   "status": "proved",
   "theorems": [
    "C92_refused_request_undone"
   ],
   "note": ""
  },
  {
   "property": "C93",
   "status": "proved",
   "theorems": [
    "C93_table_built",
    "C93_inverse",
    "C93_check_passes",
    "C93_nothing_else"
   ],
   "note": ""
  },
  {
   "property": "C94",
   "status": "proved",
   "theorems": [
    "C94_event_messages_distinct",
    "C94_log_messages_distinct",
    "C94_partitions_distinct",
    "C94_signed_partition",
    "C94_events_are_not_summaries",
    "C94_events_are_not_bridge",
    "C94_sign_token_is_no_message",
    "C94_one_meaning",
    "C94_send_token",
    "C94_send_token_first_byte"
   ],
   "note": "Accounts and keys are their 32 bytes. The signature scheme itself is not modelled; what is proved is that the signed bytes determine the meaning."
  },
  {
   "property": "C95",
   "status": "proved",
   "theorems": [
    "C95_honest_checks_true",
    "C95_honest_challenges_just",
    "C95_honest_challengers_just"
   ],
   "note": "Assumes that receipts are final apart from the confirmations, the trusted contracts stay the same, calls name a registered key (the code does not check it, C23), and no forks. The third theorem is for events of which no challenge has succeeded before."
  },
  {
   "property": "C96",
   "status": "partial",
   "theorems": [
    "C96_true_check_stands",
    "C96_honest_author_reported_refuted"
   ],
   "note": "Proved for events of which no challenge has succeeded before. In general it is false of the code (C96_honest_author_reported_refuted): the challengers of an event are never cleared, so once a false check of it has been overturned, a later, true check of it falls too and its honest author is reported."
  },
  {
   "property": "C97",
   "status": "partial",
   "theorems": [
    "C97_outvoted",
    "C97_worker_challenges",
    "C97_challenge_stays",
    "C97_looks_once",
    "C97_all_look_refuted"
   ],
   "note": "That it suffices that all honest nodes look at the check is false (C97_all_look_refuted): a node that looks while the transaction has too few confirmations notes the event as validated, does not challenge, and never looks again (C97_looks_once), so false data are delivered. Nor is a false claim of invalidity challenged unless the event is genuine (C62)."
  },
  {
   "property": "C98",
   "status": "proved",
   "theorems": [
    "C98_worker_checks",
    "C98_worker_processes"
   ],
   "note": "Submission to the pool is not part of it; acceptance is at the state on which the worker ran (processing) or any later one with the same authors (checks)."
  },
  {
   "property": "C99",
   "status": "partial",
   "theorems": [
    "C99_stays_on_the_machine",
    "C99_same_address",
    "C99_port_numbers",
    "C99_bad_port_refuted",
    "C99_same_address_refuted",
    "C99_reaches",
    "C99_block_numbers",
    "C99_ethereum_block_refuted",
    "C99_finalised_block",
    "C99_root",
    "C99_signature",
    "C99_orders_arrive",
    "C99_views_arrive",
    "C99_queries_arrive",
    "C99_only_whole_signatures",
    "C99_only_200"
   ],
   "note": "False of the code in three places (C99_..._refuted): a number that is no port (70000) does not fall back to the default as other bad ports do; a port that is no number is replaced by the default on the workers' side only; and no endpoint serves eth/latest_block, so the latest Ethereum block that the bridge offers to other pallets is never available (no pallet uses it)."
  },
  {
   "property": "C100",
   "status": "partial",
   "theorems": [
    "C100_base_fee",
    "C100_price_list",
    "C100_free_of_charge",
    "C100_monotone",
    "C100_never_more_than_predicted",
    "C100_splitting_never_saves",
    "C100_ordinary_sender_pays",
    "C100_known_sender_pays",
    "C100_room_is_charged_refuted"
   ],
   "note": "Proved for the time, the bytes, the multiplier and the tip; the exact price list for lengths below 2^32, multipliers below 2^124/10^18 and tips below 2^126 (beyond, sums saturate; monotonicity and the bounds hold always). What a call takes of the block's room for proofs costs nothing (C100_room_is_charged_refuted). The formula of pallet-transaction-payment and the weights of calls are FRAME's, modelled from its published source."
  },
  {
   "property": "C101",
   "status": "partial",
   "theorems": [
    "C101_candidate_unbond_request",
    "C101_signed_candidate_unbond_request",
    "C101_go_online",
    "C101_schedule_unbond",
    "C101_join_minimum",
    "C101_nominate_minimum",
    "C101_signed_nominate_minimum",
    "C101_signed_bond_extra_minimum",
    "C101_execute_request_minimum",
    "C101_bond_minimum",
    "C101_bond_minimum_from_genesis",
    "C101_nominator_minimum_refuted",
    "C101_nominator_minimum_after_eviction_refuted"
   ],
   "note": "Proved: the invariant for candidates over all histories (C101_bond_minimum, C101_bond_minimum_from_genesis) and what each call has to leave. False of the code, hence partial: a nominator's total may fall below the minimum without a call of its own when a candidate it nominates leaves (C101_nominator_minimum_refuted), or when a larger nomination pushes one of its own out of full lists (C101_nominator_minimum_after_eviction_refuted)."
  },
  {
   "property": "C102",
   "status": "proved",
   "theorems": [
    "C102_the_point_of_the_key",
    "C102_refused",
    "C102_round_trip",
    "C102_keys_are_told_apart",
    "C102_published_parameters",
    "C102_both_roots",
    "C102_compress_unchecked"
   ],
   "note": "The libsecp256k1 crate is not in the repository; its decompression is modelled as the standard one (SEC1) with the real field of secp256k1, so the theorems are about arithmetic modulo the field's order and not about an oracle. That no point has y = 0 is a hypothesis on the published bytes (it would need the primality of the order). C102_compress_unchecked: the way back does not check its 64 bytes."
  },
  {
   "property": "C103",
   "status": "proved",
   "theorems": [
    "C103_frozen_is_not_spent",
    "C103_frozen_stays_covered"
   ],
   "note": "The freezing rule itself is pallet-balances' (modelled in native_transfer and native_withdraw, as far as the token manager uses it); proved is that every path of the token manager goes through it."
  },
  {
   "property": "C104",
   "status": "proved",
   "theorems": [
    "C104_one_kind_of_call",
    "C104_other_kind_other_bytes"
   ],
   "note": "The statement is about the bytes checked by each pallet's signature check, with the payload functions of the pallets' own models."
  }
 ]
}