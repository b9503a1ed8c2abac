{
 "C01": {
  "status": "proved",
  "note": "Two supermajorities need not intersect for n=0,1,2,4: the _refuted theorem records this (not part of the property's claim)."
 },
 "C18": {
  "status": "partial",
  "note": "Round robin proved for up to 255 validators; with 256 the index computation panics (_refuted)."
 },
 "C23": {
  "status": "partial",
  "note": "The code verifies under the key carried in the transaction, not under the key registered for the account: _refuted gives the witness, _partial what does hold."
 },
 "C19": {
  "status": "proved",
  "note": "Voting sessions of the summary pallet (the generic avn vote code instantiated there)."
 },
 "C20": {
  "status": "partial",
  "note": "Tiling holds for histories that do not change the schedule period while a root is pending; _refuted shows overlapping approved ranges otherwise. No range approved twice holds always."
 },
 "C21": {
  "status": "proved",
  "note": "Expired external votes count as passed, as in the code. The _refuted theorem is an additional liveness finding: failed hand-over inside the hook strands the root."
 },
 "C22": {
  "status": "partial",
  "note": "Slot 0 is never reported (C22_slot_zero_never_reported). C22_upgrade_punctual_refuted: an upgrade from version 0 dates the slot at block 28800 whatever the block."
 },
 "C07": {
  "status": "proved",
  "note": "Round trip, exact length, injectivity and total decoding. The _refuted theorem records that decoding ignores the padding bytes, so encodings are canonical only up to padding."
 },
 "C02": {
  "status": "proved",
  "note": "Sum of balances per token equals genesis plus credits minus debits announced in events, for every history; no overflow; transfers move exactly the amount."
 },
 "C03": {
  "status": "proved",
  "note": "Under the hypothesis that initial supply plus all credits fits u128 (issuance saturates)."
 },
 "C04": {
  "status": "proved",
  "note": "For histories shorter than 2^64 operations (nonces are u64 and wrap); signatures modelled as an arbitrary verifier, single-message assumption explicit in the last theorem."
 },
 "C05": {
  "status": "partial",
  "note": "Holds when root does not call execute_lower by hand; with it ids are reused (_refuted)."
 },
 "C06": {
  "status": "partial",
  "note": "At-most-once and readiness proved. 'Whenever consumed by a refund it has been credited' is false for zero or overflowing amounts (_refuted); _partial gives the exact effect."
 },
 "C09": {
  "status": "proved",
  "note": "Absent an administrator reset and u32 wrap-around (both in the hypotheses); the _refuted theorem shows that the reset indeed reuses an id."
 },
 "C10": {
  "status": "proved",
  "note": "Queue bound, idle implies empty queue, FIFO per step and over the whole history."
 },
 "C11": {
  "status": "proved",
  "note": "Notifications are, one by one and in order, about the finished requests. The answer of the notified pallet is an arbitrary environment function."
 },
 "C12": {
  "status": "proved",
  "note": "The quorum is that of the other validators (n-1) at the moment of recording; an account counted earlier may have left the set by then."
 },
 "C13": {
  "status": "partial",
  "note": "Validity, provenance and no repeated signature proved; distinct signers refuted: the code compares signatures, and one validator can produce several valid ECDSA signatures of one hash. Distinct keys hold if signatures were unique."
 },
 "C14": {
  "status": "partial",
  "note": "Set once and only by the sender proved; 'only after enough confirmations' is not enforced on chain (_refuted), it holds for honest off-chain workers."
 },
 "C35": {
  "status": "partial",
  "note": "Completion proved for a stable validator set of at least two; _refuted: a single validator, or a shrinking set, leaves the proof and the whole queue stuck."
 },
 "C08": {
  "status": "proved",
  "note": "For every history in which no other pallet takes the processed-event records over (no runtime in the repository configures that); the _refuted theorem shows the hypothesis is needed. Events brought in by the older ethereum-events pallet share the record and are included in the at-most-once claim."
 },
 "C15": {
  "status": "proved",
  "note": "walk (IncomingSpec) spells out how partitions and ranges follow one another, including u32/u16 saturation."
 },
 "C16": {
  "status": "proved",
  "note": "At least a quorum asked for the start or a later one, and supermajority minus quorum plus one asked for the start or an earlier one; the fault corollary is separate."
 },
 "C17": {
  "status": "proved",
  "note": "For events with distinct (block, transaction). The _refuted theorem: two events of one transaction in one block do not both survive, because the order on discovered events ignores the rest of the event."
 },
 "C36": {
  "status": "proved",
  "note": "Reporting itself (identification, is-known check) is not modelled; the reported accounts are."
 },
 "C24": {
  "status": "proved",
  "note": "Any two moments of any history; ids announced minted once; taken or empty references rejected."
 },
 "C25": {
  "status": "proved",
  "note": "Supply bound over announced mints, creation once, mint only while listed and authorised."
 },
 "C26": {
  "status": "proved",
  "note": "Owner changes need a listing by the owner plus a signature over the current nonce or a processed Ethereum event carrying it."
 },
 "C27": {
  "status": "proved",
  "note": "Histories of fewer than 2^64 operations (nonces are u64 and wrap). Signature uniqueness is an explicit hypothesis of C27_no_signature_twice only."
 },
 "C28": {
  "status": "proved",
  "note": "Exact sum bound, although the code sums in u32."
 },
 "C29": {
  "status": "proved",
  "note": "Inner calls of the token and NFT managers are the modelled ones; those of other pallets are arbitrary functions. Replay theorems for fewer than 2^64 operations."
 },
 "C30": {
  "status": "partial",
  "note": "Price to the nearest unit, tip, expiry by count and by block, only root: proved. 'Never more than the unadjusted fee' holds for percentages and for fixed fees up to the network fee (_partial); a larger fixed fee costs more (_refuted), and a sender left with an empty account gets no refund (_refuted). The predicted and corrected fees of pallet-transaction-payment are parameters."
 },
 "C31": {
  "status": "proved",
  "note": "Invariant of every reachable state; genesis without initial candidates (they join by the same calls)."
 },
 "C32": {
  "status": "proved",
  "note": "Totals, mutual listing with equal amounts, pending requests fit, nobody is both nominator and candidate."
 },
 "C37": {
  "status": "partial",
  "note": "Never overstated, no overflow: proved. Exact as long as no candidate has left: every other call, accepted or not, keeps the record equal to the stake (C37_exact_kept, C37_exact_without_leaving), and what single calls add is exactly what they put at stake (_counted). After a candidate leaves exactness is false (_refuted): decreasing an uncounted nomination does not reduce the uncounted total, so too much is subtracted when the candidate leaves."
 },
 "C38": {
  "status": "proved",
  "note": "Locks as recorded by the staking pallet; that the balances pallet keeps frozen amounts covered is an assumption of the model of the rest of the runtime (EnvBalances)."
 },
 "C39": {
  "status": "proved",
  "note": "Pool exact and bounded; selection and snapshots at era starts."
 },
 "C40": {
  "status": "proved",
  "note": "Delays as set at the time of asking; candidate delays are u32 sums modulo 2^32 as in the code, stated so."
 },
 "C41": {
  "status": "proved",
  "note": "'panic' outcomes of the model cover expect/unwrap/overflow sites listed in StakeModel.v."
 },
 "C42": {
  "status": "proved",
  "note": "For histories of fewer than 2^64 operations."
 },
 "C43": {
  "status": "proved",
  "note": "A candidate whose request list is full silently gets no request: stated in `asked` (finding)."
 },
 "C33": {
  "status": "proved",
  "note": "For any hash function (keccak is a parameter); commitment is up to order within pairs and up to collisions. Two _refuted theorems show what is not bound: order within a pair (C33_order_refuted) and, as leaves and inner nodes are hashed alike, inner nodes verify as 64-byte leaves (C33_inner_nodes_verify_refuted)."
 },
 "C44": {
  "status": "proved",
  "note": "All histories from genesis; balances may change arbitrarily in between (Elsewhere)."
 },
 "C45": {
  "status": "proved",
  "note": "All histories from genesis."
 },
 "C46": {
  "status": "partial",
  "note": "Proved for hand-overs and submissions; C46_registration_replay_refuted shows that registrations, whose payload has no nonce, can be replayed after a hand-over."
 },
 "C47": {
  "status": "proved",
  "note": "The fee goes through TokenModel.pay_treasury."
 },
 "C48": {
  "status": "proved",
  "note": "All histories from genesis; other pallets may change balances arbitrarily but not take from the pot (Elsewhere). Staking rewards are only active where is_staking_enabled() (config c_enabled); both values are covered."
 },
 "C49": {
  "status": "proved",
  "note": "Snapshots are assumed to add up (bond plus nominations at most the total), which StakeProps3.snapshot_true proves of the snapshots staking takes. Perbill arithmetic is modelled from the dependency. Points below the u32 limit."
 },
 "C50": {
  "status": "proved",
  "note": "The sums are over the eras allotted in the history (ledger)."
 },
 "C51": {
  "status": "partial",
  "note": "C51_exact_refuted and C51_no_partial_payment_refuted are counterexamples to exactness and all-or-nothing; the rest is proved."
 },
 "C52": {
  "status": "proved",
  "note": "Modelled: validators-manager lib.rs whole pallet; staking, session keys, balances and the bridge's acceptance are oracles that may change at any time. Bridge transaction ids are assumed never to be reset by the admin (set_eth_tx_id)."
 },
 "C53": {
  "status": "proved",
  "note": "Modelled: validators-manager lib.rs whole pallet; staking, session keys, balances and the bridge's acceptance are oracles that may change at any time. Bridge transaction ids are assumed never to be reset by the admin (set_eth_tx_id)."
 },
 "C54": {
  "status": "proved",
  "note": "Modelled: validators-manager lib.rs whole pallet; staking, session keys, balances and the bridge's acceptance are oracles that may change at any time. Bridge transaction ids are assumed never to be reset by the admin (set_eth_tx_id)."
 },
 "C55": {
  "status": "proved",
  "note": "Modelled: validators-manager lib.rs whole pallet; staking, session keys, balances and the bridge's acceptance are oracles that may change at any time. Bridge transaction ids are assumed never to be reset by the admin (set_eth_tx_id)."
 },
 "C56": {
  "status": "partial",
  "note": "C56_confirmation_applied_refuted is a counterexample to the unconditional claim; the conditional claim is proved. Modelled: validators-manager lib.rs whole pallet; staking, session keys, balances and the bridge's acceptance are oracles that may change at any time. Bridge transaction ids are assumed never to be reset by the admin (set_eth_tx_id)."
 },
 "C34": {
  "status": "proved",
  "note": "Summary pallet; see DESIGN.md."
 },
 "C57": {
  "status": "proved",
  "note": "Modelled: ethereum-events lib.rs (all calls, queues, off-chain decisions); receipts are parsed data, signatures an arbitrary predicate."
 },
 "C58": {
  "status": "partial",
  "note": "C58_checked_lost_refuted: a counterexample to 'kept'. Modelled: ethereum-events lib.rs (all calls, queues, off-chain decisions); receipts are parsed data, signatures an arbitrary predicate."
 },
 "C59": {
  "status": "partial",
  "note": "Stale challenges and the fifty-challenge bound refute the full claim. Modelled: ethereum-events lib.rs (all calls, queues, off-chain decisions); receipts are parsed data, signatures an arbitrary predicate."
 },
 "C60": {
  "status": "proved",
  "note": "Histories shorter than 2^64. Modelled: ethereum-events lib.rs (all calls, queues, off-chain decisions); receipts are parsed data, signatures an arbitrary predicate."
 },
 "C61": {
  "status": "partial",
  "note": "C61_forgiven_refuted is a counterexample to 'every offence under slashing leads to a slash'; the rest is proved. Enforcer is an oracle (() in the runtimes)."
 },
 "C62": {
  "status": "partial",
  "note": "C62_suppression_refuted. Modelled: ethereum-events lib.rs (all calls, queues, off-chain decisions); receipts are parsed data, signatures an arbitrary predicate."
 },
 "C63": {
  "status": "partial",
  "note": "C63_short_topic_panics_refuted and C63_reference_exact_refuted are counterexamples to the full claim; the rest is proved. Modelled: all parsers of event_types.rs, the off-chain registry and parse_tier1_event, is_valid."
 },
 "C64": {
  "status": "partial",
  "note": "C64_every_event_reported_refuted, C64_unaffected_by_others_refuted are counterexamples to the full claim; the rest is proved. An honest node answers a filter with the matching logs of the chain, in order."
 },
 "C65": {
  "status": "partial",
  "note": "C65_confirmed_refuted. Composes the decoders (C63), discovery (C64) and the partitions (C17). Signing and submission of the vote to the pool are not modelled here (C15, C16)."
 },
 "C66": {
  "status": "partial",
  "note": "C66_unauthorised_harmless_refuted, C66_token_used_once_refuted are counterexamples to the full claim; the rest is proved. Small-step model: requests and answers interleave, the web3 lock is explicit. Cryptography is an oracle."
 },
 "C67": {
  "status": "partial",
  "note": "C67_error_means_not_taken_refuted, C67_nonces_distinct_across_restart_refuted, C67_ahead_is_permanent show what fails; the rest is proved under the stated behaviour of Ethereum (honest_event)."
 },
 "C68": {
  "status": "partial",
  "note": "C68_depth_refuted, C68_pending_refuted, C68_settled_only_refuted are counterexamples to the full claim; the rest is proved. The expected call data are a parameter here; C69 says what they are."
 },
 "C69": {
  "status": "partial",
  "note": "C69_calldata_fixed_when_sent_refuted and C69_malformed_panics_refuted are counterexamples to the full claim; the rest is proved for every order of the pallets. keccak is a parameter; that the four selectors differ is a hypothesis."
 },
 "C70": {
  "status": "partial",
  "note": "Proved up to explicit keccak collisions among the messages hashed; C70_instance_refuted: salt and the spelling of the chain are not bound."
 },
 "C71": {
  "status": "partial",
  "note": "C71_current_instance_refuted is a counterexample for the current instance; the rest is proved."
 },
 "C72": {
  "status": "partial",
  "note": "C72_newest_block_runs_refuted is a counterexample; the rest is proved."
 },
 "C73": {
  "status": "partial",
  "note": "Three refutations; the rest is proved. Mutual exclusion is proved under the condition that no holder is overdue, which the refutation shows to be needed."
 },
 "C74": {
  "status": "partial",
  "note": "C74_instances_are_apart_refuted is a counterexample; the rest is proved."
 },
 "C75": {
  "status": "partial",
  "note": "C75_selected_author_refuted is a counterexample (two eras of delay); the rest is proved."
 },
 "C76": {
  "status": "partial",
  "note": "C76_guard_suffices_refuted is a counterexample; the rest is proved."
 },
 "C77": {
  "status": "partial",
  "note": "Proved when at every point a candidate can be selected and the delay stays below the last era number; C77_without_candidates_refuted shows that the first condition is needed."
 },
 "C78": {
  "status": "partial",
  "note": "C78_own_check_refuted is a counterexample (the assertion compares the period before the upgrade with the default); the rest is proved."
 },
 "C79": {
  "status": "partial",
  "note": "C79_from_3_refuted and C79_own_check_refuted are counterexamples; the rest is proved."
 },
 "C80": {
  "status": "partial",
  "note": "C80_any_chain_refuted is a counterexample (version 0, two keys of one account); the rest is proved."
 },
 "C81": {
  "status": "partial",
  "note": "C81_honest_roots_are_true_partial excludes changes of the schedule while a root is pending, where C81_honest_roots_are_true_refuted is a counterexample; C81_honest_never_reported_refuted, C81_votes_are_bound_to_the_hash_refuted and C81_registered_keys_enforced_refuted are counterexamples; the rest is proved."
 },
 "C82": {
  "status": "partial",
  "note": "C82_votes_are_bound_to_the_instance_refuted is a counterexample; the rest is proved."
 },
 "C83": {
  "status": "partial",
  "note": "C83_enough_votes_approve_refuted is a counterexample; the rest is proved."
 },
 "C84": {
  "status": "partial",
  "note": "C84_overdue_slot_ends_refuted shows a single validator stuck for ever; the rest is proved."
 },
 "C85": {
  "status": "partial",
  "note": "C85_outcomes_are_true_refuted is the counterexample with SetEthBridgeInstance; the rest is proved. Assumed of Ethereum: the contract executes an id at most once and not after the expiry it was signed with, and its view answers accordingly; no reorganisations."
 },
 "C86": {
  "status": "partial",
  "note": "C86_hash_is_of_the_attempt_refuted is a counterexample; the rest is proved."
 },
 "C87": {
  "status": "partial",
  "note": "C87_report_counts_refuted is a counterexample; the rest is proved."
 },
 "C88": {
  "status": "partial",
  "note": "C88_can_settle_refuted shows a single author stuck for ever; the rest is proved. The theorems say who acts next, not that a request ends in bounded time."
 },
 "C89": {
  "status": "proved",
  "note": "The pallet is in no runtime at this commit; the bridge's publish and the session's keys are environment."
 },
 "C90": {
  "status": "partial",
  "note": "Proved under the two conditions; four _refuted theorems show what happens without them."
 },
 "C91": {
  "status": "partial",
  "note": "C91_current_key_refuted is the counterexample; the exact content of what is published is proved for every history."
 },
 "C92": {
  "status": "proved",
  "note": ""
 },
 "C93": {
  "status": "proved",
  "note": ""
 },
 "C94": {
  "status": "proved",
  "note": "Accounts and keys are their 32 bytes. The signature scheme itself is not modelled; what is proved is that the signed bytes determine the meaning."
 },
 "C95": {
  "status": "proved",
  "note": "Assumes that receipts are final apart from the confirmations, the trusted contracts stay the same, calls name a registered key (the code does not check it, C23), and no forks. The third theorem is for events of which no challenge has succeeded before."
 },
 "C96": {
  "status": "partial",
  "note": "Proved for events of which no challenge has succeeded before. In general it is false of the code (C96_honest_author_reported_refuted): the challengers of an event are never cleared, so once a false check of it has been overturned, a later, true check of it falls too and its honest author is reported."
 },
 "C97": {
  "status": "partial",
  "note": "That it suffices that all honest nodes look at the check is false (C97_all_look_refuted): a node that looks while the transaction has too few confirmations notes the event as validated, does not challenge, and never looks again (C97_looks_once), so false data are delivered. Nor is a false claim of invalidity challenged unless the event is genuine (C62)."
 },
 "C98": {
  "status": "proved",
  "note": "Submission to the pool is not part of it; acceptance is at the state on which the worker ran (processing) or any later one with the same authors (checks)."
 },
 "C99": {
  "status": "partial",
  "note": "False of the code in three places (C99_..._refuted): a number that is no port (70000) does not fall back to the default as other bad ports do; a port that is no number is replaced by the default on the workers' side only; and no endpoint serves eth/latest_block, so the latest Ethereum block that the bridge offers to other pallets is never available (no pallet uses it)."
 },
 "C100": {
  "status": "partial",
  "note": "Proved for the time, the bytes, the multiplier and the tip; the exact price list for lengths below 2^32, multipliers below 2^124/10^18 and tips below 2^126 (beyond, sums saturate; monotonicity and the bounds hold always). What a call takes of the block's room for proofs costs nothing (C100_room_is_charged_refuted). The formula of pallet-transaction-payment and the weights of calls are FRAME's, modelled from its published source."
 },
 "C101": {
  "status": "partial",
  "note": "Proved: the invariant for candidates over all histories (C101_bond_minimum, C101_bond_minimum_from_genesis) and what each call has to leave. False of the code, hence partial: a nominator's total may fall below the minimum without a call of its own when a candidate it nominates leaves (C101_nominator_minimum_refuted), or when a larger nomination pushes one of its own out of full lists (C101_nominator_minimum_after_eviction_refuted)."
 },
 "C102": {
  "status": "proved",
  "note": "The libsecp256k1 crate is not in the repository; its decompression is modelled as the standard one (SEC1) with the real field of secp256k1, so the theorems are about arithmetic modulo the field's order and not about an oracle. That no point has y = 0 is a hypothesis on the published bytes (it would need the primality of the order). C102_compress_unchecked: the way back does not check its 64 bytes."
 },
 "C103": {
  "status": "proved",
  "note": "The freezing rule itself is pallet-balances' (modelled in native_transfer and native_withdraw, as far as the token manager uses it); proved is that every path of the token manager goes through it."
 },
 "C104": {
  "status": "proved",
  "note": "The statement is about the bytes checked by each pallet's signature check, with the payload functions of the pallets' own models."
 }
}