{"id": "C01", "title": "Quorum arithmetic: every accepted decision needs an honest voter, and blocking sets exist", "statement": "For n validators the ordinary quorum is n - floor(2n/3) and the supermajority is floor(2n/3). For n >= 1 the quorum is between 1 and n, so no decision is ever taken on zero votes and unanimity always suffices; any set reaching quorum contains a validator outside every set of at most (n-1)/3 faulty ones; quorum plus supermajority is exactly n, so a supermajority vote for one outcome and a quorum vote for the contrary outcome cannot be cast by disjoint sets strictly larger than those sizes; both thresholds are monotone in n. The supermajority is positive only from n = 2 on.", "quantifier": "every number of validators", "why_tests_cant": "thresholds use truncating division, so behaviour differs per residue class; unit tests check a handful of n", "anchors": ["primitives/avn-common/src/lib.rs:QuorumPolicy", "pallets/avn/src/lib.rs:quorum", "pallets/avn/src/lib.rs:supermajority_quorum"]}
{"id": "C02", "title": "Token balances are conserved", "statement": "For every non-native token the sum of all account balances equals everything credited by processed deposits and refunds minus everything debited by executed lowers; transfers, fee payments, proxies, and failing calls never change the sum, and no balance ever goes negative or wraps.", "quantifier": "every finite history of deposits, transfers, lower executions, refunds and failing calls, over any accounts, tokens and amounts", "why_tests_cant": "conservation is a statement over all interleavings and amounts including the self-transfer and overflow corners", "anchors": ["pallets/token-manager/src/lib.rs:settle_transfer", "pallets/token-manager/src/lib.rs:settle_lower", "pallets/token-manager/src/lib.rs:credit_token_balance", "pallets/token-manager/src/lib.rs:process_lift"]}
{"id": "C03", "title": "Native token supply changes only by lift, growth and lower", "statement": "Total issuance of the native token equals initial supply plus lifted, growth and refunded amounts minus lowered amounts; token transfers and treasury payments leave it unchanged; a lower debits exactly the amount from the sender and nothing from anybody else.", "quantifier": "every finite history of token-manager operations", "why_tests_cant": "needs a global invariant over histories", "anchors": ["pallets/token-manager/src/lib.rs:credit_avt_balance", "pallets/token-manager/src/lib.rs:settle_lower", "pallets/token-manager/src/lib.rs:process_avt_growth_lift"]}
{"id": "C04", "title": "Signed transfers and lowers cannot be replayed", "statement": "A signed transfer or signed lower takes effect only with a signature that verifies over (relayer, from, to, token, amount, current nonce); success increments the signer's nonce by exactly one, a failure leaves every nonce and balance unchanged, nonces never decrease, and so the same signed payload is accepted at most once in any history.", "quantifier": "every history of operations, every signature oracle and every payload", "why_tests_cant": "replay is a property of two arbitrary points of an unbounded history", "anchors": ["pallets/token-manager/src/lib.rs:signed_transfer", "pallets/token-manager/src/lib.rs:schedule_signed_lower", "pallets/token-manager/src/lib.rs:Nonces"]}
{"id": "C05", "title": "A lower is in exactly one stage of its life", "statement": "Every lower id ever issued is, in every reachable state, in exactly one of: scheduled, waiting for its proof, ready to claim, failed, or gone (claimed, reverted or failed to execute); ids are never reused; the sender is debited at most once per id, exactly when it leaves the scheduled stage successfully.", "quantifier": "every history of schedule, execute, proof result, regenerate, claim, revert and admin operations", "why_tests_cant": "a multi-stage lifecycle spread over blocks, with callbacks arriving in any order", "anchors": ["pallets/token-manager/src/lib.rs:schedule_lower", "pallets/token-manager/src/lib.rs:execute_lower", "pallets/token-manager/src/lib.rs:process_lower_proof_result", "pallets/token-manager/src/lib.rs:regenerate_lower_proof", "pallets/token-manager/src/lib.rs:remove_used_lower"]}
{"id": "C06", "title": "A lower is claimed or refunded at most once", "statement": "For every lower id at most one claim or refund ever succeeds, a refund never succeeds for a lower whose proof is not ready, and a refund credits exactly what the Ethereum event says. Whenever the entry is consumed by a refund, the refund has been credited.", "quantifier": "every history and every sequence of claim and revert events, valid or malformed", "why_tests_cant": "depends on the order of effects inside handlers whose errors are swallowed by the caller", "anchors": ["pallets/token-manager/src/lib.rs:process_lower_reverted", "pallets/token-manager/src/lib.rs:process_lower_claim", "pallets/eth-bridge/src/lib.rs:process_ethereum_event"]}
{"id": "C07", "title": "Lower parameter encoding is lossless", "statement": "Packing (token, amount, recipient, lower id, sender, timestamp) into the fixed 116-byte lower payload and decoding it back returns the same values, the payload always has exactly 116 bytes, distinct lowers have distinct payloads, and decoding succeeds exactly on 116-byte inputs with zero padding rules as implemented.", "quantifier": "every value of every field in its machine range and every byte string", "why_tests_cant": "a codec law over 2^900 inputs", "anchors": ["primitives/avn-common/src/eth/mod.rs:concat_lower_data", "primitives/avn-common/src/eth/mod.rs:LowerParams", "primitives/avn-common/src/eth/mod.rs:LowerData"]}
{"id": "C08", "title": "An Ethereum event is processed at most once", "statement": "Whatever votes are submitted, an Ethereum transaction hash is handed to the pallets' event handlers at most once over the whole life of the chain, and only if a quorum of distinct validators voted for the same partition containing it.", "quantifier": "every history of event votes, range restarts, admin additions and validator set changes", "why_tests_cant": "replay across ranges and restarts needs an unbounded history argument", "anchors": ["pallets/eth-bridge/src/lib.rs:process_ethereum_event", "pallets/eth-bridge/src/lib.rs:submit_ethereum_events", "pallets/eth-bridge/src/lib.rs:add_processed_event"]}
{"id": "C09", "title": "Bridge transaction ids are unique", "statement": "Every outgoing Ethereum request, whether sent or queued, gets an id that no earlier request got, ids increase by one, and a failed request never hands out an id used by another live request (absent an explicit administrator reset).", "quantifier": "every history of publish requests interleaved with completions and queueing", "why_tests_cant": "uniqueness over unbounded histories including failed calls", "anchors": ["pallets/eth-bridge/src/tx.rs:use_next_tx_id", "pallets/eth-bridge/src/request.rs:add_new_send_request"]}
{"id": "C10", "title": "Bridge requests are served one at a time in FIFO order", "statement": "At most one request is active; while it is active every new request is queued behind the existing ones; when the active request finishes the oldest queued request becomes active; no queued request is lost, duplicated or reordered; the queue never exceeds its bound.", "quantifier": "every history of requests and completions", "why_tests_cant": "queue discipline over unbounded interleavings", "anchors": ["pallets/eth-bridge/src/request.rs:queue_request", "pallets/eth-bridge/src/request.rs:process_next_request", "pallets/eth-bridge/src/request.rs:dequeue_request"]}
{"id": "C11", "title": "The requesting pallet hears the result of each bridge request exactly once", "statement": "Each accepted request is, at any time, active, queued, or its originating pallet has been notified of the outcome exactly once; notification happens only when the request leaves the active slot.", "quantifier": "every history of requests, confirmations, corroborations and removals", "why_tests_cant": "exactly-once delivery across an unbounded history", "anchors": ["pallets/eth-bridge/src/tx.rs:finalize_state", "pallets/eth-bridge/src/request.rs:complete_lower_proof_request", "pallets/eth-bridge/src/request.rs:process_next_request"]}
{"id": "C12", "title": "An Ethereum outcome is recorded only with a quorum of corroborations", "statement": "A bridge transaction is settled as succeeded (failed) only after a quorum of distinct validators other than the chosen sender reported success (failure) for the current attempt; nobody is counted twice in one attempt, the sender never corroborates its own transaction, and corroborations of an earlier attempt never count towards a replayed one.", "quantifier": "every history of corroborations, replays, validator changes", "why_tests_cant": "vote counting over arbitrary interleavings", "anchors": ["pallets/eth-bridge/src/lib.rs:add_corroboration", "pallets/eth-bridge/src/tx.rs:finalize_state"]}
{"id": "C13", "title": "Confirmations come from distinct current validators", "statement": "Every confirmation stored for the active request was produced by a key registered to a current validator over the request's message hash, and the number of confirmations that unlocks sending is a number of distinct validators.", "quantifier": "every history of submitted confirmations and every signature oracle", "why_tests_cant": "malleable or repeated signatures are adversarial inputs outside any test set", "anchors": ["pallets/eth-bridge/src/lib.rs:add_confirmation", "pallets/eth-bridge/src/util.rs:has_enough_confirmations"]}
{"id": "C14", "title": "The Ethereum transaction hash is recorded once, by the chosen sender", "statement": "Only the validator chosen as sender can record the Ethereum transaction hash, only after enough confirmations, and once recorded it is not changed until the request is replayed or finished.", "quantifier": "every history of operations on the active request", "why_tests_cant": "needs every interleaving with replays and completions", "anchors": ["pallets/eth-bridge/src/lib.rs:add_eth_tx_hash"]}
{"id": "C15", "title": "Ethereum block ranges advance without gaps or overlaps", "statement": "Once discovery has started, consecutive active ranges are contiguous: the next range starts right after the end of the previous one and has the same length, partitions inside a range are processed in order starting from 0, and the range advances only after its last partition was accepted by quorum.", "quantifier": "every history of event votes", "why_tests_cant": "an invariant along unbounded histories of partitions", "anchors": ["pallets/eth-bridge/src/lib.rs:advance_partition", "primitives/avn-common/src/event_discovery.rs:EthBlockRange"]}
{"id": "C16", "title": "The initial Ethereum block range is backed by honest votes", "statement": "The start block selected from the validators' latest-block votes is one of the submitted values, is decided only after a supermajority voted, each validator counts once, and at least a quorum of the voters reported a block at or above it, so a minority cannot push the start past what others have seen.", "quantifier": "every multiset of submitted block numbers and every validator count", "why_tests_cant": "selection loop over arbitrary vote multisets", "anchors": ["pallets/eth-bridge/src/lib.rs:submit_latest_ethereum_block", "primitives/avn-common/src/event_discovery.rs:compute_start_block_from_finalised_block_number"]}
{"id": "C17", "title": "Event partitions reproduce exactly the discovered events", "statement": "Splitting the discovered events into partitions loses nothing and duplicates nothing: concatenating the partitions in order yields the sorted event set, each partition has at most the bound, exactly the final one is marked last, partition numbers are consecutive from 0, and an empty set still yields one (last) empty partition.", "quantifier": "every set of discovered events and every range", "why_tests_cant": "chunking boundary cases for unbounded sizes", "anchors": ["primitives/avn-common/src/event_discovery.rs:create_partitions", "primitives/avn-common/src/event_discovery.rs:EthereumEventsPartition"]}
{"id": "C18", "title": "Sender selection is a fair round robin", "statement": "The validator chosen to send is always a current validator; over n consecutive selections with an unchanged set of n validators each validator is chosen exactly once; the primary for a block is determined by block number modulo n.", "quantifier": "every validator list and any number of selections", "why_tests_cant": "periodicity over arbitrary list lengths and counters", "anchors": ["pallets/avn/src/lib.rs:advance_primary_validator_for_sending", "pallets/avn/src/lib.rs:calculate_primary_validator_for_block"]}
{"id": "C19", "title": "Voting sessions count each validator once and stop at the threshold", "statement": "In any voting session a validator's vote is counted at most once, only current validators are counted, votes are accepted only while the session is active, and the session is approved exactly when approvals reach the threshold fixed at its creation.", "quantifier": "every history of approve, reject and end-of-period operations", "why_tests_cant": "double voting and late voting across interleavings", "anchors": ["pallets/avn/src/vote.rs:process_approve_vote", "pallets/avn/src/vote.rs:process_reject_vote", "pallets/summary/src/vote.rs:RootVotingSession"]}
{"id": "C20", "title": "Approved summaries tile the chain", "statement": "The block ranges of approved summaries are contiguous and never overlap: each new one starts at the block after the previous approved one, a range is approved at most once, and a range is never simultaneously pending and approved.", "quantifier": "every history of record, vote, end, slot and period-change operations", "why_tests_cant": "global invariant over unbounded histories, including administrator period changes while a root is pending", "anchors": ["pallets/summary/src/lib.rs:record_summary_calculation", "pallets/summary/src/lib.rs:end_voting", "pallets/summary/src/lib.rs:get_target_block"]}
{"id": "C21", "title": "A summary root is sent to Ethereum only after approval, and once", "statement": "A root is published to Ethereum (or recorded as an anchor root) only if its voting session reached the approval threshold and, when external validation is enabled, that validation passed or an administrator accepted it; no root is published twice; the empty root is never published.", "quantifier": "every history of votes, external validation callbacks and admin resolutions", "why_tests_cant": "ordering of callbacks is unbounded", "anchors": ["pallets/summary/src/lib.rs:end_voting", "pallets/summary/src/utils.rs:process_accepted_root", "pallets/summary/src/lib.rs:on_voting_completed", "pallets/summary/src/lib.rs:admin_resolve_challenge"]}
{"id": "C22", "title": "Summary slots advance by one, at the right time, by the right validator", "statement": "The slot number increases by exactly one per advance, never before the slot's end block; within the grace period only the slot's validator can advance it, after the grace period only others can; the new slot's validator is the one determined by slot number modulo the validator count; a slot that produced no summary is reported exactly once.", "quantifier": "every history and block schedule", "why_tests_cant": "timing windows quantify over all block heights", "anchors": ["pallets/summary/src/lib.rs:validator_can_advance_slot", "pallets/summary/src/lib.rs:update_slot_number", "pallets/summary/src/challenge.rs:is_valid"]}
{"id": "C23", "title": "Validator signatures bind to the validator account", "statement": "An unsigned validator transaction is accepted only if its signature verifies under the public key registered for the validator account it names.", "quantifier": "every account, key, signature and payload, for every signature scheme", "why_tests_cant": "needs reasoning about an adversary choosing the key inside the transaction", "anchors": ["pallets/avn/src/lib.rs:signature_is_valid"]}
{"id": "C24", "title": "NFT external references are unique", "statement": "No two NFTs, minted singly or from batches, ever share an external reference, and no NFT id is ever minted twice.", "quantifier": "every history of mint operations", "why_tests_cant": "uniqueness over unbounded histories", "anchors": ["pallets/nft-manager/src/lib.rs:mint_single_nft", "pallets/nft-manager/src/batch_nft.rs:mint_batch_nft"]}
{"id": "C25", "title": "Batch supply is never exceeded", "statement": "The number of NFTs minted from a batch never exceeds the total supply declared at creation, which never changes, and NFTs can only be minted while the batch is listed for sale.", "quantifier": "every history of batch operations", "why_tests_cant": "counter invariant over histories", "anchors": ["pallets/nft-manager/src/batch_nft.rs:mint_batch_nft", "pallets/nft-manager/src/lib.rs:signed_create_batch"]}
{"id": "C26", "title": "NFT ownership changes only with the owner's consent", "statement": "The owner of an NFT changes only when it is listed for sale by its owner and either a fiat transfer signed by the owner over the current nonce, or a verified Ethereum sale event carrying the current nonce, is processed; every change removes the listing; a listed NFT always exists.", "quantifier": "every history of NFT operations and every signature oracle", "why_tests_cant": "authorisation over all interleavings", "anchors": ["pallets/nft-manager/src/lib.rs:signed_transfer_fiat_nft", "pallets/nft-manager/src/lib.rs:transfer_eth_nft"]}
{"id": "C27", "title": "NFT operations cannot be replayed", "statement": "The nonce of an NFT (or batch) strictly increases with every listing, cancellation and transfer, so a signed instruction or sale event for one nonce is effective at most once.", "quantifier": "every history", "why_tests_cant": "two arbitrary points in unbounded histories", "anchors": ["pallets/nft-manager/src/lib.rs:list_nft_open_for_sale", "pallets/nft-manager/src/nft_data.rs:Nft"]}
{"id": "C28", "title": "Royalties never exceed one hundred percent", "statement": "For every minted NFT or batch each royalty rate is at most 100% and the total of the stored royalty rates is at most 100%.", "quantifier": "every royalty list accepted by a mint or batch creation", "why_tests_cant": "sum overflow corners of arbitrary lists", "anchors": ["pallets/nft-manager/src/lib.rs:validate_royalties"]}
{"id": "C29", "title": "Proxied calls charge the agreed fee exactly once", "statement": "A proxied call with a payment either fails as a whole changing nothing, or charges the payer exactly the signed amount to the recipient once and consumes one payment nonce, whether or not the inner call succeeds; the inner call runs with the authority of the signer only if the signature verifies; without payment nothing is charged; a payment signature cannot be reused.", "quantifier": "every inner call outcome, payment and history", "why_tests_cant": "atomicity across all inner outcomes and histories", "anchors": ["pallets/avn-proxy/src/lib.rs:proxy", "pallets/avn-proxy/src/lib.rs:charge_fee"]}
{"id": "C30", "title": "Fee adjustments never overcharge and expire exactly", "statement": "A known sender never pays more than the unadjusted fee; the tip is always paid in full; a count-based discount applies to exactly the configured number of transactions; a time-based one exactly until its end block; percentage discounts stay within the fee.", "quantifier": "every fee, tip, configuration, nonce and block number", "why_tests_cant": "arithmetic over all values plus expiry boundaries", "anchors": ["pallets/avn-transaction-payment/src/lib.rs:calculate_refund_amount", "pallets/avn-transaction-payment/src/fee_adjustment_config.rs"]}
{"id": "C31", "title": "Collator nomination lists stay sorted and consistent", "statement": "For every collator: the counted nominations are the largest ones, ordered from greatest to least, the uncounted list is non-empty only if the counted list is full, no nominator appears twice, and the collator's total equals its own bond plus the counted nominations exactly.", "quantifier": "every history of bonding, nominating, increasing, decreasing, revoking and leaving", "why_tests_cant": "a data-structure invariant over unbounded histories and sizes", "anchors": ["pallets/parachain-staking/src/types.rs:Nominations", "pallets/parachain-staking/src/types.rs:CandidateMetadata"]}
{"id": "C32", "title": "A nominator's total equals the sum of its nominations", "statement": "For every nominator the recorded total equals the sum of its individual nominations, each of which appears with the same amount in the collator's lists, and pending decreases never exceed what is bonded.", "quantifier": "every history of staking operations", "why_tests_cant": "cross-structure invariant over histories", "anchors": ["pallets/parachain-staking/src/types.rs:Nominator", "pallets/parachain-staking/src/nomination_requests.rs"]}
{"id": "C33", "title": "Merkle roots commit to the extrinsics and paths verify", "statement": "The Merkle path produced for any leaf of any non-empty list of leaves recomputes exactly the root of that list; the root is defined for every list size, including odd sizes. Two lists of the same number of leaves with the same root contain the same leaves (unless keccak collides), and only leaves of the list have verifying paths of their depth. Nodes that have the same finalised blocks compute the same root for a range, the root covers every extrinsic of the range, and no root is given for a range with a block that is missing or not final.", "quantifier": "every hash function, every non-empty list of leaves and index, every block range", "why_tests_cant": "induction over unbounded tree sizes", "anchors": ["client/extrinsic-utils/src/merkle_tree_utils.rs", "client/external-service/src/lib.rs", "client/external-service/src/summary_utils.rs"]}
{"id": "C34", "title": "Summary periods always stay valid", "statement": "In every reachable state the schedule period is at least 30 blocks, the voting period is at least 25 and at most 28800 blocks and strictly shorter than the schedule period, whatever genesis values and administrator settings were submitted.", "quantifier": "all genesis configurations accepted by the chain and all histories of calls", "why_tests_cant": "The two periods are set by three different calls in any order; tests cover single calls, not all interleavings.", "anchors": ["pallets/summary/src/lib.rs: set_periods, set_admin_config, validate_schedule_period, validate_voting_period, GenesisConfig::build"]}
{"id": "C35", "title": "A lower proof is completed by enough confirmations", "statement": "When a lower proof request is active and a supermajority of the current validators has submitted valid distinct confirmations for it, it is completed: the requesting pallet receives the proof and the next queued request is served; it never hangs while validators keep confirming.", "quantifier": "every state with an active lower proof, every sequence of confirmations and every change of the validator set", "why_tests_cant": "the hang depends on how the validator set changes between confirmations", "anchors": ["pallets/eth-bridge/src/lib.rs:add_confirmation", "pallets/eth-bridge/src/request.rs:has_enough_confirmations", "pallets/eth-bridge/src/request.rs:complete_lower_proof_request"]}
{"id": "C36", "title": "Exactly the losing voters on Ethereum events are reported", "statement": "When a partition of Ethereum events is accepted, every validator whose standing vote was for a different content of the same partition is reported as an offender, nobody else is, and no validator has two standing votes.", "quantifier": "every history of event votes, restarts and validator set changes", "why_tests_cant": "must hold for every arrangement of votes over arbitrarily many competing partitions", "anchors": ["pallets/eth-bridge/src/lib.rs:process_ethereum_events_partition", "pallets/eth-bridge/src/lib.rs:author_has_cast_event_vote"]}
{"id": "C37", "title": "The recorded total stake is the stake", "statement": "The total value at stake that the chain reports equals the sum of all candidates' bonds and all nominators' totals, counted or not; in particular it is never more than what is locked, and never overflows.", "quantifier": "every history of staking calls, blocks, balance movements and administrator settings", "why_tests_cant": "a global sum over arbitrarily many accounts and histories", "anchors": ["pallets/parachain-staking/src/lib.rs:Total", "pallets/parachain-staking/src/types.rs:decrease_bottom_nomination", "pallets/parachain-staking/src/lib.rs:execute_leave_candidates"]}
{"id": "C38", "title": "What is at stake is locked, and nothing else", "statement": "In every reachable state each nominator's staking lock equals the total of its nominations, each candidate's lock equals its bond, accounts with nothing at stake have no lock, and every lock is covered by the account's balance.", "quantifier": "every history of staking calls including being displaced from a full list, leaving and being revoked", "why_tests_cant": "a displaced or departing nominator's lock is touched in eight different code paths; tests check single paths", "anchors": ["pallets/parachain-staking/src/types.rs:Nominator", "pallets/parachain-staking/src/lib.rs:execute_leave_candidates", "pallets/parachain-staking/src/types.rs:CandidateMetadata"]}
{"id": "C39", "title": "Collators are the best-backed active candidates", "statement": "The pool contains exactly the active candidates with exactly what backs them, within its size limit; at every era start, and only then, the selected collators become the best-backed eligible candidates, at most the configured number, none of which has less than any eligible one left out, with a snapshot of bonds and nominations net of pending withdrawals; without eligible candidates the previous selection stays.", "quantifier": "every history and every era change", "why_tests_cant": "selection depends on the whole pool; the order of ties and sizes is unbounded", "anchors": ["pallets/parachain-staking/src/lib.rs:compute_top_candidates", "pallets/parachain-staking/src/lib.rs:select_top_candidates", "pallets/parachain-staking/src/lib.rs:start_new_era"]}
{"id": "C40", "title": "Stake is released only after the waiting period", "statement": "A bond or a nomination becomes smaller or disappears only because its owner asked for it at least the configured number of eras before (or, for a nomination, because its candidate leaves after that period, or because somebody else nominates the same full candidate with more); a nomination or bond grows only by a call of its owner; and once the time of a request has come anybody can execute it.", "quantifier": "every history of calls, every account and candidate, including changes of the delay in between", "why_tests_cant": "an arbitrary number of calls lies between asking and executing", "anchors": ["pallets/parachain-staking/src/nomination_requests.rs", "pallets/parachain-staking/src/types.rs:execute_unbond"]}
{"id": "C41", "title": "Staking calls never panic and a failed call changes nothing", "statement": "No staking call or block hook panics in any reachable state, a rejected call leaves the state as it was, and calls of candidates and nominators change only staking records: no balances, eras, settings, selections, snapshots or other accounts' nonces.", "quantifier": "every reachable state and every call with every argument", "why_tests_cant": "panics hide in states only long histories reach", "anchors": ["pallets/parachain-staking/src/lib.rs", "pallets/parachain-staking/src/types.rs", "pallets/parachain-staking/src/nomination_requests.rs"]}
{"id": "C42", "title": "Relayed staking calls need a fresh signature of their owner", "statement": "A relayed staking call is accepted only when submitted by the account the proof names as signer and signed over the relayer, this very call with all its arguments, and the signer's current nonce; accepting it consumes the nonce; different calls, arguments, relayers or nonces never share signed bytes; nothing signed takes effect twice.", "quantifier": "every history of fewer than 2^64 operations, all argument values, all ten relayed calls", "why_tests_cant": "injectivity of encodings and absence of replay over all histories", "anchors": ["pallets/parachain-staking/src/proxy_methods.rs", "pallets/parachain-staking/src/lib.rs:signed_nominate"]}
{"id": "C43", "title": "Amounts spread over several nominations are spread exactly", "statement": "A relayed nomination of several candidates creates one new nomination on each with amounts that add up to exactly the signed amount; relayed extra bonding adds exactly the signed amount over the existing nominations; a relayed unbond schedules decreases on distinct nominations that add up to exactly the amount, each due after the delay and leaving something bonded.", "quantifier": "all amounts, numbers of candidates, block numbers and reachable states", "why_tests_cant": "rounding and the dust rule depend on amount, count and block number", "anchors": ["pallets/parachain-staking/src/lib.rs:split_and_nominate", "pallets/parachain-staking/src/lib.rs:identify_collators_to_withdraw_from", "pallets/parachain-staking/src/lib.rs:collator_should_get_dust"]}
{"id": "C44", "title": "Anchored checkpoints are permanent, numbered without gaps and never duplicated", "statement": "A checkpoint record appears only by a submission of the chain's handler, under the next number of that chain and with the submitted hash and origin id, and is never changed or removed; a chain's checkpoints are numbered 0,1,2,... without gaps; a chain's own origin id identifies at most one checkpoint and the lookup by it gives that one; a handler that can pay and uses a new origin id can always anchor.", "quantifier": "every history of anchor calls, direct and relayed, every chain, number and origin id", "why_tests_cant": "permanence and uniqueness range over all later histories", "anchors": ["pallets/avn-anchor/src/lib.rs:do_submit_checkpoint", "pallets/avn-anchor/src/lib.rs:submit_checkpoint_with_identity", "pallets/avn-anchor/src/lib.rs:get_next_checkpoint_id"]}
{"id": "C45", "title": "Every registered chain has exactly one handler, who alone can give it away", "statement": "Every registered chain has exactly one handler account and an account handles at most one chain; an account gets a chain only by registering a new one, under the next free identifier, or because the present handler gives it to it, and loses one only by giving it away; identifiers are not reused and registered names stay.", "quantifier": "every history of anchor calls, every account and chain", "why_tests_cant": "needs an invariant over all interleavings of registrations and hand-overs", "anchors": ["pallets/avn-anchor/src/lib.rs:do_register_chain_handler", "pallets/avn-anchor/src/lib.rs:do_update_chain_handler"]}
{"id": "C46", "title": "Relayed anchor calls need the handler's fresh signature", "statement": "A relayer can only carry out anchor calls signed by the acting account over the relayer, the kind of call, all its arguments and, for hand-overs and submissions, the chain and its current nonce; signed bytes determine all of these; no signed hand-over or submission takes effect twice. Registrations carry no nonce and can be replayed after a hand-over (refuted part).", "quantifier": "every history of fewer than 2^64 operations, all argument values", "why_tests_cant": "injectivity of encodings and absence of replay over all histories", "anchors": ["pallets/avn-anchor/src/lib.rs:encode_signed_submit_checkpoint_params", "pallets/avn-anchor/src/lib.rs:signed_submit_checkpoint_with_identity", "pallets/avn-proxy/src/lib.rs:proxy"]}
{"id": "C47", "title": "An anchored checkpoint costs exactly the chain's fee", "statement": "Each accepted checkpoint moves exactly the chain's current fee from its handler to the treasury and nothing else; no other anchor call moves money; a chain's fee is what root last set for it, or the default.", "quantifier": "every state, call and history", "why_tests_cant": "ranges over all balances and fee settings", "anchors": ["pallets/avn-anchor/src/lib.rs:charge_fee", "pallets/avn-anchor/src/lib.rs:set_checkpoint_fee"]}
{"id": "C48", "title": "Staking rewards come out of the pot only, within what was set aside", "statement": "At every moment the amount set aside for rewards does not exceed the balance of the reward pot, and the pot never reports a shortage; when an era starts, the era whose payment is due is allotted exactly what the pot holds beyond what is already set aside, and everything is then set aside; a block moves money only from the pot to the accounts it reports as rewarded, by exactly the reported amounts, and creates none.", "quantifier": "every history from genesis, every payment delay of at least one era", "why_tests_cant": "an invariant relating the pot, the amount set aside and all payments over unbounded histories", "anchors": ["pallets/parachain-staking/src/lib.rs:compute_total_reward_to_pay", "pallets/parachain-staking/src/lib.rs:pay_one_collator_reward"]}
{"id": "C49", "title": "Each collator is settled once per era, with its proportional share", "statement": "Points are earned only by authoring blocks; a collator's points of an era are used up only by the block that pays it, exactly once, when the era's payment is due; the block then attempts to pay the collator and its nominators their shares (by bond and nominations of the snapshot taken at the start of that era) of the collator's share (by points) of the era's allotment, each within half a unit and three parts per billion; all payments attempted for an era sum to at most the allotment plus one unit per collator and half a unit per nominator; attempts succeed unless the pot is short or a balance overflows; after as many blocks as there are collators with points, all are settled.", "quantifier": "every history from genesis with well-formed snapshots, every era and collator, every order in which collators are visited", "why_tests_cant": "ranges over all stakes, points and histories; totals over unbounded sequences of blocks", "anchors": ["pallets/parachain-staking/src/lib.rs:handle_delayed_payouts", "pallets/parachain-staking/src/lib.rs:pay_one_collator_reward", "pallets/parachain-staking/src/lib.rs:note_author"]}
{"id": "C50", "title": "Each growth period is reported to Ethereum at most once, with true figures", "statement": "A growth period is sent to Ethereum at most once, only after it ended, with the sum of the allotments of its eras (saturating) and the average of their total stakes rounded down, never with zero rewards.", "quantifier": "every history from genesis before the era counter saturates", "why_tests_cant": "uniqueness and sums over unbounded histories with failing bridge calls", "anchors": ["pallets/parachain-staking/src/lib.rs:update_collator_payout", "pallets/parachain-staking/src/lib.rs:trigger_outstanding_growths", "pallets/parachain-staking/src/lib.rs:trigger_growth_on_t1"]}
{"id": "C51", "title": "A growth period is paid out at most once, in proportion to points", "statement": "A growth payout credits every collator of the period its share by points (or an equal share if the period is unknown), reports it, and gives the remainder to the treasury, changing nothing else; a period is successfully paid at most once; the collators' part never exceeds the amount by more than half a unit each. Refuted parts: the total can exceed the amount lifted (three collators share 2 units), and a payout failing half way keeps what was paid and can be repeated.", "quantifier": "every state, amount and period; the bound on the total for every history", "why_tests_cant": "ranges over all scores and amounts", "anchors": ["pallets/parachain-staking/src/lib.rs:payout_collators", "pallets/token-manager/src/lib.rs:process_avt_growth_lift"]}
{"id": "C52", "title": "The validator set changes only by root requests that Ethereum has confirmed", "statement": "The validators are always the genesis ones with the confirmed requests applied in order. A request (add or remove) is accepted only from root, only while no other is being decided, and only for an eligible account; making it changes nothing in the set. The set changes only when Ethereum's success is reported for the request being decided, by exactly that request, and a request is decided at most once. The set has no duplicates and stays between the minimum and 256.", "quantifier": "every genesis and every sequence of calls, reported results, sessions and changes elsewhere", "why_tests_cant": "histories are unbounded and interleave requests, results and sessions", "anchors": ["pallets/validators-manager/src/lib.rs:add_collator", "pallets/validators-manager/src/lib.rs:remove_validator", "pallets/validators-manager/src/lib.rs:process_result"]}
{"id": "C53", "title": "Each validator has exactly one Ethereum key and no key belongs to two accounts", "statement": "The key-to-account and account-to-key tables are always inverse; exactly the validators and the account being registered have a key; a key changes only by root registering or rotating it, by a refused registration or by a confirmed removal; Ethereum is told of exactly the accepted requests with the account's key at that time.", "quantifier": "every genesis and every sequence of calls, reported results and sessions", "why_tests_cant": "two tables updated in several places over unbounded histories", "anchors": ["pallets/validators-manager/src/lib.rs:rotate_validator_ethereum_key", "pallets/validators-manager/src/lib.rs:remove_ethereum_public_key_if_required", "pallets/validators-manager/src/lib.rs:EthereumPublicKeys", "pallets/validators-manager/src/lib.rs:AccountIdToEthereumKeys"]}
{"id": "C54", "title": "A request refused by Ethereum leaves no trace", "statement": "Reporting that Ethereum refused a request is always accepted, and restores the validators, both key tables and the deposits to what they were before the request, with nothing left waiting, whatever sessions, other calls and results came in between (keys not being rotated meanwhile).", "quantifier": "every history, request and intervening sequence", "why_tests_cant": "the failure can be reported after any interleaving", "anchors": ["pallets/validators-manager/src/lib.rs:rollback_failed_validator_action", "pallets/validators-manager/src/lib.rs:cleanup_registration_storage"]}
{"id": "C55", "title": "Stake is joined and withdrawn for validators only as confirmed", "statement": "Joining the candidates (with the deposit of the request) happens exactly at confirmed registrations, the start of leaving exactly at confirmed removals; leaving is completed at most once per removal, and only at a session in which the account is neither active nor disabled.", "quantifier": "every history", "why_tests_cant": "ranges over all interleavings of results and sessions", "anchors": ["pallets/validators-manager/src/lib.rs:add_validator_to_staking", "pallets/validators-manager/src/lib.rs:complete_validator_deregistration", "pallets/validators-manager/src/lib.rs:exit_from_staking", "pallets/validators-manager/src/lib.rs:on_new_session"]}
{"id": "C56", "title": "A request confirmed by Ethereum is carried out", "statement": "When Ethereum's success is reported for the request being decided, it is accepted and carried out, provided staking accepts the join or the leave at that time. Refuted without the proviso: the deposit is only checked, not held, when the collator is proposed; if it is spent before the confirmation, the confirmation is rejected and the collator stays out although Ethereum has added it.", "quantifier": "every history", "why_tests_cant": "depends on what happens between request and confirmation", "anchors": ["pallets/validators-manager/src/lib.rs:complete_validator_registration", "pallets/validators-manager/src/lib.rs:validate_staking_preconditions"]}
{"id": "C57", "title": "Ethereum events brought in by hash are delivered once, as checked", "statement": "Events named by transaction hash: no Ethereum transaction is handed on to the rest of the chain twice. Whatever is handed on was submitted, with exactly these data and as genuine, by a validator whose turn it was, under its signature, more than the challenge period ago, and no more challenges than tolerated stand against it. Once a transaction counts as processed it does so for ever, cannot be added again, and a record of acceptance is never altered.", "quantifier": "every history of additions, checks, challenges, processing, migrations and validator changes", "why_tests_cant": "ranges over all interleavings; tests run a few", "anchors": ["pallets/ethereum-events/src/lib.rs:process_event", "pallets/ethereum-events/src/lib.rs:submit_checkevent_result", "pallets/ethereum-events/src/lib.rs:ProcessedEthereumEvents"]}
{"id": "C58", "title": "An event waits in one place until it is dealt with", "statement": "An event waits in at most one of the two queues, once, under its own number; numbers are given out in increasing order and queues are bounded (500 and 50). Exactly when an addition is accepted is stated. An event leaves the first queue only by an accepted check of it, the second only by being processed; a pending event can be processed by any validator after its challenge period. Refuted: a checked event is kept - with fifty checks pending the next check and its event are dropped.", "quantifier": "every history", "why_tests_cant": "quantifies over all histories", "anchors": ["pallets/ethereum-events/src/lib.rs:add_event", "pallets/ethereum-events/src/lib.rs:submit_checkevent_result", "pallets/ethereum-events/src/lib.rs:event_exists_in_system"]}
{"id": "C59", "title": "A check stands unless more than the tolerated number of validators challenge it", "statement": "Exactly when a challenge is accepted; challengers of an event are distinct; a check is overruled exactly if more challenges count than the larger tolerance when it was made and now: then nothing is delivered and the checker is reported; otherwise exactly the challengers are reported. Refuted in part: challenges that succeeded are not forgotten and overrule the next, correct, check of the same event; and with 200 validators or more (quorum factor 4) no challenge can ever succeed because at most fifty are recorded.", "quantifier": "every history, every challenger set", "why_tests_cant": "all histories and validator set sizes", "anchors": ["pallets/ethereum-events/src/lib.rs:challenge_event", "pallets/ethereum-events/src/lib.rs:is_event_check_result_valid", "pallets/ethereum-events/src/lib.rs:process_event"]}
{"id": "C60", "title": "Signed additions of Ethereum events need a fresh signature", "statement": "A relayed addition is accepted only for the signer, with its signature over the relayer, the kind, the hash and its current nonce, which is used up; the signed bytes determine all of these; no signed addition takes effect twice.", "quantifier": "every history of fewer than 2^64 operations", "why_tests_cant": "replay needs all histories", "anchors": ["pallets/ethereum-events/src/lib.rs:signed_add_ethereum_log"]}
{"id": "C61", "title": "A reported validator is slashed at most once per registration, and only if slashing is on", "statement": "Between two reports, and two slashes, of a validator it registered anew. A slash happens only while slashing is on, directly upon a report. Named offenders not on record are each reported once in order, with the enforcer's answer remembered; only root changes the setting. Refuted: an offence while slashing is on leads to a slash - an offender first reported while slashing was off, or whose slash failed, is never slashed until it registers anew.", "quantifier": "every history of reports, settings and registrations; every enforcer", "why_tests_cant": "all histories and lists with repetitions", "anchors": ["pallets/avn-offence-handler/src/lib.rs:on_offence", "pallets/avn-offence-handler/src/lib.rs:configure_slashing", "pallets/avn-offence-handler/src/lib.rs:on_validator_registration"]}
{"id": "C62", "title": "Honest nodes check truthfully and challenge false checks", "statement": "An honest node submits a check only for a receipt it could read: as genuine with exactly the data of an event of this kind from a trusted contract in a successful and sufficiently confirmed transaction, as invalid only if there is none. Nodes that read the same receipt do not challenge each other. Checks as genuine of an absent event, and checks other than the right one of a confirmed event, are challenged by every node that reads the receipt. Refuted: every false check is challenged - a check 'HTTP error' or 'not enough confirmations' of an absent or young event is challenged by nobody and suppresses the event for good.", "quantifier": "every receipt and check", "why_tests_cant": "all receipts, answers and checks", "anchors": ["pallets/ethereum-events/src/lib.rs:compute_result", "pallets/ethereum-events/src/lib.rs:get_challenge_if_required"]}
{"id": "C63", "title": "Ethereum logs are decoded exactly or refused", "statement": "The log that Solidity's ABI prescribes for each of the eleven events of the bridge is decoded to exactly the event's arguments; an amount that does not fit in a 128-bit balance is refused, never cut; nothing but a log of that shape is decoded (other numbers of topics, lengths of topics or of data are refused); no parser panics on a log whose topics have 32 bytes. The signatures of the events are pairwise different and identify the kind, legacy lift signatures are unknown, and the two decoders (the pallet's and the off-chain worker's) agree except that the pallet does not know direct token transfers. Refuted: no parser ever panics (a cancelled listing with a topic shorter than 32 bytes); every reference of a minted token is decoded exactly or refused (references of 33 to 35 bytes are extended by zeros, those of 37 to 64 bytes cut to 36).", "quantifier": "every log (any topics and data), every event and all its arguments", "why_tests_cant": "all byte strings as topics and data, all argument values", "anchors": ["primitives/avn-common/src/event_types.rs:parse_bytes", "primitives/avn-common/src/event_types.rs:ValidEvents", "client/external-service/src/ethereum_events_handler.rs:EventRegistry", "pallets/ethereum-events/src/lib.rs:parse_tier1_event"]}
{"id": "C64", "title": "Discovery reports, for each Ethereum transaction, the first bridge event, decoded exactly", "statement": "From an honest Ethereum node, an author's node reports for a range of blocks exactly one event per transaction: the first event emitted by the bridge contract in it, or, if there is none and direct token transfers are wanted, the first transfer to the bridge, provided its kind is wanted; with the transaction, block and signature of the log and the contents the decoders give (the token of a transfer is the contract that emitted it). A bridge event alone in its transaction is reported with exactly the arguments it was emitted with. Discovery succeeds exactly if every such log can be decoded; logs of other contracts have no influence unless transfers are wanted; it does not panic. Refuted: every wanted event is reported (a second event of a transaction is lost, and an unwanted event hides a wanted one after it); when transfers are wanted, other contracts cannot stop discovery (an ERC-721 transfer to the bridge does).", "quantifier": "every Ethereum chain of logs, range, list of contracts and wanted signatures, every honest node (which may fail to answer)", "why_tests_cant": "all sequences of logs and contents", "anchors": ["client/external-service/src/ethereum_events_handler.rs:identify_events", "client/external-service/src/ethereum_events_handler.rs:parse_log", "client/external-service/src/ethereum_events_handler.rs:identify_additional_events"]}
{"id": "C65", "title": "Author nodes vote once, truthfully and alike", "statement": "A node votes for a partition only if its author has not voted, for the active range and partition, and when the range's last block has at least twenty successors. Every event of the partition is one that honest discovery reports of the range or of the block of an additional transaction; every event reported is in the partition of some number, for which the node votes when its turn comes. Two honest nodes with the same runtime state and receipts vote for the same partition, whatever the order of their hash maps and whatever they see beyond. The node submits the latest block number (as u32) only when no range is active. It does not crash on an honest node's answers. The author is the first in the chain's list whose key is in the keystore. Refuted: every event voted for has twenty confirmations (additional transactions are looked up without waiting).", "quantifier": "every chain, runtime state, Ethereum node and hash map order", "why_tests_cant": "all chains, orders and interleavings of nodes", "anchors": ["client/external-service/src/ethereum_events_handler.rs:query_runtime_and_process", "client/external-service/src/ethereum_events_handler.rs:execute_event_processing", "client/external-service/src/ethereum_events_handler.rs:submit_latest_ethereum_block", "client/external-service/src/web3_utils.rs:is_eth_block_finalised"]}
{"id": "C66", "title": "The node's service signs and sends only on the node's own orders", "statement": "The service returns a signature exactly when the posted text is the hexadecimal of 32 bytes (at most 100000 characters) and the caller presents a token that one of the node's own session keys signed over those bytes; the signature is the node's only Ethereum key's, on exactly those bytes. Whatever requests arrive, in any order and overlapping, whatever Ethereum answers, and across restarts, every transaction ever signed has the contract and data of a request that came with a token over its sender, contract and data, and is sent from the node's address; a request leads to at most one transaction on Ethereum and one response. Tokens for signing never authorise sending, and a token covers one sender, contract and data. Posted requests and tokens are read back as written. Refuted: a caller without a token is harmless (a body of the wrong length ends the process before the token is checked); a token is good for one transaction (it can be replayed).", "quantifier": "every keystore, signature scheme, sequence of requests, Ethereum answers and restarts", "why_tests_cant": "all interleavings of requests and answers and all byte strings", "anchors": ["client/external-service/src/lib.rs:start", "client/external-service/src/lib.rs:send_main", "client/external-service/src/lib.rs:validate_authorisation_token", "client/external-service/src/lib.rs:sign_digest_from_keystore", "client/external-service/src/keystore_utils.rs:get_priv_key", "client/external-service/src/keystore_utils.rs:authenticate_token", "primitives/avn-common/src/lib.rs:EthTransaction"]}
{"id": "C67", "title": "The service numbers its Ethereum transactions in order", "statement": "As long as Ethereum's answers are truthful and none is lost, the transactions Ethereum takes from one run of the service have strictly increasing nonces, consecutive unless Ethereum refused one as too low, however requests overlap. A request is answered with a hash only if Ethereum took its transaction and gave that hash; without lost answers an error means it was not taken. A nonce Ethereum has passed is corrected within the request. Refuted: an error always means the transaction was not sent; two transactions never share a nonce across a restart; a stored nonce ahead of Ethereum is corrected (it stays until restart).", "quantifier": "every sequence of requests and Ethereum answers", "why_tests_cant": "all interleavings, failures and restarts", "anchors": ["client/external-service/src/lib.rs:send_main", "client/external-service/src/lib.rs:send_tx", "client/external-service/src/lib.rs:error_due_to_low_nonce", "client/external-service/src/web3_utils.rs:Web3Data", "client/external-service/src/web3_utils.rs:build_raw_transaction"]}
{"id": "C68", "title": "Reports on Ethereum transactions follow from what Ethereum says", "statement": "An author reports a result exactly when the bridge contract has decided, and either the reported transaction carries the expected call data and has the required confirmations (hash valid) or no hash was reported or the call data differ (hash invalid); the texts exchanged between service and worker are read back exactly; failed requests report nothing; the worker submits only such reports, on active transactions of others. Confirmations are the difference of the block numbers when the transaction's block is not newer than the number read first. Refuted: that holds always (a newer block wraps around to about 2^64 confirmations; a pending transaction has as many confirmations as there are blocks); a result is reported only once the transaction is deep enough (with a wrong or missing hash no depth is asked for). View requests ignore the block they name.", "quantifier": "every verdict, call data, block numbers and state of the pallet", "why_tests_cant": "all byte strings and block numbers; races between two queries", "anchors": ["pallets/eth-bridge/src/eth.rs:corroborate", "pallets/eth-bridge/src/eth.rs:check_tx_status", "pallets/eth-bridge/src/eth.rs:check_tx_hash", "pallets/eth-bridge/src/util.rs:try_process_query_result", "client/external-service/src/lib.rs:to_eth_query_response", "client/external-service/src/lib.rs:tx_query_main", "client/external-service/src/lib.rs:view_main"]}
{"id": "C69", "title": "What is sent to Ethereum is what was signed", "statement": "For every order of a pallet (publish root, trigger growth, add or remove an author) with values of their Rust types, every id, expiry and list of confirmations: the parameters pass the checks of the bridge; the EIP-712 hash that authors sign is computed without error or panic and is the one that the configured contract computes for that call; the call data decode, by the Solidity ABI, to that call and exactly those confirmations. In every state of every history the call data of the active transaction are those of its order, and every stored confirmation recovers to a key over the digest of that very call on the currently configured contract. The question about the outcome decodes to the transaction's id and expiry. Refuted: the call data are fixed once the transaction is sent (a confirmation can still be accepted when the set of validators grows); malformed parameters are refused (a root that is not 32 bytes makes the node panic).", "quantifier": "every order, id, expiry, confirmations, instance, history", "why_tests_cant": "all values and lengths of dynamic data; all histories with changing instances and validators", "anchors": ["primitives/avn-common/src/eth/mod.rs:create_function_confirmation_hash", "pallets/eth-bridge/src/eth.rs:generate_send_calldata", "pallets/eth-bridge/src/eth.rs:abi_encode_function", "pallets/eth-bridge/src/eth.rs:to_token_type", "pallets/eth-bridge/src/tx.rs:set_up_active_tx"]}
{"id": "C70", "title": "A signature is good for one request on one contract only", "statement": "If the hashes signed for two orders are equal, the orders, ids and expiries are equal and the contracts (name, version, chain, address) are the same, or two different messages hashed on the way have the same keccak hash; the same for lower proofs; the hash of a call is never that of a lower proof without such a collision. Chain numbers survive conversion to networks and back. Refuted: the whole bridge instance is bound (the salt is not, and a known chain can be given in two ways).", "quantifier": "every pair of requests and instances", "why_tests_cant": "all pairs of inputs", "anchors": ["primitives/avn-common/src/eth/mod.rs:eip712_hash", "primitives/avn-common/src/eth/mod.rs:EthBridgeInstance", "primitives/avn-common/src/eth/mod.rs:EthereumNetwork"]}
{"id": "C71", "title": "A lower proof is a claim of the lower", "statement": "For every lower the hash signed is the one the configured contract computes for a claim of that lower, and the proof handed out is read by the contract as that claim with the signatures. In every history, when a proof is completed, every signature in it recovers to a key over the digest of this claim on the contract configured when the proof was started. Refuted: on the contract configured now (changing the instance restarts an active transaction but not an active lower proof).", "quantifier": "every lower, signatures, instance, history", "why_tests_cant": "all values and all histories with changing instances", "anchors": ["primitives/avn-common/src/eth/mod.rs:create_lower_proof_hash", "primitives/avn-common/src/eth/mod.rs:concat_lower_data", "pallets/eth-bridge/src/eth.rs:generate_encoded_lower_proof", "pallets/eth-bridge/src/request.rs:complete_lower_proof_request"]}
{"id": "C72", "title": "Offchain workers run at most once per block", "statement": "On one node, whatever the interleaving of offchain-worker threads, restarts of the node and earlier contents of its offchain store, the blocks for which the workers of a pallet (instance) pass record_block_run are strictly increasing, so no block is run twice, and they are above the block recorded at the start. OffchainWorkerAlreadyRun is answered only if the same or a later block was run or recorded from the start; ErrorRecordingOffchainWorkerRun only if another run was recorded since the worker looked. A worker of a newer block that is not disturbed by a run of the same caller runs. Refuted: the newest block is always run.", "quantifier": "every schedule of threads, clock and restarts, every initial store, every caller", "why_tests_cant": "all interleavings of reads and compare-and-sets of any number of threads", "anchors": ["primitives/avn-common/src/ocw_lock.rs:record_block_run", "pallets/avn/src/lib.rs:pre_run_setup"]}
{"id": "C73", "title": "Offchain-worker locks", "statement": "Between two acquisitions of a lock without a release between them its deadline passes: the second worker's block is beyond the blocks the first asked for and 20 seconds are over. As long as no holder is overdue there is one holder at most, the store has its deadline, and work whose lock was kept is not done again before its deadline. Nobody is refused a lock nobody else took. After its deadline a lock is free whatever became of the holder (killed, stuck). Refuted: one holder when a holder is overdue (its drop frees the later holder's kept lock and the work is repeated); work whose lock was dropped was not done; is_locked changes nothing for others.", "quantifier": "every schedule of threads, clock and restarts, every lock, every initial store", "why_tests_cant": "all interleavings, crash points and clock values", "anchors": ["primitives/avn-common/src/ocw_lock.rs:get_offchain_worker_locker", "primitives/avn-common/src/ocw_lock.rs:is_locked", "pallets/avn/src/lib.rs:get_ocw_locker", "pallets/avn/src/lib.rs:get_default_ocw_lock_expiry", "pallets/eth-bridge/src/lib.rs:process_active_tx_request", "pallets/summary/src/vote.rs:cast_votes_if_required", "pallets/summary/src/lib.rs:process_summary_if_required", "pallets/summary/src/lib.rs:advance_slot_if_required"]}
{"id": "C74", "title": "Names in the offchain store", "statement": "Locks for different work (transaction, root, vote, slot, challenge) have different names, no lock name is the key of a run record, and different callers have different run records. Refuted: instances of a pallet have locks of their own.", "quantifier": "every transaction id, root id, block, slot, challenge, caller", "why_tests_cant": "all values", "anchors": ["pallets/eth-bridge/src/lib.rs:process_active_tx_request", "pallets/summary/src/vote.rs:create_vote_lock_name", "pallets/summary/src/lib.rs:create_root_lock_name", "pallets/summary/src/lib.rs:get_advance_slot_lock_name", "pallets/summary/src/challenge.rs:challenge_lock_name", "primitives/avn-common/src/ocw_lock.rs:record_block_run"]}
{"id": "C75", "title": "Who authors blocks in an era", "statement": "Sessions change exactly when eras do. Within an era the authors, the AVN pallet's validator list and the selection do not change, whatever is called. All through era e+2 the authors are exactly those selected for era e who had session keys when era e+1 began, and the AVN pallet lists them with the keys of that moment; its list is the set of authors in every state. Somebody no longer selected is no author two eras later. Refuted: the collators selected for an era author its blocks.", "quantifier": "every history of calls, key changes, registrations, deregistrations and blocks, every era below the last number", "why_tests_cant": "all interleavings of three pallets' storage over eras", "anchors": ["pallets/parachain-staking/src/session_handler.rs:new_session", "pallets/parachain-staking/src/session_handler.rs:should_end_session", "pallets/avn/src/lib.rs:on_new_session", "runtime/avn/src/lib.rs:Session", "runtime/avn/src/configs/mod.rs:pallet_session::Config"]}
{"id": "C76", "title": "The chain does not run out of authors", "statement": "Once somebody is selected somebody always is; as long as some selected collator keeps session keys there are authors in every state; a block is always possible before the last era number. Refuted: the guard against an empty selection suffices (selected collators who take their keys back are dropped silently; with all gone there is no author, no validator and a quorum of zero).", "quantifier": "every history from a genesis with collators", "why_tests_cant": "all histories", "anchors": ["pallets/parachain-staking/src/session_handler.rs:new_session", "pallets/parachain-staking/src/lib.rs:select_top_candidates", "pallets/parachain-staking/src/lib.rs:start_new_era"]}
{"id": "C77", "title": "Deregistered collators leave staking only when out of the session", "statement": "A candidate disappears from staking only by a change of the session, when it was deregistered, its delay is over, it does not author in the new session and is not queued for the next; and it does leave at the first such change. Condition: some candidate can be selected at each point and the delay does not run over the last era number; without a selectable candidate it is refuted. Whoever authors in an era without being selected for it has no stake on record and is paid the whole share its blocks earned, its nominators nothing.", "quantifier": "every history, candidate and delay of at least one era", "why_tests_cant": "all histories across staking, sessions and the validators manager", "anchors": ["pallets/validators-manager/src/lib.rs:on_new_session", "pallets/validators-manager/src/lib.rs:exit_from_staking", "pallets/parachain-staking/src/lib.rs:execute_leave_candidates", "pallets/parachain-staking/src/lib.rs:pay_one_collator_reward"]}
{"id": "C78", "title": "Upgrades keep the lowers", "statement": "A runtime upgrade of the token pallet from version 0 or 1 keeps every lower in its stage and under its id: it reads as a lower of the same token, amount, recipient and number with the new fields zero, and a proof keeps its encoded data. None appears or disappears. The schedule period is set to the default on version 0 and kept otherwise. At version 2 or on a second run nothing changes. Refuted: the pallet's own try-runtime check accepts its upgrade (it fails whenever the upgrade has set the period).", "quantifier": "every storage content written by the older versions, every id; for repeated runs every storage content whatever", "why_tests_cant": "all stored bytes", "anchors": ["pallets/token-manager/src/migration.rs:on_runtime_upgrade", "pallets/token-manager/src/migration.rs:translate_lower_data", "pallets/token-manager/src/migration.rs:set_lower_schedule_period", "pallets/token-manager/src/migration.rs:post_upgrade", "primitives/avn-common/src/eth/mod.rs:LowerData"]}
{"id": "C79", "title": "Upgrades keep the bridge's requests", "statement": "A runtime upgrade of the bridge from any older version keeps the queued requests in number, order and content; from version 4 also the active request with its hash, confirmations and transaction; from older versions an active request to send (with no replays) and an unconfirmed proof request, and the Ethereum range being read. Lower parameters get zeros in the new fields, the same as in the token pallet. The version becomes 5, the range size is never zero after it, a second run changes nothing. Refuted: from version 3 a proof request with confirmations is kept (it is decoded with the wrong length, and can be rewritten corrupted). Refuted: the bridge's own check accepts an untouched version-5 chain.", "quantifier": "every storage content written by the older versions; for repeated runs every content whatever", "why_tests_cant": "all stored bytes, of types of several versions", "anchors": ["pallets/eth-bridge/src/migration.rs:on_runtime_upgrade", "pallets/eth-bridge/src/migration.rs:migrate_to_v3", "pallets/eth-bridge/src/migration.rs:migrate_to_v4", "pallets/eth-bridge/src/migration.rs:migrate_to_v5", "pallets/eth-bridge/src/migration.rs:migrate_request_queue_to_v5", "pallets/eth-bridge/src/migration.rs:post_upgrade"]}
{"id": "C80", "title": "Upgrades build the table of validator keys", "statement": "The upgrade of the validators pallet from version 1 makes the table from account to Ethereum key the inverse of the table from key to account, in whatever order the storage is read, if no account has two keys; its own check passes exactly in that case. At any other version, and on a second run, nothing changes. At any time it would restore exactly the table the pallet keeps. Refuted: it does so on every chain (version 0 is skipped; with two keys of an account the order decides).", "quantifier": "every content of the tables, every reading order, every history of the pallet", "why_tests_cant": "all tables and orders", "anchors": ["pallets/validators-manager/src/migration.rs:on_runtime_upgrade", "pallets/validators-manager/src/migration.rs:populate_reverse_map", "pallets/validators-manager/src/migration.rs:post_upgrade"]}
{"id": "C81", "title": "Honest validators and true roots", "statement": "Let honest validators be those whose keys sign only what their own off-chain worker produces, with a service that answers with the true root of a range. Whatever all others sign and submit: every counted vote of an honest validator says truthfully whether the root is right; a false root is approved only if at least the threshold of pairwise different, dishonest validators voted for it; an honest validator is reported for rejecting a root only if a false root was approved; who is reported at the end of a vote is exactly the losing side (and the creator of a rejected root). A worker sends at most one vote per block, only on open votes its validator has not taken part in. As long as the schedule is not changed while a root awaits approval, roots recorded in an honest validator's name are true. Refuted: honest nodes are never reported (a true root with too few votes in time has its creator and its voters reported); votes are bound to the hash (they name range and number only: on a fork they count for a false root); registered keys are enforced (C23); honest roots are true after a change of the schedule (the record's signature lacks the first block).", "quantifier": "every history of a chain with any number of nodes, honest or not, every signature and submission of the dishonest, every service answer to them, every order", "why_tests_cant": "adversarial histories of unbounded length; all sets of honest validators", "anchors": ["pallets/summary/src/lib.rs:offchain_worker", "pallets/summary/src/lib.rs:process_summary_if_required", "pallets/summary/src/lib.rs:compute_root_hash", "pallets/summary/src/vote.rs:cast_votes_if_required", "pallets/summary/src/vote.rs:end_voting_if_required", "pallets/summary/src/vote.rs:root_can_be_voted_on", "pallets/summary/src/lib.rs:end_voting", "pallets/avn/src/vote.rs:process_approve_vote", "pallets/avn/src/vote.rs:process_reject_vote"]}
{"id": "C82", "title": "What validators sign about summaries", "statement": "Two different calls (record, vote for, vote against, end, advance, challenge) never have the same signed bytes; those of a record and of an advance determine the pallet instance, those of an advance the slot. On one chain a signature takes effect at most once: after a submission that changed the state no later submission for the same validator with the same signed bytes changes it, whatever happened in between. Refuted: votes are bound to the instance (a vote on one of the two instances of runtime/test counts as a vote on a different root of the other).", "quantifier": "all calls, arguments, instances and slots; every history between the two submissions", "why_tests_cant": "injectivity of an encoding over all values; replay after arbitrary histories", "anchors": ["pallets/summary/src/lib.rs:record_summary_calculation", "pallets/summary/src/lib.rs:advance_slot", "pallets/summary/src/lib.rs:validate_unsigned", "pallets/avn/src/vote.rs:reject_vote_validate_unsigned", "pallets/avn/src/vote.rs:end_voting_period_validate_unsigned", "pallets/summary/src/challenge.rs:add_challenge_validate_unsigned", "pallets/avn/src/vote.rs:approve_vote_validate_unsigned"]}
{"id": "C83", "title": "What becomes of the workers' submissions", "statement": "Everything a worker signs passes the transaction pool's validation on the state it saw. Applied to that state, its record, vote and end succeed (short of full counters, 256 votes, or an approved root that cannot be handed over); ending a vote by transaction never approves a root, only a vote does; its advance succeeds exactly within the grace period, its challenge exactly if its validator is not the one challenged. Refuted: enough votes approve a root (if the bridge refuses the root, the deciding vote is rolled back again and again, the root is rejected at the end and honest validators are reported).", "quantifier": "every reachable state, every node, every answer of its service, every lock it sees", "why_tests_cant": "all reachable states; the worker's checks and the call's checks are written separately", "anchors": ["pallets/summary/src/lib.rs:advance_slot_if_required", "pallets/summary/src/lib.rs:process_summary_if_required", "pallets/summary/src/lib.rs:can_process_summary", "pallets/summary/src/vote.rs:cast_votes_if_required", "pallets/summary/src/vote.rs:end_voting_if_required", "pallets/summary/src/challenge.rs:challenge_slot_if_required", "pallets/summary/src/challenge.rs:can_challenge", "pallets/summary/src/challenge.rs:add_challenge"]}
{"id": "C84", "title": "Slots and votes do not get stuck while nodes work", "statement": "With at least two validators an overdue slot falls within two blocks to a validator other than the slot's, and if that validator's node can sign and submit, its worker challenges and the challenge advances the slot. A working node votes when there is an open vote it has not taken part in, ends an expired vote when there is one, and records a summary when one is due, and these are accepted. Refuted: an overdue slot always ends (with a single validator it stays for ever and no summary is recorded again, unless an administrator changes the schedule or validators join).", "quantifier": "every reachable state, every set of validators, every node", "why_tests_cant": "liveness from every reachable state", "anchors": ["pallets/summary/src/lib.rs:offchain_worker", "pallets/summary/src/lib.rs:advance_slot", "pallets/summary/src/challenge.rs:challenge_slot_if_required", "pallets/summary/src/challenge.rs:can_challenge", "pallets/summary/src/lib.rs:can_process_summary", "pallets/summary/src/vote.rs:end_voting_if_required", "pallets/avn/src/lib.rs:is_primary_for_block"]}
{"id": "C85", "title": "What the chain believes about a transaction is what happened on Ethereum", "statement": "A transaction settles as succeeded only on the signed reports of enough different authors, none of them its sender; if one of them is honest (its service tells the truth about the contract), the contract has executed it, whatever administrators do meanwhile. If every deciding report is backed by an honest author and no administrator resets ids or the contract, then every settled outcome is true (succeeded exactly if executed), what was settled as failed is never executed later, and no honest author is ever reported as an offender. Refuted: also if an administrator sets the contract again (the attempt counter restarts, an old honest failure report counts for the new attempt, the chain settles an executed transaction as failed).", "quantifier": "every history of nodes, calls, clock and contract executions, with any submissions, replays and signatures by dishonest authors", "why_tests_cant": "distributed histories with adversarial submissions; tests use one node and a mocked service", "anchors": ["pallets/eth-bridge/src/lib.rs:process_active_request", "pallets/eth-bridge/src/lib.rs:add_corroboration", "pallets/eth-bridge/src/eth.rs:corroborate", "pallets/eth-bridge/src/tx.rs:finalize_state", "pallets/eth-bridge/src/tx.rs:set_up_active_tx", "pallets/eth-bridge/src/lib.rs:set_admin_setting", "pallets/eth-bridge/src/offence.rs"]}
{"id": "C86", "title": "What authors sign for the bridge means one thing", "statement": "Two messages that the bridge verifies (confirmation, transaction hash, report, events, latest block) with the same bytes are the same call for the same contract, transaction, author and attempt; the tokens for the node's own service determine what is asked for; a token for a signature is never a message for the chain and a token for sending only if the author's account equals the instance hash; none is a message of the summary pallet. A recorded transaction hash was signed by its sender for this contract and transaction. Refuted: for this attempt (the message has no attempt: an old hash counts again when the sender's turn comes again and the transaction is not sent).", "quantifier": "all messages of all kinds with all contents; every history", "why_tests_cant": "needs all pairs of messages", "anchors": ["pallets/eth-bridge/src/call.rs:create_confirmation_proof", "pallets/eth-bridge/src/call.rs:create_eth_tx_hash_proof", "pallets/eth-bridge/src/call.rs:create_corroborate_proof", "pallets/eth-bridge/src/lib.rs:validate_unsigned", "pallets/eth-bridge/src/eth.rs:sign_msg_hash", "pallets/eth-bridge/src/eth.rs:send_tx", "primitives/avn-common/src/context_constants.rs"]}
{"id": "C87", "title": "What becomes of the bridge workers' submissions", "statement": "Everything a worker submits passes the validation of unsigned calls on the state it saw. Applied to it, a confirmation is recorded or completes the proof (given the service signs with the registered key and fewer than a hundred confirmations), a hash is recorded, a report is recorded or, if it decides, settles the transaction with its outcome or starts the next attempt. Refuted: a deciding report always counts (if the caller refuses the result, it is undone, and every later one that says the same).", "quantifier": "every reachable state, every node, every answer of its service", "why_tests_cant": "the worker's checks and the calls' checks are written separately; all reachable states", "anchors": ["pallets/eth-bridge/src/lib.rs:process_active_tx_request", "pallets/eth-bridge/src/lib.rs:add_confirmation", "pallets/eth-bridge/src/lib.rs:add_eth_tx_hash", "pallets/eth-bridge/src/lib.rs:add_corroboration", "pallets/eth-bridge/src/tx.rs:complete_transaction", "pallets/eth-bridge/src/tx.rs:replay_send_request"]}
{"id": "C88", "title": "As long as a request is open some worker has something to do", "statement": "While confirmations are lacking there is an author, not the sender, who has not confirmed, and its worker submits a confirmation; with enough confirmations the sender's worker sends; once sent or expired, and undecided, there is an author, not the sender, who has not reported, and its worker reports what Ethereum says. Refuted: whatever the authors, a transaction can be settled without an administrator (a single author may not report on its own transaction and the bridge stops).", "quantifier": "every state with an active request, every set of at least two authors, every node", "why_tests_cant": "liveness from every state", "anchors": ["pallets/eth-bridge/src/lib.rs:process_active_request", "pallets/eth-bridge/src/lib.rs:process_active_tx_request", "pallets/eth-bridge/src/util.rs:has_enough_corroborations", "pallets/eth-bridge/src/util.rs:requires_corroboration", "pallets/eth-bridge/src/request.rs:has_enough_confirmations"]}
{"id": "C89", "title": "Authors change only by root requests that Ethereum has confirmed", "statement": "The authors are always the genesis ones with the confirmed requests applied in order, distinct and between the minimum and 256. A request is accepted exactly from root, while no other is being decided, for an eligible account (new, session keys set, fresh valid key, room; or an author, above the minimum) when the bridge takes requests; it changes nothing in the set. Every report of a result is accepted; a confirmation of the request being decided is carried out whatever happened meanwhile; either way the request is over. What is handed to the session is the list of authors, never an empty one.", "quantifier": "every history of calls, results, sessions and changes elsewhere", "why_tests_cant": "all interleavings of requests, late or repeated results and sessions", "anchors": ["pallets/authors-manager/src/lib.rs:add_author", "pallets/authors-manager/src/lib.rs:remove_author", "pallets/authors-manager/src/lib.rs:process_result", "pallets/authors-manager/src/lib.rs:complete_author_registration", "pallets/authors-manager/src/lib.rs:complete_author_deregistration", "pallets/authors-manager/src/lib.rs:new_session"]}
{"id": "C90", "title": "Each author has exactly one Ethereum key", "statement": "Exactly the authors and the account being registered have a key, each one, and it is the one last registered or rotated by root, provided no key is rotated while a registration is being decided and no session begins without an author whose removal is being decided. Refuted otherwise: a refused registration leaves the rotated key behind, the account can then become an author with two keys; another author can lose its key and be left without; a session can take the key of an author whose removal is then refused. Rotation itself is accepted exactly from root, from a key of the account to a free one, and does exactly that.", "quantifier": "every history", "why_tests_cant": "needs combinations of rotation, refusal and sessions that no test has", "anchors": ["pallets/authors-manager/src/lib.rs:rotate_author_ethereum_key", "pallets/authors-manager/src/lib.rs:cleanup_registration_storage", "pallets/authors-manager/src/lib.rs:remove_ethereum_public_key_if_required", "pallets/authors-manager/src/lib.rs:clean_up_author_data", "pallets/authors-manager/src/lib.rs:on_new_session"]}
{"id": "C91", "title": "Ethereum is told of exactly the accepted requests with the author's key", "statement": "Each accepted request is published once, an addition with the key of the request, a removal with the key the account was last registered with; that is its current key if no key was ever rotated. Refuted otherwise: rotation does not update the table that the removal reads, so the removal names an old key, which may be another author's.", "quantifier": "every history", "why_tests_cant": "all histories of rotations", "anchors": ["pallets/authors-manager/src/lib.rs:send_author_registration_to_t1", "pallets/authors-manager/src/lib.rs:send_author_deregistration_to_t1", "pallets/authors-manager/src/lib.rs:rotate_author_ethereum_key"]}
{"id": "C92", "title": "An author request refused by Ethereum leaves no trace", "statement": "Whatever sessions (with the account whose removal is being decided), other calls and other results come in between, keys not being rotated, a refused request leaves the authors, the table of keys and the authors' registered keys as before, and nothing waiting.", "quantifier": "every history before, every sequence of bystanding operations between request and refusal", "why_tests_cant": "arbitrary interleavings", "anchors": ["pallets/authors-manager/src/lib.rs:rollback_failed_author_action", "pallets/authors-manager/src/lib.rs:cleanup_registration_storage", "pallets/authors-manager/src/lib.rs:process_result"]}
{"id": "C93", "title": "The upgrade of the authors pallet builds the table of author keys", "statement": "In whatever order storage is read, the upgrade from version 0 makes the table from account to key the inverse of the table from key to account if no account has two keys, and its own check passes exactly in that case; nothing else changes; at any later version, and on a second run, nothing changes.", "quantifier": "every state, every order of iteration", "why_tests_cant": "all storage contents and iteration orders", "anchors": ["pallets/authors-manager/src/migration.rs:populate_reverse_map", "pallets/authors-manager/src/migration.rs:on_runtime_upgrade", "pallets/authors-manager/src/migration.rs:post_upgrade"]}
{"id": "C94", "title": "Everything an author signs with its AvN key means one thing, across pallets", "statement": "Two things signed with the AvN key that have the same bytes - any report, challenge or processing of an event of a known kind, any summary call, any call or partition for the bridge, any request for a signature - are the same thing: same pallet, same kind, same contents (for summary votes, ends and challenges, up to the instance, which their bytes do not name). The token for sending a transaction, which carries no context, is something else only if the author's account is that thing's first 32 bytes.", "quantifier": "every pair of signed things, with every field of every size, of the three pallets and the node's service", "why_tests_cant": "pairs of messages with arbitrary contents", "anchors": ["pallets/ethereum-events/src/lib.rs:PROCESS_EVENT_CONTEXT", "pallets/eth-bridge/src/call.rs:add_confirmation_proof", "pallets/eth-bridge/src/eth.rs:sign_msg_hash", "pallets/summary/src/lib.rs:update_block_number_context", "primitives/avn-common/src/event_types.rs:EventData", "primitives/avn-common/src/event_discovery.rs:EthereumEventsPartition"]}
{"id": "C95", "title": "What honest authors report and challenge about Ethereum events is true", "statement": "Whatever everybody else signs and submits: every check of an Ethereum event in an honest author's name says what is the case (genuine, with these data; or no such event from a trusted contract), and every challenge in an honest author's name that the chain accepts is of a false check made by somebody else.", "quantifier": "every history of blocks, calls, workers of any number of nodes with any answers of their services (truthful for honest nodes), and everything that others sign", "why_tests_cant": "histories of a network of nodes with arbitrary adversaries", "anchors": ["pallets/ethereum-events/src/lib.rs:offchain_worker", "pallets/ethereum-events/src/lib.rs:try_check_event", "pallets/ethereum-events/src/lib.rs:validate_event", "pallets/ethereum-events/src/lib.rs:check_event", "pallets/ethereum-events/src/lib.rs:save_validated_event_in_local_storage"]}
{"id": "C96", "title": "A true check stands, and honest authors are not reported", "statement": "If fewer authors are dishonest than a challenge takes, a true check is not overturned: the event is delivered with its data, its author is not reported, nor any honest challenger.", "quantifier": "every history of blocks, calls and workers", "why_tests_cant": "histories of a network of nodes with arbitrary adversaries", "anchors": ["pallets/ethereum-events/src/lib.rs:offchain_worker", "pallets/ethereum-events/src/lib.rs:try_check_event", "pallets/ethereum-events/src/lib.rs:validate_event", "pallets/ethereum-events/src/lib.rs:check_event", "pallets/ethereum-events/src/lib.rs:save_validated_event_in_local_storage", "pallets/ethereum-events/src/lib.rs:process_event"]}
{"id": "C97", "title": "A false check falls if enough honest authors look at it", "statement": "A check that is challenged by more authors than are tolerated is not delivered and its author is reported; an honest worker that looks at a false check signs a challenge of it, which the chain accepts and counts until the check is settled.", "quantifier": "every history of blocks, calls and workers", "why_tests_cant": "histories of a network of nodes with arbitrary adversaries", "anchors": ["pallets/ethereum-events/src/lib.rs:offchain_worker", "pallets/ethereum-events/src/lib.rs:try_check_event", "pallets/ethereum-events/src/lib.rs:validate_event", "pallets/ethereum-events/src/lib.rs:check_event", "pallets/ethereum-events/src/lib.rs:save_validated_event_in_local_storage", "pallets/ethereum-events/src/lib.rs:challenge_event"]}
{"id": "C98", "title": "Events are checked and processed by honest workers", "statement": "When it is the turn of an author whose service can tell what became of the event waiting longest, its worker signs a check of it, which the chain accepts as long as the event waits; when the challenge period of some check is over, the worker of the author whose turn it is signs the processing of one such, which the chain accepts and settles.", "quantifier": "every history of blocks, calls and workers, every node", "why_tests_cant": "histories and nodes are unbounded", "anchors": ["pallets/ethereum-events/src/lib.rs:offchain_worker", "pallets/ethereum-events/src/lib.rs:try_check_event", "pallets/ethereum-events/src/lib.rs:validate_event", "pallets/ethereum-events/src/lib.rs:check_event", "pallets/ethereum-events/src/lib.rs:save_validated_event_in_local_storage", "pallets/ethereum-events/src/lib.rs:try_process_event"]}
{"id": "C99", "title": "Workers and service of a node find and understand each other", "statement": "Whatever the node's local store holds and whatever path is asked for, the off-chain workers send their requests to the machine itself, at a port in digits. If the node's port is not given or is a number, they reach the address the service listens on; every request reaches the endpoint it is meant for with the contents that were meant; finalised block, root and signature are read as the node gave them; any other status than 200 is an error.", "quantifier": "every content of the local store, every port text, path, block number, hash, order, and every answer", "why_tests_cant": "texts, stores and orders are unbounded", "anchors": ["pallets/avn/src/lib.rs:invoke_external_service", "pallets/avn/src/lib.rs:get_external_service_port_number", "pallets/avn/src/lib.rs:get_finalised_block_from_external_service", "pallets/avn/src/lib.rs:request_ecdsa_signature_from_external_service", "client/external-service/src/lib.rs:start", "node/src/service.rs:EXTERNAL_SERVICE_PORT_NUMBER_KEY", "pallets/eth-bridge/src/eth.rs:sign_msg_hash", "pallets/eth-bridge/src/lib.rs:latest_finalised_ethereum_block", "pallets/summary/src/lib.rs:compute_root_hash"]}
{"id": "C100", "title": "What a transaction costs", "statement": "A transaction costs a thousandth of an AVT, five millionths of an AVT per byte, and what it takes of the block's time and room at eight million atto-AVT per unit of time times the current multiplier, plus the tip. Before the call the declared weight is charged, afterwards what was used; the final charge is never more than the first and never less than the tip, free calls cost the tip only. More bytes, time, tip or a higher multiplier never make it cheaper, and splitting work over two transactions never saves. Exactly this amount leaves the sender's account and reaches the staking pot; a known sender pays his agreed price of this amount.", "quantifier": "every length, weight, reported weight, multiplier, tip, call, account state and fee adjustment", "why_tests_cant": "saturating and rounding arithmetic over 128-bit numbers, composed with the adjustment pallet for every state", "anchors": ["runtime/common/src/lib.rs:WeightToFee", "runtime/common/src/lib.rs:TransactionByteFee", "runtime/common/src/weights/extrinsic_weights.rs:ExtrinsicBaseWeight", "runtime/avn/src/configs/mod.rs:pallet_transaction_payment::Config", "pallets/avn-transaction-payment/src/lib.rs:correct_and_deposit_fee"]}
{"id": "C101", "title": "Minimum stakes are kept", "statement": "As long as governance never sets the minimum bond of candidates below B, every candidate has bonded at least B, and still has when the reduction it asked for is carried out; without such a change B is the minimum of genesis. A candidate may ask for a smaller bond only if it has no open request and the minimum remains. A candidate goes online only if it is idle, not while leaving. A nominator may ask for less only if the nomination keeps the minimum per nomination and its total, less all that is already asked for, the minimum of nominators; after a request is carried out whoever still nominates has at least that minimum. Who joins or starts to nominate brings the minimum.", "quantifier": "every history of calls, blocks, settings and changes elsewhere from genesis, and every state, caller and amount", "why_tests_cant": "the minimum has to survive every order of requests, executions, evictions and leaving, and changed settings in between", "anchors": ["pallets/parachain-staking/src/types.rs:CandidateMetadata::schedule_unbond", "pallets/parachain-staking/src/types.rs:CandidateMetadata::execute_unbond", "pallets/parachain-staking/src/lib.rs:go_online", "pallets/parachain-staking/src/nomination_requests.rs:nomination_schedule_bond_decrease", "pallets/parachain-staking/src/nomination_requests.rs:nomination_execute_scheduled_request"]}
{"id": "C102", "title": "The contract is told the registered Ethereum key", "statement": "A registered 33-byte Ethereum key is accepted only if it starts with 2 or 3 and its x, below the field's order, belongs to a point of secp256k1; the 64 bytes published to add or remove a validator or author are this point, with the registered x and the root of the registered parity, and compressing them gives the registered key back. So different registered keys are published differently, and the published parameters determine key and account (for a y other than 0, which no point of the curve has). Of the two keys with the same x both are accepted or none, and they are published as y and its negation.", "quantifier": "every sequence of bytes as a key, every account", "why_tests_cant": "2^256 possible x, parity of a modular square root in a 256-bit field", "anchors": ["primitives/avn-common/src/eth_key_actions.rs:decompress_eth_public_key", "primitives/avn-common/src/eth_key_actions.rs:compress_eth_public_key", "pallets/validators-manager/src/lib.rs:send_validator_registration_to_t1", "pallets/validators-manager/src/lib.rs:send_validator_deregistration_to_t1", "pallets/authors-manager/src/lib.rs:send_author_deregistration_to_t1"]}
{"id": "C103", "title": "Frozen AVT is not spent", "statement": "Whoever holds at least as much AVT as is frozen of it (staked, locked) still does after any history of transfers, lowers of all kinds, Ethereum events, fees, treasury and collator payments: none of them spends frozen AVT, whether they succeed or fail, and none changes what is frozen. If the rest of the runtime only freezes what is there, frozen amounts are covered at all times.", "quantifier": "every state, account and history of calls, scheduled tasks, bridge reports, Ethereum events and changes of freezes", "why_tests_cant": "all ways out of an account in every order, including calls that fail halfway and whose errors are swallowed", "anchors": ["pallets/token-manager/src/lib.rs:settle_transfer", "pallets/token-manager/src/lib.rs:settle_lower", "pallets/token-manager/src/lib.rs:pay_fee", "pallets/token-manager/src/lib.rs:transfer_from_treasury"]}
{"id": "C104", "title": "A user's signature authorises one kind of call", "statement": "The bytes a user signs for a relayed token transfer or lower, for any of the eight NFT calls, the ten staking calls, adding an Ethereum log, paying a relayer, registering or updating a chain handler or submitting a checkpoint are different for different kinds of call, whatever the arguments, relayers and nonces. So a signature given for one call cannot be presented with another, in the same pallet or in a different one.", "quantifier": "every pair of signed messages of the 25 kinds, with every argument, relayer and nonce", "why_tests_cant": "all pairs of byte strings that can be built from all arguments in six pallets", "anchors": ["pallets/token-manager/src/lib.rs:encode_signed_transfer_params", "pallets/token-manager/src/lib.rs:encode_signed_lower_params", "pallets/nft-manager/src/lib.rs:encode_mint_single_nft_params", "pallets/parachain-staking/src/proxy_methods.rs:encode_signed_nominate_params", "pallets/ethereum-events/src/lib.rs:encode_signed_add_ethereum_log_params", "pallets/avn-proxy/src/lib.rs:PAYMENT_AUTH_CONTEXT", "pallets/avn-anchor/src/lib.rs:encode_signed_register_chain_handler_params"]}
