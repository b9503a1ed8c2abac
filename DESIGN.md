# Formal model of avn-parachain in Rocq (Coq 8.16.1)

## Approach

The runtime pallets are deterministic state machines over key-value storage. Each pallet is
modelled as a Gallina record of its storage items plus one total function per Rust function, over
`N`, `list`, records and std++ `gmap`. Conventions:

* **Result and partial effects.** Rust functions returning `Result` that write storage become
  functions returning `state * result`: the state is returned also on error, because several
  callers in this code base swallow errors *without* rolling storage back (event handlers,
  bridge notifications, the proxy). Extrinsics are wrapped by `dispatch` (Base.v), which restores
  the old state on error, as FRAME's storage layer does for every dispatchable.
* **Machine integers** are `N` with the code's checked, saturating or wrapping operation written
  out. Account ids, H160, H256, keys are `N`.
* **Cryptography is an oracle**: signature verification, ECDSA recovery and hashing are section
  variables, thus universally quantified parameters of the theorems. Where a theorem needs
  collision-freedom, that is an explicit hypothesis in the statement.
* **Other pallets** reached through traits are either composed for real or appear as an
  oracle/scripted input, said in the comment at the definition.
* Files per component: `XModel.v` (definitions only), `XProofs.v` (lemmas), `XProps.v` (only
  property theorems closed by `exact`, with `Print Assumptions`, and `Example`s showing the
  hypotheses are satisfiable by a concrete case).
* A property that the faithful model violates gets a `..._refuted` theorem with a witness, and the
  strongest true variant is proved next to it.

## Per-property plan

| id | model | proof |
|----|-------|-------|
| C01 | Quorum: the two formulas (AvnModel) | arithmetic (`lia` with div/mod) |
| C02, C03 | TokenManager: balances, native ledger, history of operations | ledger invariant, induction over histories |
| C04 | TokenManager: nonces, signature oracle | nonce monotonicity, induction |
| C05, C06 | TokenManager: four lower maps + scheduler agenda | stage invariant, induction; C06 partly refuted (handler order) |
| C07 | LowerParams: byte-level codec (CodecModel) | round trip by list lemmas |
| C08, C15, C16, C36 | EthBridge incoming half (IncomingModel) | induction over histories, list lemmas for the selection loop |
| C09-C14, C35 | EthBridge outgoing half (BridgeModel) | history invariants |
| C17 | Partitions: sort, chunk (IncomingModel) | list induction |
| C18, C23 | Avn: validators, rotation, signature check | modular arithmetic; C23 refuted (key is taken from the transaction) |
| C19-C22, C34 | Avn voting sessions + Summary | history invariants; C20 refuted under period changes, proved without |
| C24-C28 | NftManager | history invariants |
| C29 | AvnProxy composed with the token and NFT models | case analysis + history |
| C30 | TransactionPayment in the extrinsic life cycle | arithmetic, case analysis, history |
| C31, C32, C37-C43 | ParachainStaking: candidates, nominations, requests, locks, pool, selection (StakeModel) | one large data-structure invariant over histories (StakeInv, StakeRun), step-indexed lemmas for the delays |
| C33 | Merkle tree utilities | structural induction for any hash function |
| C44-C47 | avn-anchor on top of the token manager's fee payment | history invariants |
| C48-C51 | ParachainStaking payouts and growth (RewardModel) | ledger invariant over histories, arithmetic of Perbill |
| C52-C56 | validators-manager | history invariants over requests, keys and sessions |
| C57-C60 | ethereum-events, the older way in for Ethereum events (LogModel) | history invariants |
| C61 | avn-offence-handler | history invariant |
| C62 | ethereum-events off-chain decisions | case analysis |
| C63 | decoders of Ethereum logs (ParseModel) | arithmetic of 32-byte words, case analysis; specification: the Solidity ABI's log of each event |
| C64, C65 | the node's Ethereum event handler (DiscoveryModel), composed with ParseModel and the partitions of IncomingModel | induction over logs, uniqueness of sorted lists; specification: the chain as a list of logs |
| C66, C67 | the node's HTTP service as a transition system: arrivals, answers of Ethereum, restarts (ServiceModel), with byte-level codecs (HttpModel) | inductive invariants over all histories; round trips; refutations by runs |
| C68 | the worker's reading of the service's answers (CorroborateModel), composed with ServiceModel, BridgeModel, LogModel | equivalence with the facts on Ethereum; refutations |
| C69, C70, C71 | EIP-712 hashes and ABI encoding of calls (AbiModel) against the decoder of the Solidity ABI and the contract's own EIP-712 computation (AbiSpec), composed with the histories of BridgeModel | round trip of the encoding by induction over the arguments; injectivity up to explicit collisions; invariant over histories; refutations by runs |
| C72, C73, C74 | threads of offchain workers over the node's persistent offchain storage (OcwModel): one read, one compare-and-set, one removal are atomic, everything else interleaves; clock, restarts | invariants over every schedule relating the log of observations, the store and the threads' phases; refutations by concrete schedules |
| C75, C76, C77 | Chain state = staking state (StakeModel) + pallet-session (queue, active set, flags, index, keys) + AVN list + pending deregistrations; a block rotates the session before the staking hook runs. | Every step is shown to be quiet for the session or a rotation; histories by induction; the staking component is a run of StakeModel, so its theorems (no panic, selection, departures) apply. |
| C78, C79, C80 | Runtime upgrades on raw storage: stored values are bytes; SCALE as a universe of types with one encoder/decoder; the migrations of the token, bridge and validators pallets (and the summary hook, C22) | codec round trip by induction on types, for all trailing bytes; least-length lemma shows when a misread is impossible; explicit counterexamples for the rest |
| C81, C82, C83, C84 | many nodes and chains together (SummaryOcwModel): the summary pallet's off-chain worker function by function over the on-chain state of SummaryModel, the bytes signed, a world of chains with the set of signatures made so far; anyone submits any call for which a signature exists | invariant over all histories: every counted vote of an honest validator has a signature made by its worker; worker and on-chain checks compared on every reachable state; refutations by concrete histories |
| C85, C86, C87, C88 | nodes, one chain and Ethereum together (BridgeOcwModel): the bridge's off-chain worker over the on-chain state of BridgeModel and the service's answers of CorroborateModel, the bytes signed, Ethereum as a clock and a log of executions; anyone submits any call for which a signature exists, anyone calls the contract | invariant over all histories: honest reports are true, consents of a failed attempt are dead, reports of old attempts cannot count; worker and on-chain checks compared on every reachable state; pigeonhole for progress; refutations by concrete histories |
| C89, C90, C91, C92, C93 | authors-manager's storage (list, two tables of keys, actions, transactions) with root's calls, results, sessions visiting actions in any order, and storage iterating in any order (AuthorsModel) | refinement of the storage to a view computed from the accepted calls and results; a second invariant for the keys under two conditions; refutations by concrete histories; folds for the upgrade |
| C94 | every byte string signed with an AvN key, with event data and partitions in full (SignedModel, on SummaryOcwModel and BridgeOcwModel) | unique decoding of SCALE, contexts compared, lengths; for event messages against the bridge, the bytes of the known event signatures |
| C95, C96, C97, C98 | the workers of all nodes around the chain of LogModel, symbolic signatures, each node's own store (EventsOcwModel) | invariant of world histories: what honest keys have signed is true; then the theorems about challenges and processing of LogProps |
| C99 | the URLs, routes and texts between the workers and the service (WireModel), on the endpoints of ServiceModel | equations and equivalences over all texts, stores and orders; refutations |
| C100 | what a transaction costs (TxFeeModel): weight, length and base fee of the runtime in FRAME's formula, composed with the adjustments of FeeModel | arithmetic for all numbers, composed with C30; a refutation for proof size |
| C101 | minimum stakes (StakeModel): the minimum bond as an invariant of histories, what each request has to leave | invariant by induction from C40's reasons for a change of bond; the post conditions of the calls; a refutation for nominators |
| C102 | the Ethereum keys of validators and authors: compressed and full form, parameters published (EthKeyModel) | arithmetic modulo the order of secp256k1's field, byte codecs; specification: SEC1's two forms of a point |
| C103 | frozen AVT in the token manager (TokenModel with pallet-balances' freezing rule) | a relation between states kept by every primitive, hence by every call, failed ones included; induction over histories |
| C104 | the payloads of all 25 kinds of relayed call (AuthProps, from the six pallets' models) | every payload starts with its length-prefixed context, contexts are pairwise different, prefix injectivity |

## What is modelled, file by file

| model | code modelled | not modelled |
|-------|---------------|--------------|
| AvnModel | pallets/avn lib.rs: validator list, quorum, primary rotation, signature validation; vote.rs sessions (in SummaryModel) | off-chain HTTP helpers, finalised-block hints, offence reporting plumbing |
| SummaryModel | pallets/summary: lib.rs, vote.rs, challenge.rs, utils.rs, types.rs | the off-chain worker (in SummaryOcwModel); benchmarks; weights |
| CodecModel | SCALE/ABI byte encodings of payloads, lower parameters (primitives/avn-common lower params) | SCALE of types that are not signed or sent |
| SigModel | primitives/avn-common lib.rs `verify_signature` | the cryptography itself (parameter) |
| TokenModel | pallets/token-manager lib.rs whole pallet, with the parts of pallet-balances and pallet-scheduler it calls | weights, migrations |
| BridgeModel | pallets/eth-bridge: call.rs, request.rs, tx.rs, eth.rs, util.rs, types.rs, lib.rs outgoing part | HTTP transport (see HttpModel, ServiceModel); hashes are a parameter, given by AbiModel in C69 and C71 |
| IncomingModel | pallets/eth-bridge lib.rs incoming part; primitives/avn-common event_discovery.rs | decoding of Ethereum logs |
| NftModel | pallets/nft-manager: lib.rs, batch_nft.rs, nft_data.rs | weights |
| ProxyModel | pallets/avn-proxy lib.rs, runtime proxy_config.rs | calls of pallets other than token and NFT manager are arbitrary functions |
| FeeModel | pallets/avn-transaction-payment lib.rs, fee_adjustment_config.rs; fee withdrawal and correction around a call | the length/weight fee formula (an input here, in TxFeeModel), multiplier updates |
| TxFeeModel | runtime/common lib.rs WeightToFee, TransactionByteFee, constants, extrinsic_weights.rs; how configs/mod.rs plugs them into pallet-transaction-payment (FRAME's formula, from its published source), composed with FeeModel | the weights that calls declare and report, how the multiplier changes between blocks (both arbitrary inputs) |
| StakeModel | pallets/parachain-staking: lib.rs, calls.rs, types.rs, nomination_requests.rs, set.rs | events, migrations, weights |
| RewardModel | pallets/parachain-staking lib.rs: points, payouts, growth | candidate bookkeeping (in StakeModel) |
| MerkleModel | client/extrinsic-utils, root calculation of client/external-service | block decoding, HTTP |
| AnchorModel | pallets/avn-anchor lib.rs | weights |
| ValModel | pallets/validators-manager lib.rs | staking, session and bridge are oracles that may change at any time |
| LogModel | pallets/ethereum-events lib.rs, offence.rs; runtime NftEventsFilter | parsing of Ethereum logs (an oracle), HTTP |
| ParseModel | primitives/avn-common event_types.rs (signatures, parsers, is_valid), the registry of client/external-service, parse_tier1_event of pallets/ethereum-events | SCALE of the event types |
| DiscoveryModel | client/external-service ethereum_events_handler.rs: discovery, votes, author; web3_utils.rs is_eth_block_finalised | connections, retries, timers, the signature; eth_getLogs is specified from Ethereum's JSON-RPC |
| HttpModel | primitives/avn-common EthTransaction, EthQueryRequest, EthQueryResponse, http_data_codec; hex and SCALE decoding | hex and parity-scale-codec are modelled from their documentation |
| ServiceModel | client/external-service lib.rs (sign, send, view, query), keystore_utils.rs, web3_utils.rs Web3Data, build_raw_transaction | HTTP layer, gas and fees, sr25519/ECDSA (oracles), JSON of receipts |
| CorroborateModel | pallets/eth-bridge eth.rs corroborate, check_tx_status, check_tx_hash, process_* | call data are a parameter, given by AbiModel |
| AbiModel | primitives/avn-common/src/eth/mod.rs (networks, instances, EIP-712 structs and hashes), pallets/eth-bridge/src/eth.rs (ABI encoding, call data, lower proofs); alloy's `eip712_signing_hash`, ethabi's `encode` and selectors, `U256::from_dec_str`, `str::parse` as far as used | keccak (a parameter), UTF-8 checks and `from_utf8_lossy` (parameters), reference-rate methods (not used by authors) |
| OcwModel | primitives/avn-common/src/ocw_lock.rs; pallets/avn get_default_ocw_lock_expiry, the recording part of pre_run_setup; names and use of the locks in pallets/eth-bridge lib.rs, pallets/summary lib.rs, vote.rs, challenge.rs; `StorageValueRef::mutate` and `StorageLock` of sp_runtime as far as they use it | the other conditions of pre_run_setup; what the work under a lock does (an opaque event that may succeed or fail); challenge.rs takes its lock only after sending, so its lock protects nothing the model could show |
| SessionModel | parachain-staking session_handler.rs (new_session, should_end_session), runtime order of Session and ParachainStaking, RestrictedEndpointFilter, validators-manager exit_from_staking/on_new_session (deregistrations), avn on_new_session/on_genesis_session; pallet-session rotate_session, set_keys, purge_keys (FRAME, modelled from its published source) | ForceNewEra (set by no call), historical sessions, offences/disabled validators (never disabled in this runtime), Aura slots, key ownership proofs, session index wrap-around |
| ScaleModel, MigrationModel | pallets/{token-manager,eth-bridge,validators-manager}/src/migration.rs (all), summary lib.rs on_runtime_upgrade; SCALE encoding of the types involved (dependency, modelled from its documented behaviour); frame's `StorageValue::translate`, `StorageMap::translate` | weights, logging, pre_upgrade of the bridge (a constant), frame's initialisation of the version of newly added pallets |
| SummaryOcwModel | pallets/summary lib.rs `offchain_worker` and what it calls, vote.rs and challenge.rs worker halves, `validate_unsigned` messages; pallets/avn/src/vote.rs messages | the HTTP service (its answer is a parameter; see ServiceModel), signing (a key signs or not), the run record and the lock protocol (OcwModel; here a node either sees a lock as taken or takes it) |
| BridgeOcwModel | pallets/eth-bridge lib.rs `offchain_worker`, `process_active_request`, `process_active_tx_request` (with BridgeModel's `ocw`), call.rs, the messages of `validate_unsigned`, eth.rs tokens; pallets/avn/src/lib.rs `get_validator_for_current_node` | the bridge contract (assumed: an id is executed once, not after the expiry it was signed with, and its view says so), reorganisations, the run record and lock protocol (OcwModel), signing |
| AuthorsModel | pallets/authors-manager lib.rs (all calls, hooks and the session manager), migration.rs | the bridge (publish: an environment switch), events, weights, errors' clean-up that is rolled back with the failing call |
| SignedModel | the messages of pallets/ethereum-events (lib.rs:886-962, 1233-1311), event_types.rs (EventData, EthEvent, check results, challenges), event_discovery.rs (ranges, partitions) | cryptography |
| EventsOcwModel | the off-chain worker of pallets/ethereum-events (lib.rs:813-847, 986-1043, 1226-1407) | forks; changes of the trusted contracts; the transaction pool |
| WireModel | pallets/avn lib.rs:380-415, 476-563; routes of client/external-service lib.rs; node/src/service.rs:288-302 | sockets, deadlines, the HTTP library's own parsing of a URL (a plus sign, a number beyond 65535) |
| EthKeyModel | primitives/avn-common eth_key_actions.rs; the parameters published by validators-manager and authors-manager | libsecp256k1 itself (its decompression is modelled as SEC1's) |
| OffenceModel | pallets/avn-offence-handler lib.rs | the session pallet's disabling of validators (an oracle) |

The node client and the runtime configuration (apart from the constants and the wiring that the models cite) are not modelled.

## Statements and their independence of the model

`XSpec.v` files hold the small specifications (sums, walks, ledgers computed from the event log or from the sequence of
operations only) in which the theorems are phrased; the theorems quantify over every history `run ops genesis`. Each
`XProps.v` has, beside the theorems, `Example`s with concrete operations from genesis that meet the hypotheses in a non-trivial
state. Names ending in `_refuted` are proofs that the full English claim is false of the code (a witness history); names ending in
`_partial` are what does hold.

## Trusted base

* Coq 8.16.1's kernel (and `vm_compute`), `coqc`; libraries std++ and coq-record-update (definitions and lemmas, checked by the kernel).
* `Assumptions.v` (generated) runs `Print Assumptions` on all the claimed theorems together, and answers "Closed under the global
  context": for each of them the list is empty. No axiom is used, neither of the standard library nor of any other. (The files load ssreflect through std++;
  its `Under_rel` module type parameters, which `coqchk` lists as library axioms, are used by no theorem.)
* No `Axiom`, `Parameter`, section-less `Variable`/`Hypothesis`, `Admitted`, functor or module type is declared.
* The reading of the Rust source: nothing ties the model to the code but the citations at each definition.
* Behaviour of dependencies modelled from knowledge of them, their source not being in /repo: FRAME's rollback of failed
  dispatchables, pallet-balances `Currency`, pallet-scheduler's named tasks, `sp_arithmetic` Perbill rounding,
  `BoundedVec`/`BoundedBTreeMap` bounds, SCALE.

## Findings (behaviour of the code a user may not expect; most have a `_refuted` theorem)

* **Token manager.** A refund event of zero amount or one overflowing the balance consumes the ready lower without credit
  (C06); root can reuse lower ids with `execute_lower` (C05); proof data above its bound would lose the pending lower;
  an error of the growth handler after the treasury was credited keeps partial payouts; collator growth payouts are rounded to
  nearest, so their total can exceed the amount (three collators, amount 2).
* **Bridge, outgoing.** A validator with several valid ECDSA signatures of one hash counts several times (C13); the hash
  can be recorded without confirmations (C14); a lower proof hangs with one validator or when the set shrinks (C35); an administrator's
  reset of the transaction id reuses ids (C09); changing the bridge instance does not re-hash an active lower proof.
* **Bridge, incoming.** The order on discovered events ignores the event within a transaction (C17); processed-event records handed
  to another pallet allow reprocessing (C08); changing the instance clears at most 100 votes and not the submitted blocks.
* **Avn.** Signatures of validators are checked under the key supplied in the transaction (C23); with 256 validators the
  primary index panics (C18).
* **Summary.** Changing the period while a root is pending lets approved ranges overlap (C20); slot 0 is never reported (C22).
* **NFT.** Batch and mint payloads do not contain the signer; mint payloads have no nonce (the unique reference prevents replay).
* **Fees.** A FixedFee above the network fee makes a known sender pay more; the inner fee of time- and count-based adjustments is not
  validated; no refund for a sender whose total balance is zero after the call although the event reports the adjusted fee;
  `set_known_sender` inside the sender's own transaction discounts count+1 transactions (C30).
* **Staking.** Decreasing an uncounted nomination does not reduce the uncounted total (C37); at most 100 scheduled requests are kept per
  candidate, beyond which scheduling succeeds without effect (C43); candidate delays use wrapping u32 addition (C40);
  `signed_execute_nomination_request` fails unless every nomination of the nominator has a request; `min_total * n` can wrap.
* **Merkle.** The order within a pair is not committed, leaves and inner nodes are hashed alike (C33); `generate_merkle_path` succeeds for a leaf not in the list.
* **Anchor.** The registration payload has no nonce: replayable after a hand-over (C46).
* **Rewards.** Missing snapshot or zero total gives the collator everything; a failed publication of a growth period is never retried
  once a later one succeeded; what an era leaves unpaid stays locked; rounding can overpay, and a failed growth
  payout keeps partial payments and can be repeated (C51).
* **Validators manager.** The bond of a registration is checked but not reserved: if joining fails when Ethereum has confirmed, the bridge's
  active request is stuck until funds return or root removes it (C56); a second action may start before the first is confirmed by a session; a key
  rotated during a pending removal leaves Ethereum with the old key.
* **Ethereum events.** Same signature weakness as C23; a validator can choose the block number that makes it primary; a full pending queue loses
  a checked event (C58); challenges survive a successful challenge and count against the next check (C59); challenges beyond the
  bound are ignored silently; a checker reporting HttpError/InsufficientConfirmations suppresses the event
  if nobody challenges (C62); with 200 validators or more (quorum factor 4) no challenge can ever succeed, since at most fifty are
  recorded (C59); an offender first reported while slashing was off, or whose slash failed, is never slashed until it registers anew (C61); the processed record is keyed by transaction hash, so a second event of one transaction is never processed.
* **Decoding of logs.** The parser of cancelled listings does not check the length of its second topic and panics on a short one (C63; topics from the client have 32 bytes, those of the older off-chain worker's JSON any length);
  references of minted tokens are cut or zero-extended to 36 bytes (C63); `is_valid` rejects every claimed lower.
* **Event handler of the node.** One event per transaction: a second lift in one transaction is never credited, and an unwanted event hides
  a wanted one after it (C64); one undecodable log of the bridge (or, when transfers are wanted, of any contract) stops discovery of the whole range, hence the bridge (C64);
  additional transactions are voted without waiting for confirmations (C65), and bring in all the events of their blocks.
* **Ethereum calls.** Parameters of the wrong length panic when hashed (`publishRoot` with a root that is not 32 bytes; only pallets can publish, and theirs are well formed; C69);
  confirmations can still be added after a transaction was sent when the set of validators grows, and then the call data that others expect differ from those sent (C69); the salt of the
  instance is not signed (C70); a lower proof that is being confirmed when the instance is changed is completed for the old contract (C71); numbers are not compared with the size of their ABI type.
* **Offchain workers.** When workers of two blocks race, the older can record its run first and the newer is then refused and never runs (C72). A guard that is dropped removes the lock whoever holds it: a worker that outlives its deadline and then fails frees the lock of a later worker whose work is done, and the work is done again (C73). A failed request drops the lock although the service may have done the work (C73). `is_locked` takes the lock for a moment and makes a worker that tries just then give up (C73). Lock names do not contain the pallet instance: two summary instances on a node block each other's summaries for 30 blocks (C74); runtime/test has two instances of the summary pallet and of the bridge, runtime/avn one of each.
* **Sessions and eras.** The session rotates before staking selects, so collators author two eras after their selection (C75): an author that dropped out has no
  snapshot for the era and is paid the whole share of its blocks, its nominators nothing (C77; payouts are off in this build). The guard against an empty collator set
  does not look at session keys: selected collators who purge them are dropped silently, down to an empty set (C76). When no candidate can be selected, a deregistered
  collator that drops and restores its keys leaves staking while queued and then authors with nothing at stake (C77).
* **Service.** `/eth/sign_hashed_data` panics on a body that is not 32 bytes, before the token is checked (C66); tokens can be replayed (C66); after a restart the nonce of a
  waiting transaction is used again, and a nonce that runs ahead is never corrected (C67); confirmations wrap when the transaction was mined after the block number was
  read, and pending transactions count as fully confirmed (C68); with a missing or wrong hash a result is reported without any confirmations (C68); view requests ignore their block (C68).
* **Upgrades.** The bridge's step from version 3 decodes the active request with the current, longer parameters: a confirmed proof request can be rewritten
  with the caller's name and hash bytes as parameters and no confirmations (C79). The token pallet's try-runtime check always fails when the upgrade sets the
  period (C78), the bridge's fails on healthy version-5 chains (C79). The validators migration runs from version 1 only (C80). The summary hook dates the
  first slot at block 28800 whatever the block, so its first validator is at once punishable (C22).
* **Summary workers.** Votes, ends and challenges are signed without the instance and votes without the hash: a vote on one instance of runtime/test, or on a fork, counts for
  another root with the same range and number (C81, C82). A record is signed without the first block of its range (C81). A true root with too few votes in time, or whose
  hand-over to the bridge fails until the vote ends, is treated as invalid: its creator and everyone who voted for it are reported (C81, C83). After the grace period
  the slot's validator keeps submitting an advance that is refused (C83). A single validator that misses a grace period is stuck for ever (C84).
* **Bridge workers.** `SetEthBridgeInstance` restarts the attempt counter of the active transaction even if the contract stays the same: an old, honest failure report then settles
  an executed transaction as failed (C85). A transaction's hash is signed without the attempt: an old one counts again at the sender's next turn, which then sends nothing (C86).
  A result that the calling pallet refuses undoes the deciding report for ever (C87). A single author cannot settle anything (C88).
* **Ethereum events, workers.** A node that looks at a check while the transaction has too few confirmations notes the event as validated and never looks at it again, so a false check with an old enough claim may pass although every honest node looked (C97); and the challengers of an event are never cleared, so after a successful challenge every later check of the same event falls, and its honest author is reported (C96).
* **Wire.** A port that is a number but no port is kept, a port that is no number is replaced on one side only, and `/eth/latest_block` has no endpoint (C99).
* **Minimum of nominators.** When a candidate leaves or a nomination is evicted, what remains of a nominator's stake may be below the minimum of nominators, and it stays one (C101).
* **Transaction fees.** The room a call takes for proofs costs nothing: fees depend on reference time and length only (C100).
* **Authors manager** (in no runtime). `rotate_author_ethereum_key` leaves AccountIdToEthereumKeys stale: a later removal names the old key to Ethereum, possibly another author's (C91);
  rotated while a registration is being decided and refused, the new key stays with an account that is no author, and the old one is taken from whoever has it by then (C90).
  A session without an author whose removal is being decided takes its key before Ethereum has confirmed (C90).
