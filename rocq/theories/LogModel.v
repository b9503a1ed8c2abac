(** Model of pallets/ethereum-events (lib.rs, offence.rs), the older way in for Ethereum events: anybody names an Ethereum
    transaction, one validator checks it, the others may challenge the check, and after the challenge period the event is
    processed.  Line numbers are those of lib.rs unless another file is named.  Block numbers and votes are u32. *)
From Verif Require Import Base AvnModel CodecModel SigModel.

(** primitives/avn-common/src/event_types.rs:96-118 [ValidEvents] by SCALE index (2..5 the NFT events, 9 the only one that
    is not primary); the event signature (topic) is a function of it.  [EthEventId]: event kind and transaction hash. *)
Notation event_id := (N * N)%type.
Definition is_nft_kind (k : N) : bool := (2 <=? k) && (k <=? 5).
Definition is_primary_kind (k : N) : bool := negb (k =? 9).
(** event_types.rs:863-876 [CheckResult]. *)
Inductive result := ROk | RInvalid | RHttp | RYoung | RUnknown.
#[export] Instance result_eq : EqDecision result. Proof. solve_decision. Defined.
(** event_types.rs:951-959 [ChallengeReason]. *)
Inductive reason := IncorrectResult | IncorrectEventData | UnknownReason.
#[export] Instance reason_eq : EqDecision reason. Proof. solve_decision. Defined.
(** event_types.rs:918-926 [EthEventCheckResult]; the event data is a number, 0 being [EmptyEvent]. *)
Record check := mkCheck { ck_id : event_id; ck_data : N; ck_result : result; ck_by : N; ck_at : N; ck_ready : N; ck_min : N }.
#[export] Instance check_eq : EqDecision check. Proof. solve_decision. Defined.
(** event_types.rs:961-966 [Challenge]. *)
Record challenge := mkChallenge { ch_id : event_id; ch_reason : reason; ch_by : N }.

(** What validators sign (887-891, 915-919, 953-957): the tuple stands for its SCALE encoding. *)
Inductive message :=
| MCheck (r : check) (counter : N)
| MProcess (id : event_id) (counter : N)
| MChallenge (ch : challenge) (counter : N).

(** 239-299 [Event]; offence.rs reports: [OffenceReported] is the report handed to the offences pallet (that it is not already
    known there and that the accounts can be identified is not modelled). *)
Inductive event :=
| EthereumEventAdded (id : event_id) (by_ : N)
| EventValidated (id : event_id) (r : result) (by_ : N)
| EventProcessed (id : event_id) (by_ : N) (outcome : bool)
| EventChallenged (id : event_id) (by_ : N) (why : reason)
| ChallengeSucceeded (id : event_id) (r : result)
| OffenceReported (wrong_check : bool) (offenders : list N)
| EventAccepted (id : event_id)
| EventRejected (id : event_id) (r : result) (successful : bool)
| EventChallengePeriodUpdated (period : N).

(** The configuration: 384 [QuorumFactor], written at genesis only (426: not zero); which kinds may be added (the runtime's
    [ProcessedEventsHandler], runtime/avn/src/configs/mod.rs:399 with event_discovery.rs:163-170: the NFT events); the validators'
    and the users' signature schemes; event_types.rs:835-852 [EventData::is_valid]. *)
Record config := mkConfig {
  c_quorum : N; c_kind : N -> bool; c_verify : N -> message -> N -> bool; c_crypto : crypto; c_data_ok : N -> bool }.
(** runtime/avn/src/configs/mod.rs:399. *)
Definition nft_filter : N -> bool := is_nft_kind.

(** 336-397 storage; [s_processed] is the record in the bridge pallet (ProcessedEventsChecker = EthBridge), by transaction hash.
    [s_delivered] is ghost: the calls of [ProcessedEventHandler::on_event_processed], newest first. *)
Record st := mkSt {
  s_ingress : N; s_unchecked : list (event_id * N * N); s_pending : list (check * N * N); s_processed : gmap N (N * bool);
  s_challenges : gmap (N * N) (list N); s_period : N; s_contracts : list N; s_nonces : gmap N N;
  s_validators : list validator; s_block : N; s_delivered : list (event_id * N); s_events : list event }.
#[export] Instance eta_st : Settable _ :=
  settable! mkSt <s_ingress; s_unchecked; s_pending; s_processed; s_challenges; s_period; s_contracts; s_nonces; s_validators; s_block; s_delivered; s_events>.
(** 140-142. *)
Definition MAX_UNCHECKED : N := 500.
Definition MAX_PENDING : N := 50.
Definition MAX_CHALLENGES : N := 50.
(** 78 [MINIMUM_EVENT_CHALLENGE_PERIOD]. *)
Definition MIN_PERIOD : N := 60.

Definition emit (e : event) : M st unit := modify (fun s => s <| s_events := e :: s_events s |>).
Definition nonce_of (s : st) (a : N) : N := mget 0 a (s_nonces s).
Definition challengers (s : st) (id : event_id) : list N := mget [] id (s_challenges s).
Definition unchecked_is (id : event_id) (counter : N) (e : event_id * N * N) : bool :=
  bool_decide (e.1.1 = id) && (e.1.2 =? counter).
Definition pending_is (id : event_id) (counter : N) (e : check * N * N) : bool :=
  bool_decide (ck_id e.1.1 = id) && (e.1.2 =? counter).

(** pallets/eth-bridge/src/lib.rs:1424-1446 [processed_event_exists], [add_processed_event]. *)
Definition is_processed (s : st) (tx : N) : bool := match s_processed s !! tx with Some _ => true | None => false end.
Definition add_processed (id : event_id) (accepted : bool) (s : st) : st :=
  match s_processed s !! id.2 with
  | Some (_, true) => s
  | _ => s <| s_processed := <[id.2 := (id.1, accepted)]> (s_processed s) |>
  end.

(** 1513-1519 [event_exists_in_system]. *)
Definition known (s : st) (id : event_id) : bool :=
  is_processed s id.2 || existsb (fun e : event_id * N * N => bool_decide (e.1.1 = id)) (s_unchecked s)
  || existsb (fun e : check * N * N => bool_decide (ck_id e.1.1 = id)) (s_pending s).
(** 1522-1555 [add_event], 1633-1637 [get_next_ingress_counter] (u64, wrapping not reachable and not modelled). *)
Definition add_event (c : config) (kind tx who : N) : M st unit :=
  ensure (c_kind c kind) "ErrorAddingEthereumLog" ;;;
  ensure (is_primary_kind kind) "InvalidEventToProcess" ;;;
  s <-- get_st ;;
  ensure (negb (known s (kind, tx))) "DuplicateEvent" ;;;
  ensure (N.of_nat (length (s_unchecked s)) <? MAX_UNCHECKED) "UncheckedEventsOverflow" ;;;
  modify (fun s => s <| s_ingress := s_ingress s + 1 |>
                     <| s_unchecked := s_unchecked s ++ [((kind, tx), s_ingress s + 1, s_block s)] |>) ;;;
  emit (EthereumEventAdded (kind, tx) who).
(** 730-741 [add_ethereum_log]. *)
Definition add_log (c : config) (who kind tx : N) : M st unit :=
  ensure (negb (tx =? 0)) "MalformedHash" ;;;
  add_event c kind tx who.
(** 1593-1607 [encode_signed_add_ethereum_log_params]. *)
Definition add_payload (relayer kind tx nonce : N) : list N :=
  scale_bytes (ascii_bytes "authorization for add ethereum log operation") ++ be_bytes 32 relayer ++ [kind] ++ be_bytes 32 tx ++ le_bytes 8 nonce.
(** 748-775 [signed_add_ethereum_log]. *)
Definition signed_add_log (c : config) (who : N) (p : proof) (kind tx : N) : M st unit :=
  ensure (who =? pf_signer p) "SenderIsNotSigner" ;;;
  ensure (negb (tx =? 0)) "MalformedHash" ;;;
  nonce <-- gets (fun s => nonce_of s who) ;;
  ensure (verify_signature (c_crypto c) p (add_payload (pf_relayer p) kind tx nonce)) "UnauthorizedSignedAddEthereumLogTransaction" ;;;
  modify (fun s => s <| s_nonces := <[who := (nonce + 1) mod 2 ^ 64]> (s_nonces s) |>) ;;;
  add_event c kind tx who.

(** 1572-1587 [data_signature_is_valid]: the key is the one in the transaction. *)
Definition signed_by (c : config) (s : st) (m : message) (v : validator) (sig : N) : bool :=
  is_validator (s_validators s) (v_account v) && c_verify c (v_key v) m sig.

(** The first element satisfying a test, and the list without it ([position] and [remove]). *)
Fixpoint remove_first {A} (f : A -> bool) (l : list A) : list A :=
  match l with
  | [] => []
  | x :: r => if f x then r else x :: remove_first f r
  end.
(** The last one ([rposition], [filter ... last]), and the list without it. *)
Definition find_last {A} (f : A -> bool) (l : list A) : option A := List.find f (rev l).
Definition remove_last {A} (f : A -> bool) (l : list A) : list A := rev (remove_first f (rev l)).

(** 858-904 [validate_unsigned] for [submit_checkevent_result]. *)
Definition validate_check (c : config) (r : check) (counter : N) (v : validator) (sig : N) : M st unit :=
  s <-- get_st ;;
  ensure (existsb (unchecked_is (ck_id r) counter) (s_unchecked s)) "EVENT_NOT_IN_UNCHECKED" ;;;
  ensure (c_data_ok c (ck_data r)) "INVALID_EVENT_DATA" ;;;
  primary <-- lift_res (primary_for_block (s_validators s) (ck_at r)) ;;
  ensure (primary =? ck_by r) "VALIDATOR_NOT_PRIMARY" ;;;
  ensure (v_account v =? ck_by r) "BadProof" ;;;
  ensure (signed_by c s (MCheck r counter) v sig) "BadProof".
(** 475-521 [submit_checkevent_result].  When the pending queue is full the event is dropped from both queues and the call succeeds. *)
Definition submit_check (c : config) (r : check) (counter : N) (v : validator) (sig : N) : M st unit :=
  validate_check c r counter v sig ;;;
  s <-- get_st ;;
  ensure (is_validator (s_validators s) (ck_by r)) "InvalidKey" ;;;
  ensure (existsb (unchecked_is (ck_id r) counter) (s_unchecked s)) "MissingEventToCheck" ;;;
  ready <-- some_or (checked_add U32_MAX (s_block s) (s_period s)) "Overflow" ;;
  let r' := mkCheck (ck_id r) (ck_data r) (ck_result r) (ck_by r) (ck_at r) ready (N.of_nat (length (s_validators s)) / c_quorum c) in
  modify (fun s => if N.of_nat (length (s_pending s)) <? MAX_PENDING
                   then s <| s_pending := s_pending s ++ [(r', counter, s_block s)] |> else s) ;;;
  modify (fun s => s <| s_unchecked := remove_first (unchecked_is (ck_id r) counter) (s_unchecked s) |>) ;;;
  emit (EventValidated (ck_id r) (ck_result r) (ck_by r)).

(** 934-974 [validate_unsigned] for [challenge_event]; 662-718 [challenge_event].  A challenge beyond the bound is dropped and the call succeeds. *)
Definition challenge_event (c : config) (ch : challenge) (counter : N) (v : validator) (sig : N) : M st unit :=
  s <-- get_st ;;
  ensure (existsb (pending_is (ch_id ch) counter) (s_pending s)) "EVENT_NOT_IN_PENDING_CHALLENGES" ;;;
  ensure (v_account v =? ch_by ch) "BadProof" ;;;
  ensure (signed_by c s (MChallenge ch counter) v sig) "BadProof" ;;;
  ensure (is_validator (s_validators s) (ch_by ch)) "InvalidKey" ;;;
  e <-- some_or (find_last (pending_is (ch_id ch) counter) (s_pending s)) "InvalidEventToChallenge" ;;
  ensure (negb (ck_by e.1.1 =? ch_by ch)) "ChallengingOwnEvent" ;;;
  ensure (negb (memN (ch_by ch) (challengers s (ch_id ch)))) "DuplicateChallenge" ;;;
  modify (fun s => if N.of_nat (length (challengers s (ch_id ch))) <? MAX_CHALLENGES
                   then s <| s_challenges := <[ch_id ch := challengers s (ch_id ch) ++ [ch_by ch]]> (s_challenges s) |> else s) ;;;
  emit (EventChallenged (ch_id ch) (ch_by ch) (ch_reason ch)).

(** 1049-1059 [is_challenge_successful]. *)
Definition challenge_successful (c : config) (s : st) (r : check) : bool :=
  N.max (ck_min r) (N.of_nat (length (s_validators s)) / c_quorum c) <? N.of_nat (length (challengers s (ck_id r))).
(** 554-637, the second half of [process_event]: what happens to the event whose check is [r].  [handled]: whether the handlers (token
    manager, NFT manager) accept the event; their effects are in TokenModel and NftModel.  An error of theirs is not rolled back. *)
Definition settle_event (c : config) (id : event_id) (r : check) (who : N) (handled : bool) : M st unit :=
  s <-- get_st ;;
  let successful := challenge_successful c s r in
  let fresh := negb (is_processed s id.2) in
  let again := bool_decide (ck_result r = RInvalid) || (successful && fresh) in
  modify (fun s => if again then s else add_processed id true s) ;;;
  modify (fun s => s <| s_pending := remove_last (fun e => bool_decide (ck_id e.1.1 = id)) (s_pending s) |>) ;;;
  emit (EventProcessed id who (fresh && negb successful)) ;;;
  (if successful then
     emit (ChallengeSucceeded id (ck_result r)) ;;;
     emit (OffenceReported true [ck_by r])
   else
     modify (fun s => s <| s_challenges := delete id (s_challenges s) |>) ;;;
     match challengers s id with [] => mret_ tt | l => emit (OffenceReported false l) end) ;;;
  (if bool_decide (ck_result r = ROk) && negb successful && fresh then
     modify (fun s => s <| s_delivered := (id, ck_data r) :: s_delivered s |>) ;;;
     (if handled then emit (EventAccepted id) else emit (EventRejected id (ck_result r) successful))
   else emit (EventRejected id (ck_result r) successful)).
(** 905-933 [validate_unsigned] for [process_event]; 535-553 [process_event], 1061-1069 [get_pending_event_index] (by id only). *)
Definition process_event (c : config) (id : event_id) (counter : N) (v : validator) (sig : N) (handled : bool) : M st unit :=
  s <-- get_st ;;
  ensure (existsb (pending_is id counter) (s_pending s)) "EVENT_NOT_IN_PENDING_CHALLENGES" ;;;
  ensure (signed_by c s (MProcess id counter) v sig) "BadProof" ;;;
  ensure (is_validator (s_validators s) (v_account v)) "InvalidKey" ;;;
  e <-- some_or (find_last (fun e => bool_decide (ck_id e.1.1 = id)) (s_pending s)) "PendingChallengeEventNotFound" ;;
  ensure (ck_ready e.1.1 <? s_block s) "InvalidEventToProcess" ;;;
  settle_event c id e.1.1 (v_account v) handled.

(** 781-788 [insert_nft_contract]. *)
Definition insert_contract (addr : N) : M st unit :=
  ensure (negb (addr =? 0)) "InvalidContractAddress" ;;;
  modify (fun s => s <| s_contracts := addr :: s_contracts s |>).
(** 792-806 [set_event_challenge_period]. *)
Definition set_period (n : N) : M st unit :=
  ensure (MIN_PERIOD <=? n) "InvalidEventChallengePeriod" ;;;
  modify (fun s => s <| s_period := n |>) ;;;
  emit (EventChallengePeriodUpdated n).

(** What may happen: the calls ([root] tells whether the origin is root), the bridge recording an event it processed itself, and
    time passing: a new block, possibly with other validators. *)
Inductive op :=
| AddLog (who kind tx : N)
| SignedAddLog (who : N) (p : proof) (kind tx : N)
| SubmitCheck (r : check) (counter : N) (v : validator) (sig : N)
| ChallengeEvent (ch : challenge) (counter : N) (v : validator) (sig : N)
| ProcessEvent (id : event_id) (counter : N) (v : validator) (sig : N) (handled : bool)
| InsertNftContract (root : bool) (addr : N)
| SetPeriod (root : bool) (n : N)
| BridgeProcessed (kind tx : N) (accepted : bool)
| NewBlock (vs : list validator) (more : N).
Definition op_body (c : config) (o : op) : M st unit :=
  match o with
  | AddLog who kind tx => add_log c who kind tx
  | SignedAddLog who p kind tx => signed_add_log c who p kind tx
  | SubmitCheck r n v sig => submit_check c r n v sig
  | ChallengeEvent ch n v sig => challenge_event c ch n v sig
  | ProcessEvent id n v sig h => process_event c id n v sig h
  | InsertNftContract root a => ensure root "BadOrigin" ;;; insert_contract a
  | SetPeriod root n => ensure root "BadOrigin" ;;; set_period n
  | BridgeProcessed k tx a => modify (add_processed (k, tx) a)
  | NewBlock vs more => modify (fun s => s <| s_validators := vs |> <| s_block := s_block s + 1 + more |>)
  end.
Definition exec (c : config) (s : st) (o : op) : st * res unit := dispatch (op_body c o) s.
Definition step (c : config) (s : st) (o : op) : st := (exec c s o).1.
Definition run (c : config) (s : st) (ops : list op) : st := fold_left (step c) ops s.

(** 425-466 genesis: lifts to be checked, events known as processed, NFT contracts, the challenge period. *)
Fixpoint number (n : N) (l : list N) : list (event_id * N * N) :=
  match l with [] => [] | tx :: r => ((1, tx), n, 0) :: number (n + 1) r end.
Definition genesis (period : N) (lifts : list N) (processed : gmap N (N * bool)) (contracts : list N) (vs : list validator) : st :=
  mkSt (N.of_nat (length lifts)) (number 1 lifts) [] processed ∅ period contracts ∅ vs 0 [] [].

(** *** The off-chain worker's decisions.
    What a node learns from the Ethereum node about a transaction: nothing (HTTP error), or: is the receipt readable, was the transaction
    successful, does it contain an event of the kind (its contract and its data, if they parse), confirmations. *)
Record receipt := mkReceipt { rc_readable : bool; rc_success : bool; rc_event : option (N * option N); rc_confirmations : N }.
(** 1557-1570 [is_event_contract_valid]. *)
Definition contract_ok (bridge : N) (contracts : list N) (kind addr : N) : bool :=
  if is_nft_kind kind then memN addr contracts else addr =? bridge.
(** 1409-1499 [compute_result]: the result and the data of the check. *)
Definition compute_result (min_conf bridge : N) (contracts : list N) (id : event_id) (body : option receipt) : result * N :=
  match body with
  | None => (RHttp, 0)
  | Some rc =>
    if negb (rc_readable rc) then (RInvalid, 0) else
    if negb (rc_success rc) then (RInvalid, 0) else
    match rc_event rc with
    | None => (RInvalid, 0)
    | Some (addr, data) =>
      if negb (contract_ok bridge contracts id.1 addr) then (RInvalid, 0) else
      match data with
      | None => (RInvalid, 0)
      | Some d => if rc_confirmations rc <? min_conf then (RYoung, 0) else (ROk, d)
      end
    end
  end.
(** 1250-1287 [check_event_and_submit_result]: what is submitted, if anything. *)
Definition check_to_submit (me block : N) (id : event_id) (found : result * N) : option check :=
  match found.1 with
  | RHttp | RYoung => None
  | _ => Some (mkCheck id found.2 found.1 me block 0 0)
  end.
(** 1332-1370 [get_challenge_if_required]; 1295-1300 [validate_event] gives up on HTTP errors. *)
Definition challenge_required (me : N) (ck : check) (found : result * N) : option challenge :=
  if bool_decide (found.1 = RHttp) then None else
  if (bool_decide (found.1 = ck_result ck) && (found.2 =? ck_data ck)) || (bool_decide (found.1 = RInvalid) && bool_decide (ck_result ck = RInvalid)) then None else
  let why := match found.1 with
             | ROk => if bool_decide (ck_result ck = ROk) then IncorrectEventData else IncorrectResult
             | RInvalid => if bool_decide (ck_result ck = ROk) then IncorrectResult else UnknownReason
             | _ => UnknownReason
             end in
  if bool_decide (why = UnknownReason) then None else Some (mkChallenge (ck_id ck) why me).
(** 1142-1153 [get_events_to_check_if_required]; 1155-1207 [get_next_event_to_validate], [can_validate_this_event] ([seen]: the events this
    node has validated, kept in its own store); 1209-1224 [get_next_event_to_process]. *)
Definition next_to_check (s : st) (finalised : N) : option (event_id * N * N) :=
  List.find (fun e => e.2 <=? finalised) (s_unchecked s).
Definition next_to_validate (s : st) (me : N) (seen : list event_id) (finalised : N) : option (check * N * N) :=
  List.find (fun e => negb (ck_by e.1.1 =? me) && negb (existsb (fun i => bool_decide (i = ck_id e.1.1)) seen) && (e.2 <=? finalised)) (s_pending s).
Definition next_to_process (s : st) (block finalised : N) : option (check * N * N) :=
  find_last (fun e => (ck_ready e.1.1 <? block) && (e.2 <=? finalised)) (s_pending s).
