(** Model of the token manager pallet (pallets/token-manager/src/lib.rs), together with the parts of
    pallet-balances (Currency, existential deposit 0 as in runtime/avn/src/lib.rs:162) and of
    pallet-scheduler (named tasks) that it calls.  Accounts, token ids (H160), Ethereum addresses and
    amounts are numbers; [TokenBalance] and [Balance] are u128. *)
From Verif Require Import Base CodecModel SigModel.
#[global] Arguments concat_lower_data : simpl never.
#[global] Arguments decode_lower_data : simpl never.

(** A scheduled [execute_lower] call (lib.rs:1074-1117 [schedule_lower] builds it). *)
Record task := mkTask {
  tk_when : N; tk_from : N; tk_to : N; tk_token : N; tk_amount : N; tk_t1 : N }.

(** Events (lib.rs:177-283), plus three that other pallets deposit: the scheduler's [Dispatched] and
    [Canceled], the staking payout to a collator, and the bridge's [EventRejected]. *)
Inductive event :=
| AVTLifted (recipient amount txhash : N)
| TokenLifted (token recipient amount txhash : N)
| TokenTransferred (token sender recipient amount : N)
| CallDispatched (relayer : N)
| TokenLowered (token sender recipient amount t1 id : N)
| AvtLowered (sender recipient amount t1 id : N)
| AVTLowerReverted (recipient amount txhash id t1 : N)
| TokenLowerReverted (token recipient amount txhash id t1 : N)
| AvtTransferredFromTreasury (recipient amount : N)
| AVTGrowthLifted (treasury_share collators_share txhash : N)
| LowerRequested (token from amount t1 : N) (nonce : option N) (id : N)
| LowerReadyToClaim (id : N)
| AvtLowerClaimed (id : N)
| FailedToGenerateLowerProof (id : N)
| RegeneratingLowerProof (id requester : N)
| RegeneratingFailedLowerProof (id requester : N)
| LowerSchedulePeriodUpdated (p : N)
| LoweringEnabled
| LoweringDisabled
| TokensDeposited (token recipient amount : N)
| NativeTokenEthAddressUpdated (old new : N)
| SchedulerDispatched (id : N) (ok : bool)
| SchedulerCanceled (id : N)
| CollatorPaid (account amount : N)
| EventRejected (lower : option N).

(** Runtime constants: treasury account, treasury share of growth (parts per billion), and the
    account lowered funds are attributed to ([LowerAccountId], written only at genesis). *)
Record config := mkConfig { c_treasury : N; c_growth : N; c_lower_account : N }.

(** Storage (lib.rs:312-365), native balances, scheduler agenda and the answers of other pallets.
    [s_frozen], [s_processed], [s_bridge_ok], [s_sched_ok], [s_growth] are environment: what
    pallet-balances has frozen, which events the processed-events checker knows, whether
    [generate_lower_proof] and [schedule_named] accept the next request, and what the growth handler
    pays and returns. *)
Record st := mkSt {
  s_block : N; s_time : N;
  s_free : gmap N N; s_frozen : gmap N N; s_issuance : N;
  s_bal : gmap (N * N) N;
  s_nonces : gmap N N;
  s_avt : N;
  s_ready : gmap N (list N * list N); s_pending : gmap N (list N); s_failed : gmap N (list N);
  s_lower_nonce : N; s_period : N; s_disabled : bool;
  s_agenda : gmap N task;
  s_processed : gset N; s_bridge_ok : bool; s_sched_ok : bool; s_growth : list (N * N) * bool;
  s_events : list event }.
#[export] Instance eta_st : Settable _ := settable! mkSt
  <s_block; s_time; s_free; s_frozen; s_issuance; s_bal; s_nonces; s_avt; s_ready; s_pending; s_failed;
   s_lower_nonce; s_period; s_disabled; s_agenda; s_processed; s_bridge_ok; s_sched_ok; s_growth; s_events>.

Definition emit (e : event) : M st unit := modify (fun s => s <| s_events := e :: s_events s |>).
Definition free_of (s : st) (a : N) : N := mget 0 a (s_free s).
Definition bal_of (s : st) (t a : N) : N := mget 0 (t, a) (s_bal s).
Definition nonce_of (s : st) (a : N) : N := mget 0 a (s_nonces s).

(** ** pallet-balances *)

(** polkadot-sdk pallet-balances impl_currency.rs [Currency::transfer], KeepAlive, existential
    deposit 0. *)
Definition native_transfer (from to amount : N) : M st unit :=
  s <-- get_st ;;
  if (amount =? 0) || (from =? to) then mret_ tt else
  ensure (amount <=? free_of s from) "InsufficientBalance" ;;;
  ensure (free_of s to + amount <=? U128_MAX) "Overflow" ;;;
  ensure (mget 0 from (s_frozen s) <=? free_of s from - amount) "LiquidityRestrictions" ;;;
  modify (fun s => s <| s_free := <[to := free_of s to + amount]> (<[from := free_of s from - amount]> (s_free s)) |>).

(** impl_currency.rs [withdraw]; the returned imbalance is its amount. *)
Definition native_withdraw (who amount : N) : M st N :=
  s <-- get_st ;;
  if amount =? 0 then mret_ 0 else
  ensure (amount <=? free_of s who) "InsufficientBalance" ;;;
  ensure (mget 0 who (s_frozen s) <=? free_of s who - amount) "LiquidityRestrictions" ;;;
  modify (fun s => s <| s_free := <[who := free_of s who - amount]> (s_free s) |>) ;;;
  mret_ amount.

(** impl_currency.rs [deposit_creating]: a zero amount and an overflowing balance yield the zero
    imbalance. *)
Definition native_deposit (who amount : N) : M st N :=
  s <-- get_st ;;
  if amount =? 0 then mret_ 0 else
  if free_of s who + amount <=? U128_MAX then
    modify (fun s => s <| s_free := <[who := free_of s who + amount]> (s_free s) |>) ;;; mret_ amount
  else mret_ 0.

(** imbalances.rs [Drop]: dropping an imbalance adjusts the total issuance, saturating. *)
Definition drop_positive (n : N) : M st unit :=
  modify (fun s => s <| s_issuance := saturating_add U128_MAX (s_issuance s) n |>).
Definition drop_negative (n : N) : M st unit :=
  modify (fun s => s <| s_issuance := saturating_sub (s_issuance s) n |>).

(** ** Transfers *)

(** lib.rs:679-723 [settle_transfer].  The conversions u128 -> Balance cannot fail. *)
Definition settle_transfer (token from to amount : N) : M st unit :=
  s <-- get_st ;;
  if token =? s_avt s then native_transfer from to amount
  else
    ensure (amount <=? bal_of s token from) "InsufficientSenderBalance" ;;;
    (if from =? to then mret_ tt
     else ensure (bal_of s token to + amount <=? U128_MAX) "AmountOverflow") ;;;
    modify (fun s => s <| s_bal := <[(token, from) := bal_of s token from - amount]> (s_bal s) |>) ;;;
    modify (fun s => s <| s_bal := <[(token, to) := bal_of s token to + amount]> (s_bal s) |>) ;;;
    emit (TokenTransferred token from to amount).

(** lib.rs:100-101 and 854-892: the signed payloads, SCALE encoded. *)
Definition transfer_payload (relayer from to token amount nonce : N) : list N :=
  scale_bytes (ascii_bytes "authorization for transfer operation") ++ be_bytes 32 relayer ++
  be_bytes 32 from ++ be_bytes 32 to ++ be_bytes 20 token ++ le_bytes 16 amount ++ le_bytes 8 nonce.
Definition lower_payload (relayer from token amount t1 nonce : N) : list N :=
  scale_bytes (ascii_bytes "authorization for lower operation") ++ be_bytes 32 relayer ++
  be_bytes 32 from ++ be_bytes 20 token ++ le_bytes 16 amount ++ be_bytes 20 t1 ++ le_bytes 8 nonce.

(** [<Nonces<T>>::mutate(from, |n| *n += 1)]: u64, wrapping in a release build. *)
Definition bump_nonce (a : N) : M st unit :=
  modify (fun s => s <| s_nonces := <[a := (nonce_of s a + 1) mod 2 ^ 64]> (s_nonces s) |>).

(** lib.rs:428-462 [signed_transfer]; [origin] is the signed origin. *)
Definition signed_transfer (cr : crypto) (origin : N) (p : proof) (from to token amount : N) : M st unit :=
  ensure (origin =? from) "SenderNotValid" ;;;
  nonce <-- gets (fun s => nonce_of s origin) ;;
  ensure (verify_signature cr p (transfer_payload (pf_relayer p) from to token amount nonce))
    "UnauthorizedSignedTransferTransaction" ;;;
  settle_transfer token from to amount ;;;
  bump_nonce from.

(** lib.rs:464-486 [transfer_from_treasury] (root). *)
Definition transfer_from_treasury (c : config) (recipient amount : N) : M st unit :=
  ensure (negb (amount =? 0)) "AmountIsZero" ;;;
  native_transfer (c_treasury c) recipient amount ;;;
  emit (AvtTransferredFromTreasury recipient amount).

(** lib.rs:1244-1266 [FeePaymentHandler::pay_fee], [pay_treasury]. *)
Definition pay_fee (token amount payer recipient : N) : M st unit := settle_transfer token payer recipient amount.
Definition pay_treasury (c : config) (amount payer : N) : M st unit :=
  token <-- gets s_avt ;; settle_transfer token payer (c_treasury c) amount.

(** ** Lowering *)

(** [T::BridgeInterface::generate_lower_proof]: answered by the environment. *)
Definition bridge_generate : M st unit := ok <-- gets s_bridge_ok ;; ensure ok "BridgeError".

(** lib.rs:726-796 [settle_lower]. *)
Definition settle_lower (token from to amount t1 id : N) : M st unit :=
  s <-- get_st ;;
  (if token =? s_avt s then
     imbalance <-- native_withdraw from amount ;;
     ensure (negb (imbalance =? 0)) "LowerFailed" ;;;
     drop_negative imbalance ;;;
     emit (AvtLowered from to amount t1 id)
   else
     ensure (amount <=? bal_of s token from) "InsufficientSenderBalance" ;;;
     modify (fun s => s <| s_bal := <[(token, from) := bal_of s token from - amount]> (s_bal s) |>) ;;;
     emit (TokenLowered token from to amount t1 id)) ;;;
  modify (fun s => s <| s_pending :=
     <[id := concat_lower_data (mkLowerData token amount t1 id from (s_time s))]> (s_pending s) |>) ;;;
  bridge_generate.

(** lib.rs:488-511 [execute_lower] (root). *)
Definition execute_lower (from to token amount t1 id : N) : M st unit :=
  d <-- gets s_disabled ;;
  ensure (negb d) "LoweringDisabled" ;;;
  settle_lower token from to amount t1 id.

(** pallet-scheduler [schedule_named] with [DispatchTime::After(period)]: the task runs at the
    earliest at now + period + 1 (saturating u32); a task of that name must not exist.  The name is
    the hash of ("Lower", id): modelled by the id itself. *)
Definition schedule_named (id : N) (period : N) (mk : N -> task) : M st unit :=
  s <-- get_st ;;
  ensure (s_sched_ok s) "FailedToSchedule" ;;;
  ensure (match s_agenda s !! id with None => true | _ => false end) "FailedToSchedule" ;;;
  modify (fun s => s <| s_agenda :=
     <[id := mk (saturating_add U32_MAX (saturating_add U32_MAX (s_block s) period) 1)]> (s_agenda s) |>).

(** lib.rs:1074-1117 [schedule_lower]; the u32 [LowerNonce] wraps in a release build. *)
Definition schedule_lower (c : config) (from token amount t1 : N) (nonce : option N) : M st unit :=
  id <-- gets s_lower_nonce ;;
  period <-- gets s_period ;;
  schedule_named id period (fun w => mkTask w from (c_lower_account c) token amount t1) ;;;
  modify (fun s => s <| s_lower_nonce := (s_lower_nonce s + 1) mod 2 ^ 32 |>) ;;;
  emit (LowerRequested token from amount t1 nonce id).

(** lib.rs:513-536 [schedule_direct_lower]. *)
Definition schedule_direct_lower (c : config) (origin from token amount t1 : N) : M st unit :=
  ensure (origin =? from) "SenderNotValid" ;;;
  d <-- gets s_disabled ;;
  ensure (negb d) "LoweringDisabled" ;;;
  ensure (negb (amount =? 0)) "AmountIsZero" ;;;
  schedule_lower c from token amount t1 None.

(** lib.rs:538-585 [schedule_signed_lower]. *)
Definition schedule_signed_lower (c : config) (cr : crypto) (origin : N) (p : proof) (from token amount t1 : N) : M st unit :=
  ensure (origin =? from) "SenderNotValid" ;;;
  d <-- gets s_disabled ;;
  ensure (negb d) "LoweringDisabled" ;;;
  ensure (negb (amount =? 0)) "AmountIsZero" ;;;
  nonce <-- gets (fun s => nonce_of s origin) ;;
  ensure (verify_signature cr p (lower_payload (pf_relayer p) from token amount t1 nonce))
    "UnauthorizedSignedLowerTransaction" ;;;
  schedule_lower c from token amount t1 (Some nonce) ;;;
  bump_nonce from.

(** lib.rs:847-852 [regenerate_proof]. *)
Definition regenerate_proof (id : N) (params : list N) : M st unit :=
  modify (fun s => s <| s_pending := <[id := params]> (s_pending s) |>) ;;; bridge_generate.

(** lib.rs:587-617 [regenerate_lower_proof]. *)
Definition regenerate_lower_proof (requester id : N) : M st unit :=
  s <-- get_st ;;
  ensure (negb (s_disabled s)) "LoweringDisabled" ;;;
  match s_ready s !! id with
  | Some (params, _) =>
      modify (fun s => s <| s_ready := delete id (s_ready s) |>) ;;;
      regenerate_proof id params ;;; emit (RegeneratingLowerProof id requester)
  | None =>
      match s_failed s !! id with
      | Some params =>
          modify (fun s => s <| s_failed := delete id (s_failed s) |>) ;;;
          regenerate_proof id params ;;; emit (RegeneratingFailedLowerProof id requester)
      | None => fail "InvalidLowerId"
      end
  end.

(** lib.rs:102 [PALLET_ID], 74 [LowerDataLimit]. *)
Definition PALLET_ID : list N := ascii_bytes "token_manager".
Definition LOWER_DATA_LIMIT : N := 10000.

(** lib.rs:1212-1237 [process_lower_proof_result]. *)
Definition process_lower_proof_result (id : N) (caller : list N) (data : option (list N)) : M st unit :=
  s <-- get_st ;;
  match s_pending s !! id with
  | Some params =>
      if bool_decide (caller = PALLET_ID) then
        modify (fun s => s <| s_pending := delete id (s_pending s) |>) ;;;
        match data with
        | Some d =>
            ensure (N.of_nat (length d) <=? LOWER_DATA_LIMIT) "LowerDataLimitExceeded" ;;;
            modify (fun s => s <| s_ready := <[id := (params, d)]> (s_ready s) |>) ;;;
            emit (LowerReadyToClaim id)
        | None =>
            modify (fun s => s <| s_failed := <[id := params]> (s_failed s) |>) ;;;
            emit (FailedToGenerateLowerProof id)
        end
      else mret_ tt
  | None => mret_ tt
  end.

(** ** Ethereum events *)

(** lib.rs:798-813 [credit_avt_balance]. *)
Definition credit_avt_balance (recipient amount : N) : M st N :=
  imbalance <-- native_deposit recipient amount ;;
  ensure (negb (imbalance =? 0)) "DepositFailed" ;;;
  drop_positive imbalance ;;;
  mret_ amount.

(** lib.rs:815-829 [credit_token_balance]. *)
Definition credit_token_balance (token recipient amount : N) : M st N :=
  s <-- get_st ;;
  b <-- some_or (checked_add U128_MAX (bal_of s token recipient) amount) "AmountOverflow" ;;
  modify (fun s => s <| s_bal := <[(token, recipient) := b]> (s_bal s) |>) ;;;
  mret_ amount.

(** lib.rs:831-845 [process_token_deposit] / 1287-1293 [deposit_tokens]. *)
Definition deposit_tokens (token recipient amount : N) : M st unit :=
  a <-- credit_token_balance token recipient amount ;;
  emit (TokensDeposited token recipient a).

(** The Ethereum event data this pallet handles (lib.rs:1119-1129, 1270-1285; LogLiftedToPredictionMarket and LogErc20Transfer run the same
    [process_lift]). *)
Inductive eth_data :=
| LogLifted (token recipient amount : N)
| LogAvtGrowthLifted (amount period : N)
| LogLowerClaimed (id : N)
| LogLowerReverted (token receiver amount id t1 : N).
Record eth_event := mkEthEvent { ee_id : N; ee_data : eth_data }.

Definition event_known (e : N) : M st unit :=
  s <-- get_st ;; ensure (bool_decide (e ∈ s_processed s)) "NoTier1Event".

(** lib.rs:938-969 [process_lift].  [decode_recipient] cannot fail on 32 bytes. *)
Definition process_lift (e : N) (token recipient amount : N) : M st unit :=
  event_known e ;;;
  ensure (negb (amount =? 0)) "AmountIsZero" ;;;
  s <-- get_st ;;
  if token =? s_avt s then
    a <-- credit_avt_balance recipient amount ;; emit (AVTLifted recipient a e)
  else
    a <-- credit_token_balance token recipient amount ;; emit (TokenLifted token recipient a e).

(** sp_arithmetic per_things.rs [Perbill * u128]: rounds to nearest, half down. *)
Definition perbill_mul (parts x : N) : N :=
  let rem := x mod 1000000000 in
  x / 1000000000 * parts + rem * parts / 1000000000 +
  (if (rem * parts) mod 1000000000 <=? 500000000 then 0 else 1).

(** The growth handler (parachain-staking lib.rs:2193-2262): pays collators with
    [deposit_into_existing] and returns a result; the payments and the result are the environment's.
    A payment that would overflow an account is not made. *)
Definition pay_one (p : N * N) : M st unit :=
  s <-- get_st ;;
  if (snd p =? 0) || negb (free_of s (fst p) + snd p <=? U128_MAX) then mret_ tt
  else
    modify (fun s => s <| s_free := <[fst p := free_of s (fst p) + snd p]> (s_free s) |>) ;;;
    drop_positive (snd p) ;;;
    emit (CollatorPaid (fst p) (snd p)).
Fixpoint pay_all (l : list (N * N)) : M st unit :=
  match l with [] => mret_ tt | p :: r => pay_one p ;;; pay_all r end.
Definition on_growth_lifted : M st unit :=
  g <-- gets s_growth ;; pay_all (fst g) ;;; ensure (snd g) "GrowthHandlerError".

(** lib.rs:971-1000 [process_avt_growth_lift]. *)
Definition process_avt_growth_lift (c : config) (e amount : N) : M st unit :=
  event_known e ;;;
  ensure (negb (amount =? 0)) "AmountIsZero" ;;;
  let share := perbill_mul (c_growth c) amount in
  a <-- credit_avt_balance (c_treasury c) share ;;
  emit (AVTGrowthLifted a (amount - share) e) ;;;
  on_growth_lifted.

(** lib.rs:1013-1021 [remove_used_lower]. *)
Definition remove_used_lower (id : N) : M st unit :=
  s <-- get_st ;;
  ensure (match s_ready s !! id with Some _ => true | None => false end) "InvalidLowerId" ;;;
  modify (fun s => s <| s_ready := delete id (s_ready s) |>).

(** lib.rs:1002-1011 [process_lower_claim]. *)
Definition process_lower_claim (e id : N) : M st unit :=
  event_known e ;;; remove_used_lower id ;;; emit (AvtLowerClaimed id).

(** lib.rs:1023-1058 [process_lower_reverted]. *)
Definition process_lower_reverted (e token receiver amount id t1 : N) : M st unit :=
  event_known e ;;;
  remove_used_lower id ;;;
  ensure (negb (amount =? 0)) "AmountIsZero" ;;;
  s <-- get_st ;;
  if token =? s_avt s then
    a <-- credit_avt_balance receiver amount ;; emit (AVTLowerReverted receiver a e id t1)
  else
    a <-- credit_token_balance token receiver amount ;; emit (TokenLowerReverted token receiver a e id t1).

(** lib.rs:1119-1129 [processed_event_handler]. *)
Definition processed_event_handler (c : config) (e : eth_event) : M st unit :=
  match ee_data e with
  | LogLifted token recipient amount => process_lift (ee_id e) token recipient amount
  | LogAvtGrowthLifted amount _ => process_avt_growth_lift c (ee_id e) amount
  | LogLowerClaimed id => process_lower_claim (ee_id e) id
  | LogLowerReverted token receiver amount id t1 => process_lower_reverted (ee_id e) token receiver amount id t1
  end.

Definition lower_of (d : eth_data) : option N :=
  match d with LogLowerClaimed id => Some id | LogLowerReverted _ _ _ id _ => Some id | _ => None end.

(** How the bridge calls the handler (pallets/eth-bridge/src/lib.rs [process_ethereum_event]): an
    error is swallowed, storage is not rolled back, and [EventRejected] is deposited. *)
Definition on_event_processed (c : config) (e : eth_event) : M st unit :=
  fun s => match processed_event_handler c e s with
           | (s1, Ok _) => (s1, Ok tt)
           | (s1, Err _) => emit (EventRejected (lower_of (ee_data e))) s1
           end.
(** How the bridge reports a lower proof (request.rs:98-121, lib.rs:1371-1377): likewise. *)
Definition bridge_reports (id : N) (caller : list N) (data : option (list N)) : M st unit :=
  fun s => (fst (process_lower_proof_result id caller data s), Ok tt).

(** ** Calls *)

Inductive inner_call :=
| CSignedTransfer (p : proof) (from to token amount : N)
| CSignedLower (p : proof) (from token amount t1 : N)
| COther (n : N).
Definition inner_proof (i : inner_call) : option proof :=
  match i with CSignedTransfer p _ _ _ _ => Some p | CSignedLower p _ _ _ _ => Some p | COther _ => None end.
Definition run_inner (c : config) (cr : crypto) (origin : N) (i : inner_call) : M st unit :=
  match i with
  | CSignedTransfer p from to token amount => signed_transfer cr origin p from to token amount
  | CSignedLower p from token amount t1 => schedule_signed_lower c cr origin p from token amount t1
  | COther _ => fail "TransactionNotSupported"
  end.
(** lib.rs:403-426 [proxy]. *)
Definition proxy (c : config) (cr : crypto) (relayer : N) (i : inner_call) : M st unit :=
  p <-- some_or (inner_proof i) "TransactionNotSupported" ;;
  ensure (relayer =? pf_relayer p) "UnauthorizedProxyTransaction" ;;;
  dispatch (run_inner c cr (pf_signer p) i) ;;;
  emit (CallDispatched relayer).

(** The scheduler running the task of a lower: pallet-scheduler [service_task] removes the task and
    dispatches the call as root in its own storage layer; the result is only reported in an event. *)
Definition run_task (id : N) : M st unit :=
  s <-- get_st ;;
  t <-- some_or (s_agenda s !! id) "NotFound" ;;
  ensure (tk_when t <=? s_block s) "NotDue" ;;;
  modify (fun s => s <| s_agenda := delete id (s_agenda s) |>) ;;;
  (fun s => let r := dispatch (execute_lower (tk_from t) (tk_to t) (tk_token t) (tk_amount t) (tk_t1 t) id) s in
            emit (SchedulerDispatched id (is_ok (snd r))) (fst r)).

Inductive op :=
| OpSigned (origin : N) (i : inner_call)            (* signed_transfer, schedule_signed_lower *)
| OpProxy (relayer : N) (i : inner_call)
| OpDirectLower (origin from token amount t1 : N)
| OpRunTask (id : N)
| OpCancelTask (id : N)                             (* root: scheduler.cancel_named *)
| OpReschedule (id when : N)                        (* root: scheduler.reschedule_named *)
| OpRootExecute (from to token amount t1 id : N)    (* root calling execute_lower itself *)
| OpRegenerate (requester id : N)
| OpProofResult (id : N) (caller : list N) (data : option (list N))
| OpEthEvent (e : eth_event)
| OpDeposit (token recipient amount : N)            (* TokenInterface::deposit_tokens *)
| OpPayFee (token amount payer recipient : N)
| OpPayTreasury (amount payer : N)
| OpTreasury (recipient amount : N)                 (* root *)
| OpNativeTransfer (from to amount : N)             (* pallet-balances transfer *)
| OpSetPeriod (p : N) | OpToggle (enabled : bool) | OpSetAvt (a : N)
| EnvBlock (n : N) (time : N) | EnvFrozen (a n : N) | EnvProcessed (e : N)
| EnvBridge (ok : bool) | EnvSched (ok : bool) | EnvGrowth (g : list (N * N)) (ok : bool).

Definition exec (c : config) (cr : crypto) (o : op) : M st unit :=
  match o with
  | OpSigned origin i => dispatch (run_inner c cr origin i)
  | OpProxy relayer i => dispatch (proxy c cr relayer i)
  | OpDirectLower origin from token amount t1 => dispatch (schedule_direct_lower c origin from token amount t1)
  | OpRunTask id => run_task id
  | OpCancelTask id => dispatch (
      s <-- get_st ;;
      ensure (match s_agenda s !! id with Some _ => true | None => false end) "NotFound" ;;;
      modify (fun s => s <| s_agenda := delete id (s_agenda s) |>) ;;;
      emit (SchedulerCanceled id))
  | OpReschedule id when => dispatch (
      s <-- get_st ;;
      t <-- some_or (s_agenda s !! id) "NotFound" ;;
      ensure (s_block s <? when) "TargetBlockNumberInPast" ;;;
      modify (fun s => s <| s_agenda := <[id := mkTask when (tk_from t) (tk_to t) (tk_token t) (tk_amount t) (tk_t1 t)]> (s_agenda s) |>))
  | OpRootExecute from to token amount t1 id => dispatch (execute_lower from to token amount t1 id)
  | OpRegenerate requester id => dispatch (regenerate_lower_proof requester id)
  | OpProofResult id caller data => bridge_reports id caller data
  | OpEthEvent e => on_event_processed c e
  | OpDeposit token recipient amount => dispatch (deposit_tokens token recipient amount)
  | OpPayFee token amount payer recipient => dispatch (pay_fee token amount payer recipient)
  | OpPayTreasury amount payer => dispatch (pay_treasury c amount payer)
  | OpTreasury recipient amount => dispatch (transfer_from_treasury c recipient amount)
  | OpNativeTransfer from to amount => dispatch (native_transfer from to amount)
  | OpSetPeriod p => modify (fun s => s <| s_period := p |>) ;;; emit (LowerSchedulePeriodUpdated p)
  | OpToggle enabled =>
      modify (fun s => s <| s_disabled := negb enabled |>) ;;; emit (if enabled then LoweringEnabled else LoweringDisabled)
  | OpSetAvt a => dispatch (
      ensure (negb (a =? 0)) "InvalidEthAddress" ;;;
      old <-- gets s_avt ;;
      modify (fun s => s <| s_avt := a |>) ;;; emit (NativeTokenEthAddressUpdated old a))
  | EnvBlock n t => modify (fun s => s <| s_block := s_block s + n |> <| s_time := t mod 2 ^ 64 |>)
  | EnvFrozen a n => modify (fun s => s <| s_frozen := <[a := n]> (s_frozen s) |>)
  | EnvProcessed e => modify (fun s => s <| s_processed := {[e]} ∪ s_processed s |>)
  | EnvBridge ok => modify (fun s => s <| s_bridge_ok := ok |>)
  | EnvSched ok => modify (fun s => s <| s_sched_ok := ok |>)
  | EnvGrowth g ok => modify (fun s => s <| s_growth := (g, ok) |>)
  end.
Definition step (c : config) (cr : crypto) (s : st) (o : op) : st := fst (exec c cr o s).
Definition run (c : config) (cr : crypto) (s : st) (ops : list op) : st := fold_left (step c cr) ops s.

(** lib.rs:367-401 genesis: token balances, the native token's address, the schedule period; native
    balances and issuance come from pallet-balances' genesis (issuance is their sum and must fit). *)
Definition genesis (free : gmap N N) (bal : gmap (N * N) N) (avt period : N) : st :=
  mkSt 0 0 free ∅ (map_fold (fun _ v acc => v + acc) 0 free) bal ∅ avt ∅ ∅ ∅ 0 period false ∅ ∅ true true ([], true) [].
