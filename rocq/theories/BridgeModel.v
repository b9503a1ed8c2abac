(** Model of pallets/eth-bridge, outgoing part: requests of other pallets, confirmations, the Ethereum
    transaction hash, corroborations, the request queue, and the decision of the off-chain worker.
    File names below are relative to pallets/eth-bridge/src. *)
From Verif Require Import Base AvnModel CodecModel.
From Coq Require DecimalString.

(** types.rs:32-39 [SendRequestData]; parameters are (type, value) pairs of byte strings. *)
Record send_req := mkSend { sr_id : N; sr_fn : list N; sr_params : list (list N * list N); sr_caller : list N }.
(** types.rs:84-90 [LowerProofRequestData]. *)
Record lower_req := mkLower { lr_id : N; lr_params : list N; lr_caller : list N }.
(** types.rs:11-16 [Request]. *)
Inductive request := RSend (r : send_req) | RLower (r : lower_req).
#[export] Instance send_req_eq_dec : EqDecision send_req. Proof. solve_decision. Defined.
#[export] Instance lower_req_eq_dec : EqDecision lower_req. Proof. solve_decision. Defined.
#[export] Instance request_eq_dec : EqDecision request. Proof. solve_decision. Defined.

(** types.rs:146-161 [ActiveEthTransaction]; function name and [tx_succeeded] dropped (the first is
    in the request, the second always false while active). *)
Record tx_data := mkTx {
  tx_params : list (list N * list N); tx_sender : N; tx_expiry : N; tx_hash : N;
  tx_success : list N; tx_failure : list N; tx_valid_hash : list N; tx_invalid_hash : list N;
  tx_attempt : N }.
#[export] Instance etaTx : Settable _ :=
  settable! mkTx <tx_params; tx_sender; tx_expiry; tx_hash; tx_success; tx_failure; tx_valid_hash; tx_invalid_hash; tx_attempt>.
(** types.rs:92-120 [ActiveRequestData] with its [ActiveConfirmation]. *)
Record active := mkActive {
  ac_req : request; ac_msg : N; ac_confirmations : list N; ac_tx : option tx_data; ac_updated : N }.
#[export] Instance etaActive : Settable _ :=
  settable! mkActive <ac_req; ac_msg; ac_confirmations; ac_tx; ac_updated>.
(** types.rs:99-107 [TransactionData]. *)
Record settled_tx := mkSettled {
  se_fn : list N; se_params : list (list N * list N); se_sender : N; se_hash : N; se_succeeded : bool }.

(** What the pallet tells the pallets behind [BridgeInterfaceNotification]. *)
Inductive notice :=
| NResult (tx_id : N) (caller : list N) (succeeded : bool)
| NProof (lower_id : N) (caller : list N) (ok : bool).
Inductive event :=
| PublishToEthereum (r : send_req)
| LowerProofRequested (r : lower_req)
| ActiveRequestRetried (r : send_req)
| ActiveRequestRemoved (id : N)
| OffenceReported (reporter : N) (offenders : list N) (on_success : bool)
| EthTxIdUpdated (id : N) | EthTxLifetimeUpdated (n : N).

(** What is not part of the pallet: the two EIP-712 message hashes (primitives/avn-common/src/eth/mod.rs
    [create_function_confirmation_hash], [create_lower_proof_hash]; they can fail), ECDSA recovery of a
    public key, UTF-8 validity of a function name, and the answer of the notified pallet
    ([c_handler_ok tx_id succeeded], the result of [process_result]).
    The notified pallets never call back into the bridge while being notified
    (checked in validators-manager, authors-manager, summary, parachain-staking, token-manager,
    nft-manager). *)
Record config := mkConfig {
  c_max_queue : N;
  c_hash_send : list N -> list (list N * list N) -> N -> option N;
  c_hash_lower : list N -> N -> option N;
  c_recover : N -> N -> option N;     (* signature, message hash *)
  c_utf8 : list N -> bool;
  c_min_confirmation : N }.

Record st := mkSt {
  s_next : N;                       (* NextTxId *)
  s_life : N;                       (* EthTxLifetimeSecs *)
  s_queue : list request;           (* RequestQueue; [None] and the empty queue are the same *)
  s_active : option active;         (* ActiveRequest *)
  s_settled : gmap N settled_tx;    (* SettledTransactions *)
  s_instance : N;                   (* Instance *)
  s_vs : list validator;            (* avn validators *)
  s_index : N;                      (* avn primary validator index *)
  s_keys : gmap N N;                (* EthereumPublicKeyChecker: public key -> account *)
  s_handler : N -> bool -> bool;    (* answers of process_result *)
  s_block : N; s_time : N;
  s_notices : list notice;          (* newest first *)
  s_events : list event }.          (* newest first *)
#[export] Instance etaSt : Settable _ :=
  settable! mkSt <s_next; s_life; s_queue; s_active; s_settled; s_instance; s_vs; s_index; s_keys; s_handler; s_block; s_time; s_notices; s_events>.

Definition emit (e : event) : M st unit := modify (fun s => s <| s_events := e :: s_events s |>).
Definition notify (n : notice) : M st unit := modify (fun s => s <| s_notices := n :: s_notices s |>).

(** lib.rs:134-141 limits. *)
Definition CONFIRMATIONS_LIMIT : N := 100.
Definition FUNCTION_LIMIT : N := 32.
Definition CALLER_LIMIT : N := 50.
Definition PARAMS_LIMIT : N := 5.
Definition TYPE_LIMIT : N := 7.
Definition VALUE_LIMIT : N := 130.
Definition len {A} (l : list A) : N := N.of_nat (length l).

(** [u64::to_string().into_bytes()]. *)
Definition dec_bytes (n : N) : list N := ascii_bytes (DecimalString.NilZero.string_of_uint (N.to_uint n)).
(** primitives/avn-common/src/lib.rs [UINT256], [UINT32]. *)
Definition UINT256 : list N := ascii_bytes "uint256".
Definition UINT32 : list N := ascii_bytes "uint32".

(** util.rs:35-54 [bound_params]: each pair is checked in order, then their number. *)
Fixpoint bound_each (ps : list (list N * list N)) : res unit :=
  match ps with
  | [] => Ok tt
  | (t, v) :: r =>
      if negb (len t <=? TYPE_LIMIT) then Err "TypeNameLengthExceeded"
      else if negb (len v <=? VALUE_LIMIT) then Err "ValueLengthExceeded"
      else bound_each r
  end.
Definition bound_params (ps : list (list N * list N)) : res unit :=
  match bound_each ps with
  | Err e => Err e
  | Ok _ => if len ps <=? PARAMS_LIMIT then Ok tt else Err "ParamsLimitExceeded"
  end.
(** types.rs:69-81 [extend_params]. *)
Definition extended (r : send_req) (expiry : N) : list (list N * list N) :=
  sr_params r ++ [(UINT256, dec_bytes expiry); (UINT32, dec_bytes (sr_id r))].

(** tx.rs:144-152 [assign_sender]. *)
Definition assign_sender : M st N :=
  s <-- get_st ;;
  match advance_primary (s_vs s) (s_index s) with
  | Ok (i, a) => modify (fun s => s <| s_index := i |>) ;;; mret_ a
  | Err e => fail "ErrorAssigningSender"
  end.

(** tx.rs:79-123 [set_up_active_tx].  The u64 sum wraps in release builds. *)
Definition set_up_active_tx (c : config) (r : send_req) (replay : option N) : M st unit :=
  s <-- get_st ;;
  let expiry := (s_time s + s_life s) mod 2 ^ 64 in
  let ps := extended r expiry in
  lift_res (bound_params ps) ;;;
  h <-- some_or (c_hash_send c (sr_fn r) ps (s_instance s)) "MsgHashError" ;;
  sender <-- assign_sender ;;
  modify (fun s => s <| s_active := Some (mkActive (RSend r) h []
     (Some (mkTx ps sender expiry 0 [] [] [] [] (default 0 replay))) (s_block s)) |>).

(** request.rs:123-138 [set_up_active_lower_proof]. *)
Definition set_up_active_lower_proof (c : config) (r : lower_req) : M st unit :=
  s <-- get_st ;;
  h <-- some_or (c_hash_lower c (lr_params r) (s_instance s)) "LowerParamsError" ;;
  modify (fun s => s <| s_active := Some (mkActive (RLower r) h [] None (s_block s)) |>).

(** request.rs:140-155 [queue_request]. *)
Definition queue_request (c : config) (r : request) : M st unit :=
  q <-- gets s_queue ;;
  ensure (len q <? c_max_queue c) "TxRequestQueueFull" ;;;
  modify (fun s => s <| s_queue := s_queue s ++ [r] |>).

(** tx.rs:138-142 [use_next_tx_id]; u32, wraps in release builds. *)
Definition use_next_tx_id : M st N :=
  i <-- gets s_next ;; modify (fun s => s <| s_next := (i + 1) mod 2 ^ 32 |>) ;;; mret_ i.

(** request.rs:7-37 [add_new_send_request]. *)
Definition add_new_send_request (c : config) (fn : list N) (ps : list (list N * list N)) (caller : list N) : M st send_req :=
  ensure (c_utf8 c fn) "FunctionNameError" ;;;
  ensure (negb (len fn =? 0)) "EmptyFunctionName" ;;;
  id <-- use_next_tx_id ;;
  ensure (len fn <=? FUNCTION_LIMIT) "ExceedsFunctionNameLimit" ;;;
  lift_res (bound_params ps) ;;;
  ensure (len caller <=? CALLER_LIMIT) "CallerIdLengthExceeded" ;;;
  let r := mkSend id fn ps caller in
  a <-- gets s_active ;;
  match a with
  | Some _ => queue_request c (RSend r)
  | None => set_up_active_tx c r None
  end ;;;
  mret_ r.
(** lib.rs:1183-1198 [BridgeInterface::publish]. *)
Definition publish (c : config) (fn : list N) (ps : list (list N * list N)) (caller : list N) : M st N :=
  r <-- add_new_send_request c fn ps caller ;;
  emit (PublishToEthereum r) ;;; mret_ (sr_id r).

(** request.rs:39-58 [add_new_lower_proof_request], lib.rs:1200-1216 [generate_lower_proof]. *)
Definition generate_lower_proof (c : config) (id : N) (params caller : list N) : M st unit :=
  ensure (len caller <=? CALLER_LIMIT) "CallerIdLengthExceeded" ;;;
  let r := mkLower id params caller in
  a <-- gets s_active ;;
  match a with
  | Some _ => queue_request c (RLower r)
  | None => set_up_active_lower_proof c r
  end ;;;
  emit (LowerProofRequested r).

(** Run ignoring the result but keeping the writes ([let _ = ...] or [if let Err(e)]). *)
Definition attempt {A} (m : M st A) : M st bool := fun s => let '(s', r) := m s in (s', Ok (is_ok r)).

Definition failure_notice (r : request) : notice :=
  match r with RSend q => NResult (sr_id q) (sr_caller q) false | RLower q => NProof (lr_id q) (lr_caller q) false end.
Definition set_up (c : config) (r : request) : M st unit :=
  match r with RSend q => set_up_active_tx c q None | RLower q => set_up_active_lower_proof c q end.
(** request.rs:60-92 [process_next_request] with [dequeue_request] (157-173): take requests from the
    front of the queue until one can be set up; the pallet of each one that cannot is told.  The
    recursion is over the queue. *)
Fixpoint serve (c : config) (q : list request) : M st unit :=
  match q with
  | [] => modify (fun s => s <| s_queue := [] |>)
  | r :: rest =>
      modify (fun s => s <| s_queue := rest |>) ;;;
      ok <-- attempt (set_up c r) ;;
      if ok : bool then mret_ tt
      else notify (failure_notice r) ;;;
           modify (fun s => s <| s_active := None |>) ;;;
           serve c rest
  end.
Definition process_next_request (c : config) : M st unit :=
  modify (fun s => s <| s_active := None |>) ;;;
  q <-- gets s_queue ;; serve c q.

(** util.rs:10-28 and avn [QuorumPolicy]; the u32 subtraction wraps in release builds. *)
Definition has_enough_corroborations (s : st) (n : N) : bool :=
  quorum_for ((len (s_vs s) + 2 ^ 32 - 1) mod 2 ^ 32) <=? n.
(** request.rs:94-103 [has_enough_confirmations]. *)
Definition has_enough_confirmations (s : st) (a : active) : bool :=
  match ac_req a with
  | RSend _ => avn_quorum (s_vs s) <=? len (ac_confirmations a) + 1
  | RLower _ => avn_supermajority (s_vs s) <=? len (ac_confirmations a)
  end.
(** types.rs:22-28 [id_matches], tx.rs:6-8 [is_active_request]. *)
Definition id_matches (r : request) (id : N) : bool :=
  match r with RSend q => sr_id q =? id | RLower q => lr_id q =? id end.

(** eth.rs:29-73 [verify_signature], [eth_signature_is_valid]. *)
Definition eth_signature_is_valid (c : config) (s : st) (msg : N) (account sig : N) : bool :=
  is_validator (s_vs s) account &&
  match c_recover c sig msg with
  | Some key => match s_keys s !! key with Some a => a =? account | None => false end
  | None => false
  end.

(** lib.rs:821-826 [save_active_request_to_storage]. *)
Definition save_active (a : active) : M st unit :=
  modify (fun s => s <| s_active := Some (a <| ac_updated := s_block s |>) |>).

(** request.rs:105-121 [complete_lower_proof_request]: the answer of the notified pallet is only logged. *)
Definition complete_lower_proof_request (c : config) (r : lower_req) : M st unit :=
  notify (NProof (lr_id r) (lr_caller r) true) ;;; process_next_request c.

(** lib.rs:411-465 [add_confirmation]. *)
Definition add_confirmation (c : config) (id sig account : N) : M st unit :=
  s <-- get_st ;;
  match s_active s with
  | Some a =>
    if id_matches (ac_req a) id then
      if has_enough_confirmations s a then mret_ tt else
      if (match ac_req a, ac_tx a with RSend _, Some t => account =? tx_sender t | _, _ => false end) then mret_ tt else
      ensure (eth_signature_is_valid c s (ac_msg a) account sig) "InvalidECDSASignature" ;;;
      ensure (negb (memN sig (ac_confirmations a))) "DuplicateConfirmation" ;;;
      ensure (len (ac_confirmations a) <? CONFIRMATIONS_LIMIT) "ExceedsConfirmationLimit" ;;;
      let a' := a <| ac_confirmations := ac_confirmations a ++ [sig] |> in
      match ac_req a with
      | RLower r => if has_enough_confirmations s a' then complete_lower_proof_request c r else save_active a'
      | RSend _ => save_active a'
      end
    else mret_ tt
  | None => mret_ tt
  end.

(** lib.rs:467-502 [add_eth_tx_hash]. *)
Definition add_eth_tx_hash (id hash account : N) : M st unit :=
  s <-- get_st ;;
  match s_active s with
  | Some a =>
    if id_matches (ac_req a) id then
      match ac_tx a with
      | Some t =>
          ensure (tx_hash t =? 0) "EthTxHashAlreadySet" ;;;
          ensure (tx_sender t =? account) "EthTxHashMustBeSetBySender" ;;;
          save_active (a <| ac_tx := Some (t <| tx_hash := hash |>) |>)
      | None => mret_ tt
      end
    else mret_ tt
  | None => mret_ tt
  end.

(** offence.rs:63-95 [create_and_report_bridge_offence]; identification of the offenders and the
    is-known check are not modelled. *)
Definition report_offence (reporter : N) (offenders : list N) (on_success : bool) : M st unit :=
  emit (OffenceReported reporter offenders on_success).

(** tx.rs:10-62 [complete_transaction]. *)
Definition complete_transaction (c : config) (r : send_req) (t : tx_data) (success : bool) : M st unit :=
  s <-- get_st ;;
  notify (NResult (sr_id r) (sr_caller r) success) ;;;
  ensure (s_handler s (sr_id r) success) "HandlePublishingResultFailed" ;;;
  (if success then (if len (tx_failure t) =? 0 then mret_ tt else report_offence (tx_sender t) (tx_failure t) true)
   else (if len (tx_success t) =? 0 then mret_ tt else report_offence (tx_sender t) (tx_success t) false)) ;;;
  let h := if success && has_enough_corroborations s (len (tx_invalid_hash t)) then 0 else tx_hash t in
  modify (fun s => s <| s_settled := <[sr_id r := mkSettled (sr_fn r) (tx_params t) (tx_sender t) h success]> (s_settled s) |>) ;;;
  process_next_request c.

(** tx.rs:125-136 [replay_send_request]; the attempt counter is a u16 and saturates. *)
Definition replay_send_request (c : config) (r : send_req) (t : tx_data) : M st unit :=
  emit (ActiveRequestRetried r) ;;;
  set_up_active_tx c r (Some (saturating_add 65535 (tx_attempt t) 1)).

(** tx.rs:64-77 [finalize_state]. *)
Definition finalize_state (c : config) (r : send_req) (t : tx_data) (success : bool) : M st unit :=
  s <-- get_st ;;
  if negb success && has_enough_corroborations s (len (tx_invalid_hash t)) then replay_send_request c r t
  else complete_transaction c r t success.

(** util.rs:30-33 [requires_corroboration]. *)
Definition requires_corroboration (t : tx_data) (account : N) : bool :=
  negb (memN account (tx_success t)) && negb (memN account (tx_failure t)).

(** lib.rs:504-571 [add_corroboration]. *)
Definition add_corroboration (c : config) (id : N) (succeeded hash_valid : bool) (account attempt : N) : M st unit :=
  s <-- get_st ;;
  match s_active s with
  | Some a =>
    if id_matches (ac_req a) id then
      match ac_tx a with
      | Some t =>
          ensure (attempt =? tx_attempt t) "InvalidCorroborationData" ;;;
          ensure (negb (account =? tx_sender t)) "CannotCorroborateOwnTransaction" ;;;
          if negb (requires_corroboration t account) then mret_ tt else
          ensure (len (if hash_valid then tx_valid_hash t else tx_invalid_hash t) <? CONFIRMATIONS_LIMIT) "ExceedsCorroborationLimit" ;;;
          let t1 := if hash_valid then t <| tx_valid_hash := tx_valid_hash t ++ [account] |>
                    else t <| tx_invalid_hash := tx_invalid_hash t ++ [account] |> in
          ensure (len (if succeeded then tx_success t else tx_failure t) <? CONFIRMATIONS_LIMIT) "ExceedsCorroborationLimit" ;;;
          let t2 := if succeeded then t1 <| tx_success := tx_success t ++ [account] |>
                    else t1 <| tx_failure := tx_failure t ++ [account] |> in
          let matching := if succeeded then tx_success t2 else tx_failure t2 in
          if has_enough_corroborations s (len matching) then
            match ac_req a with
            | RSend r => finalize_state c r t2 succeeded
            | RLower _ => fail "InvalidSendRequest"
            end
          else save_active (a <| ac_tx := Some t2 |>)
      | None => mret_ tt
      end
    else mret_ tt
  | None => mret_ tt
  end.

(** lib.rs:1355-1382 [remove_active_request_impl]. *)
Definition request_id (r : request) : N := match r with RSend q => sr_id q | RLower q => lr_id q end.
Definition remove_active_request (c : config) : M st unit :=
  a <-- gets s_active ;;
  match a with
  | None => fail "NoActiveRequest"
  | Some a => notify (failure_notice (ac_req a)) ;;; process_next_request c ;;; emit (ActiveRequestRemoved (request_id (ac_req a)))
  end.
(** lib.rs:767-779 [SetEthBridgeInstance] (0 stands for an invalid instance). *)
Definition set_instance (c : config) (inst : N) : M st unit :=
  ensure (negb (inst =? 0)) "InvalidInstance" ;;;
  modify (fun s => s <| s_instance := inst |>) ;;;
  a <-- gets s_active ;;
  match a with
  | Some a => match ac_req a with RSend r => set_up_active_tx c r None | RLower _ => mret_ tt end
  | None => mret_ tt
  end.

(** What a validator signs when submitting a call (lib.rs:1070-1122). *)
Inductive payload :=
| PConfirm (inst id sig account : N)
| PHash (inst id hash account : N)
| PCorroborate (inst id : N) (succeeded hash_valid : bool) (account attempt : N).

Inductive op :=
| OpPublish (rolled_back : bool) (fn : list N) (ps : list (list N * list N)) (caller : list N)
| OpLowerProof (rolled_back : bool) (id : N) (params caller : list N)
| OpConfirm (id conf : N) (author : validator) (sig : N)
| OpEthTxHash (id hash : N) (author : validator) (sig : N)
| OpCorroborate (id : N) (succeeded hash_valid : bool) (author : validator) (attempt sig : N)
| OpSetLifetime (n : N) | OpSetTxId (n : N) | OpRemoveActive | OpSetInstance (n : N)    (* root *)
| EnvBlock (n time : N) | EnvValidators (vs : list validator) | EnvIndex (i : N)
| EnvKeys (k : gmap N N) | EnvHandler (h : N -> bool -> bool).

(** lib.rs:1062-1125 [validate_unsigned]; [verify key payload sig] is the check of the session-key
    signature.  FRAME applies it again just before dispatching. *)
Definition signed_payload (s : st) (o : op) : option (payload * validator * N) :=
  match o with
  | OpConfirm id conf v sig => Some (PConfirm (s_instance s) id conf (v_account v), v, sig)
  | OpEthTxHash id hash v sig => Some (PHash (s_instance s) id hash (v_account v), v, sig)
  | OpCorroborate id su hv v attempt sig => Some (PCorroborate (s_instance s) id su hv (v_account v) attempt, v, sig)
  | _ => None
  end.
Definition valid (verify : N -> payload -> N -> bool) (s : st) (o : op) : bool :=
  match signed_payload s o with
  | Some (p, v, sig) => is_validator (s_vs s) (v_account v) && verify (v_key v) p sig
  | None => true
  end.

(** A call from another pallet whose storage layer rolls back on error, or does not (a hook). *)
Definition maybe_dispatch {A} (rb : bool) (m : M st A) : M st unit :=
  fun s => let '(s', r) := (if rb then dispatch m else m) s in (s', Ok tt).

Definition exec (c : config) (o : op) : M st unit :=
  match o with
  | OpPublish rb fn ps caller => maybe_dispatch rb (publish c fn ps caller)
  | OpLowerProof rb id params caller => maybe_dispatch rb (generate_lower_proof c id params caller)
  | OpConfirm id conf v _ => dispatch (add_confirmation c id conf (v_account v))
  | OpEthTxHash id hash v _ => dispatch (add_eth_tx_hash id hash (v_account v))
  | OpCorroborate id su hv v attempt _ => dispatch (add_corroboration c id su hv (v_account v) attempt)
  | OpSetLifetime n => modify (fun s => s <| s_life := n |>) ;;; emit (EthTxLifetimeUpdated n)
  | OpSetTxId n => modify (fun s => s <| s_next := n |>) ;;; emit (EthTxIdUpdated n)
  | OpRemoveActive => dispatch (remove_active_request c)
  | OpSetInstance n => dispatch (set_instance c n)
  | EnvBlock n t => modify (fun s => s <| s_block := s_block s + n |> <| s_time := t mod 2 ^ 64 |>)
  | EnvValidators vs => modify (fun s => s <| s_vs := vs |>)
  | EnvIndex i => modify (fun s => s <| s_index := i |>)
  | EnvKeys k => modify (fun s => s <| s_keys := k |>)
  | EnvHandler h => modify (fun s => s <| s_handler := h |>)
  end.
Definition step (c : config) (verify : N -> payload -> N -> bool) (s : st) (o : op) : st :=
  if valid verify s o then fst (exec c o s) else s.
Definition run (c : config) (verify : N -> payload -> N -> bool) (s : st) (ops : list op) : st :=
  fold_left (step c verify) ops s.

(** lib.rs:321-335 genesis. *)
Definition genesis (next life inst : N) (vs : list validator) : st :=
  mkSt next life [] None ∅ inst vs 0 ∅ (fun _ _ => true) 0 0 [] [].

(** ** The off-chain worker: lib.rs:850-950 [process_active_request], [process_active_tx_request].
    What an honest author does in one run: [signs msg] is its signature on the message hash,
    [sent_hash] the outcome of sending, [corroborated] the outcome of querying Ethereum
    ([eth::corroborate]), [locked] whether the send lock is already held. *)
Inductive ocw_action :=
| Nothing
| SubmitConfirmation (id conf : N)
| SendAndSubmitHash (id hash : N)
| SubmitCorroboration (id : N) (succeeded hash_valid : bool) (attempt : N).
Definition ocw (s : st) (me finalised : N) (signs : N -> N) (sent_hash : N) (locked : bool)
    (corroborated : option (bool * bool)) : ocw_action :=
  match s_active s with
  | None => Nothing
  | Some a =>
    if finalised <? ac_updated a then Nothing else
    let enough := has_enough_confirmations s a in
    match ac_req a with
    | RLower r =>
        if enough then Nothing
        else if memN (signs (ac_msg a)) (ac_confirmations a) then Nothing
        else SubmitConfirmation (lr_id r) (signs (ac_msg a))
    | RSend r =>
      match ac_tx a with
      | None => Nothing
      | Some t =>
        let is_sender := me =? tx_sender t in
        if negb is_sender && negb enough then
          if memN (signs (ac_msg a)) (ac_confirmations a) then Nothing
          else SubmitConfirmation (sr_id r) (signs (ac_msg a))
        else
          let sent := negb (tx_hash t =? 0) in
          let expired := tx_expiry t <? s_time s in
          if is_sender && enough && negb sent then
            (if locked then Nothing else SendAndSubmitHash (sr_id r) sent_hash)
          else if negb is_sender && (sent || expired) then
            if requires_corroboration t me then
              match corroborated with
              | Some (su, hv) => SubmitCorroboration (sr_id r) su hv (tx_attempt t)
              | None => Nothing
              end
            else Nothing
          else Nothing
      end
    end
  end.
