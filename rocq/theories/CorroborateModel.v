(** What an author's worker concludes from the answers of the node's service: pallets/eth-bridge/src/eth.rs (line numbers are of this
    file unless another is named).  The answers arrive as HTTP bodies; [None] is a failed request.  The call data the worker expects
    for a transaction ([generate_send_calldata], ABI encoding) is given. *)
From Verif Require Import Base CodecModel HttpModel ServiceModel.

(** 352-362 [process_corroborate_result]: the last of 32 bytes, as an i8; the bytes 1, 255 and 0 are 1, -1 and 0. *)
Definition corroborate_result (body : list N) : option N :=
  match hex_decode body with Some b => if Nat.eqb (length b) 32 then nth_error b 31 else None | None => None end.
(** 121-138 [check_tx_status]; the call data for the contract's method can always be generated (two decimal numbers). *)
Definition tx_status (view : option (list N)) : res (option bool) :=
  match view with
  | None => Err "CorroborateCallFailed"
  | Some body =>
    match corroborate_result body with
    | None => Err "CorroborateCallFailed"
    | Some r => if r =? 0 then Ok None else if r =? 1 then Ok (Some true) else if r =? 255 then Ok (Some false) else Err "InvalidCorroborateResult"
    end
  end.
(** 364-376 [process_query_result], util.rs:65-84 [try_process_query_result] at [Vec<u8>]. *)
Definition query_result (body : list N) : option (list N * N) :=
  match hex_decode body with
  | None => None
  | Some b =>
    match decode_response b with
    | None => None
    | Some (d, n) => match read_vec d with Some (x, _) => Some (hex_encode x, n) | None => None end
    end
  end.
(** 140-155 [check_tx_hash]; [expected] is the call data, [None] when it cannot be generated. *)
Definition tx_hash_check (hash : N) (expected : option (list N)) (query : option (list N)) : res (bool * option N) :=
  if hash =? 0 then Ok (false, None) else
  match query with
  | None => Err "ErrorGettingEthereumCallData"
  | Some body =>
    match query_result body with
    | None => Err "ErrorGettingEthereumCallData"
    | Some (d, n) => match expected with None => Err "InvalidSendCalldata" | Some x => Ok (bool_decide (hex_encode x = d), Some n) end
    end
  end.
(** 100-119 [corroborate]. *)
Definition corroborate (min_conf hash : N) (expected : option (list N)) (view query : option (list N)) : res (option bool * option bool) :=
  match tx_status view with
  | Err e => Err e
  | Ok None => Ok (None, None)
  | Ok (Some status) =>
    match tx_hash_check hash expected query with
    | Err e => Err e
    | Ok (valid, n) => if valid && (match n with Some n => n | None => 0 end <? min_conf) then Ok (None, None) else Ok (Some status, Some valid)
    end
  end.
(** lib.rs:933-942: what the worker then submits. *)
Definition corroborated (r : res (option bool * option bool)) : option (bool * bool) :=
  match r with
  | Ok (Some status, valid) => Some (status, match valid with Some v => v | None => false end)
  | _ => None
  end.
