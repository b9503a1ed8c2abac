(** Texts and encodings exchanged over HTTP between the runtime's off-chain workers and the node's service. *)
From Verif Require Import Base CodecModel.

(** The hex crate: [decode] accepts both cases and refuses odd lengths and other characters; [encode] writes lower case. *)
Definition hex_digit (b : N) : option N :=
  if (48 <=? b) && (b <=? 57) then Some (b - 48)
  else if (97 <=? b) && (b <=? 102) then Some (b - 87)
  else if (65 <=? b) && (b <=? 70) then Some (b - 55) else None.
Fixpoint hex_decode (l : list N) : option (list N) :=
  match l with
  | [] => Some []
  | [_] => None
  | h :: o :: r =>
    match hex_digit h, hex_digit o, hex_decode r with
    | Some a, Some b, Some r' => Some (a * 16 + b :: r')
    | _, _, _ => None
    end
  end.
Definition hex_char (d : N) : N := if d <? 10 then d + 48 else d + 87.
Definition hex_encode (l : list N) : list N := flat_map (fun b => [hex_char (b / 16); hex_char (b mod 16)]) l.

(** [str::trim], for the ASCII text of a header. *)
Definition is_space (b : N) : bool := ((9 <=? b) && (b <=? 13)) || (b =? 32).
Fixpoint trim_start (l : list N) : list N := match l with b :: r => if is_space b then trim_start r else l | [] => [] end.
Definition trim (l : list N) : list N := rev (trim_start (rev (trim_start l))).

(** parity-scale-codec: [Input::read] of [k] bytes. *)
Definition read (k : nat) (l : list N) : option (list N * list N) :=
  if Nat.leb k (length l) then Some (take k l, drop k l) else None.
Fixpoint le_value (l : list N) : N := match l with [] => 0 | b :: r => b + 256 * le_value r end.
(** compact.rs: a compact u32; encodings that are longer than needed are refused. *)
Definition read_compact (l : list N) : option (N * list N) :=
  match l with
  | [] => None
  | b :: r =>
    if b mod 4 =? 0 then Some (b / 4, r)
    else if b mod 4 =? 1 then
      match read 2 l with Some (x, r) => let v := le_value x / 4 in if 2 ^ 6 <=? v then Some (v, r) else None | None => None end
    else if b mod 4 =? 2 then
      match read 4 l with Some (x, r) => let v := le_value x / 4 in if 2 ^ 14 <=? v then Some (v, r) else None | None => None end
    else if b / 4 =? 0 then
      match read 4 r with Some (x, r) => let v := le_value x in if 2 ^ 30 <=? v then Some (v, r) else None | None => None end
    else None
  end.
(** [Vec<u8>::decode]. *)
Definition read_vec (l : list N) : option (list N * list N) :=
  match read_compact l with Some (n, r) => read (N.to_nat n) r | None => None end.
(** [Option<u32>::decode] and [encode]. *)
Definition read_opt_u32 (l : list N) : option (option N * list N) :=
  match l with
  | [] => None
  | b :: r => if b =? 0 then Some (None, r)
              else if b =? 1 then match read 4 r with Some (x, r) => Some (Some (le_value x), r) | None => None end
              else None
  end.
Definition opt_u32 (o : option N) : list N := match o with None => [0] | Some v => 1 :: le_bytes 4 v end.

(** primitives/avn-common/src/lib.rs:82-100 [EthTransaction]; [from] and [to] as numbers. *)
Record eth_tx := mkTx { tx_from : N; tx_to : N; tx_data : list N; tx_block : option N }.
#[export] Instance eth_tx_eq : EqDecision eth_tx. Proof. solve_decision. Defined.
Definition encode_tx (t : eth_tx) : list N :=
  be_bytes 32 (tx_from t) ++ be_bytes 20 (tx_to t) ++ scale_bytes (tx_data t) ++ opt_u32 (tx_block t).
(** [EthTransaction::decode]: bytes that follow the value are ignored. *)
Definition decode_tx (l : list N) : option eth_tx :=
  match read 32 l with
  | None => None
  | Some (f, l) =>
    match read 20 l with
    | None => None
    | Some (t, l) =>
      match read_vec l with
      | None => None
      | Some (d, l) => match read_opt_u32 l with Some (b, _) => Some (mkTx (be_value f) (be_value t) d b) | None => None end
      end
    end
  end.
(** lib.rs:372-388 [EthQueryRequest] and [EthQueryResponseType]. *)
Inductive query_kind := CallData | TransactionReceipt.
#[export] Instance query_kind_eq : EqDecision query_kind. Proof. solve_decision. Defined.
Definition encode_query (h : N) (k : query_kind) : list N := be_bytes 32 h ++ [match k with CallData => 0 | TransactionReceipt => 1 end].
Definition decode_query (l : list N) : option (N * query_kind) :=
  match read 32 l with
  | Some (h, b :: _) => if b =? 0 then Some (be_value h, CallData) else if b =? 1 then Some (be_value h, TransactionReceipt) else None
  | _ => None
  end.
(** lib.rs:396-400 [EthQueryResponse]. *)
Definition encode_response (data : list N) (confirmations : N) : list N := scale_bytes data ++ le_bytes 8 confirmations.
Definition decode_response (l : list N) : option (list N * N) :=
  match read_vec l with
  | Some (d, l) => match read 8 l with Some (n, _) => Some (d, le_value n) | None => None end
  | None => None
  end.

(** What a token covers: pallets/eth-bridge/src/eth.rs:290-295 (the worker) and client/external-service/src/lib.rs:244 (the
    service): [(from, to, data).encode()]. *)
Definition proof_data (from to : N) (data : list N) : list N := be_bytes 32 from ++ be_bytes 20 to ++ scale_bytes data.
