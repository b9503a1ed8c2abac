(** Model of the node's service for the runtime, client/external-service/src/{lib,keystore_utils,web3_utils}.rs (line numbers are of
    lib.rs unless another file is named): the endpoints that sign with the node's Ethereum key and send transactions.

    The service runs beside the chain and talks to one Ethereum node.  Requests arrive and answers of Ethereum come back in any
    order; a request that needs web3 takes a lock for its whole duration and is refused when the lock is taken.  One [event] is an
    arrival, an answer of Ethereum to the request that holds the lock, or a restart of the process.
    Left out: logging and timers; the HTTP layer itself; the two endpoints that only read the chain (roothash: MerkleModel;
    latest_finalised_block).  The connection to Ethereum is set up before the service listens (375-377). *)
From Verif Require Import Base CodecModel HttpModel.

(** 40. *)
Definition MAX_BODY_SIZE : N := 100000.
(** primitives/avn-common/src/lib.rs:50 [ETHEREUM_SIGNING_KEY]. *)
Definition ETHK : list N := ascii_bytes "ethk".

(** The node's keys: the sr25519 public keys of type avnk, and the files of the keystore directory: name, and the JSON string the
    file holds (if it holds one).  Fixed while the process runs. *)
Record keystore := mkKeys { ks_avn : list N; ks_files : list (list N * option (list N)) }.
(** Cryptography, as oracles: sr25519 verification, which 32 bytes are a secp256k1 secret key, and ECDSA signing. *)
Record crypto := mkCrypto { cr_verify : N -> list N -> list N -> bool; cr_valid_key : list N -> bool; cr_sign : list N -> list N -> list N }.

(** The outcome of a computation that may return an error or panic. *)
Inductive outcome (A : Type) := Gives (a : A) | Refuses (e : string) | Panics.
#[global] Arguments Gives {A} a. #[global] Arguments Refuses {A} e%string. #[global] Arguments Panics {A}.
Definition obind {A B} (o : outcome A) (k : A -> outcome B) : outcome B :=
  match o with Gives a => k a | Refuses e => Refuses e | Panics => Panics end.
Notation "'try!' x := o 'in' k" := (obind o (fun x => k)) (at level 200, x pattern, o at level 100, k at level 200).
Definition or_refuse {A} (o : option A) (e : string) : outcome A := match o with Some a => Gives a | None => Refuses e end.

(** keystore_utils.rs:58-86 [raw_public_keys], for the type of the Ethereum key. *)
Definition file_key (name : list N) : option (list N) :=
  match hex_decode name with
  | Some h => if Nat.ltb 4 (length h) && bool_decide (take 4 h = ETHK) then Some (drop 4 h) else None
  | None => None
  end.
Definition eth_addresses (k : keystore) : list (list N) := omap (fun f => file_key f.1) (ks_files k).
(** keystore_utils.rs:13-34 [get_eth_address_bytes_from_keystore]. *)
Definition eth_address (k : keystore) : outcome (list N) :=
  match eth_addresses k with [a] => Gives a | [] => Refuses "No keys found" | _ => Refuses "Multiple keys found" end.
(** keystore_utils.rs:83-105 [key_phrase_by_type]. *)
Definition key_phrase (k : keystore) (a : list N) : option (list N) :=
  match List.find (fun f => bool_decide (f.1 = hex_encode (ETHK ++ a))) (ks_files k) with Some f => f.2 | None => None end.
(** keystore_utils.rs:36-54 [get_priv_key]; the slice of 32 bytes panics on a shorter key. *)
Definition priv_key (k : keystore) (a : list N) : outcome (list N) :=
  try! phrase := or_refuse (key_phrase k a) "Error getting private key" in
  try! b := or_refuse (hex_decode phrase) "Error decoding private key" in
  if Nat.leb 32 (length b) then Gives (take 32 b) else Panics.

(** keystore_utils.rs:107-122 [authenticate_token]. *)
Definition authenticated (cr : crypto) (k : keystore) (msg token : list N) : bool :=
  existsb (fun key => cr_verify cr key msg token) (ks_avn k).
(** 505-530 [validate_authorisation_token]; http_data_codec/mod.rs:18-31 [decode_from_http_data] of a 64 byte signature. *)
Definition token_of (header : list N) : option (list N) :=
  match hex_decode (trim header) with Some b => match read 64 b with Some (t, _) => Some t | None => None end | None => None end.
Definition validate_token (cr : crypto) (k : keystore) (header : option (list N)) (msg : list N) : outcome unit :=
  try! h := or_refuse header "Missing X-Auth token" in
  try! t := or_refuse (token_of h) "Error decoding X-Auth token" in
  if authenticated cr k msg t then Gives tt else Refuses "X-Auth token verification failed".

(** 491-503 [sign_digest_from_keystore]. *)
Definition sign_digest (cr : crypto) (k : keystore) (digest : list N) : outcome (list N) :=
  try! a := eth_address k in
  try! p := priv_key k a in
  if cr_valid_key cr p then Gives (hex_encode (cr_sign cr p digest)) else Refuses "invalid secret key".
(** 388-412, the endpoint /eth/sign_hashed_data; [H256::from_slice] panics unless there are 32 bytes. *)
Definition sign_request (cr : crypto) (k : keystore) (body : list N) (header : option (list N)) : outcome (list N) :=
  if MAX_BODY_SIZE <? N.of_nat (length body) then Refuses "Request body too large" else
  try! msg := or_refuse (hex_decode body) "Error decoding signing message" in
  if negb (Nat.eqb (length msg) 32) then Panics else
  try! _ := validate_token cr k header msg in
  sign_digest cr k msg.
(** 228-245, the first part of [send_main]. *)
Definition admit_send (cr : crypto) (k : keystore) (body : list N) (header : option (list N)) : outcome eth_tx :=
  if MAX_BODY_SIZE <? N.of_nat (length body) then Refuses "Request body too large" else
  try! t := or_refuse (decode_tx body) "Error decoding eth transaction data" in
  try! _ := validate_token cr k header (proof_data (tx_from t) (tx_to t) (tx_data t)) in
  Gives t.
(** 292-304, the first part of [view_main]. *)
Definition admit_view (body : list N) : outcome eth_tx :=
  if MAX_BODY_SIZE <? N.of_nat (length body) then Refuses "Request body too large" else
  or_refuse (decode_tx body) "Error decoding eth transaction data".
(** 329-346, the first part of [tx_query_main]. *)
Definition admit_query (body : list N) : outcome (N * query_kind) :=
  try! t := admit_view body in
  or_refuse (decode_query (tx_data t)) "Error decoding query request data".

(** What the request holding the lock waits for. *)
Inductive phase :=
| AskingNonce                    (* web3_utils.rs:29-52 [get_nonce], when no nonce is stored: eth_getTransactionCount *)
| Preparing (again : bool)       (* web3_utils.rs:88-111 [build_raw_transaction]: gas, chain id; then the fees, and signing *)
| Submitting (again : bool)      (* web3_utils.rs:180-190 [send_raw_transaction] *)
| Refreshing.                    (* 266-269: the nonce is asked for again *)
Inductive job :=
| Sending (id : N) (t : eth_tx) (addr key : list N) (p : phase)
| Viewing (id : N) (t : eth_tx)
| QueryBlock (id h : N) (kind : query_kind)
| QueryData (id h : N) (kind : query_kind) (current : N).
(** 143-156 [error_due_to_low_nonce] tells the first class of errors from the others. *)
Inductive failure := NonceTooLow | OtherError.
(** Answers of Ethereum.  [AcceptLost]: the transaction was taken, but the answer was lost (the service sees an error). *)
Inductive says :=
| Count (c : N) | Prepared | Accept (hash : N) | AcceptLost | Fail (e : failure)
| CallResult (r : list N) | Block (n : N) | Data (d : option (list N * option N)).
Inductive request := Sign (body : list N) (header : option (list N)) | Send (body : list N) (header : option (list N)) | View (body : list N) | Query (body : list N).
Inductive event := Arrive (id : N) (r : request) | EthSays (a : says) | Restart.
(** A transaction signed by the service; [su_from] is the address of the key. *)
Record submission := mkSub { su_id : N; su_nonce : N; su_from : list N; su_to : N; su_data : list N }.
#[export] Instance submission_eq : EqDecision submission. Proof. solve_decision. Defined.
(** Observable effects: responses, transactions signed and handed to Ethereum, and those Ethereum took (newest first); calls made
    for view requests (contract and data: 311-320, the block of the request is not used).
    [sv_crashed]: the process has ended (a panic ends a node: sp_panic_handler). *)
Inductive response := Answer (text : list N) | Error (e : string).
Record st := mkSt {
  sv_nonce : option N; sv_lock : option job; sv_crashed : bool;
  sv_responses : list (N * response); sv_signed : list submission; sv_pool : list submission; sv_calls : list (N * N * list N) }.
#[export] Instance eta_st : Settable st := settable! mkSt <sv_nonce; sv_lock; sv_crashed; sv_responses; sv_signed; sv_pool; sv_calls>.
(** web3_utils.rs:23-25 [Web3Data::new]. *)
Definition start : st := mkSt None None false [] [] [] [].

Definition U64 : N := 2 ^ 64.
Definition reply (id : N) (r : response) (s : st) : st := s <| sv_responses := (id, r) :: sv_responses s |>.
Definition release (id : N) (r : response) (s : st) : st := reply id r s <| sv_lock := None |>.
Definition settle {A} (id : N) (o : outcome A) (k : A -> st) (s : st) : st :=
  match o with Gives a => k a | Refuses e => reply id (Error e) s | Panics => s <| sv_crashed := true |> end.
(** web3_utils.rs:83 checks the length of the address when it asks for the nonce. *)
Definition begin_send (id : N) (t : eth_tx) (addr key : list N) (s : st) : st :=
  match sv_nonce s with
  | None => if Nat.eqb (length addr) 20 then s <| sv_lock := Some (Sending id t addr key AskingNonce) |>
            else reply id (Error "not a valid Ethereum address") s
  | Some _ => s <| sv_lock := Some (Sending id t addr key (Preparing false)) |>
  end.
(** The four endpoints up to the first question to Ethereum. *)
Definition arrive (cr : crypto) (k : keystore) (s : st) (id : N) (r : request) : st :=
  match r with
  | Sign body header => settle id (sign_request cr k body header) (fun sig => reply id (Answer sig) s) s
  | Send body header =>
    settle id (admit_send cr k body header) (fun t =>
      match sv_lock s with
      | Some _ => reply id (Error "Failed to acquire web3 mutex") s
      | None => settle id (try! a := eth_address k in try! p := priv_key k a in Gives (a, p)) (fun ap => begin_send id t ap.1 ap.2 s) s
      end) s
  | View body =>
    settle id (admit_view body) (fun t =>
      match sv_lock s with
      | Some _ => reply id (Error "Failed to acquire web3 mutex") s
      | None => s <| sv_lock := Some (Viewing id t) |> <| sv_calls := (id, tx_to t, tx_data t) :: sv_calls s |>
      end) s
  | Query body =>
    settle id (admit_query body) (fun q =>
      match sv_lock s with
      | Some _ => reply id (Error "Failed to acquire web3 mutex") s
      | None => s <| sv_lock := Some (QueryBlock id q.1 q.2) |>
      end) s
  end.

(** 257-281: an error of the first attempt because of a low nonce leads to a second attempt; every other error is returned. *)
Definition send_failed (id : N) (t : eth_tx) (addr key : list N) (again : bool) (e : failure) (s : st) : st :=
  match e, again with
  | NonceTooLow, false => s <| sv_lock := Some (Sending id t addr key Refreshing) |>
  | _, _ => release id (Error "Error sending transaction to ethereum") s
  end.
Definition nonce_now (s : st) : N := match sv_nonce s with Some n => n | None => 0 end.
Definition submission_of (id : N) (t : eth_tx) (addr : list N) (s : st) : submission := mkSub id (nonce_now s) addr (tx_to t) (tx_data t).
(** 247-289 [send_main] and 158-171 [send_tx], continued by an answer of Ethereum. *)
Definition on_send (cr : crypto) (id : N) (t : eth_tx) (addr key : list N) (p : phase) (s : st) (a : says) : st :=
  match p, a with
  | AskingNonce, Count c => s <| sv_nonce := Some (c mod U64) |> <| sv_lock := Some (Sending id t addr key (Preparing false)) |>
  | AskingNonce, Fail e => send_failed id t addr key false e s
  | Preparing again, Prepared =>
    if cr_valid_key cr key then
      s <| sv_lock := Some (Sending id t addr key (Submitting again)) |> <| sv_signed := submission_of id t addr s :: sv_signed s |>
    else release id (Error "Error sending transaction to ethereum") s
  | Preparing again, Fail e => send_failed id t addr key again e s
  | Submitting again, Accept h =>
    release id (Answer (hex_encode (be_bytes 32 h)))
      (s <| sv_nonce := Some ((nonce_now s + 1) mod U64) |> <| sv_pool := submission_of id t addr s :: sv_pool s |>)
  | Submitting again, AcceptLost => send_failed id t addr key again OtherError (s <| sv_pool := submission_of id t addr s :: sv_pool s |>)
  | Submitting again, Fail e => send_failed id t addr key again e s
  | Refreshing, Count c => s <| sv_nonce := Some (c mod U64) |> <| sv_lock := Some (Sending id t addr key (Preparing true)) |>
  | Refreshing, Fail _ => release id (Error "Error while getting nonce from Ethereum") s
  | _, _ => s
  end.
(** 129-142 [to_eth_query_response]: subtraction of u64 (it wraps in a release build); no block number counts as 0. *)
Definition confirmations (current : N) (block : option N) : N :=
  (current + U64 - match block with Some b => b | None => 0 end) mod U64.
Definition query_response (data : list N) (current : N) (block : option N) : list N :=
  hex_encode (encode_response (scale_bytes data) (confirmations current block)).
(** 173-199 [get_call_data], 201-226 [get_tx_receipt]; for a receipt [d] holds its JSON text. *)
Definition query_answer (kind : query_kind) (current : N) (d : option (list N * option N)) : list N :=
  match d, kind with
  | Some (x, b), _ => query_response x current b
  | None, CallData => query_response [] current None
  | None, TransactionReceipt => []
  end.
Definition on_answer (cr : crypto) (s : st) (a : says) : st :=
  match sv_lock s with
  | None => s
  | Some (Sending id t addr key p) => on_send cr id t addr key p s a
  | Some (Viewing id t) =>
    match a with
    | CallResult r => release id (Answer (hex_encode r)) s
    | Fail _ => release id (Error "Error calling view method on Ethereum") s
    | _ => s
    end
  | Some (QueryBlock id h kind) =>
    match a with
    | Block n => s <| sv_lock := Some (QueryData id h kind n) |>
    | Fail _ => release id (Error "Error getting block number") s
    | _ => s
    end
  | Some (QueryData id h kind n) =>
    match a with
    | Data d => release id (Answer (query_answer kind n d)) s
    | Fail _ => release id (Error "Error getting tx") s
    | _ => s
    end
  end.

Definition step (cr : crypto) (k : keystore) (s : st) (e : event) : st :=
  match e with
  | Restart => s <| sv_nonce := None |> <| sv_lock := None |> <| sv_crashed := false |>
  | Arrive id r => if sv_crashed s then s else arrive cr k s id r
  | EthSays a => if sv_crashed s then s else on_answer cr s a
  end.
Definition run (cr : crypto) (k : keystore) (s : st) (es : list event) : st := fold_left (step cr k) es s.
