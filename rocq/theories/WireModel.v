(** Model of the connection between a node's off-chain workers and its service: pallets/avn/src/lib.rs:380-415, 476-563 (the worker's side; line
    numbers without a file are of this file), client/external-service/src/lib.rs:376-491 (the service's side), node/src/service.rs:288-302, 408.
    What the service does once a request has been routed is ServiceModel.v.
    Left out: the deadline, which shows here as a request that fails; TLS and sockets; logging. *)
From Verif Require Import Base CodecModel HttpModel ServiceModel.
From Verif Require BridgeModel AbiModel SummaryOcwModel.

Definition U32_TOP : N := 2 ^ 32 - 1.
Definition dec_bytes : N -> list N := BridgeModel.dec_bytes.
Definition parse_u32 : list N -> option N := AbiModel.parse_uint U32_TOP.

(** ** The port *)
(** primitives/avn-common/src/lib.rs:58 [DEFAULT_EXTERNAL_SERVICE_PORT_NUMBER]. *)
Definition DEFAULT_PORT : list N := ascii_bytes "2020".
(** node/src/service.rs:291-293 and client/external-service/src/lib.rs:380-385: the text given with --avn-port. *)
Definition node_port (cli : option (list N)) : list N := match cli with Some p => p | None => DEFAULT_PORT end.
(** node/src/service.rs:288-301: with off-chain workers enabled the node writes the text, encoded, to its local store under the key
    avn_port_number; otherwise the store keeps what it held. *)
Definition stored_port (enabled : bool) (cli before : option (list N)) : option (list N) :=
  if enabled then Some (scale_bytes (node_port cli)) else before.
(** 496-525 [get_external_service_port_number], from what the local store holds.  A text that is not UTF-8 is no number either. *)
Definition port_text (stored : option (list N)) : list N :=
  let text := match stored with
              | Some b => match read_vec b with Some (t, _) => t | None => DEFAULT_PORT end
              | None => DEFAULT_PORT end in
  match parse_u32 text with Some _ => text | None => DEFAULT_PORT end.
(** client/external-service/src/lib.rs:379-385: the address the service listens on. *)
Definition listen_address (cli : option (list N)) : list N := ascii_bytes "127.0.0.1:" ++ node_port cli.

(** ** Requests *)
Definition SLASH : N := 47.
Fixpoint strip_slashes (l : list N) : list N := match l with b :: r => if b =? SLASH then strip_slashes r else l | [] => [] end.
(** 534-538, the URL of a request. *)
Definition url (stored : option (list N)) (path : list N) : list N :=
  ascii_bytes "http://127.0.0.1:" ++ port_text stored ++ [SLASH] ++ strip_slashes path.
Inductive verb := GET | POST.
Record http_request := mkHttp { h_verb : verb; h_url : list N; h_body : list N; h_auth : option (list N) }.
(** 380-383 [get_data_from_service]. *)
Definition get_request (stored : option (list N)) (path : list N) : http_request := mkHttp GET (url stored path) [] None.
(** 385-398 [post_data_to_service]; http_data_codec/mod.rs:13-16, 23-26 [encode_to_http_data] of the token. *)
Definition post_request (stored : option (list N)) (path body : list N) (token : option (list N)) : http_request :=
  mkHttp POST (url stored path) body (hex_encode <$> token).

(** What becomes of a request (540-556): it cannot be sent, no response comes in time, or the response has a status and a body. *)
Inductive transfer := NotSent | NoResponse | Response (code : N) (body : list N).
(** 527-563 [invoke_external_service]. *)
Definition received (t : transfer) : option (list N) :=
  match t with Response code body => if code =? 200 then Some body else None | _ => None end.

(** ** The service's routes *)
(** The path of a URL, cut at the slashes; empty pieces at the front are dropped (tide's router). *)
Fixpoint pieces (l : list N) : list (list N) :=
  match l with
  | [] => [[]]
  | b :: r => if b =? SLASH then [] :: pieces r else match pieces r with p :: ps => (b :: p) :: ps | [] => [[b]] end
  end.
(** The endpoints, client/external-service/src/lib.rs:389 (sign), 413 (send), 419 (view), 425 (query), 431 (roothash), 474 (latest_finalised_block). *)
Inductive endpoint := ESign | ESend | EView | EQuery | ERoothash (from to : list N) | EFinalised.
Definition is_text (l : list N) (s : string) : bool := bool_decide (l = ascii_bytes s).
Definition route (v : verb) (path : list N) : option endpoint :=
  match v, pieces (strip_slashes path) with
  | POST, [a; b] =>
      if is_text a "eth" then
        if is_text b "sign_hashed_data" then Some ESign
        else if is_text b "send" then Some ESend
        else if is_text b "view" then Some EView
        else if is_text b "query" then Some EQuery else None
      else None
  | GET, [a; b; c] => if is_text a "roothash" then Some (ERoothash b c) else None
  | GET, [a] => if is_text a "latest_finalised_block" then Some EFinalised else None
  | _, _ => None
  end.

(** ** The service's answers *)
(** The node beside the service: its finalised block; its keys and cryptography (ServiceModel.v); the root of the extrinsics in a range of blocks
    (MerkleModel.v; [None]: an error). *)
Record host := mkHost { h_finalised : N; h_keys : keystore; h_crypto : crypto; h_root : N -> N -> option N }.
Definition ok (o : outcome (list N)) : transfer := match o with Gives b => Response 200 b | Refuses e => Response 500 (ascii_bytes e) | Panics => NoResponse end.
(** client/extrinsic-utils/src/extrinsic_utils.rs:142-148 [get_latest_finalised_block]; client/external-service/src/lib.rs:474-481. *)
Definition finalised_answer (h : host) : list N := hex_encode (le_bytes 4 (N.min (h_finalised h) U32_TOP)).
(** client/external-service/src/lib.rs:431-471. *)
Definition roothash_answer (h : host) (from to : list N) : transfer :=
  match parse_u32 from, parse_u32 to with
  | Some a, Some b => match h_root h a b with Some r => Response 200 (hex_encode (be_bytes 32 r)) | None => Response 500 [] end
  | _, _ => Response 500 []
  end.
(** A response to a request with this path, whatever else the service is doing; [others] answers the requests that need Ethereum (ServiceModel.v). *)
Definition serve (h : host) (others : endpoint -> http_request -> transfer) (path : list N) (r : http_request) : transfer :=
  match route (h_verb r) path with
  | Some ESign => ok (sign_request (h_crypto h) (h_keys h) (h_body r) (h_auth r))
  | Some EFinalised => Response 200 (finalised_answer h)
  | Some (ERoothash from to) => roothash_answer h from to
  | Some e => others e r
  | None => Response 404 []
  end.
(** The path in a URL: what follows the first slash after the "http://". *)
Fixpoint after_slash (l : list N) : list N := match l with b :: r => if b =? SLASH then l else after_slash r | [] => [] end.
Definition url_path (u : list N) : list N := after_slash (drop 7 u).
(** A request of the worker, served by the service of the same node. *)
Definition exchange (h : host) (others : endpoint -> http_request -> transfer) (r : http_request) : option (list N) :=
  received (serve h others (url_path (h_url r)) r).

(** ** What the worker makes of the answers *)
(** 486-491 and pallets/eth-bridge/src/lib.rs:1256-1264: hexadecimal of an encoded u32; what follows its four bytes is not looked at. *)
Definition u32_of (answer : list N) : option N :=
  match hex_decode answer with Some b => match read 4 b with Some (x, _) => Some (le_value x) | None => None end | None => None end.
(** 476-494 [get_finalised_block_from_external_service]. *)
Definition finalised_block (h : host) others (stored : option (list N)) : option N :=
  match exchange h others (get_request stored (ascii_bytes "latest_finalised_block")) with Some a => u32_of a | None => None end.
(** pallets/eth-bridge/src/lib.rs:1249-1266 [latest_finalised_ethereum_block]. *)
Definition finalised_ethereum_block (h : host) others (stored : option (list N)) : option N :=
  match exchange h others (get_request stored (ascii_bytes "/eth/latest_block")) with Some a => u32_of a | None => None end.
(** 408-414, the end of [request_ecdsa_signature_from_external_service]: [hex::decode_to_slice] wants exactly 130 characters. *)
Definition signature_of (answer : list N) : option (list N) :=
  match hex_decode answer with Some b => if Nat.eqb (length b) 65 then Some b else None | None => None end.
(** pallets/eth-bridge/src/eth.rs:16-26 [sign_msg_hash]: the hexadecimal of the hash, with a token over the hash; [sign]: the author's AvN key, if it can sign. *)
Definition sign_msg_hash (h : host) others (stored : option (list N)) (sign : list N -> option (list N)) (hash : list N) : option (list N) :=
  match sign hash with
  | None => None
  | Some token => match exchange h others (post_request stored (ascii_bytes "eth/sign_hashed_data") (hex_encode hash) (Some token)) with
                  | Some a => signature_of a | None => None end
  end.
(** pallets/summary/src/lib.rs:1022-1051 [compute_root_hash]; block numbers that are not u32 are refused. *)
Definition root_path (from to : N) : list N := ascii_bytes "roothash/" ++ dec_bytes from ++ [SLASH] ++ dec_bytes to.
Definition compute_root_hash (h : host) others (stored : option (list N)) (from to : N) : option N :=
  if (from <=? U32_TOP) && (to <=? U32_TOP) then
    match exchange h others (get_request stored (root_path from to)) with Some a => SummaryOcwModel.validate_response a | None => None end
  else None.
(** pallets/eth-bridge/src/eth.rs:290-315 [send_transaction]; 333-334 [make_ethereum_call]; the URL's path is eth/ and the endpoint. *)
Definition ethereum_call (stored : option (list N)) (name : string) (from to : N) (data : list N) (block : option N) (token : option (list N)) : http_request :=
  post_request stored (ascii_bytes "eth/" ++ ascii_bytes name) (encode_tx (mkTx from to data block)) token.
Definition send_order (stored : option (list N)) (from to : N) (data : list N) (token : option (list N)) : http_request :=
  ethereum_call stored "send" from to data None token.
(** pallets/ethereum-events/src/lib.rs:1499-1511 [fetch_event]. *)
Definition fetch_event (stored : option (list N)) (contract hash : N) : http_request :=
  post_request stored (ascii_bytes "/eth/query") (encode_tx (mkTx 0 contract (encode_query hash TransactionReceipt) None)) None.
