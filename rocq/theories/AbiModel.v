(** What authors sign for Ethereum, and the calls that are sent there: primitives/avn-common/src/eth/mod.rs (EIP-712 hashes; "mod.rs" below),
    pallets/eth-bridge/src/eth.rs (ABI encoding of calls).  keccak-256 is a parameter [K], read as a 256-bit word by [kec]. *)
From Verif Require Import Base CodecModel MerkleModel BridgeModel.

(** A value, an error, or a panic. *)
Inductive out (A : Type) := Gives (a : A) | Refuses | Panics.
#[global] Arguments Gives {A} a.
#[global] Arguments Refuses {A}.
#[global] Arguments Panics {A}.
Definition obind {A B} (o : out A) (f : A -> out B) : out B := match o with Gives a => f a | Refuses => Refuses | Panics => Panics end.
Notation "'let?' x := o 'in' k" := (obind o (fun x => k)) (at level 200, x pattern, o at level 100, k at level 200).
Definition or_refuse {A} (o : option A) : out A := match o with Some a => Gives a | None => Refuses end.

(** ** Numbers in decimal *)
(** The digits of a text, most significant first; [None] if one is not a digit. *)
Fixpoint dec_digits (acc : N) (l : list N) : option N :=
  match l with
  | [] => Some acc
  | b :: r => if (48 <=? b) && (b <=? 57) then dec_digits (acc * 10 + (b - 48)) r else None
  end.
(** core's [str::parse] of an unsigned integer with maximum [max], as used by mod.rs:245-247 [parse_from_utf8]: an optional plus sign, at least one
    digit.  A text that is not UTF-8 has a byte that is no digit; overflow of a prefix implies overflow of the whole. *)
Definition parse_uint (max : N) (l : list N) : option N :=
  let r := match l with b :: r => if b =? 43 then r else l | [] => [] end in
  match r with
  | [] => None
  | _ => match dec_digits 0 r with Some v => if v <=? max then Some v else None | None => None end
  end.
(** uint's [U256::from_dec_str]: digits only, no digits are zero. *)
Definition from_dec_str (l : list N) : option N :=
  match dec_digits 0 l with Some v => if v <? 2 ^ 256 then Some v else None | None => None end.

(** ** EIP-712 *)
(** mod.rs:30-66 [EthereumNetwork], [chain_id], [From<u64>]. *)
Inductive network := Ethereum | EWC | Sepolia | Holesky | Volta | Custom (n : N).
Definition chain_id (w : network) : N :=
  match w with Ethereum => 1 | EWC => 246 | Sepolia => 11155111 | Holesky => 17000 | Volta => 73799 | Custom n => n end.
Definition network_of (n : N) : network :=
  if n =? 1 then Ethereum else if n =? 246 then EWC else if n =? 11155111 then Sepolia else if n =? 17000 then Holesky
  else if n =? 73799 then Volta else Custom n.
(** mod.rs:68-87 [EthBridgeInstance] and [is_valid]. *)
Record instance := mkInstance { in_network : network; in_contract : N; in_name : list N; in_version : list N; in_salt : option N }.
Definition instance_valid (i : instance) : bool :=
  negb (in_contract i =? 0) && negb (Nat.eqb (length (in_name i)) 0) && negb (Nat.eqb (length (in_version i)) 0).
(** mod.rs:89-103: the domain of an instance; the salt is left out.  [lossy] is [String::from_utf8_lossy]. *)
Record domain := mkDomain { do_name : list N; do_version : list N; do_chain : N; do_contract : N }.
Definition domain_of (lossy : list N -> list N) (i : instance) : domain :=
  mkDomain (lossy (in_name i)) (lossy (in_version i)) (chain_id (in_network i)) (in_contract i).

(** alloy-sol-types: the EIP-712 hash of a struct.  A field is a word, or bytes that are hashed first. *)
Inductive field := FWord (n : N) | FBytes (l : list N).
Record sol_struct := mkStruct { ss_type : list N; ss_fields : list field }.
Definition enc_field (K : list N -> N) (f : field) : list N := match f with FWord n => be_bytes 32 n | FBytes l => be_bytes 32 (kec K l) end.
Definition struct_data (K : list N -> N) (s : sol_struct) : list N :=
  be_bytes 32 (kec K (ss_type s)) ++ concat (map (enc_field K) (ss_fields s)).
Definition hash_struct (K : list N -> N) (s : sol_struct) : N := kec K (struct_data K s).
Definition domain_struct (d : domain) : sol_struct :=
  mkStruct (ascii_bytes "EIP712Domain(string name,string version,uint256 chainId,address verifyingContract)")
    [FBytes (do_name d); FBytes (do_version d); FWord (do_chain d); FWord (do_contract d)].
(** mod.rs:240-243 [eip712_hash]. *)
Definition signing_data (K : list N -> N) (d : domain) (s : sol_struct) : list N :=
  [25; 1] ++ be_bytes 32 (hash_struct K (domain_struct d)) ++ be_bytes 32 (hash_struct K s).
Definition eip712_hash (K : list N -> N) (d : domain) (s : sol_struct) : N := kec K (signing_data K d s).

(** mod.rs:156-201: the structs that are signed. *)
Definition publish_root (root expiry id : N) : sol_struct :=
  mkStruct (ascii_bytes "PublishRoot(bytes32 rootHash,uint256 expiry,uint32 t2TxId)") [FWord root; FWord expiry; FWord id].
Definition trigger_growth (rewards avg period expiry id : N) : sol_struct :=
  mkStruct (ascii_bytes "TriggerGrowth(uint256 rewards,uint256 avgStaked,uint32 period,uint256 expiry,uint32 t2TxId)")
    [FWord rewards; FWord avg; FWord period; FWord expiry; FWord id].
Definition add_author (t1 : list N) (t2 expiry id : N) : sol_struct :=
  mkStruct (ascii_bytes "AddAuthor(bytes t1PubKey,bytes32 t2PubKey,uint256 expiry,uint32 t2TxId)") [FBytes t1; FWord t2; FWord expiry; FWord id].
Definition remove_author (t2 : N) (t1 : list N) (expiry id : N) : sol_struct :=
  mkStruct (ascii_bytes "RemoveAuthor(bytes32 t2PubKey,bytes t1PubKey,uint256 expiry,uint32 t2TxId)") [FWord t2; FBytes t1; FWord expiry; FWord id].
Definition lower_struct (d : lower_data) : sol_struct :=
  mkStruct (ascii_bytes "LowerData(address token,uint256 amount,address recipient,uint32 lowerId,bytes32 t2Sender,uint64 t2Timestamp)")
    [FWord (ld_token d); FWord (ld_amount d); FWord (ld_recipient d); FWord (ld_id d); FWord (ld_sender d); FWord (ld_time d)].

(** mod.rs:115-153 [BridgeContractMethod] with its names; the three methods on reference rates are signed for by nobody. *)
Inductive method := PublishRoot | TriggerGrowth | AddAuthor | RemoveAuthor.
Definition method_name (m : method) : list N :=
  match m with
  | PublishRoot => ascii_bytes "publishRoot" | TriggerGrowth => ascii_bytes "triggerGrowth"
  | AddAuthor => ascii_bytes "addAuthor" | RemoveAuthor => ascii_bytes "removeAuthor"
  end.
Definition method_of (fn : list N) : option method :=
  if bool_decide (fn = method_name PublishRoot) then Some PublishRoot
  else if bool_decide (fn = method_name TriggerGrowth) then Some TriggerGrowth
  else if bool_decide (fn = method_name AddAuthor) then Some AddAuthor
  else if bool_decide (fn = method_name RemoveAuthor) then Some RemoveAuthor else None.

(** [H256::from_slice] and [FixedBytes::from_slice]: they panic unless there are 32 bytes. *)
Definition word_of_slice (l : list N) : out N := if Nat.eqb (length l) 32 then Gives (be_value l) else Panics.
(** mod.rs:254-265: the last two parameters. *)
Definition id_and_expiry (values : list (list N)) : out (N * N) :=
  match rev values with
  | id :: expiry :: _ =>
    let? e := or_refuse (parse_uint (2 ^ 64 - 1) expiry) in
    let? i := or_refuse (parse_uint (2 ^ 32 - 1) id) in Gives (i, e)
  | _ => Refuses
  end.
(** mod.rs:249-323 [create_function_confirmation_hash]: the types of the parameters are not looked at. *)
Definition confirmed_struct (fn : list N) (params : list (list N * list N)) : out sol_struct :=
  let values := map snd params in
  match method_of fn, values with
  | Some PublishRoot, [r; _; _] =>
    let? root := word_of_slice r in
    let? (id, expiry) := id_and_expiry values in Gives (publish_root root expiry id)
  | Some TriggerGrowth, [r; a; p; _; _] =>
    let? rewards := or_refuse (parse_uint (2 ^ 128 - 1) r) in
    let? avg := or_refuse (parse_uint (2 ^ 128 - 1) a) in
    let? period := or_refuse (parse_uint (2 ^ 32 - 1) p) in
    let? (id, expiry) := id_and_expiry values in Gives (trigger_growth rewards avg period expiry id)
  | Some AddAuthor, [t1; t2; _; _] =>
    let? t2 := word_of_slice t2 in
    let? (id, expiry) := id_and_expiry values in Gives (add_author t1 t2 expiry id)
  | Some RemoveAuthor, [t2; t1; _; _] =>
    let? t2 := word_of_slice t2 in
    let? (id, expiry) := id_and_expiry values in Gives (remove_author t2 t1 expiry id)
  | _, _ => Refuses
  end.
Definition confirmation_hash (K : list N -> N) (d : domain) (fn : list N) (params : list (list N * list N)) : out N :=
  let? s := confirmed_struct fn params in Gives (eip712_hash K d s).
(** mod.rs:230-238 [create_lower_proof_hash]. *)
Definition lower_proof_hash (K : list N -> N) (d : domain) (params : list N) : option N :=
  match decode_lower_data params with Some l => Some (eip712_hash K d (lower_struct l)) | None => None end.

(** ** ABI encoding of calls *)
(** eth.rs:235-246 [to_param_type]; primitives/avn-common/src/lib.rs:58-63 for the names. *)
Inductive param_type := PBytes | PBytes32 | PUint (bits : N) | PAddress.
Definition type_name (t : param_type) : list N :=
  match t with
  | PBytes => ascii_bytes "bytes" | PBytes32 => ascii_bytes "bytes32" | PAddress => ascii_bytes "address"
  | PUint bits => ascii_bytes "uint" ++ dec_bytes bits
  end.
Definition to_param_type (k : list N) : option param_type :=
  if bool_decide (k = ascii_bytes "bytes") then Some PBytes
  else if bool_decide (k = ascii_bytes "bytes32") then Some PBytes32
  else if bool_decide (k = ascii_bytes "uint32") then Some (PUint 32)
  else if bool_decide (k = ascii_bytes "uint128") then Some (PUint 128)
  else if bool_decide (k = ascii_bytes "uint256") then Some (PUint 256)
  else if bool_decide (k = ascii_bytes "address") then Some PAddress else None.
(** eth.rs:248-271 [to_token_type]; an address that is not 20 bytes panics.  A number is not compared with the size of its type. *)
Inductive token := TBytes (l : list N) | TWord (w : list N).
Definition to_token (t : param_type) (v : list N) : out token :=
  match t with
  | PBytes => Gives (TBytes v)
  | PUint _ => let? n := or_refuse (from_dec_str v) in Gives (TWord (be_bytes 32 n))
  | PBytes32 => if Nat.eqb (length v) 32 then Gives (TWord v) else Refuses
  | PAddress => if Nat.eqb (length v) 20 then Gives (TWord (repeat 0 12 ++ v)) else Panics
  end.
Fixpoint to_tokens (params : list (list N * list N)) : out (list (param_type * token)) :=
  match params with
  | [] => Gives []
  | (t, v) :: r =>
    let? ty := or_refuse (to_param_type t) in
    let? tok := to_token ty v in
    let? rest := to_tokens r in Gives ((ty, tok) :: rest)
  end.
(** ethabi encoder.rs [encode]: one word per token in the head; bytes go to the tail, length first and filled up to whole words, and the
    head has their position. *)
Definition padding (n : nat) : nat := (32 - n mod 32) mod 32.
Definition tail_of (t : token) : list N :=
  match t with TBytes l => be_bytes 32 (N.of_nat (length l)) ++ l ++ repeat 0 (padding (length l)) | TWord _ => [] end.
Fixpoint heads (pos : nat) (l : list token) : list N :=
  match l with
  | [] => []
  | TWord w :: r => w ++ heads pos r
  | TBytes b :: r => be_bytes 32 (N.of_nat pos) ++ heads (pos + length (tail_of (TBytes b))) r
  end.
Definition abi_encode (l : list token) : list N := heads (32 * length l) l ++ concat (map tail_of l).
(** ethabi signature.rs [short_signature]: the first four bytes of the hash of "name(type,type)". *)
Fixpoint joined (l : list (list N)) : list N := match l with [] => [] | [x] => x | x :: r => x ++ ascii_bytes "," ++ joined r end.
Definition selector (K : list N -> N) (fn : list N) (ts : list param_type) : list N :=
  take 4 (be_bytes 32 (kec K (fn ++ ascii_bytes "(" ++ joined (map type_name ts) ++ ascii_bytes ")"))).
(** eth.rs:201-233 [abi_encode_function].  [utf8] is the check of the function's name; the tokens always fit the types. *)
Definition abi_encode_function (K : list N -> N) (utf8 : list N -> bool) (fn : list N) (params : list (list N * list N)) : out (list N) :=
  let? l := to_tokens params in
  if utf8 fn then Gives (selector K fn (map fst l) ++ abi_encode (map snd l)) else Refuses.
(** eth.rs:157-165 [encode_confirmations]; a signature is a number of 65 bytes. *)
Definition encode_confirmations (confs : list N) : list N := concat (map (be_bytes 65) confs).
(** eth.rs:167-175 [generate_send_calldata]. *)
Definition send_calldata (K : list N -> N) (utf8 : list N -> bool) (fn : list N) (params : list (list N * list N)) (confs : list N) : out (list N) :=
  abi_encode_function K utf8 fn (params ++ [(ascii_bytes "bytes", encode_confirmations confs)]).
(** eth.rs:177-186 [generate_corroborate_calldata]. *)
Definition corroborate_calldata (K : list N -> N) (utf8 : list N -> bool) (id expiry : N) : out (list N) :=
  abi_encode_function K utf8 (ascii_bytes "corroborate") [(UINT32, dec_bytes id); (UINT256, dec_bytes expiry)].
(** eth.rs:189-199 [generate_encoded_lower_proof]. *)
Definition encoded_lower_proof (params : list N) (confs : list N) : list N := params ++ encode_confirmations confs.

(** ** The requests of the pallets *)
(** pallets/summary/src/lib.rs:1339-1341; pallets/parachain-staking/src/lib.rs:2436-2445; pallets/validators-manager/src/lib.rs:600-606,
    659-666 (authors-manager lib.rs:514-520, 573-580 are the same). *)
Inductive order :=
| PublishRootOf (root : N)
| TriggerGrowthOf (rewards avg period : N)
| AddAuthorOf (t1 : list N) (t2 : N)
| RemoveAuthorOf (t1 : list N) (t2 : N).
Definition order_name (o : order) : list N :=
  method_name (match o with PublishRootOf _ => PublishRoot | TriggerGrowthOf _ _ _ => TriggerGrowth | AddAuthorOf _ _ => AddAuthor | RemoveAuthorOf _ _ => RemoveAuthor end).
Definition order_params (o : order) : list (list N * list N) :=
  match o with
  | PublishRootOf root => [(ascii_bytes "bytes32", be_bytes 32 root)]
  | TriggerGrowthOf rewards avg period => [(ascii_bytes "uint256", dec_bytes rewards); (ascii_bytes "uint256", dec_bytes avg); (ascii_bytes "uint32", dec_bytes period)]
  | AddAuthorOf t1 t2 => [(ascii_bytes "bytes", t1); (ascii_bytes "bytes32", be_bytes 32 t2)]
  | RemoveAuthorOf t1 t2 => [(ascii_bytes "bytes32", be_bytes 32 t2); (ascii_bytes "bytes", t1)]
  end.
(** The values have their Rust types: H256, u128, u32, an uncompressed key of 64 bytes, an account of 32 bytes. *)
Definition order_typed (o : order) : Prop :=
  match o with
  | PublishRootOf root => root < 2 ^ 256
  | TriggerGrowthOf rewards avg period => rewards < 2 ^ 128 /\ avg < 2 ^ 128 /\ period < 2 ^ 32
  | AddAuthorOf t1 t2 | RemoveAuthorOf t1 t2 => length t1 = 64%nat /\ Forall (fun b => b < 256) t1 /\ t2 < 2 ^ 256
  end.
