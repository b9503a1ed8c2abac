(** Specification for C69 - C71: what the bridge contract on Ethereum does with the data it is called with.  Written from the Solidity ABI
    specification and EIP-712, with the method and struct declarations that the bridge uses. *)
From Verif Require Import Base CodecModel.
From Verif Require AbiModel.

(** keccak-256 as a word. *)
Definition keccak (K : list N -> N) (x : list N) : N := K x mod 2 ^ 256.
Definition word (n : N) : list N := be_bytes 32 n.

(** ** The Solidity ABI *)
Inductive sol_type := Uint256 | Uint32 | Bytes32 | Bytes.
Inductive sol_value := Num (n : N) | Data (l : list N).
Definition word_at (data : list N) (pos : N) : option N :=
  if pos + 32 <=? N.of_nat (length data) then Some (be_value (slice (N.to_nat pos) (N.to_nat pos + 32) data)) else None.
(** The decoder checks that a number fits its type, and that positions and lengths stay within the data. *)
Definition decode_one (t : sol_type) (data : list N) (pos : N) : option sol_value :=
  match word_at data pos with
  | None => None
  | Some w =>
    match t with
    | Uint256 | Bytes32 => Some (Num w)
    | Uint32 => if w <? 2 ^ 32 then Some (Num w) else None
    | Bytes =>
      match word_at data w with
      | None => None
      | Some n => if w + 32 + n <=? N.of_nat (length data) then Some (Data (slice (N.to_nat (w + 32)) (N.to_nat (w + 32 + n)) data)) else None
      end
    end
  end.
Fixpoint decode_args (ts : list sol_type) (data : list N) (pos : N) : option (list sol_value) :=
  match ts with
  | [] => Some []
  | t :: r => match decode_one t data pos, decode_args r data (pos + 32) with Some v, Some vs => Some (v :: vs) | _, _ => None end
  end.
Definition sel (K : list N -> N) (signature : string) : list N := take 4 (word (keccak K (ascii_bytes signature))).

(** ** EIP-712, as the contract computes it *)
(** The contract's own domain: the name and version it was made with, its chain and its address. *)
Record contract := mkContract { k_name : list N; k_version : list N; k_chain : N; k_address : N }.
Definition domain_type : list N := ascii_bytes "EIP712Domain(string name,string version,uint256 chainId,address verifyingContract)".
Definition separator (K : list N -> N) (c : contract) : N :=
  keccak K (word (keccak K domain_type) ++
            word (keccak K (k_name c)) ++ word (keccak K (k_version c)) ++ word (k_chain c) ++ word (k_address c)).
Definition digest (K : list N -> N) (c : contract) (struct_type : string) (members : list N) : N :=
  keccak K ([0x19; 0x01] ++ word (separator K c) ++ word (keccak K (word (keccak K (ascii_bytes struct_type)) ++ members))).

(** ** The methods *)
Inductive call :=
| CallPublishRoot (root expiry id : N)
| CallTriggerGrowth (rewards avg period expiry id : N)
| CallAddAuthor (t1 : list N) (t2 expiry id : N)
| CallRemoveAuthor (t2 : N) (t1 : list N) (expiry id : N).
(** What users claim on Ethereum: a lower. *)
Record claim := mkClaim { cl_token : N; cl_amount : N; cl_recipient : N; cl_id : N; cl_sender : N; cl_time : N }.
(** The hash that the confirmations must sign: the type of the struct, its members, and the byte strings that stand in it as their hash. *)
Inductive signed := SCall (x : call) | SClaim (x : claim).
Definition struct_type (x : signed) : string :=
  match x with
  | SCall (CallPublishRoot _ _ _) => "PublishRoot(bytes32 rootHash,uint256 expiry,uint32 t2TxId)"
  | SCall (CallTriggerGrowth _ _ _ _ _) => "TriggerGrowth(uint256 rewards,uint256 avgStaked,uint32 period,uint256 expiry,uint32 t2TxId)"
  | SCall (CallAddAuthor _ _ _ _) => "AddAuthor(bytes t1PubKey,bytes32 t2PubKey,uint256 expiry,uint32 t2TxId)"
  | SCall (CallRemoveAuthor _ _ _ _) => "RemoveAuthor(bytes32 t2PubKey,bytes t1PubKey,uint256 expiry,uint32 t2TxId)"
  | SClaim _ => "LowerData(address token,uint256 amount,address recipient,uint32 lowerId,bytes32 t2Sender,uint64 t2Timestamp)"
  end.
Definition members (K : list N -> N) (x : signed) : list N :=
  match x with
  | SCall (CallPublishRoot root expiry id) => word root ++ word expiry ++ word id
  | SCall (CallTriggerGrowth rewards avg period expiry id) => word rewards ++ word avg ++ word period ++ word expiry ++ word id
  | SCall (CallAddAuthor t1 t2 expiry id) => word (keccak K t1) ++ word t2 ++ word expiry ++ word id
  | SCall (CallRemoveAuthor t2 t1 expiry id) => word t2 ++ word (keccak K t1) ++ word expiry ++ word id
  | SClaim x => word (cl_token x) ++ word (cl_amount x) ++ word (cl_recipient x) ++ word (cl_id x) ++ word (cl_sender x) ++ word (cl_time x)
  end.
Definition byte_members (x : signed) : list (list N) :=
  match x with SCall (CallAddAuthor t1 _ _ _) | SCall (CallRemoveAuthor _ t1 _ _) => [t1] | _ => [] end.
Definition signed_digest (K : list N -> N) (c : contract) (x : signed) : N := digest K c (struct_type x) (members K x).
Definition call_digest (K : list N -> N) (c : contract) (x : call) : N := signed_digest K c (SCall x).
Definition claim_digest (K : list N -> N) (c : contract) (x : claim) : N := signed_digest K c (SClaim x).

(** Every message that is hashed on the way to the digest. *)
Definition hashed (K : list N -> N) (c : contract) (x : signed) : list (list N) :=
  [[0x19; 0x01] ++ word (separator K c) ++ word (keccak K (word (keccak K (ascii_bytes (struct_type x))) ++ members K x));
   word (keccak K domain_type) ++ word (keccak K (k_name c)) ++ word (keccak K (k_version c)) ++ word (k_chain c) ++ word (k_address c);
   domain_type; k_name c; k_version c;
   word (keccak K (ascii_bytes (struct_type x))) ++ members K x; ascii_bytes (struct_type x)] ++ byte_members x.
(** Two different ones among them have the same hash. *)
Definition collide (K : list N -> N) (l l' : list (list N)) : Prop := exists m m', In m l /\ In m' l' /\ m <> m' /\ keccak K m = keccak K m'.
(** The numbers fit their types. *)
Definition contract_typed (c : contract) : Prop := k_chain c < 2 ^ 64 /\ k_address c < 2 ^ 160.
Definition signed_typed (x : signed) : Prop :=
  match x with
  | SCall (CallPublishRoot root expiry id) => root < 2 ^ 256 /\ expiry < 2 ^ 256 /\ id < 2 ^ 32
  | SCall (CallTriggerGrowth rewards avg period expiry id) => rewards < 2 ^ 256 /\ avg < 2 ^ 256 /\ period < 2 ^ 32 /\ expiry < 2 ^ 256 /\ id < 2 ^ 32
  | SCall (CallAddAuthor _ t2 expiry id) | SCall (CallRemoveAuthor t2 _ expiry id) => t2 < 2 ^ 256 /\ expiry < 2 ^ 256 /\ id < 2 ^ 32
  | SClaim x => cl_token x < 2 ^ 160 /\ cl_amount x < 2 ^ 256 /\ cl_recipient x < 2 ^ 160 /\ cl_id x < 2 ^ 32 /\ cl_sender x < 2 ^ 256 /\ cl_time x < 2 ^ 64
  end.
(** Confirmations are signatures of 65 bytes one after the other. *)
Fixpoint split65 (fuel : nat) (l : list N) : option (list N) :=
  match l, fuel with
  | [], _ => Some []
  | _, O => None
  | _, S f => if (length l <? 65)%nat then None else match split65 f (drop 65 l) with Some r => Some (be_value (take 65 l) :: r) | None => None end
  end.
Definition signatures (l : list N) : option (list N) := split65 (length l) l.

(** A call of the contract: the method is found by its selector, its arguments are decoded, and the last one is split into signatures. *)
Definition receive (K : list N -> N) (calldata : list N) : option (call * list N) :=
  let s := take 4 calldata in let args := drop 4 calldata in
  let with_sigs x confs := match signatures confs with Some l => Some (x, l) | None => None end in
  if bool_decide (s = sel K "publishRoot(bytes32,uint256,uint32,bytes)") then
    match decode_args [Bytes32; Uint256; Uint32; Bytes] args 0 with
    | Some [Num root; Num expiry; Num id; Data confs] => with_sigs (CallPublishRoot root expiry id) confs
    | _ => None
    end
  else if bool_decide (s = sel K "triggerGrowth(uint256,uint256,uint32,uint256,uint32,bytes)") then
    match decode_args [Uint256; Uint256; Uint32; Uint256; Uint32; Bytes] args 0 with
    | Some [Num rewards; Num avg; Num period; Num expiry; Num id; Data confs] => with_sigs (CallTriggerGrowth rewards avg period expiry id) confs
    | _ => None
    end
  else if bool_decide (s = sel K "addAuthor(bytes,bytes32,uint256,uint32,bytes)") then
    match decode_args [Bytes; Bytes32; Uint256; Uint32; Bytes] args 0 with
    | Some [Data t1; Num t2; Num expiry; Num id; Data confs] => with_sigs (CallAddAuthor t1 t2 expiry id) confs
    | _ => None
    end
  else if bool_decide (s = sel K "removeAuthor(bytes32,bytes,uint256,uint32,bytes)") then
    match decode_args [Bytes32; Bytes; Uint256; Uint32; Bytes] args 0 with
    | Some [Num t2; Data t1; Num expiry; Num id; Data confs] => with_sigs (CallRemoveAuthor t2 t1 expiry id) confs
    | _ => None
    end
  else None.
(** The selectors of the four methods differ, as they do with the real hash. *)
Definition selectors_differ (K : list N -> N) : Prop :=
  NoDup [sel K "publishRoot(bytes32,uint256,uint32,bytes)"; sel K "triggerGrowth(uint256,uint256,uint32,uint256,uint32,bytes)";
         sel K "addAuthor(bytes,bytes32,uint256,uint32,bytes)"; sel K "removeAuthor(bytes32,bytes,uint256,uint32,bytes)"].
(** The view method [corroborate(uint32,uint256)]. *)
Definition receive_corroborate (K : list N -> N) (calldata : list N) : option (N * N) :=
  if bool_decide (take 4 calldata = sel K "corroborate(uint32,uint256)") then
    match decode_args [Uint32; Uint256] (drop 4 calldata) 0 with Some [Num id; Num expiry] => Some (id, expiry) | _ => None end
  else None.

(** ** Claiming a lower *)
(** The proof is packed: token (20 bytes), amount (32), recipient (20), id (4), sender on the parachain (32), time (8), signatures. *)
Definition claim_lower (proof : list N) : option (claim * list N) :=
  if (length proof <? 116)%nat then None else
  match signatures (drop 116 proof) with
  | None => None
  | Some sigs => Some (mkClaim (be_value (slice 0 20 proof)) (be_value (slice 20 52 proof)) (be_value (slice 52 72 proof))
      (be_value (slice 72 76 proof)) (be_value (slice 76 108 proof)) (be_value (slice 108 116 proof)), sigs)
  end.

(** ** What is asked for *)
(** The call that carries out an order of the parachain. *)
Definition call_of (o : AbiModel.order) (expiry id : N) : call :=
  match o with
  | AbiModel.PublishRootOf root => CallPublishRoot root expiry id
  | AbiModel.TriggerGrowthOf rewards avg period => CallTriggerGrowth rewards avg period expiry id
  | AbiModel.AddAuthorOf t1 t2 => CallAddAuthor t1 t2 expiry id
  | AbiModel.RemoveAuthorOf t1 t2 => CallRemoveAuthor t2 t1 expiry id
  end.
(** The contract that the parachain has been configured with. *)
Definition contract_of (lossy : list N -> list N) (i : AbiModel.instance) : contract :=
  mkContract (lossy (AbiModel.in_name i)) (lossy (AbiModel.in_version i)) (AbiModel.chain_id (AbiModel.in_network i)) (AbiModel.in_contract i).
Definition claim_of (d : lower_data) : claim := mkClaim (ld_token d) (ld_amount d) (ld_recipient d) (ld_id d) (ld_sender d) (ld_time d).
