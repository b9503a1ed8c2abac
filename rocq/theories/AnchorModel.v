(** Model of pallets/avn-anchor (lib.rs): chains register a handler account, which anchors checkpoints for a fee. *)
From Verif Require Import Base CodecModel SigModel.
From Verif Require TokenModel.

(** lib.rs:105-116 and the runtime: the fee of chains without their own, and the token manager's configuration. *)
Record config := mkConfig { c_fee : N; c_tm : TokenModel.config }.
(** lib.rs:121-140 [Event]. *)
Inductive event :=
| ChainHandlerRegistered (handler chain : N) (name : list N)
| ChainHandlerUpdated (old new chain : N) (name : list N)
| CheckpointSubmitted (handler chain id hash : N)
| CheckpointFeeUpdated (chain fee : N)
| CheckpointFeeCharged (handler chain fee : N).
(** lib.rs:158-213 storage, and the balances of the token manager. *)
Record st := mkSt {
  s_tm : TokenModel.st; s_fees : gmap N N; s_nonces : gmap N N; s_handlers : gmap N N; s_data : gmap N (list N); s_next_chain : N;
  s_cps : gmap (N * N) (N * N); s_origins : gmap (N * N) N; s_next_cp : gmap N N; s_events : list event }.
#[export] Instance eta_st : Settable _ :=
  settable! mkSt <s_tm; s_fees; s_nonces; s_handlers; s_data; s_next_chain; s_cps; s_origins; s_next_cp; s_events>.
Definition emit (e : event) : M st unit := modify (fun s => s <| s_events := e :: s_events s |>).
Definition nonce_of (s : st) (chain : N) : N := mget 0 chain (s_nonces s).
Definition fee_of (c : config) (s : st) (chain : N) : N := mget (c_fee c) chain (s_fees s).
Definition next_cp_of (s : st) (chain : N) : N := mget 0 chain (s_next_cp s).
Definition bump (chain : N) : M st unit :=
  modify (fun s => s <| s_nonces := <[chain := (nonce_of s chain + 1) mod 2 ^ 64]> (s_nonces s) |>).
Definition in_tm {A} (m : M TokenModel.st A) : M st A := fun s => let x := m (s_tm s) in (s <| s_tm := fst x |>, snd x).

(** lib.rs:376-388 [charge_fee]. *)
Definition charge_fee (c : config) (handler chain : N) : M st unit :=
  fee <-- gets (fun s => fee_of c s chain) ;;
  in_tm (TokenModel.pay_treasury (c_tm c) fee handler) ;;;
  emit (CheckpointFeeCharged handler chain fee).
(** lib.rs:406-434 [do_register_chain_handler], with 390-396 [get_next_chain_id]. *)
Definition do_register (handler : N) (name : list N) : M st unit :=
  s <-- get_st ;;
  ensure (match s_handlers s !! handler with None => true | _ => false end) "HandlerAlreadyRegistered" ;;;
  ensure (match name with [] => false | _ => true end) "EmptyChainName" ;;;
  let chain := s_next_chain s in
  ensure (chain + 1 <=? U32_MAX) "NoAvailableChainId" ;;;
  modify (fun s => s <| s_next_chain := chain + 1 |> <| s_handlers := <[handler := chain]> (s_handlers s) |>
                     <| s_data := <[chain := name]> (s_data s) |> <| s_nonces := <[chain := 0]> (s_nonces s) |>) ;;;
  emit (ChainHandlerRegistered handler chain name).
(** lib.rs:436-463 [do_update_chain_handler]. *)
Definition do_update (old new chain : N) : M st unit :=
  s <-- get_st ;;
  ensure (match s_handlers s !! new with None => true | _ => false end) "HandlerAlreadyRegistered" ;;;
  ensure (match s_handlers s !! old with None => false | _ => true end) "ChainNotRegistered" ;;;
  name <-- some_or (s_data s !! chain) "NoChainDataAvailable" ;;
  modify (fun s => s <| s_handlers := delete old (<[new := chain]> (s_handlers s)) |>) ;;;
  emit (ChainHandlerUpdated old new chain name).
(** lib.rs:465-496 [do_submit_checkpoint], with 398-404 [get_next_checkpoint_id] and 498-500 [has_checkpoint_origin]. *)
Definition do_submit (c : config) (handler hash chain origin_id : N) : M st unit :=
  s <-- get_st ;;
  ensure (match s_origins s !! (chain, origin_id) with None => true | _ => false end) "CheckpointOriginAlreadyExists" ;;;
  let id := next_cp_of s chain in
  ensure (id + 1 <=? U64_MAX) "NoAvailableCheckpointId" ;;;
  modify (fun s => s <| s_next_cp := <[chain := id + 1]> (s_next_cp s) |> <| s_cps := <[(chain, id) := (hash, origin_id)]> (s_cps s) |>
                     <| s_origins := <[(chain, origin_id) := id]> (s_origins s) |>) ;;;
  emit (CheckpointSubmitted handler chain id hash) ;;;
  bump chain ;;;
  charge_fee c handler chain.

(** lib.rs:618-639 the payloads. *)
Definition register_payload (relayer handler : N) (name : list N) : list N :=
  scale_bytes (ascii_bytes "register_chain_handler") ++ be_bytes 32 relayer ++ be_bytes 32 handler ++ scale_bytes name.
Definition update_payload (relayer old new chain nonce : N) : list N :=
  scale_bytes (ascii_bytes "update_chain_handler") ++ be_bytes 32 relayer ++ be_bytes 32 old ++ be_bytes 32 new ++ le_bytes 4 chain ++ le_bytes 8 nonce.
Definition submit_payload (relayer handler hash chain nonce origin_id : N) : list N :=
  scale_bytes (ascii_bytes "submit_checkpoint") ++ be_bytes 32 relayer ++ be_bytes 32 handler ++ be_bytes 32 hash ++ le_bytes 4 chain ++ le_bytes 8 nonce ++ le_bytes 8 origin_id.

(** lib.rs:215-372 the calls with a signed origin. *)
Inductive call :=
| Register (name : list N) | Update (new : N) | Submit (hash origin_id : N)
| SRegister (p : proof) (handler : N) (name : list N) | SUpdate (p : proof) (old new : N) | SSubmit (p : proof) (handler hash origin_id : N).
Definition call_body (c : config) (cr : crypto) (who : N) (x : call) : M st unit :=
  s <-- get_st ;;
  match x with
  | Register name => do_register who name
  | Update new =>
      ensure (match s_handlers s !! new with None => true | _ => false end) "HandlerAlreadyRegistered" ;;;
      chain <-- some_or (s_handlers s !! who) "ChainNotRegistered" ;;
      do_update who new chain
  | Submit hash o =>
      chain <-- some_or (s_handlers s !! who) "ChainNotRegistered" ;;
      do_submit c who hash chain o
  | SRegister p handler name =>
      ensure (who =? handler) "SenderNotValid" ;;;
      ensure (verify_signature cr p (register_payload (pf_relayer p) handler name)) "UnauthorizedSignedTransaction" ;;;
      do_register handler name
  | SUpdate p old new =>
      ensure (who =? old) "SenderNotValid" ;;;
      chain <-- some_or (s_handlers s !! old) "ChainNotRegistered" ;;
      ensure (verify_signature cr p (update_payload (pf_relayer p) old new chain (nonce_of s chain))) "UnauthorizedSignedTransaction" ;;;
      do_update old new chain ;;;
      bump chain
  | SSubmit p handler hash o =>
      ensure (who =? handler) "SenderNotValid" ;;;
      chain <-- some_or (s_handlers s !! handler) "ChainNotRegistered" ;;
      ensure (verify_signature cr p (submit_payload (pf_relayer p) handler hash chain (nonce_of s chain) o)) "UnauthorizedSignedTransaction" ;;;
      do_submit c handler hash chain o
  end.
(** lib.rs:515-616 what the proxy needs to know of a call: its proof and the payload that must be signed now. *)
Definition proof_of (x : call) : option proof :=
  match x with SRegister p _ _ | SUpdate p _ _ | SSubmit p _ _ _ => Some p | _ => None end.
Definition payload_now (s : st) (x : call) : option (list N) :=
  match x with
  | SRegister p h n => Some (register_payload (pf_relayer p) h n)
  | SUpdate p old new => match s_handlers s !! old with Some ch => Some (update_payload (pf_relayer p) old new ch (nonce_of s ch)) | None => None end
  | SSubmit p h hash o => match s_handlers s !! h with Some ch => Some (submit_payload (pf_relayer p) h hash ch (nonce_of s ch) o) | None => None end
  | _ => None
  end.
(** pallets/avn-proxy/src/lib.rs:114-188: a relayer submits a signed call; it runs with the origin of the signer.  (The
    payment to the relayer is in ProxyModel.v.) *)
Definition relay (c : config) (cr : crypto) (relayer : N) (x : call) : M st unit :=
  p <-- some_or (proof_of x) "TransactionNotSupported" ;;
  ensure (relayer =? pf_relayer p) "UnauthorizedProxyTransaction" ;;;
  s <-- get_st ;;
  payload <-- some_or (payload_now s x) "UnauthorizedProxyTransaction" ;;
  ensure (verify_signature cr p payload) "UnauthorizedProxyTransaction" ;;;
  call_body c cr (pf_signer p) x.
(** lib.rs:359-371 [set_checkpoint_fee] (root). *)
Definition set_fee (chain fee : N) : M st unit :=
  modify (fun s => s <| s_fees := <[chain := fee]> (s_fees s) |>) ;;; emit (CheckpointFeeUpdated chain fee).

(** Balances also change by everything else the chain does ([Elsewhere]). *)
Inductive op := Call (who : N) (x : call) | Relay (relayer : N) (x : call) | SetFee (chain fee : N) | Elsewhere (tm : TokenModel.st).
Definition body (c : config) (cr : crypto) (o : op) : M st unit :=
  match o with
  | Call who x => call_body c cr who x
  | Relay r x => relay c cr r x
  | SetFee chain fee => set_fee chain fee
  | Elsewhere tm => modify (fun s => s <| s_tm := tm |>)
  end.
Definition exec (c : config) (cr : crypto) (o : op) : M st unit := dispatch (body c cr o).
Definition step (c : config) (cr : crypto) (s : st) (o : op) : st := fst (exec c cr o s).
Definition run (c : config) (cr : crypto) (s : st) (l : list op) : st := fold_left (step c cr) l s.
Definition genesis (tm : TokenModel.st) : st := mkSt tm ∅ ∅ ∅ ∅ 0 ∅ ∅ ∅ [].
