(** Model of pallets/avn-proxy (lib.rs) in the runtime: the calls it relays to the token manager and to the
    NFT manager are those of TokenModel.v and NftModel.v. *)
From Verif Require Import Base CodecModel SigModel.
From Verif Require TokenModel NftModel.

(** What the relayed calls work on. *)
Record runtime := mkRt { r_tm : TokenModel.st; r_nft : NftModel.st }.

(** runtime/avn/src/proxy_config.rs:15-145 [get_proof]: the supported calls.  [COther] stands for the calls of
    ethereum-events, parachain-staking and avn-anchor: they carry a proof too; whether that proof is valid when
    the call is tried ([valid]) and what the call does ([effect]) are arbitrary.  They cannot touch the payment
    nonces, which are private to this pallet.  [CUnsupported] is any call without a proof. *)
Inductive call :=
| CToken (i : TokenModel.inner_call)
| CNft (i : NftModel.call)
| COther (p : proof) (valid : bool) (effect : M runtime unit)
| CUnsupported.
Definition call_proof (i : call) : option proof :=
  match i with
  | CToken i => TokenModel.inner_proof i
  | CNft i => Some (NftModel.call_proof i)
  | COther p _ _ => Some p
  | CUnsupported => None
  end.

(** pallets/token-manager/src/lib.rs:894-931 [get_encoded_call_param] and 1172-1185 [signature_is_valid]. *)
Definition token_sig_valid (cr : crypto) (s : TokenModel.st) (i : TokenModel.inner_call) : bool :=
  match i with
  | TokenModel.CSignedTransfer p from to token amount =>
      verify_signature cr p
        (TokenModel.transfer_payload (pf_relayer p) from to token amount (TokenModel.nonce_of s (pf_signer p)))
  | TokenModel.CSignedLower p from token amount t1 =>
      verify_signature cr p
        (TokenModel.lower_payload (pf_relayer p) from token amount t1 (TokenModel.nonce_of s (pf_signer p)))
  | TokenModel.COther _ => false
  end.
(** pallets/nft-manager/src/lib.rs:1087-1177 [get_encoded_call_param] and 1247-1261 [signature_is_valid]: the
    payload of a call about an NFT that does not exist cannot be computed. *)
Definition nft_sig_valid (cr : crypto) (s : NftModel.st) (i : NftModel.call) : bool :=
  let about id f := match NftModel.s_nfts s !! id with Some n => f (NftModel.n_nonce n) | None => false end in
  match i with
  | NftModel.CMint p r l a => verify_signature cr p (NftModel.mint_single_payload (pf_relayer p) r l a)
  | NftModel.CList p id m => about id (fun k => verify_signature cr p (NftModel.list_payload (pf_relayer p) id m k))
  | NftModel.CTransfer p id to => about id (fun k => verify_signature cr p (NftModel.transfer_payload (pf_relayer p) id to k))
  | NftModel.CCancel p id => about id (fun k => verify_signature cr p (NftModel.cancel_payload (pf_relayer p) id k))
  | NftModel.CCreateBatch p n l a =>
      verify_signature cr p (NftModel.create_batch_payload (pf_relayer p) n l a (NftModel.bnonce_of s (pf_signer p)))
  | NftModel.CMintBatch p b ix o r => verify_signature cr p (NftModel.mint_batch_payload (pf_relayer p) b ix r o)
  | NftModel.CListBatch p b m =>
      verify_signature cr p (NftModel.list_batch_payload (pf_relayer p) b m (NftModel.bnonce_of s (pf_signer p)))
  | NftModel.CEndBatch p b =>
      verify_signature cr p (NftModel.end_batch_payload (pf_relayer p) b (NftModel.bnonce_of s (pf_signer p)))
  end.
(** runtime/avn/src/proxy_config.rs:147-167 [signature_is_valid]. *)
Definition signature_is_valid (cr : crypto) (r : runtime) (i : call) : bool :=
  match i with
  | CToken i => token_sig_valid cr (r_tm r) i
  | CNft i => nft_sig_valid cr (r_nft r) i
  | COther _ valid _ => valid
  | CUnsupported => false
  end.

Record config := mkConfig { c_tm : TokenModel.config; c_nft : NftModel.config }.

(** A computation of one pallet in the runtime. *)
Definition in_tm {A} (m : M TokenModel.st A) : M runtime A :=
  fun r => let x := m (r_tm r) in (mkRt (fst x) (r_nft r), snd x).
Definition in_nft {A} (m : M NftModel.st A) : M runtime A :=
  fun r => let x := m (r_nft r) in (mkRt (r_tm r) (fst x), snd x).
(** The body of a call, with a signed origin. *)
Definition call_body (c : config) (cr : crypto) (origin : N) (i : call) : M runtime unit :=
  match i with
  | CToken i => in_tm (TokenModel.run_inner (c_tm c) cr origin i)
  | CNft i => in_nft (NftModel.run_call (c_nft c) cr origin i)
  | COther _ _ effect => effect
  | CUnsupported => fail "CallFiltered"
  end.

(** lib.rs:93-97 [Event]; the hash of the call is left out. *)
Inductive event := CallDispatched (relayer : N) | InnerCallFailed (relayer : N) (error : string).

(** lib.rs:106-112 storage, and the rest of the runtime. *)
Record st := mkSt { s_rt : runtime; s_nonces : gmap N N; s_events : list event }.
#[export] Instance eta_st : Settable _ := settable! mkSt <s_rt; s_nonces; s_events>.
Definition emit (e : event) : M st unit := modify (fun s => s <| s_events := e :: s_events s |>).
Definition in_rt {A} (m : M runtime A) : M st A :=
  fun s => let x := m (s_rt s) in (s <| s_rt := fst x |>, snd x).
Definition nonce_of (s : st) (a : N) : N := mget 0 a (s_nonces s).

(** lib.rs:260-267 [PaymentInfo]. *)
Record payment := mkPayment { pm_payer : N; pm_recipient : N; pm_amount : N; pm_sig : multisig; pm_token : N }.

(** SCALE encoding of MultiSignature (variant index, then 64 or 65 bytes) and of Proof
    (primitives/avn-common/src/lib.rs [Proof]: signer, relayer, signature). *)
Definition enc_sig (s : multisig) : list N :=
  match s with
  | SigEd25519 x => 0 :: be_bytes 64 x
  | SigSr25519 x => 1 :: be_bytes 64 x
  | SigEcdsa x => 2 :: be_bytes 65 x
  end.
Definition enc_proof (p : proof) : list N := be_bytes 32 (pf_signer p) ++ be_bytes 32 (pf_relayer p) ++ enc_sig (pf_sig p).
(** lib.rs:29, 209-218: the payload of a payment. *)
Definition payment_payload (p : proof) (recipient amount token nonce : N) : list N :=
  scale_bytes (ascii_bytes "authorization for proxy payment") ++ enc_proof p ++ be_bytes 32 recipient ++
  le_bytes 16 amount ++ be_bytes 20 token ++ le_bytes 8 nonce.

(** lib.rs:229-251 [charge_fee]; the fee handler is the token manager
    (runtime/avn/src/configs: [FeeHandler = TokenManager]). *)
Definition charge_fee (cr : crypto) (p : proof) (pi : payment) : M st unit :=
  nonce <-- gets (fun s => nonce_of s (pm_payer pi)) ;;
  ensure (verify_signature cr (mkProof (pm_payer pi) (pf_relayer p) (pm_sig pi))
           (payment_payload p (pm_recipient pi) (pm_amount pi) (pm_token pi) nonce)) "UnauthorizedFee" ;;;
  in_rt (in_tm (TokenModel.pay_fee (pm_token pi) (pm_amount pi) (pm_payer pi) (pm_recipient pi))) ;;;
  modify (fun s => s <| s_nonces := <[pm_payer pi := (nonce_of s (pm_payer pi) + 1) mod 2 ^ 64]> (s_nonces s) |>).

(** lib.rs:159-186: dispatching the inner call in its own storage layer; nothing fails any more. *)
Definition try_inner (c : config) (cr : crypto) (relayer signer : N) (i : call) : M st unit :=
  s <-- get_st ;;
  if signature_is_valid cr (s_rt s) i then
    (fun s => match dispatch (call_body c cr signer i) (s_rt s) with
              | (r, Ok _) => emit (CallDispatched relayer) (s <| s_rt := r |>)
              | (r, Err e) => emit (InnerCallFailed relayer e) (s <| s_rt := r |>)
              end)
  else emit (InnerCallFailed relayer "UnauthorizedProxyTransaction").

(** lib.rs:114-188 [proxy]. *)
Definition proxy (c : config) (cr : crypto) (relayer : N) (i : call) (pay : option payment) : M st unit :=
  p <-- some_or (call_proof i) "TransactionNotSupported" ;;
  ensure (relayer =? pf_relayer p) "UnauthorizedProxyTransaction" ;;;
  (match pay with Some pi => charge_fee cr p pi | None => mret_ tt end) ;;;
  try_inner c cr relayer (pf_signer p) i.

(** [OpToken] and [OpNft]: everything else that the two pallets do.  [OpElse]: the rest of the chain does
    anything to balances, NFTs, .... *)
Inductive op :=
| OpProxy (relayer : N) (i : call) (pay : option payment)
| OpToken (o : TokenModel.op)
| OpNft (o : NftModel.op)
| OpElse (f : runtime -> runtime).
Definition exec (c : config) (cr : crypto) (o : op) : M st unit :=
  match o with
  | OpProxy relayer i pay => dispatch (proxy c cr relayer i pay)
  | OpToken o => in_rt (in_tm (TokenModel.exec (c_tm c) cr o))
  | OpNft o => in_rt (in_nft (NftModel.exec (c_nft c) cr o))
  | OpElse f => modify (fun s => s <| s_rt := f (s_rt s) |>)
  end.
Definition step (c : config) (cr : crypto) (s : st) (o : op) : st := fst (exec c cr o s).
Definition run (c : config) (cr : crypto) (s : st) (ops : list op) : st := fold_left (step c cr) ops s.
Definition genesis (r : runtime) : st := mkSt r ∅ [].
