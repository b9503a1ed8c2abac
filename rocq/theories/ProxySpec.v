(** Vocabulary of the properties of relayed calls, C29. *)
From Verif Require Import Base CodecModel SigModel ProxyModel.
From Verif Require TokenModel TokenSpec TokenProps NftModel NftSpec.

(** Nothing but the balances and the record of deposited events differs. *)
Definition only_balances (s s' : TokenModel.st) : Prop :=
  exists free bal evs, s' = TokenModel.mkSt (TokenModel.s_block s) (TokenModel.s_time s) free (TokenModel.s_frozen s)
    (TokenModel.s_issuance s) bal (TokenModel.s_nonces s) (TokenModel.s_avt s) (TokenModel.s_ready s)
    (TokenModel.s_pending s) (TokenModel.s_failed s) (TokenModel.s_lower_nonce s) (TokenModel.s_period s)
    (TokenModel.s_disabled s) (TokenModel.s_agenda s) (TokenModel.s_processed s) (TokenModel.s_bridge_ok s)
    (TokenModel.s_sched_ok s) (TokenModel.s_growth s) (evs ++ TokenModel.s_events s).

(** The payer pays the recipient exactly the amount, and nothing else happens. *)
Definition paid (pi : payment) (r r' : runtime) : Prop :=
  TokenProps.moves (pm_token pi) (pm_payer pi) (pm_recipient pi) (pm_amount pi) (r_tm r) (r_tm r') /\
  only_balances (r_tm r) (r_tm r') /\ r_nft r' = r_nft r.

(** The NFT that an instruction is about. *)
Definition subject (i : NftModel.call) : option N :=
  match i with NftModel.CList _ id _ | NftModel.CTransfer _ id _ | NftModel.CCancel _ id => Some id | _ => None end.
(** The relayed call carries a signature of its signer over what it asks for and the current nonce. *)
Definition signed_by_signer (cr : crypto) (r : runtime) (i : call) (p : proof) : Prop :=
  match i with
  | CToken i => verify_signature cr p (TokenSpec.payload_of i (TokenModel.nonce_of (r_tm r) (pf_signer p))) = true
  | CNft i => verify_signature cr p (NftSpec.payload_of (r_nft r) i) = true /\
      forall id, subject i = Some id -> is_Some (NftModel.s_nfts (r_nft r) !! id)
  | COther _ valid _ => valid = true
  | CUnsupported => False
  end.

(** What becomes of the relayed call once the fee is settled: it runs to its end with the origin of the
    signer, or it is as if it had not run. *)
Inductive outcome (c : config) (cr : crypto) (relayer : N) (i : call) (p : proof) (r : runtime) : runtime -> event -> Prop :=
| Done r' : signed_by_signer cr r i p -> call_body c cr (pf_signer p) i r = (r', Ok tt) ->
    outcome c cr relayer i p r r' (CallDispatched relayer)
| Failed r' e : signed_by_signer cr r i p -> call_body c cr (pf_signer p) i r = (r', Err e) ->
    outcome c cr relayer i p r r (InnerCallFailed relayer e)
| Unsigned : ~ signed_by_signer cr r i p -> outcome c cr relayer i p r r (InnerCallFailed relayer "UnauthorizedProxyTransaction").

(** The payment of a relayed call that was accepted in [s]. *)
Definition payment_of (c : config) (cr : crypto) (s : st) (o : op) : option (proof * payment) :=
  match o with
  | OpProxy relayer i (Some pi) =>
      match snd (exec c cr o s), call_proof i with Ok _, Some p => Some (p, pi) | _, _ => None end
  | _ => None
  end.
(** The bytes the payer must have signed. *)
Definition payload_of (s : st) (x : proof * payment) : list N :=
  payment_payload (fst x) (pm_recipient (snd x)) (pm_amount (snd x)) (pm_token (snd x)) (nonce_of s (pm_payer (snd x))).
(** Payer and signed bytes of every payment along a history. *)
Fixpoint payments (c : config) (cr : crypto) (s : st) (ops : list op) : list (N * list N) :=
  match ops with
  | [] => []
  | o :: r =>
      match payment_of c cr s o with Some x => [(pm_payer (snd x), payload_of s x)] | None => [] end
      ++ payments c cr (step c cr s o) r
  end.

(** Arguments in the ranges of their types. *)
Definition typed_sig (s : multisig) : Prop :=
  match s with SigSr25519 x | SigEd25519 x => x < 2 ^ 512 | SigEcdsa x => x < 2 ^ 520 end.
Definition typed_proof (p : proof) : Prop := pf_signer p < 2 ^ 256 /\ pf_relayer p < 2 ^ 256 /\ typed_sig (pf_sig p).
Definition typed_payment (x : proof * payment) : Prop :=
  typed_proof (fst x) /\ pm_recipient (snd x) < 2 ^ 256 /\ pm_amount (snd x) < 2 ^ 128 /\ pm_token (snd x) < 2 ^ 160.
Definition typed_op (o : op) : Prop :=
  match o with
  | OpProxy _ i (Some pi) => match call_proof i with Some p => typed_payment (p, pi) | None => True end
  | _ => True
  end.

(** A signature is good for one message only (what unforgeability gives for honest keys). *)
Definition one_message (cr : crypto) : Prop :=
  (forall a sg m m', cr_sr cr a m sg = true -> cr_sr cr a m' sg = true -> m = m') /\
  (forall a sg m m', cr_recover cr sg m = Some a -> cr_recover cr sg m' = Some a -> m = m').

(** Only token manager and NFT manager calls and operations. *)
Definition plain (o : op) : Prop :=
  match o with OpProxy _ (COther _ _ _) _ => False | OpElse _ => False | _ => True end.
