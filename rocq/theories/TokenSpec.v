(** Vocabulary of the token manager properties C02 - C06: sums of balances, and what the deposited
    events say was credited, debited, requested, claimed and refunded. *)
From Verif Require Import Base BaseLemmas SigModel TokenModel.

(** Sum of all balances of a token; sum of all native balances. *)
Definition token_total (t : N) (s : st) : N := msum (fun k v => if fst k =? t then v else 0) (s_bal s).
Definition native_total (s : st) : N := msum (fun _ v => v) (s_free s).

Definition sum_over (f : event -> N) (evs : list event) : N := fold_right (fun e acc => f e + acc) 0 evs.

(** Credits and debits of a non-native token announced by an event. *)
Definition token_credit (t : N) (e : event) : N :=
  match e with
  | TokenLifted t' _ n _ | TokensDeposited t' _ n | TokenLowerReverted t' _ n _ _ _ => if t' =? t then n else 0
  | _ => 0
  end.
Definition token_debit (t : N) (e : event) : N :=
  match e with TokenLowered t' _ _ n _ _ => if t' =? t then n else 0 | _ => 0 end.
(** The same for the native token: lifts, growth (treasury share and collator payouts), refunds; lowers. *)
Definition native_credit (e : event) : N :=
  match e with
  | AVTLifted _ n _ | AVTLowerReverted _ n _ _ _ | CollatorPaid _ n => n
  | AVTGrowthLifted n _ _ => n
  | _ => 0
  end.
Definition native_debit (e : event) : N := match e with AvtLowered _ _ n _ _ => n | _ => 0 end.

(** Lower ids, newest first: requested, executed (debited), consumed by a claim or a refund. *)
Definition requested (evs : list event) : list N :=
  omap (fun e => match e with LowerRequested _ _ _ _ _ id => Some id | _ => None end) evs.
Definition executed (evs : list event) : list N :=
  omap (fun e => match e with TokenLowered _ _ _ _ _ id | AvtLowered _ _ _ _ id => Some id | _ => None end) evs.
Definition settled (evs : list event) : list N :=
  omap (fun e => match e with AvtLowerClaimed id | AVTLowerReverted _ _ _ id _ | TokenLowerReverted _ _ _ _ id _ => Some id | _ => None end) evs.

(** Native and token balances of everybody. *)
Definition same_balances (s s' : st) : Prop := s_free s' = s_free s /\ s_bal s' = s_bal s /\ s_issuance s' = s_issuance s.

(** The administrator does not run [execute_lower] by hand. *)
Definition no_root_execute (ops : list op) : Prop :=
  forall o, In o ops -> match o with OpRootExecute _ _ _ _ _ _ => False | _ => True end.

(** The stages of a lower. *)
Inductive stage := Scheduled | AwaitingProof | Ready | ProofFailed.
Definition in_stage (s : st) (id : N) (g : stage) : Prop :=
  match g with
  | Scheduled => is_Some (s_agenda s !! id)
  | AwaitingProof => is_Some (s_pending s !! id)
  | Ready => is_Some (s_ready s !! id)
  | ProofFailed => is_Some (s_failed s !! id)
  end.

(** The signed instructions that took effect along a history, newest first: the bytes that the
    signature was checked against. *)
Definition payload_of (i : inner_call) (nonce : N) : list N :=
  match i with
  | CSignedTransfer p from to token amount => transfer_payload (pf_relayer p) from to token amount nonce
  | CSignedLower p from token amount t1 => lower_payload (pf_relayer p) from token amount t1 nonce
  | COther _ => []
  end.
Definition from_of (i : inner_call) : N :=
  match i with CSignedTransfer _ from _ _ _ => from | CSignedLower _ from _ _ _ => from | COther _ => 0 end.
Definition call_of (o : op) : option inner_call :=
  match o with OpSigned _ i => Some i | OpProxy _ i => Some i | _ => None end.
(** The operation is a signed instruction and succeeds in [s]. *)
Definition accepted (c : config) (cr : crypto) (s : st) (o : op) : option inner_call :=
  match call_of o, snd (exec c cr o s) with Some i, Ok _ => Some i | _, _ => None end.
Fixpoint accepted_payloads (c : config) (cr : crypto) (s : st) (ops : list op) : list (list N) :=
  match ops with
  | [] => []
  | o :: r =>
      match accepted c cr s o with Some i => [payload_of i (nonce_of s (from_of i))] | None => [] end
      ++ accepted_payloads c cr (step c cr s o) r
  end.
(** Arguments in the ranges of their types. *)
Definition typed_call (i : inner_call) : Prop :=
  match i with
  | CSignedTransfer p from to token amount =>
      pf_relayer p < 2 ^ 256 /\ from < 2 ^ 256 /\ to < 2 ^ 256 /\ token < 2 ^ 160 /\ amount < 2 ^ 128
  | CSignedLower p from token amount t1 =>
      pf_relayer p < 2 ^ 256 /\ from < 2 ^ 256 /\ token < 2 ^ 160 /\ amount < 2 ^ 128 /\ t1 < 2 ^ 160
  | COther _ => True
  end.
Definition typed_op (o : op) : Prop := match call_of o with Some i => typed_call i | None => True end.

(** A signature is good for one message only (what unforgeability gives for honest keys). *)
Definition one_message (cr : crypto) : Prop :=
  (forall a sg m m', cr_sr cr a m sg = true -> cr_sr cr a m' sg = true -> m = m') /\
  (forall a sg m m', cr_recover cr sg m = Some a -> cr_recover cr sg m' = Some a -> m = m').
