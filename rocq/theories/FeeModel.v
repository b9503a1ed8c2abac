(** Model of pallets/avn-transaction-payment (lib.rs, fee_adjustment_config.rs) inside the life cycle of a signed
    extrinsic (runtime/avn/src/lib.rs:90-103: CheckNonce runs before the call, the fee is withdrawn before and
    corrected after it).  Balances are u128, nonces and block numbers u32. *)
From Verif Require Import Base.

(** fee_adjustment_config.rs:7-23 [FeeType], [AdjustmentType]. *)
Inductive fee_type := FixedFee (fee : N) | PercentageFee (percentage : N) | NoFeeType.
Inductive adjustment := TimeBased (duration : N) | TransactionBased (count : N) | NoAdjustment.
(** fee_adjustment_config.rs:25-33 [FeeAdjustmentConfig]. *)
Inductive fee_config :=
| CFixed (fee : N)
| CPercentage (percentage : N)
| CTime (t : fee_type) (end_block : N)
| CTx (t : fee_type) (account end_count : N)
| CNone.

(** lib.rs:70-93 [Event]. *)
Inductive event :=
| KnownSenderAdded (who : N) (cfg : fee_config)
| KnownSenderUpdated (who : N) (cfg : fee_config)
| KnownSenderRemoved (who : N)
| AdjustedTransactionFeePaid (who fee : N).

(** lib.rs:104-109 storage; block number, account nonces; free, frozen and reserved native balances. *)
Record st := mkSt {
  s_known : gmap N fee_config; s_block : N; s_nonces : gmap N N;
  s_free : gmap N N; s_frozen : gmap N N; s_reserved : gmap N N; s_events : list event }.
#[export] Instance eta_st : Settable _ :=
  settable! mkSt <s_known; s_block; s_nonces; s_free; s_frozen; s_reserved; s_events>.
Definition emit (e : event) : M st unit := modify (fun s => s <| s_events := e :: s_events s |>).
Definition free_of (s : st) (a : N) : N := mget 0 a (s_free s).
Definition nonce_of (s : st) (a : N) : N := mget 0 a (s_nonces s).

(** ** fee_adjustment_config.rs *)

(** 104-114, 156-158, 186-188, 218-220, 253-255 [is_valid]. *)
Definition ft_none (t : fee_type) : bool := match t with NoFeeType => true | _ => false end.
Definition is_valid (f : fee_config) : bool :=
  match f with
  | CFixed fee => negb (fee =? 0)
  | CPercentage p => negb (p =? 0) && (p <=? 100)
  | CTime t e => negb (e =? 0) && negb (ft_none t)
  | CTx t _ e => negb (e =? 0) && negb (ft_none t)
  | CNone => false
  end.
(** 116-125, 222-224, 257-259 [is_active]. *)
Definition is_active (s : st) (f : fee_config) : bool :=
  match f with
  | CFixed _ | CPercentage _ => true
  | CTime _ e => s_block s <? e
  | CTx _ a e => nonce_of s a <=? e
  | CNone => false
  end.
(** sp_arithmetic [Perbill::from_percent] (caps at 100) times a u128: to nearest, half down. *)
Definition from_percent (p : N) : N := N.min p 100 * 10000000.
Definition perbill_mul (parts x : N) : N :=
  let rem := x mod 1000000000 in
  x / 1000000000 * parts + rem * parts / 1000000000 +
  (if (rem * parts) mod 1000000000 <=? 500000000 then 0 else 1).
(** 291-306 [calculate_fee]; 194-208 [PercentageFeeConfig::get_fee]. *)
Definition percentage_of (fee p : N) : N := saturating_sub fee (perbill_mul (from_percent p) fee).
Definition calculate_fee (fee : N) (t : fee_type) : res N :=
  match t with
  | FixedFee f => Ok f
  | PercentageFee p => Ok (percentage_of fee p)
  | NoFeeType => Err "InvalidFeeType"
  end.
(** 127-135, 164-171, 226-233, 261-268 [get_fee]. *)
Definition get_fee (s : st) (f : fee_config) (original : N) : res N :=
  match f with
  | CFixed fee => Ok fee
  | CPercentage p => if p =? 100 then Ok 0 else Ok (percentage_of original p)
  | CTime t _ => if is_active s f then calculate_fee original t else Ok original
  | CTx t _ _ => if is_active s f then calculate_fee original t else Ok original
  | CNone => Ok original
  end.
(** 235-243 [TimeBasedConfig::new]; 270-273 [TransactionBasedConfig::new]. *)
Definition new_time (s : st) (t : fee_type) (duration : N) : fee_config :=
  if duration =? 0 then CTime t 0 else CTime t (saturating_add U32_MAX (s_block s) duration).
Definition new_tx (s : st) (t : fee_type) (account count : N) : fee_config :=
  CTx t account (saturating_add U32_MAX (nonce_of s account) count).

(** ** lib.rs *)

(** lib.rs:111-160 [set_known_sender] (origin: root). *)
Definition build_config (s : st) (who : N) (t : fee_type) (a : adjustment) : fee_config :=
  match a with
  | TimeBased d => new_time s t d
  | TransactionBased n => new_tx s t who n
  | NoAdjustment => match t with FixedFee f => CFixed f | PercentageFee p => CPercentage p | NoFeeType => CNone end
  end.
Definition set_known_sender (root : bool) (who : N) (t : fee_type) (a : adjustment) : M st unit :=
  ensure root "BadOrigin" ;;;
  s <-- get_st ;;
  let cfg := build_config s who t a in
  ensure (is_valid cfg) "InvalidFeeConfig" ;;;
  modify (fun s => s <| s_known := <[who := cfg]> (s_known s) |>) ;;;
  emit (match s_known s !! who with None => KnownSenderAdded who cfg | Some _ => KnownSenderUpdated who cfg end).
(** lib.rs:162-178 [remove_known_sender]. *)
Definition remove_known_sender (root : bool) (who : N) : M st unit :=
  ensure root "BadOrigin" ;;;
  s <-- get_st ;;
  ensure (match s_known s !! who with Some _ => true | None => false end) "KnownSenderMissing" ;;;
  modify (fun s => s <| s_known := delete who (s_known s) |>) ;;;
  emit (KnownSenderRemoved who).

(** lib.rs:186-219 [calculate_refund_amount]. *)
Definition calculate_refund_amount (s : st) (who paid corrected tip : N) : bool * N :=
  let cfg := mget CNone who (s_known s) in
  let active := is_active s cfg in
  let fee_to_pay :=
    if active then
      match get_fee s cfg (saturating_sub corrected tip) with
      | Ok fee => saturating_add U128_MAX fee tip
      | Err _ => corrected
      end
    else corrected in
  (active, saturating_sub paid fee_to_pay).

(** lib.rs:241-267 [withdraw_fee]: [fungible::Balanced::withdraw], exact, of what is not frozen (the existential
    deposit is 0); the credit it returns. *)
Definition withdraw_fee (who fee : N) : M st (option N) :=
  if fee =? 0 then mret_ None else
  s <-- get_st ;;
  ensure (fee + mget 0 who (s_frozen s) <=? free_of s who) "Payment" ;;;
  modify (fun s => s <| s_free := <[who := free_of s who - fee]> (s_free s) |>) ;;;
  mret_ (Some fee).
(** [fungible::Balanced::deposit] with [BestEffort]: saturates; returns what was deposited. *)
Definition deposit (who amount : N) : M st N :=
  s <-- get_st ;;
  let new := saturating_add U128_MAX (free_of s who) amount in
  modify (fun s => s <| s_free := <[who := new]> (s_free s) |>) ;;;
  mret_ (new - free_of s who).
(** runtime/avn/src/configs/mod.rs:616-637 [DealWithFees]: fee and tip go to the staking pot; a credit that cannot
    be resolved is burned. *)
Definition to_pot (pot amount : N) : M st unit :=
  s <-- get_st ;;
  if free_of s pot + amount <=? U128_MAX
  then modify (fun s => s <| s_free := <[pot := free_of s pot + amount]> (s_free s) |>) else mret_ tt.

Record config := mkConfig { c_pot : N }.
Inductive adapter := Avn | Vanilla.

(** The refund and its settlement, common to lib.rs:285-309 and 376-392.  The refund never exceeds the credit, so
    [offset(..).same()] succeeds; fee and tip parts are merged again by [DealWithFees]. *)
Definition settle (c : config) (who refund paid : N) : M st unit :=
  s <-- get_st ;;
  r <-- (if (0 <? refund) && (0 <? free_of s who + mget 0 who (s_reserved s)) then deposit who refund else mret_ 0) ;;
  to_pot (c_pot c) (paid - r).
(** lib.rs:273-320 [AvnGasFeeAdapter::correct_and_deposit_fee], and 369-395 [FungibleAdapter], the adapter without
    adjustments, for comparison. *)
Definition correct_and_deposit_fee (c : config) (ad : adapter) (who corrected tip : N) (withdrawn : option N) : M st unit :=
  match withdrawn with
  | None => mret_ tt
  | Some paid =>
      s <-- get_st ;;
      match ad with
      | Avn =>
          let (active, refund) := calculate_refund_amount s who paid corrected tip in
          settle c who refund paid ;;;
          (if active then emit (AdjustedTransactionFeePaid who (saturating_sub paid refund)) else mret_ tt)
      | Vanilla => settle c who (saturating_sub paid corrected) paid
      end
  end.

(** ** Histories *)
Inductive admin :=
| Set_ (root : bool) (who : N) (t : fee_type) (a : adjustment)
| Remove (root : bool) (who : N).
Definition run_admin (a : admin) : M st unit :=
  match a with
  | Set_ root who t a => set_known_sender root who t a
  | Remove root who => remove_known_sender root who
  end.
(** What a transaction does: calls of this pallet (each in its own storage layer), and anything to balances. *)
Record body := mkBody { b_calls : list admin; b_money : gmap N N -> gmap N N }.
Definition run_body (b : body) (s : st) : st :=
  let s1 := fold_left (fun s a => fst (dispatch (run_admin a) s)) (b_calls b) s in
  s1 <| s_free := b_money b (s_free s1) |>.

(** A signed extrinsic: frame_system CheckNonce increments the nonce (u32, wrapping in a release build), the
    predicted fee is withdrawn, the call runs, the fee is corrected.  An extrinsic that cannot pay is not included.
    [predicted] and [corrected] are what pallet-transaction-payment computes before and after; both include [tip]. *)
Definition run_tx (c : config) (ad : adapter) (who predicted corrected tip : N) (b : body) : M st unit :=
  modify (fun s => s <| s_nonces := <[who := (nonce_of s who + 1) mod 2 ^ 32]> (s_nonces s) |>) ;;;
  w <-- withdraw_fee who predicted ;;
  modify (run_body b) ;;;
  correct_and_deposit_fee c ad who corrected tip w.

Inductive op :=
| OpTx (who predicted corrected tip : N) (b : body)
| OpElse (b : body)                       (* governance, the scheduler, inherents, unsigned transactions *)
| EnvBlock (n : N) | EnvFrozen (f r : gmap N N).
Definition exec (c : config) (ad : adapter) (o : op) : M st unit :=
  match o with
  | OpTx who p q tip b => dispatch (run_tx c ad who p q tip b)
  | OpElse b => modify (run_body b)
  | EnvBlock n => modify (fun s => s <| s_block := n |>)
  | EnvFrozen f r => modify (fun s => s <| s_frozen := f |> <| s_reserved := r |>)
  end.
Definition step (c : config) (ad : adapter) (s : st) (o : op) : st := fst (exec c ad o s).
Definition run (c : config) (ad : adapter) (s : st) (ops : list op) : st := fold_left (step c ad) ops s.
Definition genesis (free : gmap N N) : st := mkSt ∅ 0 ∅ free ∅ ∅ [].
