(** Model of what the runtime charges for a transaction: runtime/common/src/lib.rs:58-84 (weight and length fees),
    runtime/common/src/constants.rs:24-28, runtime/common/src/weights/extrinsic_weights.rs:24-28, and the formula of
    pallet-transaction-payment (FRAME, polkadot-sdk stable2409, from its published source) that
    runtime/avn/src/configs/mod.rs:168-175 instantiates with them.  The fee multiplier is an input: it changes only
    between blocks.  Fees are u128, reference time is u64, lengths are u32; sums and products saturate. *)
From Verif Require Import Base FeeModel.

(** constants.rs:24-28. *)
Definition PICO_AVT : N := 1000000.
Definition NANO_AVT : N := 1000 * PICO_AVT.
Definition MICRO_AVT : N := 1000 * NANO_AVT.
Definition MILLI_AVT : N := 1000 * MICRO_AVT.
(** extrinsic_weights.rs:24-28; sp_weights has a thousand units of reference time per nanosecond. *)
Definition base_ref_time : N := 1000 * 125000.
(** sp_weights [Weight]; [Weight::min] takes the least of each component. *)
Record weight := mkWeight { w_ref : N; w_proof : N }.
Definition wmin (a b : weight) : weight := mkWeight (N.min (w_ref a) (w_ref b)) (N.min (w_proof a) (w_proof b)).
(** runtime/avn/src/lib.rs:175-179 [MAXIMUM_BLOCK_WEIGHT]: half a second and 5 MiB of proof; configs/mod.rs:69-98 makes it [max_block]. *)
Definition max_block : weight := mkWeight (1000000000000 / 2) (5 * 1024 * 1024).

Definition sat_add (a b : N) : N := saturating_add U128_MAX a b.
Definition sat_mul (a b : N) : N := N.min U128_MAX (a * b).
(** runtime/common/src/lib.rs:62-74 the polynomial: one term of degree one. *)
Definition coeff_integer : N := MILLI_AVT / base_ref_time.
Definition coeff_frac : N := (MILLI_AVT mod base_ref_time) * 1000000000 / base_ref_time.
(** sp_weights [WeightToFeePolynomial::weight_to_fee]: of the reference time only; transaction-payment [weight_to_fee]
    caps the weight at [max_block]. *)
Definition polynomial_fee (w : weight) : N :=
  sat_add (sat_add 0 (perbill_mul coeff_frac (w_ref w))) (sat_mul coeff_integer (w_ref w)).
Definition weight_fee (w : weight) : N := polynomial_fee (wmin w max_block).
(** runtime/common/src/lib.rs:81 [TransactionByteFee] in a [ConstantMultiplier]. *)
Definition length_fee (len : N) : N := sat_mul len (5 * MICRO_AVT).
(** sp_arithmetic [FixedU128::saturating_mul_int]: rounds down. *)
Definition ONE : N := 1000000000000000000.
Definition mul_int (m x : N) : N := N.min U128_MAX (m * x / ONE).

(** [DispatchInfo] and [PostDispatchInfo] of a call. *)
Record info := mkInfo { i_weight : weight; i_pays : bool }.
Record post_info := mkPost { q_actual : option weight; q_pays : bool }.
Definition actual_weight (i : info) (q : post_info) : weight :=
  match q_actual q with Some w => wmin w (i_weight i) | None => i_weight i end.
(** transaction-payment [compute_fee_raw], [FeeDetails::final_fee]: base, length and adjusted weight fee, then the tip. *)
Definition fee_raw (multiplier len : N) (w : weight) (pays : bool) (tip : N) : N :=
  if pays then sat_add (sat_add (sat_add (weight_fee (mkWeight base_ref_time 0)) (length_fee len)) (mul_int multiplier (weight_fee w))) tip
  else tip.
(** [compute_fee] before the call, [compute_actual_fee] after it. *)
Definition predicted_fee (multiplier len : N) (i : info) (tip : N) : N := fee_raw multiplier len (i_weight i) (i_pays i) tip.
Definition actual_fee (multiplier len : N) (i : info) (q : post_info) (tip : N) : N :=
  fee_raw multiplier len (actual_weight i q) (i_pays i && q_pays q) tip.
(** A transaction: FeeModel's, with the fees as the runtime computes them. *)
Definition pay_tx (c : config) (multiplier len : N) (i : info) (q : post_info) (who tip : N) (b : body) : op :=
  OpTx who (predicted_fee multiplier len i tip) (actual_fee multiplier len i q tip) tip b.
