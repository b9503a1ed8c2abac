(** C100: what a transaction costs. *)
From Verif Require Import Base BaseLemmas FeeModel FeeSpec FeeProofs FeeProps TxFeeModel.

(** The price list, in atto-AVT: a thousandth of an AVT, five millionths per byte, and the time used at eight million per
    unit (a thousandth of an AVT for 125 microseconds) times the multiplier. *)
Definition listed (multiplier len time : N) : N := 10 ^ 15 + len * (5 * 10 ^ 12) + multiplier * (8 * 10 ^ 6 * time) / 10 ^ 18.
(** Numbers for which nothing reaches 2^128: a length is a u32; a multiplier of 2^64 has 18 digits before the point. *)
Definition ordinary (multiplier len tip : N) : Prop := len < 2 ^ 32 /\ multiplier < 2 ^ 124 /\ tip < 2 ^ 126.

Lemma weight_fee_eq w : weight_fee w = 8 * 10 ^ 6 * N.min (w_ref w) (5 * 10 ^ 11).
Proof.
  unfold weight_fee, polynomial_fee, wmin, max_block, sat_add, sat_mul, saturating_add. cbn [w_ref].
  change coeff_frac with 0. change coeff_integer with (8 * 10 ^ 6). change (1000000000000 / 2) with (5 * 10 ^ 11).
  assert (perbill_mul 0 (N.min (w_ref w) (5 * 10 ^ 11)) = 0) as ->.
  { unfold perbill_mul. rewrite !N.mul_0_r. reflexivity. }
  unfold U128_MAX. lia.
Qed.
(** The part that does not depend on the call is a thousandth of an AVT, exactly. *)
Theorem C100_base_fee : weight_fee (mkWeight base_ref_time 0) = 10 ^ 15.
Proof. reflexivity. Qed.
Lemma fee_raw_eq m len w tip : ordinary m len tip -> fee_raw m len w true tip = listed m len (N.min (w_ref w) (5 * 10 ^ 11)) + tip.
Proof.
  intros (H1 & H2 & H3). unfold fee_raw. rewrite C100_base_fee, weight_fee_eq. unfold listed, length_fee, mul_int.
  change (5 * MICRO_AVT) with (5 * 10 ^ 12). change ONE with (10 ^ 18).
  set (t := N.min (w_ref w) (5 * 10 ^ 11)). assert (Ht : t <= 5 * 10 ^ 11) by (subst t; lia). clearbody t.
  assert (Hb : m * (8 * 10 ^ 6 * t) / 10 ^ 18 <= 4 * m).
  { apply N.div_le_upper_bound; [lia|]. nia. }
  unfold sat_add, sat_mul, saturating_add, U128_MAX. lia.
Qed.
(** The time a call used: what it reports, at most what it declared; what it declared if it reports nothing. *)
Definition time_used (i : info) (q : post_info) : N :=
  match q_actual q with Some w => N.min (w_ref w) (w_ref (i_weight i)) | None => w_ref (i_weight i) end.
Lemma time_used_eq i q : w_ref (actual_weight i q) = time_used i q.
Proof. unfold actual_weight, time_used, wmin. destruct (q_actual q); done. Qed.
(** Before the call the time it declares is charged, after it the time it used; of a single call never more than a
    block's half second. *)
Theorem C100_price_list m len i q tip : ordinary m len tip -> i_pays i = true ->
  predicted_fee m len i tip = listed m len (N.min (w_ref (i_weight i)) (5 * 10 ^ 11)) + tip /\
  actual_fee m len i q tip = (if q_pays q then listed m len (N.min (time_used i q) (5 * 10 ^ 11)) else 0) + tip.
Proof.
  intros H Hi. unfold predicted_fee, actual_fee. rewrite Hi. cbn [andb]. split; [by apply fee_raw_eq|]. rewrite <- time_used_eq.
  destruct (q_pays q); [by apply fee_raw_eq|]. cbn. lia.
Qed.
(** A call that is free of charge, by declaration or afterwards, costs the tip only. *)
Theorem C100_free_of_charge m len i q tip : i_pays i && q_pays q = false -> actual_fee m len i q tip = tip.
Proof. intros H. unfold actual_fee. by rewrite H. Qed.

Lemma weight_fee_mono w w' : w_ref w <= w_ref w' -> weight_fee w <= weight_fee w'.
Proof. intros H. rewrite !weight_fee_eq. lia. Qed.
Lemma mul_int_mono m m' x x' : m <= m' -> x <= x' -> mul_int m x <= mul_int m' x'.
Proof. intros H1 H2. unfold mul_int. pose proof (N.div_le_mono (m * x) (m' * x') ONE ltac:(done) ltac:(nia)). lia. Qed.
(** More bytes, more time, a higher multiplier or tip never make it cheaper; this holds for all numbers. *)
Theorem C100_monotone m m' len len' w w' tip tip' : m <= m' -> len <= len' -> w_ref w <= w_ref w' -> tip <= tip' ->
  fee_raw m len w true tip <= fee_raw m' len' w' true tip'.
Proof.
  intros H1 H2 H3 H4. unfold fee_raw. pose proof (mul_int_mono m m' _ _ H1 (weight_fee_mono w w' H3)) as Hm.
  assert (Hl : length_fee len <= length_fee len') by (unfold length_fee, sat_mul, MICRO_AVT, NANO_AVT, PICO_AVT; lia).
  unfold sat_add, saturating_add. lia.
Qed.
Lemma tip_le m len w b tip : tip <= U128_MAX -> tip <= fee_raw m len w b tip.
Proof. intros H. unfold fee_raw. destruct b; [unfold sat_add, saturating_add|]; lia. Qed.
(** After the call it is never more than what was taken before it, whatever the call reports, and the tip is in it. *)
Theorem C100_never_more_than_predicted m len i q tip : tip <= U128_MAX ->
  tip <= actual_fee m len i q tip <= predicted_fee m len i tip.
Proof.
  intros Ht. unfold actual_fee, predicted_fee. split.
  - by apply tip_le.
  - destruct (i_pays i), (q_pays q); cbn [andb].
    + apply C100_monotone; try lia. unfold actual_weight, wmin. destruct (q_actual q); cbn; lia.
    + by apply (tip_le m len (i_weight i) true).
    + apply N.le_refl.
    + apply N.le_refl.
Qed.
(** One transaction is cheaper than the same bytes and time split over two. *)
Theorem C100_splitting_never_saves m len1 len2 w1 w2 tip1 tip2 : ordinary m (len1 + len2) (tip1 + tip2) ->
  fee_raw m (len1 + len2) (mkWeight (w_ref w1 + w_ref w2) (w_proof w1 + w_proof w2)) true (tip1 + tip2) <
  fee_raw m len1 w1 true tip1 + fee_raw m len2 w2 true tip2.
Proof.
  intros H. assert (H1 : ordinary m len1 tip1) by (unfold ordinary in *; lia). assert (H2 : ordinary m len2 tip2) by (unfold ordinary in *; lia).
  rewrite !fee_raw_eq by done. unfold listed. cbn [w_ref].
  set (t1 := N.min (w_ref w1) (5 * 10 ^ 11)). set (t2 := N.min (w_ref w2) (5 * 10 ^ 11)). set (t := N.min (w_ref w1 + w_ref w2) (5 * 10 ^ 11)).
  assert (Ht : t <= t1 + t2) by (subst t t1 t2; lia). clearbody t t1 t2.
  set (d := 10 ^ 18). assert (Hd : d <> 0) by done.
  set (a := m * (8 * 10 ^ 6 * t)). set (a1 := m * (8 * 10 ^ 6 * t1)). set (a2 := m * (8 * 10 ^ 6 * t2)).
  assert (Ha : a <= a1 + a2) by (subst a a1 a2; nia).
  assert (Hdiv : a / d <= a1 / d + a2 / d + 1).
  { pose proof (N.div_mod a1 d Hd). pose proof (N.div_mod a2 d Hd). pose proof (N.mod_lt a1 d Hd). pose proof (N.mod_lt a2 d Hd).
    enough (a / d < a1 / d + a2 / d + 2) by lia. apply N.div_lt_upper_bound; [done|]. nia. }
  clearbody a a1 a2 d. lia.
Qed.

(** ** What leaves the sender's account *)
Definition still_money (b : body) : Prop := forall f, b_money b f = f.
Lemma after_call_free s who p b a : still_money b -> free_of (after_call s who p b) a = if a =? who then free_of s who - p else free_of s a.
Proof.
  intros Hb. unfold after_call, run_body. cbn. unfold free_of. cbn. rewrite Hb.
  assert (Hd : forall l s0, s_free (fold_left (fun s a => fst (dispatch (run_admin a) s)) l s0) = s_free s0).
  { induction l as [|x l IH]; intros s0; [done|]. cbn [fold_left]. rewrite IH. unfold dispatch.
    destruct x as [root w t ad|root w]; cbn [run_admin]; unfold set_known_sender, remove_known_sender, mbind_, ensure, get_st, modify, emit; destruct root; cbn; try done.
    - destruct (is_valid _); cbn; done.
    - destruct (s_known s0 !! w); cbn; done. }
  rewrite Hd. cbn. unfold mget. destruct (N.eqb_spec a who) as [->|Hn]; [by rewrite lookup_insert|by rewrite lookup_insert_ne].
Qed.
(** A sender without an adjustment pays exactly the fee for what his call used, and the pot gets it. *)
Theorem C100_ordinary_sender_pays c m len i q who tip b s s' : let fee := actual_fee m len i q tip in let p := predicted_fee m len i tip in
  exec c Avn (pay_tx c m len i q who tip b) s = (s', Ok tt) -> i_pays i = true -> tip <= U128_MAX -> still_money b ->
  ~ in_force (after_call s who p b) (mget CNone who (s_known (after_call s who p b))) -> p < free_of s who -> who <> c_pot c ->
  free_of s who <= U128_MAX -> free_of s (c_pot c) + p <= U128_MAX ->
  free_of s' who + fee = free_of s who /\ free_of s' (c_pot c) = free_of s (c_pot c) + fee /\
  (forall a, a <> who -> a <> c_pot c -> free_of s' a = free_of s a).
Proof.
  intros fee p E Hi Ht Hb Hf Hp Hne R1 R2. pose proof (C100_never_more_than_predicted m len i q tip Ht) as [L1 L2]. fold fee p in L1, L2.
  assert (Hp0 : p <> 0).
  { subst p. unfold predicted_fee. rewrite Hi. unfold fee_raw. rewrite C100_base_fee. unfold sat_add, saturating_add, U128_MAX. lia. }
  assert (Hpre : free_of (after_call s who p b) who = free_of s who - p) by (rewrite after_call_free by done; by rewrite N.eqb_refl).
  assert (Hpot : free_of (after_call s who p b) (c_pot c) = free_of s (c_pot c)).
  { rewrite after_call_free by done. by rewrite (proj2 (N.eqb_neq _ _)) by congruence. }
  unfold pay_tx in E. fold fee p in E. rewrite (C30_no_adjustment_no_difference c s who p fee tip b Hf) in E.
  apply run_tx_inv in E as [_ E]; [|done].
  destruct (correct_spec c Vanilla who p fee tip (after_call s who p b) Hne ltac:(lia) ltac:(lia)) as (s2 & E2 & [_ H] & _). rewrite E in E2. injection E2 as <-.
  rewrite (refunded_exact _ who p) in H by (first [lia | unfold alive; lia]).
  split; [|split].
  - rewrite H, Hpre, N.eqb_refl, (proj2 (N.eqb_neq _ _)) by congruence. lia.
  - rewrite H, Hpot, N.eqb_refl, (proj2 (N.eqb_neq _ _)) by congruence. lia.
  - intros a Ha1 Ha2. rewrite H, after_call_free by done. rewrite !(proj2 (N.eqb_neq _ _)) by congruence. lia.
Qed.
(** A known sender pays the price agreed with him of the same fee: a percentage of what the call cost, or a fixed sum. *)
Theorem C100_known_sender_pays c m len i q who tip b s s' : let fee := actual_fee m len i q tip in let p := predicted_fee m len i tip in
  let cfg := mget CNone who (s_known (after_call s who p b)) in
  exec c Avn (pay_tx c m len i q who tip b) s = (s', Ok tt) -> i_pays i = true -> tip <= U128_MAX -> still_money b ->
  in_force (after_call s who p b) cfg -> terms cfg <> NoFeeType -> p < free_of s who -> who <> c_pot c ->
  free_of s who <= U128_MAX -> free_of s (c_pot c) + p <= U128_MAX ->
  exists x, price (fee - tip) (terms cfg) x /\ free_of s' who + N.min p (x + tip) = free_of s who /\ free_of s' (c_pot c) = free_of s (c_pot c) + N.min p (x + tip).
Proof.
  intros fee p cfg E Hi Ht Hb Hf Hn Hp Hne R1 R2.
  assert (Hp0 : p <> 0).
  { subst p. unfold predicted_fee. rewrite Hi. unfold fee_raw. rewrite C100_base_fee. unfold sat_add, saturating_add, U128_MAX. lia. }
  assert (Hpre : free_of (after_call s who p b) who = free_of s who - p) by (rewrite after_call_free by done; by rewrite N.eqb_refl).
  assert (Hpot : free_of (after_call s who p b) (c_pot c) = free_of s (c_pot c)).
  { rewrite after_call_free by done. by rewrite (proj2 (N.eqb_neq _ _)) by congruence. }
  destruct (C30_pays_price c s who p fee tip b s' E Hp0) as (x & Hx & [_ H] & _); [|unfold alive; lia|done|done|].
  { split; [done|]. lia. }
  exists x. split; [done|]. split.
  - rewrite H, Hpre, N.eqb_refl, (proj2 (N.eqb_neq _ _)) by congruence. lia.
  - rewrite H, Hpot, N.eqb_refl, (proj2 (N.eqb_neq _ _)) by congruence. lia.
Qed.
(** What a call takes of the block's room for proofs costs nothing: of two calls one can take all of it, the other none. *)
Theorem C100_room_is_charged_refuted : exists w w', w_ref w = w_ref w' /\ w_proof w = 0 /\ w_proof w' = w_proof max_block /\
  forall m len tip, fee_raw m len w true tip = fee_raw m len w' true tip.
Proof. exists (mkWeight base_ref_time 0), (mkWeight base_ref_time (5 * 1024 * 1024)). repeat split. Qed.

(** A transfer of 150 bytes that declares 250 microseconds and uses 200, at multiplier one. *)
Definition ex_i : info := mkInfo (mkWeight 250000000 3593) true.
Definition ex_q : post_info := mkPost (Some (mkWeight 200000000 0)) true.
Definition ex_body : body := mkBody [] (fun f => f).
Definition ex_cfg : config := mkConfig 99.
Definition ex_st : st := genesis {[1 := 10 ^ 18]}.
Example C100_applies : ordinary ONE 150 7 /\ predicted_fee ONE 150 ex_i 7 = 3750000000000007 /\ actual_fee ONE 150 ex_i ex_q 7 = 3350000000000007 /\
  (let r := exec ex_cfg Avn (pay_tx ex_cfg ONE 150 ex_i ex_q 1 7 ex_body) ex_st in
   snd r = Ok tt /\ free_of (fst r) 1 = 10 ^ 18 - 3350000000000007 /\ free_of (fst r) 99 = 3350000000000007).
Proof. split; [unfold ordinary, ONE; lia|]. vm_compute. repeat split. Qed.
