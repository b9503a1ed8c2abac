From Verif Require Import Base BaseLemmas FeeModel FeeSpec.

Lemma in_force_spec s f : is_active s f = true <-> in_force s f.
Proof. destruct f; cbn; try (split; [done|]; try done); rewrite ?N.ltb_lt, ?N.leb_le; done. Qed.

(** ** Arithmetic *)
Lemma perbill_nearest p x : p <= 100 ->
  100 * perbill_mul (p * 10000000) x <= p * x + 50 /\ p * x <= 100 * perbill_mul (p * 10000000) x + 50 /\ perbill_mul (p * 10000000) x <= x.
Proof.
  intros Hp. unfold perbill_mul. cbv zeta.
  pose proof (N.div_mod x 1000000000 ltac:(lia)) as E1. pose proof (N.mod_lt x 1000000000 ltac:(lia)) as L1.
  set (q := x / 1000000000) in *. set (r := x mod 1000000000) in *. clearbody q r. subst x.
  pose proof (N.div_mod (r * (p * 10000000)) 1000000000 ltac:(lia)) as E2. pose proof (N.mod_lt (r * (p * 10000000)) 1000000000 ltac:(lia)) as L2.
  set (q2 := r * (p * 10000000) / 1000000000) in *. set (r2 := (r * (p * 10000000)) mod 1000000000) in *. clearbody q2 r2.
  assert (E3 : r * p = 100 * q2 + r2 / 10000000 /\ r2 = 10000000 * (r2 / 10000000)).
  { assert (r2 mod 10000000 = 0).
    { replace r2 with ((r * p - 100 * q2) * 10000000) by nia. apply N.mod_mul. lia. }
    pose proof (N.div_mod r2 10000000 ltac:(lia)). split; nia. }
  destruct E3 as [E3 E4]. set (k := r2 / 10000000) in *. clearbody k. subst r2.
  assert (Hk : k < 100) by lia. clear E2 L2.
  assert (Hq : q * (p * 10000000) * 100 = p * (1000000000 * q)) by lia.
  assert (Hm : p * (1000000000 * q + r) = 100 * (q * (p * 10000000)) + 100 * q2 + k) by nia.
  destruct (N.leb_spec (10000000 * k) 500000000) as [H|H].
  - split; [lia|]. split; [lia|]. assert (p * (1000000000 * q + r) <= 100 * (1000000000 * q + r)) by nia. lia.
  - split; [lia|]. split; [lia|]. assert (p * (1000000000 * q + r) <= 100 * (1000000000 * q + r)) by nia.
    assert (100 * (q * (p * 10000000) + q2 + 1) < 100 * (1000000000 * q + r) + 50 + 1) by lia. lia.
Qed.
Lemma percentage_price network p : price network (PercentageFee p) (percentage_of network p).
Proof.
  unfold percentage_of, from_percent, saturating_sub. destruct (perbill_nearest (N.min p 100) network ltac:(lia)) as (H1 & H2 & H3).
  now constructor.
Qed.
Lemma percentage_100 network : percentage_of network 100 = 0.
Proof.
  pose proof (percentage_price network 100) as H. inversion H. lia.
Qed.
Lemma percentage_le network p : percentage_of network p <= network.
Proof. unfold percentage_of, saturating_sub. lia. Qed.

(** ** What calls do not touch *)
Definition same_env (s s' : st) : Prop :=
  s_block s' = s_block s /\ s_nonces s' = s_nonces s /\ s_frozen s' = s_frozen s /\ s_reserved s' = s_reserved s /\
  s_free s' = s_free s /\ forall who, adjusted who (s_events s') = adjusted who (s_events s).
Lemma run_admin_env a s : same_env s (fst (dispatch (run_admin a) s)).
Proof.
  destruct (dispatch (run_admin a) s) as [s' [[]|e]] eqn:E; cbn [fst]; [|apply dispatch_err in E as ->; done].
  apply dispatch_ok in E. destruct a as [root who t a|root who]; cbn in E.
  - unfold set_known_sender, emit in E. minv E. unfold same_env. cbn. repeat (split; [reflexivity|]). intros w. now destruct (s_known s !! who).
  - unfold remove_known_sender, emit in E. minv E; unfold same_env; cbn; repeat (split; [reflexivity|]); done.
Qed.
Lemma run_admin_known a s who : quiet_call who a -> s_known (fst (dispatch (run_admin a) s)) !! who = s_known s !! who.
Proof.
  intros Hq. destruct (dispatch (run_admin a) s) as [s' [[]|e]] eqn:E; cbn [fst]; [|apply dispatch_err in E as ->; done].
  apply dispatch_ok in E. destruct a as [root w t a|root w]; cbn in E, Hq.
  - unfold set_known_sender, emit in E. minv E. destruct Hq as [Hq|Hq]; [done|]. cbn. now rewrite lookup_insert_ne.
  - unfold remove_known_sender, emit in E. minv E; (destruct Hq as [Hq|Hq]; [done|]); cbn; now rewrite lookup_delete_ne.
Qed.
Lemma run_body_env b s : let s' := run_body b s in
  s_block s' = s_block s /\ s_nonces s' = s_nonces s /\ s_frozen s' = s_frozen s /\ s_reserved s' = s_reserved s /\
  s_free s' = b_money b (s_free s) /\ (forall who, adjusted who (s_events s') = adjusted who (s_events s)) /\
  forall who, Forall (quiet_call who) (b_calls b) -> s_known s' !! who = s_known s !! who.
Proof.
  cbv zeta. unfold run_body. cbn.
  assert (H : let s1 := fold_left (fun s a => fst (dispatch (run_admin a) s)) (b_calls b) s in
    same_env s s1 /\ forall who, Forall (quiet_call who) (b_calls b) -> s_known s1 !! who = s_known s !! who).
  { cbv zeta. generalize (b_calls b) as l. intros l. revert s. induction l as [|a l IH]; intros s; [split; [done|done]|]. cbn.
    destruct (IH (fst (dispatch (run_admin a) s))) as [(A1 & A2 & A3 & A4 & A5 & A6) A7].
    destruct (run_admin_env a s) as (B1 & B2 & B3 & B4 & B5 & B6).
    split.
    - unfold same_env. repeat (split; [congruence|]). intros w. now rewrite A6.
    - intros who Hq. apply Forall_cons in Hq as [Hq Hq2]. rewrite A7 by done. now apply run_admin_known. }
  destruct H as [(A1 & A2 & A3 & A4 & A5 & A6) A7]. rewrite A5. done.
Qed.

(** ** Settling *)
Lemma free_insert (s : st) m a b v : s_free s = <[b := v]> m -> free_of s a = if a =? b then v else mget 0 a m.
Proof.
  intros E. unfold free_of, mget. rewrite E. destruct (N.eqb_spec a b) as [->|Hne]; [now rewrite lookup_insert|]. rewrite lookup_insert_ne; [done|congruence].
Qed.
(** The refund that is really made. *)
Definition refunded (m : st) (who refund : N) : N :=
  if (0 <? refund) && (0 <? free_of m who + mget 0 who (s_reserved m))
  then saturating_add U128_MAX (free_of m who) refund - free_of m who else 0.
Lemma settle_spec c who refund paid m : who <> c_pot c -> free_of m who <= U128_MAX -> free_of m (c_pot c) + paid <= U128_MAX -> refund <= paid ->
  exists s', settle c who refund paid m = (s', Ok tt) /\ settled c who paid (refunded m who refund) m s' /\
    s_known s' = s_known m /\ s_block s' = s_block m /\ s_nonces s' = s_nonces m /\ s_events s' = s_events m.
Proof.
  intros Hne Hbound Hpot Hle. unfold settle, refunded.
  assert (Hend : forall m1 r, r <= paid -> s_known m1 = s_known m -> s_block m1 = s_block m -> s_nonces m1 = s_nonces m -> s_events m1 = s_events m ->
    (forall a, free_of m1 a = free_of m a + (if a =? who then r else 0)) ->
    exists s', to_pot (c_pot c) (paid - r) m1 = (s', Ok tt) /\ settled c who paid r m s' /\
      s_known s' = s_known m /\ s_block s' = s_block m /\ s_nonces s' = s_nonces m /\ s_events s' = s_events m).
  { intros m1 r Hr K1 K2 K3 K4 Hm1. unfold to_pot, mbind_ at 1, get_st.
    assert (Hp : free_of m1 (c_pot c) = free_of m (c_pot c)) by (rewrite Hm1; destruct (N.eqb_spec (c_pot c) who); [congruence|lia]).
    destruct (N.leb_spec (free_of m1 (c_pot c) + (paid - r)) U128_MAX); [|lia]. unfold modify.
    eexists. split; [reflexivity|]. split; [|done]. split; [done|]. intros a.
    erewrite free_insert by reflexivity. change (mget 0 a (s_free m1)) with (free_of m1 a).
    destruct (N.eqb_spec a (c_pot c)) as [->|]; [rewrite Hp; destruct (N.eqb_spec (c_pot c) who); [congruence|lia]|rewrite Hm1; lia]. }
  unfold mbind_ at 1, get_st at 1.
  destruct ((0 <? refund) && (0 <? free_of m who + mget 0 who (s_reserved m))) eqn:Ec.
  - unfold mbind_ at 1, deposit, mbind_ at 1, get_st at 1. cbv zeta. unfold mbind_ at 1, modify at 1, mret_.
    apply Hend; try done; [unfold saturating_add; lia|]. intros a. erewrite free_insert by reflexivity. change (mget 0 a (s_free m)) with (free_of m a).
    destruct (N.eqb_spec a who) as [->|]; [|lia]. unfold saturating_add. lia.
  - unfold mbind_ at 1, mret_. apply Hend; try done; [lia|]. intros a. destruct (a =? who); lia.
Qed.
(** What correcting the fee does. *)
Lemma correct_spec c ad who predicted corrected tip m : who <> c_pot c -> free_of m who <= U128_MAX -> free_of m (c_pot c) + predicted <= U128_MAX ->
  let cr := calculate_refund_amount m who predicted corrected tip in
  let refund := match ad with Avn => snd cr | Vanilla => predicted - corrected end in
  exists s', correct_and_deposit_fee c ad who corrected tip (Some predicted) m = (s', Ok tt) /\
    settled c who predicted (refunded m who refund) m s' /\
    s_known s' = s_known m /\ s_block s' = s_block m /\ s_nonces s' = s_nonces m /\
    s_events s' = (if match ad with Avn => fst cr | Vanilla => false end then [AdjustedTransactionFeePaid who (predicted - refund)] else []) ++ s_events m.
Proof.
  intros Hne Hb Hp cr refund.
  assert (Hr : refund <= predicted).
  { subst refund cr. destruct ad; [|lia]. unfold calculate_refund_amount. cbn. unfold saturating_sub. lia. }
  destruct (settle_spec c who refund predicted m Hne Hb Hp Hr) as (s' & E & H1 & H2 & H3 & H4 & H5).
  unfold correct_and_deposit_fee, mbind_ at 1, get_st. destruct ad.
  - subst refund cr. destruct (calculate_refund_amount m who predicted corrected tip) as [act rf]. cbn [fst snd] in *.
    unfold mbind_ at 1. rewrite E. destruct act.
    + eexists. split; [reflexivity|]. cbn. rewrite H5. done.
    + exists s'. unfold mret_. done.
  - exists s'. subst refund. done.
Qed.
Lemma run_tx_eq c ad who p q tip b s : p <> 0 ->
  run_tx c ad who p q tip b s =
  if p + mget 0 who (s_frozen s) <=? free_of s who
  then correct_and_deposit_fee c ad who q tip (Some p) (after_call s who p b)
  else (s <| s_nonces := <[who := (nonce_of s who + 1) mod 2 ^ 32]> (s_nonces s) |>, Err "Payment").
Proof.
  intros Hp. unfold run_tx, withdraw_fee. destruct (N.eqb_spec p 0); [congruence|].
  unfold mbind_ at 1, modify at 1. unfold mbind_ at 1. unfold mbind_ at 1, get_st. unfold mbind_ at 1, ensure.
  change (free_of (s <| s_nonces := ?x |>) who) with (free_of s who). change (s_frozen (s <| s_nonces := ?x |>)) with (s_frozen s).
  destruct (p + mget 0 who (s_frozen s) <=? free_of s who); reflexivity.
Qed.
Lemma run_tx_free c ad who q tip b s :
  run_tx c ad who 0 q tip b s = (run_body b (s <| s_nonces := <[who := (nonce_of s who + 1) mod 2 ^ 32]> (s_nonces s) |>), Ok tt).
Proof. reflexivity. Qed.
(** An included transaction with a fee. *)
Lemma run_tx_inv c ad who predicted corrected tip b s s' :
  exec c ad (OpTx who predicted corrected tip b) s = (s', Ok tt) -> predicted <> 0 ->
  predicted + mget 0 who (s_frozen s) <= free_of s who /\
  correct_and_deposit_fee c ad who corrected tip (Some predicted) (after_call s who predicted b) = (s', Ok tt).
Proof.
  intros E Hp. cbn [exec] in E. apply dispatch_ok in E. unfold run_tx in E. unfold mbind_ at 1, modify at 1 in E.
  unfold withdraw_fee in E. destruct (N.eqb_spec predicted 0); [congruence|]. unfold mbind_ at 1 2, get_st at 1, mbind_ at 1, ensure in E. cbn [s_frozen s_free free_of] in E.
  match type of E with context [if ?x then _ else _] => destruct x eqn:Ex end; [|discriminate E].
  split.
  - apply N.leb_le in Ex. exact Ex.
  - exact E.
Qed.

(** ** Histories *)
Lemma settle_env c who refund paid m : exists s', settle c who refund paid m = (s', Ok tt) /\
    s_known s' = s_known m /\ s_block s' = s_block m /\ s_nonces s' = s_nonces m /\ s_events s' = s_events m.
Proof.
  assert (Hend : forall m1 r, s_known m1 = s_known m -> s_block m1 = s_block m -> s_nonces m1 = s_nonces m -> s_events m1 = s_events m ->
    exists s', to_pot (c_pot c) r m1 = (s', Ok tt) /\
      s_known s' = s_known m /\ s_block s' = s_block m /\ s_nonces s' = s_nonces m /\ s_events s' = s_events m).
  { intros m1 r K1 K2 K3 K4. unfold to_pot, mbind_ at 1, get_st.
    destruct (free_of m1 (c_pot c) + r <=? U128_MAX); unfold modify, mret_; eexists; (split; [reflexivity|]); done. }
  unfold settle, mbind_ at 1, get_st at 1.
  destruct ((0 <? refund) && (0 <? free_of m who + mget 0 who (s_reserved m))).
  - unfold mbind_ at 1, deposit, mbind_ at 1, get_st at 1. cbv zeta. unfold mbind_ at 1, modify at 1, mret_. now apply Hend.
  - unfold mbind_ at 1, mret_. now apply Hend.
Qed.
Definition active_for (m : st) (who : N) : bool := is_active m (mget CNone who (s_known m)).
Lemma correct_env c ad who corrected tip paid m : exists s', correct_and_deposit_fee c ad who corrected tip (Some paid) m = (s', Ok tt) /\
    s_known s' = s_known m /\ s_block s' = s_block m /\ s_nonces s' = s_nonces m /\
    (forall w, adjusted w (s_events s') = adjusted w (s_events m) +
       if match ad with Avn => active_for m who | Vanilla => false end && (who =? w) then 1 else 0).
Proof.
  unfold correct_and_deposit_fee, mbind_ at 1, get_st. destruct ad.
  - destruct (calculate_refund_amount m who paid corrected tip) as [act rf] eqn:Ec.
    assert (act = active_for m who) by (unfold calculate_refund_amount in Ec; injection Ec as <- _; reflexivity). subst act.
    destruct (settle_env c who rf paid m) as (s' & E & H2 & H3 & H4 & H5).
    unfold mbind_ at 1. rewrite E. destruct (active_for m who).
    + eexists. split; [reflexivity|]. cbn. rewrite H5. repeat (split; [done|]). intros w. cbn. lia.
    + exists s'. unfold mret_. rewrite H5. repeat (split; [done|]). intros w. cbn. lia.
  - destruct (settle_env c who (saturating_sub paid corrected) paid m) as (s' & E & H2 & H3 & H4 & H5).
    exists s'. rewrite H5. repeat (split; [done|]). intros w. cbn. lia.
Qed.
Lemma after_call_env s who p b : let m := after_call s who p b in
  s_block m = s_block s /\ s_nonces m = <[who := (nonce_of s who + 1) mod 2 ^ 32]> (s_nonces s) /\
  (forall w, adjusted w (s_events m) = adjusted w (s_events s)) /\
  (forall w, Forall (quiet_call w) (b_calls b) -> s_known m !! w = s_known s !! w).
Proof.
  cbv zeta. unfold after_call.
  match goal with |- context [run_body b ?x] => destruct (run_body_env b x) as (A1 & A2 & A3 & A4 & A5 & A6 & A7) end.
  rewrite A1, A2. cbn. split; [done|]. split; [done|]. split; [intros w; now rewrite A6|]. intros w Hq. now rewrite A7.
Qed.
Lemma nonce_insert (s s' : st) w v who : s_nonces s' = <[w := v]> (s_nonces s) -> nonce_of s' who = if w =? who then v else nonce_of s who.
Proof.
  intros E. unfold nonce_of, mget. rewrite E. destruct (N.eqb_spec w who) as [->|Hne]; [now rewrite lookup_insert|]. now rewrite lookup_insert_ne.
Qed.
(** Everything a step does to what the adjustments depend on. *)
Definition is_incl (c : config) (s : st) (who : N) (o : op) : bool := tx_of who o && is_ok (snd (exec c Avn o s)).
Definition charged (o : op) : bool := match o with OpTx _ p _ _ _ => negb (p =? 0) | _ => false end.
Definition mid (s : st) (o : op) : st := match o with OpTx w p _ _ b => after_call s w p b | _ => s end.
Lemma step_env c s o who : let s' := step c Avn s o in
  (quiet who o -> s_known s' !! who = s_known s !! who) /\
  nonce_of s' who = (if is_incl c s who o then (nonce_of s who + 1) mod 2 ^ 32 else nonce_of s who) /\
  adjusted who (s_events s') = adjusted who (s_events s) + (if is_incl c s who o && charged o && active_for (mid s o) who then 1 else 0).
Proof.
  cbv zeta. unfold step, is_incl. destruct o as [w p q tip b|b|n|f r].
  - destruct (exec c Avn (OpTx w p q tip b) s) as [s' [[]|e]] eqn:E; cbn [fst snd is_ok].
    2:{ cbn [exec] in E. apply dispatch_err in E as ->. rewrite !andb_false_r. cbn. split; [done|]. split; [done|lia]. }
    rewrite !andb_true_r. cbn [tx_of charged mid].
    destruct (N.eqb_spec p 0) as [Hp|Hp].
    + subst p. cbn [exec] in E. apply dispatch_ok in E. unfold run_tx in E. unfold mbind_ at 1, modify at 1 in E.
      unfold withdraw_fee in E. cbn [N.eqb] in E. unfold mbind_ at 1, mret_ at 1, mbind_ at 1, modify at 1 in E. cbn [correct_and_deposit_fee mret_] in E.
      injection E as <-.
      match goal with |- context [run_body b ?x] => destruct (run_body_env b x) as (A1 & A2 & A3 & A4 & A5 & A6 & A7) end.
      rewrite (nonce_insert _ _ _ _ who A2). rewrite !A6, andb_false_r. cbn. split; [intros Hq; now rewrite A7|].
      destruct (N.eqb_spec w who) as [->|]; (split; [done|lia]).
    + apply run_tx_inv in E as [_ E]; [|done]. destruct (correct_env c Avn w q tip p (after_call s w p b)) as (s2 & E2 & B1 & B2 & B3 & B4).
      rewrite E in E2. injection E2 as <-. destruct (after_call_env s w p b) as (A1 & A2 & A3 & A4).
      rewrite A2 in B3. rewrite (nonce_insert _ _ _ _ who B3), B1, B4, A3. split; [intros Hq; now rewrite A4|]. split.
      * destruct (N.eqb_spec w who) as [->|]; done.
      * rewrite andb_true_r. destruct (N.eqb_spec w who) as [->|]; [now rewrite andb_comm|]. now rewrite andb_false_r.
  - cbn [exec modify fst snd tx_of andb]. destruct (run_body_env b s) as (A1 & A2 & A3 & A4 & A5 & A6 & A7).
    unfold nonce_of. rewrite A2, A6. split; [apply A7|]. split; [done|lia].
  - cbn. split; [done|]. split; [done|lia].
  - cbn. split; [done|]. split; [done|lia].
Qed.
Lemma txs_by_cons c who s o r : txs_by c who s (o :: r) = (if is_incl c s who o then 1 else 0) + txs_by c who (step c Avn s o) r.
Proof. reflexivity. Qed.
Lemma quiet_run c who ops : forall s, Forall (quiet who) ops ->
  s_known (run c Avn s ops) !! who = s_known s !! who /\
  (nonce_of s who + txs_by c who s ops < 2 ^ 32 -> nonce_of (run c Avn s ops) who = nonce_of s who + txs_by c who s ops).
Proof.
  induction ops as [|o ops IH]; intros s Hq; [cbn; split; [done|lia]|].
  apply Forall_cons in Hq as [Hq1 Hq2]. change (run c Avn s (o :: ops)) with (run c Avn (step c Avn s o) ops).
  destruct (IH (step c Avn s o) Hq2) as [I1 I2]. destruct (step_env c s o who) as (S1 & S2 & S3). rewrite txs_by_cons.
  split; [rewrite I1; now apply S1|]. intros Hb.
  destruct (is_incl c s who o).
  - rewrite N.mod_small in S2 by lia. rewrite I2; lia.
  - rewrite I2; lia.
Qed.
