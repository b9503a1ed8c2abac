(** C30: fee adjustments of known senders. *)
From Verif Require Import Base BaseLemmas FeeModel FeeSpec FeeProofs.

(** A transaction that cannot pay its predicted fee is not included and changes nothing. *)
Theorem C30_not_included c ad s who p q tip b e s' :
  exec c ad (OpTx who p q tip b) s = (s', Err e) -> s' = s /\ free_of s who < p + mget 0 who (s_frozen s).
Proof.
  intros E. cbn [exec] in E. split; [now apply dispatch_err in E|].
  unfold dispatch in E. destruct (run_tx c ad who p q tip b s) as [s1 [[]|e1]] eqn:E1; [discriminate|]. clear E.
  destruct (decide (p = 0)) as [->|Hp]; [rewrite run_tx_free in E1; discriminate|]. rewrite run_tx_eq in E1 by done.
  destruct (N.leb_spec (p + mget 0 who (s_frozen s)) (free_of s who)); [|lia].
  destruct (correct_env c ad who q tip p (after_call s who p b)) as (s2 & E2 & _). rewrite E2 in E1. discriminate.
Qed.

(** An included transaction: the predicted fee leaves the sender, the call runs, a part of the fee comes back and
    the rest goes to the staking pot.  Nothing is created, lost or charged to anybody else. *)
Theorem C30_charge c ad s who p q tip b s' :
  exec c ad (OpTx who p q tip b) s = (s', Ok tt) -> p <> 0 -> room c (after_call s who p b) who p ->
  exists r, settled c who p r (after_call s who p b) s'.
Proof.
  intros E Hp (R1 & R2 & R3). apply run_tx_inv in E as [_ E]; [|done].
  destruct (correct_spec c ad who p q tip (after_call s who p b) R1 ltac:(lia) R3) as (s2 & E2 & H & _). rewrite E in E2. injection E2 as <-. eauto.
Qed.

Lemma refunded_exact m who p refund : free_of m who + p <= U128_MAX -> refund <= p -> alive m who -> refunded m who refund = refund.
Proof.
  unfold refunded, alive. intros H1 H2 H3. destruct (N.ltb_spec 0 refund); [|cbn; lia]. destruct (N.ltb_spec 0 (free_of m who + mget 0 who (s_reserved m))); [|lia].
  cbn. unfold saturating_add. lia.
Qed.
Lemma price_of m cfg network : in_force m cfg -> terms cfg <> NoFeeType -> exists x, get_fee m cfg network = Ok x /\ price network (terms cfg) x.
Proof.
  intros Hf Ht. apply in_force_spec in Hf as Ha. destruct cfg as [f|p|t e|t a e|]; cbn [get_fee terms] in *.
  - eexists. split; [reflexivity|]. constructor.
  - destruct (N.eqb_spec p 100) as [->|].
    + exists 0. split; [done|]. rewrite <- (percentage_100 network). apply percentage_price.
    + eexists. split; [reflexivity|]. apply percentage_price.
  - rewrite Ha. destruct t; [eexists; split; [reflexivity|constructor]|eexists; split; [reflexivity|apply percentage_price]|done].
  - rewrite Ha. destruct t; [eexists; split; [reflexivity|constructor]|eexists; split; [reflexivity|apply percentage_price]|done].
  - done.
Qed.

(** Under an adjustment in force the sender pays its price plus the tip, at most the predicted fee, and the event
    says how much. *)
Theorem C30_pays_price c s who p q tip b s' :
  let m := after_call s who p b in let cfg := mget CNone who (s_known m) in
  exec c Avn (OpTx who p q tip b) s = (s', Ok tt) -> p <> 0 -> room c m who p -> alive m who ->
  in_force m cfg -> terms cfg <> NoFeeType ->
  exists x, price (q - tip) (terms cfg) x /\ settled c who p (p - (x + tip)) m s' /\
    s_events s' = AdjustedTransactionFeePaid who (N.min p (x + tip)) :: s_events m.
Proof.
  intros m cfg E Hp (R1 & R2 & R3) Hal Hf Ht. apply run_tx_inv in E as [_ E]; [|done]. fold m in E.
  destruct (correct_spec c Avn who p q tip m R1 ltac:(lia) R3) as (s2 & E2 & H & _ & _ & _ & Hev). rewrite E in E2. injection E2 as <-.
  destruct (price_of m cfg (q - tip) Hf Ht) as (x & Hx & Hpr). exists x. split; [done|].
  unfold calculate_refund_amount in H, Hev. fold cfg in H, Hev. apply in_force_spec in Hf. rewrite Hf in H, Hev. cbn [fst snd] in H, Hev.
  change (saturating_sub q tip) with (q - tip) in H, Hev. rewrite Hx in H, Hev.
  assert (Er : saturating_sub p (saturating_add U128_MAX x tip) = p - (x + tip)) by (unfold saturating_sub, saturating_add; lia).
  unfold saturating_sub in Er, H, Hev. rewrite Er in H, Hev.
  rewrite (refunded_exact m who p) in H by (done || lia). split; [done|]. rewrite Hev. cbn [app]. f_equal. f_equal. lia.
Qed.

(** Without an adjustment in force the pallet does what the ordinary adapter does. *)
Theorem C30_no_adjustment_no_difference c s who p q tip b :
  let m := after_call s who p b in ~ in_force m (mget CNone who (s_known m)) ->
  exec c Avn (OpTx who p q tip b) s = exec c Vanilla (OpTx who p q tip b) s.
Proof.
  intros m Hf. cbn [exec]. unfold dispatch. enough (run_tx c Avn who p q tip b s = run_tx c Vanilla who p q tip b s) as -> by done.
  destruct (decide (p = 0)) as [->|Hp]; [reflexivity|]. rewrite !run_tx_eq by done. fold m.
  destruct (p + mget 0 who (s_frozen s) <=? free_of s who); [|reflexivity].
  unfold correct_and_deposit_fee, mbind_ at 1 3, get_st, calculate_refund_amount.
  destruct (is_active m (mget CNone who (s_known m))) eqn:Ha; [apply in_force_spec in Ha; done|].
  unfold mbind_ at 1. cbv zeta beta iota. destruct (settle c who (saturating_sub p q) p m) as [s1 [[]|]]; done.
Qed.

(** Whenever the price is at most the network fee, the sender does at least as well as without the adjustment; a
    percentage always is. *)
Theorem C30_never_more_than_ordinary_partial c s who p q tip b s1 s2 :
  let m := after_call s who p b in let cfg := mget CNone who (s_known m) in
  exec c Avn (OpTx who p q tip b) s = (s1, Ok tt) -> exec c Vanilla (OpTx who p q tip b) s = (s2, Ok tt) ->
  room c m who p -> tip <= q ->
  (forall fee, terms cfg = FixedFee fee -> fee <= q - tip) ->
  free_of s2 who <= free_of s1 who.
Proof.
  intros m cfg E1 E2 HR Ht Hfix. destruct (decide (p = 0)) as [->|Hp].
  { cbn [exec] in E1, E2. apply dispatch_ok in E1, E2. unfold run_tx in E1, E2. unfold withdraw_fee in E1, E2. cbn [N.eqb] in E1, E2.
    unfold mbind_, mret_, modify in E1, E2. cbn [correct_and_deposit_fee mret_] in E1, E2. unfold mret_ in E1, E2. injection E1 as <-. injection E2 as <-. lia. }
  destruct HR as (R1 & R2 & R3).
  apply run_tx_inv in E1 as [_ E1]; [|done]. apply run_tx_inv in E2 as [_ E2]; [|done]. fold m in E1, E2.
  destruct (correct_spec c Avn who p q tip m R1 ltac:(lia) R3) as (s1' & F1 & H1 & _). rewrite E1 in F1. injection F1 as <-.
  destruct (correct_spec c Vanilla who p q tip m R1 ltac:(lia) R3) as (s2' & F2 & H2 & _). rewrite E2 in F2. injection F2 as <-.
  destruct H1 as [_ H1], H2 as [_ H2]. rewrite H1, H2, N.eqb_refl. destruct (N.eqb_spec who (c_pot c)); [done|].
  enough (Hle : p - q <= snd (calculate_refund_amount m who p q tip)).
  { set (r1 := snd (calculate_refund_amount m who p q tip)) in *. clearbody r1. unfold refunded.
    destruct (N.ltb_spec 0 (p - q)), (N.ltb_spec 0 r1), (0 <? free_of m who + mget 0 who (s_reserved m)); cbn; unfold saturating_add; lia. }
  unfold calculate_refund_amount. fold cfg. cbv zeta. cbn [snd]. unfold saturating_sub.
  destruct (is_active m cfg) eqn:Ha; [|lia].
  assert (Hg : forall x, get_fee m cfg (q - tip) = Ok x -> x <= q - tip).
  { intros x Hx. destruct cfg as [f|pc|t e|t a e|]; cbn [get_fee terms] in *.
    - injection Hx as <-. now apply Hfix.
    - destruct (pc =? 100); injection Hx as <-; [lia|apply percentage_le].
    - rewrite Ha in Hx. destruct t; cbn in Hx; [injection Hx as <-; now apply Hfix|injection Hx as <-; apply percentage_le|discriminate].
    - rewrite Ha in Hx. destruct t; cbn in Hx; [injection Hx as <-; now apply Hfix|injection Hx as <-; apply percentage_le|discriminate].
    - injection Hx as <-. lia. }
  destruct (get_fee m cfg (q - tip)) as [x|e]; [|lia]. specialize (Hg x eq_refl). unfold saturating_add. lia.
Qed.

(** Whatever the adjustment, the pot receives the tip in full (up to the predicted fee, of which the tip is a part). *)
Theorem C30_tip_in_full c ad s who p q tip b s' :
  let m := after_call s who p b in
  exec c ad (OpTx who p q tip b) s = (s', Ok tt) -> p <> 0 -> room c m who p -> tip <= q -> tip <= p ->
  free_of m (c_pot c) + tip <= free_of s' (c_pot c).
Proof.
  intros m E Hp (R1 & R2 & R3) Hq Htp. apply run_tx_inv in E as [_ E]; [|done]. fold m in E.
  destruct (correct_spec c ad who p q tip m R1 ltac:(lia) R3) as (s2 & E2 & H & _). rewrite E in E2. injection E2 as <-.
  destruct H as [_ H]. rewrite H, N.eqb_refl. destruct (N.eqb_spec (c_pot c) who); [congruence|].
  match goal with |- context [refunded m who ?r] => assert (Hr : r <= p - tip) end.
  { destruct ad; [|lia]. unfold calculate_refund_amount. cbv zeta. cbn [snd]. unfold saturating_sub, saturating_add.
    destruct (is_active m _); [|lia]. destruct (get_fee _ _ _); lia. }
  match type of Hr with ?r <= _ => set (r0 := r) in * end. clearbody r0.
  assert (refunded m who r0 <= r0) by (unfold refunded, saturating_add; destruct (_ && _); lia). lia.
Qed.

(** ** Expiry *)
Lemma by_root_set c s who t a : is_valid (build_config s who t a) = true ->
  let s1 := step c Avn s (by_root (Set_ true who t a)) in
  s_known s1 !! who = Some (build_config s who t a) /\ s_nonces s1 = s_nonces s /\ s_block s1 = s_block s.
Proof.
  intros Hv. cbn -[build_config is_valid]. unfold set_known_sender, dispatch, mbind_, ensure, get_st, modify, emit. cbn -[build_config is_valid]. rewrite Hv. cbn -[build_config is_valid].
  split; [apply lookup_insert|done].
Qed.
Lemma tx_adjusted c s who p q tip b : included c s (OpTx who p q tip b) -> p <> 0 ->
  adjusted who (s_events (step c Avn s (OpTx who p q tip b))) =
  adjusted who (s_events s) + if active_for (after_call s who p b) who then 1 else 0.
Proof.
  intros Hi Hp. destruct (step_env c s (OpTx who p q tip b) who) as (_ & _ & H). rewrite H. f_equal.
  unfold is_incl. cbn [tx_of charged mid]. rewrite N.eqb_refl. unfold included in Hi. rewrite Hi. destruct (N.eqb_spec p 0); [done|]. reflexivity.
Qed.
Lemma active_after s who p b : Forall (quiet_call who) (b_calls b) ->
  active_for (after_call s who p b) who =
  match mget CNone who (s_known s) with
  | CFixed _ | CPercentage _ => true
  | CTime _ e => s_block s <? e
  | CTx _ a e => (if a =? who then (nonce_of s who + 1) mod 2 ^ 32 else nonce_of s a) <=? e
  | CNone => false
  end.
Proof.
  intros Hq. destruct (after_call_env s who p b) as (A1 & A2 & A3 & A4). unfold active_for. unfold mget at 1. rewrite A4 by done. fold (mget CNone who (s_known s)).
  destruct (mget CNone who (s_known s)) as [f|pc|t e|t a e|]; cbn [is_active]; try done; [now rewrite A1|].
  rewrite (nonce_insert _ _ _ _ a A2), (N.eqb_sym a). destruct (N.eqb_spec who a) as [->|]; done.
Qed.

(** Root grants an adjustment for [n] transactions: after any history in which root does not concern itself with
    the sender again, his next transaction is adjusted if and only if fewer than [n] were included before. *)
Theorem C30_count_exact c s who t n ops p q tip b :
  let s1 := step c Avn s (by_root (Set_ true who t (TransactionBased n))) in let s2 := run c Avn s1 ops in
  t <> NoFeeType -> 0 < n -> Forall (quiet who) ops -> quiet who (OpTx who p q tip b) ->
  nonce_of s who + txs_by c who s1 ops + 1 < 2 ^ 32 ->
  included c s2 (OpTx who p q tip b) -> p <> 0 ->
  adjusted who (s_events (step c Avn s2 (OpTx who p q tip b))) =
  adjusted who (s_events s2) + if txs_by c who s1 ops <? n then 1 else 0.
Proof.
  intros s1 s2 Ht Hn Hq Hqt Hb Hi Hp. rewrite tx_adjusted by done. f_equal. rewrite active_after by done.
  assert (Hv : is_valid (build_config s who t (TransactionBased n)) = true).
  { cbn. unfold saturating_add. destruct (N.eqb_spec (N.min U32_MAX (nonce_of s who + n)) 0); [unfold U32_MAX in *; lia|]. destruct t; done. }
  destruct (by_root_set c s who t _ Hv) as (K1 & K2 & K3). fold s1 in K1, K2, K3.
  destruct (quiet_run c who ops s1 Hq) as [Q1 Q2]. assert (Hns : nonce_of s1 who = nonce_of s who) by (unfold nonce_of; now rewrite K2).
  rewrite Hns in Q2. fold s2 in Q1, Q2. unfold mget at 1. rewrite Q1, K1. cbn [from_option id build_config new_tx]. unfold new_tx. rewrite N.eqb_refl, Q2 by lia.
  rewrite N.mod_small by lia. unfold saturating_add. change (2 ^ 32) with 4294967296 in Hb.
  destruct (N.leb_spec (nonce_of s who + txs_by c who s1 ops + 1) (N.min U32_MAX (nonce_of s who + n))), (N.ltb_spec (txs_by c who s1 ops) n); unfold U32_MAX in *; lia.
Qed.
(** In all, the number of adjusted transactions is [n], or all of them if there are fewer (transactions that predict
    no fee at all count against the [n]; here there are none). *)
Theorem C30_count_total c s who t n ops :
  let s1 := step c Avn s (by_root (Set_ true who t (TransactionBased n))) in
  t <> NoFeeType -> 0 < n -> Forall (quiet who) ops ->
  Forall (fun o => tx_of who o = true -> charged o = true) ops ->
  nonce_of s who + txs_by c who s1 ops < 2 ^ 32 ->
  adjusted who (s_events (run c Avn s1 ops)) = adjusted who (s_events s1) + N.min n (txs_by c who s1 ops).
Proof.
  intros s1 Ht Hn Hq Hc. induction ops as [|o ops IH] using rev_ind; intros Hb.
  { cbn. lia. }
  apply Forall_app in Hq as [Hq Hq2]. apply Forall_app in Hc as [Hc Hc2]. apply Forall_cons in Hq2 as [Hq2 _]. apply Forall_cons in Hc2 as [Hc2 _].
  assert (Htx : forall l s0, txs_by c who s0 (l ++ [o]) = txs_by c who s0 l + if is_incl c (run c Avn s0 l) who o then 1 else 0).
  { induction l as [|x l IHl]; intros s0; [cbn [app]; rewrite txs_by_cons; cbn; lia|]. cbn [app]. rewrite !txs_by_cons, IHl. change (run c Avn s0 (x :: l)) with (run c Avn (step c Avn s0 x) l). lia. }
  rewrite Htx in *. assert (Hrun : run c Avn s1 (ops ++ [o]) = step c Avn (run c Avn s1 ops) o) by (unfold run; now rewrite fold_left_app).
  rewrite Hrun. specialize (IH Hq Hc ltac:(lia)). unfold is_incl in *. destruct (tx_of who o) eqn:Eo.
  - destruct o as [w p q tip b|b|k|f r]; try discriminate. cbn in Eo. apply N.eqb_eq in Eo. subst w.
    specialize (Hc2 eq_refl). cbn in Hc2. apply negb_true_iff, N.eqb_neq in Hc2.
    destruct (snd (exec c Avn (OpTx who p q tip b) (run c Avn s1 ops))) as [[]|e] eqn:Ei; cbn [andb is_ok] in *.
    + pose proof (C30_count_exact c s who t n ops p q tip b Ht Hn Hq Hq2 ltac:(fold s1; lia) Ei Hc2) as Hx. cbv zeta in Hx. fold s1 in Hx. rewrite Hx, IH. destruct (N.ltb_spec (txs_by c who s1 ops) n); lia.
    + destruct (step_env c (run c Avn s1 ops) (OpTx who p q tip b) who) as (_ & _ & H). rewrite H, IH. unfold is_incl. rewrite Ei, andb_false_r. cbn. lia.
  - destruct (step_env c (run c Avn s1 ops) o who) as (_ & _ & H). rewrite H, IH. unfold is_incl. rewrite Eo. cbn. lia.
Qed.

(** Root grants an adjustment for [d] blocks: it applies exactly before block [now + d]. *)
Theorem C30_time_exact c s who t d ops p q tip b :
  let s1 := step c Avn s (by_root (Set_ true who t (TimeBased d))) in let s2 := run c Avn s1 ops in
  t <> NoFeeType -> 0 < d -> s_block s + d <= U32_MAX -> Forall (quiet who) ops -> quiet who (OpTx who p q tip b) ->
  included c s2 (OpTx who p q tip b) -> p <> 0 ->
  adjusted who (s_events (step c Avn s2 (OpTx who p q tip b))) =
  adjusted who (s_events s2) + if s_block s2 <? s_block s + d then 1 else 0.
Proof.
  intros s1 s2 Ht Hn Hbd Hq Hqt Hi Hp. rewrite tx_adjusted by done. f_equal. rewrite active_after by done.
  assert (Hcfg : build_config s who t (TimeBased d) = CTime t (s_block s + d)).
  { cbn. unfold new_time. destruct (N.eqb_spec d 0); [lia|]. f_equal. unfold saturating_add. lia. }
  assert (Hv : is_valid (build_config s who t (TimeBased d)) = true).
  { rewrite Hcfg. cbn. destruct (N.eqb_spec (s_block s + d) 0); [lia|]. destruct t; done. }
  destruct (by_root_set c s who t _ Hv) as (K1 & K2 & K3). fold s1 in K1, K2, K3.
  destruct (quiet_run c who ops s1 Hq) as [Q1 Q2]. fold s2 in Q1, Q2. unfold mget. rewrite Q1, K1, Hcfg. done.
Qed.
(** An adjustment without limit stays in force until root changes it. *)
Theorem C30_unlimited c s who t ops p q tip b :
  let s1 := step c Avn s (by_root (Set_ true who t NoAdjustment)) in let s2 := run c Avn s1 ops in
  is_valid (build_config s who t NoAdjustment) = true -> Forall (quiet who) ops -> quiet who (OpTx who p q tip b) ->
  included c s2 (OpTx who p q tip b) -> p <> 0 ->
  adjusted who (s_events (step c Avn s2 (OpTx who p q tip b))) = adjusted who (s_events s2) + 1.
Proof.
  intros s1 s2 Hv Hq Hqt Hi Hp. rewrite tx_adjusted by done. f_equal. rewrite active_after by done.
  destruct (by_root_set c s who t _ Hv) as (K1 & K2 & K3). fold s1 in K1, K2, K3.
  destruct (quiet_run c who ops s1 Hq) as [Q1 Q2]. fold s2 in Q1, Q2. unfold mget. rewrite Q1, K1. cbn [from_option id]. destruct t; done.
Qed.
(** A sender whose adjustment root has removed is again an ordinary sender. *)
Theorem C30_removed c s who ops p q tip b :
  let s1 := step c Avn s (by_root (Remove true who)) in let s2 := run c Avn s1 ops in
  Forall (quiet who) ops -> quiet who (OpTx who p q tip b) ->
  exec c Avn (OpTx who p q tip b) s2 = exec c Vanilla (OpTx who p q tip b) s2.
Proof.
  intros s1 s2 Hq Hqt. apply C30_no_adjustment_no_difference. rewrite <- in_force_spec.
  change (is_active ?m (mget CNone who (s_known ?m))) with (active_for m who). rewrite active_after by done.
  destruct (quiet_run c who ops s1 Hq) as [Q1 Q2]. fold s2 in Q1, Q2. unfold mget. rewrite Q1.
  assert (Hn : s_known s1 !! who = None).
  { unfold s1. cbn. unfold remove_known_sender, dispatch, mbind_, ensure, get_st, modify, emit. cbn.
    destruct (s_known s !! who) eqn:E; cbn; [apply lookup_delete|exact E]. }
  rewrite Hn. done.
Qed.
(** Only root changes adjustments: without a call by root about him a sender's terms stay what they are. *)
Theorem C30_only_root c s who ops : Forall (quiet who) ops -> s_known (run c Avn s ops) !! who = s_known s !! who.
Proof. intros H. now apply quiet_run. Qed.
(** Stored terms always name a price: a percentage or a fixed fee (so C30_pays_price applies). *)
Theorem C30_stored_terms c s who cfg : reachable c s -> s_known s !! who = Some cfg -> terms cfg <> NoFeeType /\
  (forall fee, cfg = CFixed fee -> 0 < fee) /\ (forall p, cfg = CPercentage p -> 0 < p <= 100).
Proof.
  intros (free & ops & ->). revert who cfg.
  assert (Hstep : forall P : st -> Prop, (forall s a, P s -> P (fst (dispatch (run_admin a) s))) ->
    (forall s s', s_known s' = s_known s -> P s -> P s') -> forall ops s, P s -> P (run c Avn s ops)).
  { clear. intros P Ha He. assert (Hbody : forall b s, P s -> P (run_body b s)).
    { intros b s Hs. unfold run_body. cbv zeta. eapply He; [cbn; reflexivity|]. revert s Hs. generalize (b_calls b). induction l as [|a l IH]; intros s Hs; [done|]. cbn. apply IH. now apply Ha. }
    induction ops as [|o ops IH]; intros s Hs; [done|]. apply IH. clear IH. unfold step. destruct o as [w p q tip b|b|n|f r].
    - destruct (exec c Avn (OpTx w p q tip b) s) as [s' [[]|e]] eqn:E; cbn [fst]; [|cbn [exec] in E; apply dispatch_err in E as ->; done].
      destruct (decide (p = 0)) as [->|Hp].
      + cbn [exec] in E. apply dispatch_ok in E. unfold run_tx in E. unfold mbind_ at 1, modify at 1 in E.
        unfold withdraw_fee in E. cbn [N.eqb] in E. unfold mbind_ at 1, mret_ at 1, mbind_ at 1, modify at 1 in E. cbn [correct_and_deposit_fee mret_] in E.
        injection E as <-. apply Hbody. eapply He; [|exact Hs]. reflexivity.
      + apply run_tx_inv in E as [_ E]; [|done]. destruct (correct_env c Avn w q tip p (after_call s w p b)) as (s2 & E2 & B1 & _).
        rewrite E in E2. injection E2 as <-. eapply He; [exact B1|]. apply Hbody. eapply He; [|exact Hs]. reflexivity.
    - apply Hbody. done.
    - eapply He; [|exact Hs]. reflexivity.
    - eapply He; [|exact Hs]. reflexivity. }
  apply Hstep.
  - intros s a Hs who cfg. destruct (dispatch (run_admin a) s) as [s' [[]|e]] eqn:E; cbn [fst]; [|apply dispatch_err in E as ->; apply Hs].
    apply dispatch_ok in E. destruct a as [root w t a|root w]; cbn in E.
    + unfold set_known_sender, emit in E. minv E. cbn. destruct (decide (w = who)) as [->|Hne].
      * rewrite lookup_insert. intros [= <-]. destruct (build_config s who t a) eqn:Eb; cbn in *; try discriminate.
        -- destruct (N.eqb_spec fee 0); [discriminate|]. split; [done|]. split; [intros f [= <-]; lia|done].
        -- split; [done|]. split; [done|]. intros p [= <-]. destruct (N.eqb_spec percentage 0); [discriminate|]. destruct (N.leb_spec percentage 100); [lia|discriminate].
        -- split; [|done]. destruct t0; [done|done|]. rewrite andb_false_r in *. discriminate.
        -- split; [|done]. destruct t0; [done|done|]. rewrite andb_false_r in *. discriminate.
      * rewrite lookup_insert_ne by done. apply Hs.
    + unfold remove_known_sender, emit in E. minv E; cbn; intros Hl; apply lookup_delete_Some in Hl as [_ Hl]; now apply (Hs who).
  - intros s s' Hk Hs. rewrite Hk. exact Hs.
  - intros who cfg H. cbn in H. now rewrite lookup_empty in H.
Qed.

(** ** What is not true *)

(** A fixed fee above the network fee is charged although an ordinary sender would pay less. *)
Theorem C30_fixed_fee_may_cost_more_refuted : exists c s p q tip b who s1 s2,
  reachable c s /\ tip <= q /\ q <= p /\
  exec c Avn (OpTx who p q tip b) s = (s1, Ok tt) /\ exec c Vanilla (OpTx who p q tip b) s = (s2, Ok tt) /\
  free_of s1 who < free_of s2 who.
Proof.
  pose (c := mkConfig 9). pose (b := mkBody [] (fun m => m)). pose (f := {[1 := 1000]} : gmap N N).
  pose (ops := [by_root (Set_ true 1 (FixedFee 80) NoAdjustment)]).
  exists c, (run c Avn (genesis f) ops), 100, 40, 0, b, 1, (fst (exec c Avn (OpTx 1 100 40 0 b) (run c Avn (genesis f) ops))), (fst (exec c Vanilla (OpTx 1 100 40 0 b) (run c Avn (genesis f) ops))).
  split; [now exists f, ops|]. split; [lia|]. split; [lia|]. split; [vm_compute; reflexivity|]. split; [vm_compute; reflexivity|]. vm_compute. reflexivity.
Qed.
(** A sender whom the transaction leaves with nothing gets no refund, although the event reports the adjusted fee. *)
Theorem C30_no_refund_when_emptied_refuted : exists c s p q tip b who s1,
  reachable c s /\ exec c Avn (OpTx who p q tip b) s = (s1, Ok tt) /\
  s_events s1 = AdjustedTransactionFeePaid who 10 :: s_events s /\ free_of s who = 100 /\ free_of s1 who = 0.
Proof.
  pose (c := mkConfig 9). pose (b := mkBody [] (fun m => m)). pose (f := {[1 := 100]} : gmap N N).
  pose (ops := [by_root (Set_ true 1 (PercentageFee 75) NoAdjustment)]).
  exists c, (run c Avn (genesis f) ops), 100, 40, 0, b, 1, (fst (exec c Avn (OpTx 1 100 40 0 b) (run c Avn (genesis f) ops))).
  split; [now exists f, ops|]. repeat split; vm_compute; reflexivity.
Qed.

(** ** Examples *)
Module C30_examples.
Definition c := mkConfig 9.
Definition nop := mkBody [] (fun m => m).
Definition s0 := genesis ({[1 := 1000]} : gmap N N).
Definition granted := step c Avn s0 (by_root (Set_ true 1 (PercentageFee 75) (TransactionBased 2))).
Definition tx := OpTx 1 100 44 4 nop.
(** Network fee 40, tip 4, 75 per cent off: 14 of the predicted 100 are paid; the third transaction pays 44. *)
Example ex_count : included c granted tx /\ room c (after_call granted 1 100 nop) 1 100 /\ alive (after_call granted 1 100 nop) 1 /\
  Forall (quiet 1) [tx; tx] /\ txs_by c 1 granted [tx; tx] = 2 /\
  free_of (step c Avn granted tx) 1 = 986 /\ free_of (run c Avn granted [tx; tx]) 1 = 972 /\
  free_of (run c Avn granted [tx; tx; tx]) 1 = 928 /\ free_of (run c Avn granted [tx; tx; tx]) 9 = 72 /\
  adjusted 1 (s_events (run c Avn granted [tx; tx; tx])) = 2.
Proof.
  split; [vm_compute; reflexivity|]. split; [repeat split; vm_compute; done|]. split; [vm_compute; done|].
  split; [repeat constructor|]. repeat split; vm_compute; reflexivity.
Qed.
Definition timed := step c Avn s0 (by_root (Set_ true 1 (FixedFee 7) (TimeBased 10))).
Example ex_time : free_of (run c Avn timed [EnvBlock 9; tx]) 1 = 989 /\ free_of (run c Avn timed [EnvBlock 10; tx]) 1 = 956 /\
  included c (run c Avn timed [EnvBlock 10]) tx.
Proof. repeat split; vm_compute; reflexivity. Qed.
(** A transaction bigger than the balance is not included. *)
Example ex_not_included : exec c Avn (OpTx 1 1001 44 4 nop) granted = (granted, Err "Payment").
Proof. vm_compute. reflexivity. Qed.
(** Nobody but root grants anything. *)
Example ex_not_root : s_known (step c Avn s0 (OpTx 1 100 44 4 (mkBody [Set_ false 1 (PercentageFee 100) NoAdjustment] (fun m => m)))) = ∅.
Proof. vm_compute. reflexivity. Qed.
End C30_examples.
