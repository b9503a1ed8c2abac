(** Arithmetic of shares, and what a block pays. *)
From Verif Require Import Base BaseLemmas RewardModel.

(** ** Shares *)
Lemma factor_le q : q <> 0 -> N.max 1 ((q + (BILLION - 1)) / BILLION) <= q.
Proof. intros. unfold BILLION. lia. Qed.
Lemma factor_small q : let f := N.max 1 ((q + (BILLION - 1)) / BILLION) in f = 1 \/ BILLION * f <= 2 * q.
Proof. cbv zeta. unfold BILLION. lia. Qed.
Lemma ratio_le p q : perbill_ratio p q <= BILLION.
Proof.
  unfold perbill_ratio. destruct ((q =? 0) || (q <? p)) eqn:E; [lia|]. cbv zeta. apply orb_false_iff in E as [E1 E2]. pose proof (factor_le q ltac:(lia)) as Hf. pose proof (factor_small q) as _.
  set (f := N.max 1 _) in *. assert (f <> 0) by lia. assert (Hq : q / f <> 0). { intros H0. apply N.div_small_iff in H0; lia. }
  assert (Hp : p / f <= q / f) by (apply N.div_le_mono; lia). apply N.div_le_upper_bound; [done|]. rewrite (N.mul_comm (q / f)), (N.mul_comm (p / f)). by apply N.mul_le_mono_l.
Qed.
Lemma ratio_zero q : q <> 0 -> perbill_ratio 0 q = 0.
Proof.
  intros Hq. unfold perbill_ratio. destruct ((q =? 0) || (q <? 0)) eqn:E; [lia|]. cbv zeta. pose proof (factor_le q Hq). set (f := N.max 1 _) in *. assert (f <> 0) by lia. replace (0 / f) with 0 by (symmetry; by apply N.div_0_l). rewrite N.mul_0_l. apply N.div_0_l.
  intros Hz. apply N.div_small_iff in Hz; lia.
Qed.
(** A ratio is within three parts per billion. *)
Lemma ratio_accurate p q : q <> 0 -> p <= q -> perbill_ratio p q * q <= BILLION * p + 2 * q /\ BILLION * p <= (perbill_ratio p q + 3) * q.
Proof.
  intros Hq Hp. unfold perbill_ratio. destruct ((q =? 0) || (q <? p)) eqn:E; [lia|]. cbv zeta. pose proof (factor_le q Hq) as Hf. pose proof (factor_small q) as Hs. cbv zeta in Hs.
  set (f := N.max 1 _) in *. assert (f <> 0) by lia. assert (HQ : q / f <> 0). { intros H0. apply N.div_small_iff in H0; lia. }
  pose proof (N.div_mod q f ltac:(done)) as D1. pose proof (N.mod_lt q f ltac:(done)) as L1. pose proof (N.div_mod p f ltac:(done)) as D2. pose proof (N.mod_lt p f ltac:(done)) as L2.
  set (Q := q / f) in *. set (P := p / f) in *. set (a := q mod f) in *. set (b := p mod f) in *. pose proof (N.div_mod (P * BILLION) Q HQ) as D3. pose proof (N.mod_lt (P * BILLION) Q HQ) as L3.
  assert (Hr : P * BILLION / Q <= BILLION). { apply N.div_le_upper_bound; [done|]. assert (HPQ : P <= Q) by (apply N.div_le_mono; lia). rewrite N.mul_comm, (N.mul_comm Q). by apply N.mul_le_mono_l. }
  set (r := P * BILLION / Q) in *. set (d := (P * BILLION) mod Q) in *. clearbody Q P a b r d f. clear E. unfold BILLION in *. destruct Hs as [->|Hs].
  - assert (a = 0) by lia. assert (b = 0) by lia. subst. clear Hf HQ Hr. lia.
  - assert (E : f * (P * 1000000000) = f * (Q * r + d)) by by rewrite D3. assert (r * a <= 1000000000 * f) by (apply N.mul_le_mono; lia). assert (f * d <= f * Q) by (apply N.mul_le_mono_l; lia).
    clear HQ Hr Hf D3. lia.
Qed.
Definition nsum (l : list N) : N := foldr N.add 0 l.
Lemma ratios_sum q l : q <> 0 -> nsum l <= q -> nsum (map (fun p => perbill_ratio p q) l) <= BILLION.
Proof.
  intros Hq Hl. pose proof (factor_le q Hq) as Hf. set (f := N.max 1 ((q + (BILLION - 1)) / BILLION)) in *. assert (f <> 0) by (unfold f; lia). assert (HQ : q / f <> 0). { intros H0. apply N.div_small_iff in H0; lia. }
  assert (G : nsum (map (fun p => perbill_ratio p q) l) * (q / f) <= nsum (map (fun p => p / f) l) * BILLION).
  { assert (Hall : Forall (fun p => p <= q) l). { clear -Hl. revert Hl. generalize q. intros q'. induction l as [|p l IH]; [constructor|]. cbn. intros. constructor; [lia|]. apply IH. unfold nsum in *. lia. }
    clear Hl. induction l as [|p l IH]; [done|]. apply Forall_cons in Hall as [Hp Hall]. specialize (IH Hall). cbn [map nsum foldr]. unfold nsum in IH.
    assert (Hr : perbill_ratio p q * (q / f) <= p / f * BILLION).
    { unfold perbill_ratio. destruct ((q =? 0) || (q <? p)) eqn:E; [lia|]. cbv zeta. fold f. rewrite N.mul_comm. by apply N.mul_div_le. }
    rewrite !N.mul_add_distr_r. lia. }
  assert (G2 : nsum (map (fun p => p / f) l) <= q / f).
  { apply N.div_le_lower_bound; [done|]. etransitivity; [|exact Hl]. clear -H. induction l as [|p l IH]; [cbn; lia|]. cbn [map nsum foldr] in *. unfold nsum in IH. pose proof (N.mul_div_le p f H). lia. }
  apply (N.mul_le_mono_pos_r _ _ (q / f)); [lia|]. etransitivity; [exact G|]. rewrite (N.mul_comm BILLION). by apply N.mul_le_mono_r.
Qed.
(** A share of an amount is within half a unit. *)
Lemma mul_nearest parts x : 2 * BILLION * perbill_mul parts x <= 2 * (parts * x) + BILLION /\ 2 * (parts * x) <= 2 * BILLION * perbill_mul parts x + BILLION.
Proof.
  unfold perbill_mul. cbv zeta. pose proof (N.div_mod x BILLION ltac:(done)) as D1. set (u := x / BILLION) in *. set (v := x mod BILLION) in *.
  pose proof (N.div_mod (v * parts) BILLION ltac:(done)) as D2. pose proof (N.mod_lt (v * parts) BILLION ltac:(done)) as L2. set (w := v * parts / BILLION) in *. set (m := (v * parts) mod BILLION) in *.
  clearbody u v w m. unfold BILLION in *. assert (E : parts * x = 1000000000 * (u * parts + w) + m) by (subst x; lia). destruct (N.leb_spec m 500000000); lia.
Qed.
Lemma mul_le parts x : parts <= BILLION -> perbill_mul parts x <= x.
Proof. intros H. pose proof (mul_nearest parts x) as [H1 _]. assert (parts * x <= BILLION * x) by by apply N.mul_le_mono_r. unfold BILLION in *. lia. Qed.
Lemma mul_zero x : perbill_mul 0 x = 0.
Proof. pose proof (mul_nearest 0 x) as [H1 _]. unfold BILLION in *. lia. Qed.
Lemma shares_sum x l : nsum l <= BILLION -> 2 * nsum (map (fun r => perbill_mul r x) l) <= 2 * x + N.of_nat (length l).
Proof.
  intros Hl. assert (G : 2 * BILLION * nsum (map (fun r => perbill_mul r x) l) <= 2 * (nsum l * x) + BILLION * N.of_nat (length l)).
  { clear Hl. induction l as [|r l IH]; [cbn; lia|]. cbn [map nsum foldr length]. unfold nsum in IH. pose proof (mul_nearest r x) as [H1 _]. unfold BILLION in *. lia. }
  assert (nsum l * x <= BILLION * x) by by apply N.mul_le_mono_r. unfold BILLION in *. lia.
Qed.

(** ** Payments out of the pot *)
Definition psum (l : list (N * N)) : N := nsum (map snd l).
Definition paid_to (l : list (N * N)) (a : N) : N := nsum (map snd (filter (fun x => x.1 = a) l)).
Lemma psum_app l1 l2 : psum (l1 ++ l2) = psum l1 + psum l2.
Proof. unfold psum. induction l1 as [|x l1 IH]; [done|]. cbn [app map nsum foldr] in *. unfold nsum in *. rewrite IH. lia. Qed.
Lemma paid_to_app l1 l2 a : paid_to (l1 ++ l2) a = paid_to l1 a + paid_to l2 a.
Proof. unfold paid_to. induction l1 as [|x l1 IH]; [done|]. cbn [app]. rewrite !filter_cons. destruct (decide (x.1 = a)); [|exact IH]. cbn [map nsum foldr] in *. unfold nsum in *. rewrite IH. lia. Qed.
Lemma paid_to_one x a : paid_to [x] a = if x.1 =? a then x.2 else 0.
Proof. unfold paid_to. rewrite filter_cons, filter_nil. destruct (N.eqb_spec x.1 a), (decide (x.1 = a)); try done. cbn. lia. Qed.
(** The payments made and attempted, as the events tell (latest first). *)
Definition rewards (l : list event) : list (N * N) := omap (fun e => match e with Rewarded a x => Some (a, x) | _ => None end) l.
Definition attempts (l : list event) : list (N * N) := omap (fun e => match e with Rewarded a x | ErrorPaying a x => Some (a, x) | _ => None end) l.
Definition reward_event (e : event) : Prop := match e with Rewarded _ _ | ErrorPaying _ _ => True | _ => False end.
Lemma rewards_app l l' : rewards (l ++ l') = rewards l ++ rewards l'. Proof. apply omap_app. Qed.
Lemma attempts_app l l' : attempts (l ++ l') = attempts l ++ attempts l'. Proof. apply omap_app. Qed.
Definition rest (s : st) : st := s <| s_free := ∅ |> <| s_locked := 0 |> <| s_events := [] |>.
(** [s'] is [s] after the payments told by [evs]. *)
Definition pays (c : config) (evs : list event) (s s' : st) : Prop :=
  rest s' = rest s /\ s_events s' = evs ++ s_events s /\ Forall reward_event evs /\ s_locked s' = s_locked s - psum (rewards evs) /\
  forall a, free_of s' a + (if a =? c_pot c then psum (rewards evs) else 0) = free_of s a + paid_to (rewards evs) a.
Lemma pays_nil c s : pays c [] s s.
Proof. split; [done|]. split; [done|]. split; [constructor|]. cbn. split; [lia|]. intros a. destruct (a =? _); done. Qed.
Lemma pays_app c e1 e2 s s1 s2 : pays c e1 s s1 -> pays c e2 s1 s2 -> pays c (e2 ++ e1) s s2.
Proof.
  intros (A1 & A2 & A3 & A4 & A5) (B1 & B2 & B3 & B4 & B5). split; [congruence|]. split; [rewrite B2, A2; by rewrite app_assoc|]. split; [by apply Forall_app|]. rewrite rewards_app, psum_app. split; [rewrite B4, A4; lia|].
  intros a. specialize (A5 a). specialize (B5 a). rewrite paid_to_app. destruct (a =? c_pot c); lia.
Qed.
Lemma mget_insert {K} `{Countable K} {V} (d : V) (k k' : K) (v : V) (m : gmap K V) : mget d k (<[k' := v]> m) = if bool_decide (k = k') then v else mget d k m.
Proof. unfold mget. case_bool_decide as E; [subst; by rewrite lookup_insert|by rewrite lookup_insert_ne]. Qed.
(** What a single payment does; it fails only for want of funds or by overflow. *)
Lemma pay_reward_ok c amount to s : exists s' e, pay_reward c amount to s = (s', Ok tt) /\ pays c [e] s s' /\ (e = Rewarded to amount \/ e = ErrorPaying to amount) /\
  (amount <= free_of s (c_pot c) -> free_of s to + amount <= U128_MAX -> e = Rewarded to amount).
Proof.
  unfold pay_reward, pot_transfer, mbind_, get_st, ensure, modify, mret_, emit. destruct ((amount =? 0) || (c_pot c =? to)) eqn:E.
  - eexists _, (Rewarded to amount). split; [reflexivity|]. split; [|split; [by left|done]]. split; [done|]. split; [done|]. split; [by repeat constructor|]. cbn [rewards omap list_omap]. split; [unfold psum, saturating_sub; cbn; lia|].
    intros a. rewrite paid_to_one. cbn [fst snd]. unfold psum, free_of. cbn. apply orb_true_iff in E as [E|E]; [apply N.eqb_eq in E as ->; destruct (a =? c_pot c), (to =? a); lia|].
    apply N.eqb_eq in E as <-. destruct (N.eqb_spec a (c_pot c)) as [->|]; [rewrite N.eqb_refl; lia|]. destruct (N.eqb_spec (c_pot c) a); [congruence|lia].
  - apply orb_false_iff in E as [E1 E2]. apply N.eqb_neq in E1, E2. destruct (N.leb_spec amount (free_of s (c_pot c))) as [L1|L1].
    + destruct (N.leb_spec (free_of s to + amount) U128_MAX) as [L2|L2].
      * eexists _, (Rewarded to amount). split; [reflexivity|]. split; [|split; [by left|done]]. split; [done|]. split; [done|]. split; [by repeat constructor|]. cbn [rewards omap list_omap]. split; [unfold psum, saturating_sub; cbn; lia|].
        intros a. rewrite paid_to_one. cbn [fst snd]. unfold psum, free_of in *. cbn. rewrite !mget_insert. 
        destruct (N.eqb_spec to a) as [->|Hne]; [rewrite bool_decide_true by done; destruct (N.eqb_spec a (c_pot c)); [by subst|lia]|]. rewrite bool_decide_false by congruence.
        destruct (N.eqb_spec a (c_pot c)) as [->|Hne2]; [rewrite bool_decide_true by done; lia|]. rewrite bool_decide_false by done. lia.
      * eexists _, (ErrorPaying to amount). split; [reflexivity|]. split; [|split; [by right|lia]]. split; [done|]. split; [done|]. split; [by repeat constructor|]. cbn. split; [lia|]. intros a. destruct (a =? _); done.
    + eexists _, (ErrorPaying to amount). split; [reflexivity|]. split; [|split; [by right|lia]]. split; [done|]. split; [done|]. split; [by repeat constructor|]. cbn. split; [lia|]. intros a. destruct (a =? _); done.
Qed.
(** A list of payments, one after the other. *)
Fixpoint pay_all (c : config) (l : list (N * N)) : M st unit :=
  match l with [] => mret_ tt | x :: r => pay_reward c x.2 x.1 ;;; pay_all c r end.
Definition nominator_dues (total due : N) (l : list (N * N)) : list (N * N) :=
  filter (fun x => x.2 <> 0) (map (fun x => (x.1, perbill_mul (perbill_ratio x.2 total) due)) l).
Lemma pay_nominators_all c total due l s : pay_nominators c total due l s = pay_all c (nominator_dues total due l) s.
Proof.
  revert s. induction l as [|x l IH]; intros s; [done|]. cbn [pay_nominators]. unfold nominator_dues. cbn [map]. rewrite filter_cons. cbn [snd]. set (a := perbill_mul (perbill_ratio x.2 total) due).
  unfold mbind_ at 1. destruct (N.eqb_spec a 0) as [E|E].
  - rewrite decide_False by (intros H; by apply H). cbn. apply IH.
  - rewrite decide_True by done. cbn [pay_all fst snd]. unfold mbind_. destruct (pay_reward c a x.1 s) as [s1 [u|e]]; [apply IH|done].
Qed.
Lemma pay_all_ok c l : forall s, exists s' evs, pay_all c l s = (s', Ok tt) /\ pays c evs s s' /\ attempts evs = rev l /\
  (psum l <= free_of s (c_pot c) -> (forall a, free_of s a + psum l <= U128_MAX) -> rewards evs = attempts evs).
Proof.
  induction l as [|x l IH]; intros s; [exists s, []; split; [done|]; split; [apply pays_nil|]; done|]. cbn [pay_all].
  destruct (pay_reward_ok c x.2 x.1 s) as (s1 & e & E1 & P1 & He & Hs). destruct (IH s1) as (s2 & evs & E2 & P2 & A2 & R2). exists s2, (evs ++ [e]).
  split; [unfold mbind_; by rewrite E1|]. split; [by eapply pays_app|]. rewrite attempts_app, rewards_app, A2. split; [cbn [rev]; f_equal; destruct x; by destruct He as [-> | ->]|].
  intros Hp Ho. assert (Ex : psum (x :: l) = x.2 + psum l) by done. rewrite Ex in *. assert (He' : e = Rewarded x.1 x.2) by (apply Hs; [lia|specialize (Ho x.1); lia]). subst e. destruct P1 as (_ & _ & _ & _ & P1). cbn [rewards attempts omap list_omap] in *.
  assert (Hx : psum [(x.1, x.2)] = x.2) by (unfold psum; cbn; lia). rewrite Hx in P1.
  rewrite R2; [by rewrite A2| |].
  - specialize (P1 (c_pot c)). rewrite N.eqb_refl in P1. lia.
  - intros a. specialize (P1 a). specialize (Ho a). rewrite paid_to_one in P1. cbn [fst snd] in P1. destruct (a =? c_pot c), (x.1 =? a); lia.
Qed.

(** ** One block *)
Definition reward_side (s : st) := (s_era s, s_points s, s_awarded s, s_snaps s, s_staked s, s_delayed s, s_locked s, s_free s, s_issuance s, s_selected s, s_events s).
Definition growth_side (s : st) := (s_start s, s_index s, s_growth s, s_processed s, s_last s, s_published s, s_next_tx s, s_bridge_ok s, s_calls s).
Lemma trigger_one_side p s : exists s', trigger_one p s = (s', Ok tt) /\ reward_side s' = reward_side s /\ s_processed s' = s_processed s /\ s_index s' = s_index s /\ s_start s' = s_start s.
Proof.
  unfold trigger_one. destruct (s_growth s !! p) as [g|]; [|by eexists]. destruct (_ || _ || _); [by eexists|]. destruct (_ || _ || _); [by eexists|]. eexists. split; [done|].
  unfold trigger_growth, mbind_, get_st, ensure, modify. by destruct (s_bridge_ok s).
Qed.
Lemma trigger_from_side n : forall p s, exists s', trigger_from p n s = (s', Ok tt) /\ reward_side s' = reward_side s /\ s_processed s' = s_processed s /\ s_index s' = s_index s /\ s_start s' = s_start s.
Proof.
  induction n as [|n IH]; intros p s; [by eexists|]. cbn [trigger_from]. unfold mbind_. destruct (trigger_one_side p s) as (s1 & -> & A). destruct (IH (p + 1) s1) as (s2 & -> & B). exists s2. split; [done|].
  destruct A as (? & ? & ? & ?), B as (? & ? & ? & ?). split_and!; congruence.
Qed.
Lemma update_side c e a r p m s : exists s', update_collator_payout c e a r p m s = (s', Ok tt) /\ reward_side s' = reward_side s /\ s_processed s' = s_processed s.
Proof.
  unfold update_collator_payout, mbind_, get_st, modify. destruct (_ || _); [|by eexists]. unfold trigger_outstanding, mbind_, get_st.
  match goal with |- context [trigger_from ?x ?n ?s1] => destruct (trigger_from_side n x s1) as (s2 & -> & A & B & _) end. exists s2. done.
Qed.
(** The era that is paid out now. *)
Definition paid_era (c : config) (s : st) : N := s_era s - c_delay c.
Lemma prepare_ok c s : exists s', prepare_payouts c s = (s', Ok tt) /\ s_processed s' = s_processed s /\ s_era s' = s_era s /\ s_points s' = s_points s /\ s_awarded s' = s_awarded s /\ s_snaps s' = s_snaps s /\ s_free s' = s_free s /\ s_issuance s' = s_issuance s /\
  ((s_delayed s' = s_delayed s /\ s_locked s' = s_locked s /\ s_events s' = s_events s /\ (s_era s <= c_delay c \/ points_of s (paid_era c s) = 0)) \/
   (c_delay c < s_era s /\ points_of s (paid_era c s) <> 0 /\ exists reward, s_delayed s' = <[paid_era c s := reward]> (s_delayed s) /\
    (s_locked s <= free_of s (c_pot c) -> s_events s' = s_events s /\ (free_of s (c_pot c) <= U128_MAX -> reward = free_of s (c_pot c) - s_locked s /\ s_locked s' = free_of s (c_pot c)) /\ s_locked s' <= free_of s (c_pot c)))).
Proof.
  unfold prepare_payouts. unfold mbind_ at 1, get_st at 1. destruct (N.leb_spec (s_era s) (c_delay c)) as [H|H]. { eexists. split; [reflexivity|]. split_and!; try done. left. split_and!; try done. by left. }
  cbv zeta. fold (paid_era c s). destruct (N.eqb_spec (points_of s (paid_era c s)) 0) as [H1|H1]. { eexists. split; [reflexivity|]. split_and!; try done. left. split_and!; try done. by right. }
  unfold mbind_ at 1, modify at 1. set (s0 := s <| s_staked := _ |>).
  assert (G : exists reward s1, compute_total_reward c s0 = (s1, Ok reward) /\ s_processed s1 = s_processed s /\ s_era s1 = s_era s /\ s_points s1 = s_points s /\ s_awarded s1 = s_awarded s /\ s_snaps s1 = s_snaps s /\ s_free s1 = s_free s /\ s_issuance s1 = s_issuance s /\
    s_delayed s1 = s_delayed s /\ (s_locked s <= free_of s (c_pot c) -> s_events s1 = s_events s /\ (free_of s (c_pot c) <= U128_MAX -> reward = free_of s (c_pot c) - s_locked s /\ s_locked s1 = free_of s (c_pot c)) /\ s_locked s1 <= free_of s (c_pot c))).
  { unfold compute_total_reward, mbind_, get_st, mret_, modify, emit. cbv zeta. change (free_of s0 (c_pot c)) with (free_of s (c_pot c)). change (s_locked s0) with (s_locked s).
    destruct (N.leb_spec (s_locked s) (free_of s (c_pot c))) as [L|L].
    - destruct (N.leb_spec (s_locked s + (free_of s (c_pot c) - s_locked s)) U128_MAX) as [L2|L2]; eexists _, _; (split; [reflexivity|]); split_and!; try done; intros _; cbn; (split; [done|]); (split; [|lia]); intros; [split; lia|]; lia.
    - unfold modify. destruct (N.leb_spec (s_locked s + 0) U128_MAX); eexists _, _; (split; [reflexivity|]); split_and!; try done; lia. }
  destruct G as (reward & s1 & E & G1 & G2 & G3 & G4 & G5 & G6 & G7 & G8 & G9). unfold mbind_ at 1. rewrite E. unfold mbind_ at 1, modify at 1. set (s2 := s1 <| s_delayed := _ |>).
  assert (F : exists s', (if c_growth c then update_collator_payout c (paid_era c s) (mget 0 (paid_era c s) (s_staked s)) reward (points_of s (paid_era c s)) (awarded_in s (paid_era c s)) else mret_ tt) s2 = (s', Ok tt) /\ reward_side s' = reward_side s2 /\ s_processed s' = s_processed s2).
  { destruct (c_growth c); [apply update_side|by eexists]. }
  destruct F as (s' & F & R & P). exists s'. split; [exact F|]. unfold reward_side in R. injection R as R1 R2 R3 R4 R5 R6 R7 R8 R9 R10 R11.
  rewrite P, R1, R2, R3, R4, R8, R9. split_and!; try done. right. split; [done|]. split; [done|]. exists reward. split; [rewrite R6; unfold s2; cbn; by rewrite G8|].
  intros L. destruct (G9 L) as (A & B & C). rewrite R11, R7. unfold s2. cbn. split_and!; done.
Qed.
(** What the collator and its nominators are owed for an era. *)
Definition due (s : st) (era reward k : N) : N := perbill_mul (perbill_ratio (mget 0 k (awarded_in s era)) (points_of s era)) reward.
Definition snap_of (s : st) (era k : N) : snapshot := mget (mkSnap 0 [] 0) k (mget ∅ era (s_snaps s)).
Definition dues (s : st) (era reward k : N) : list (N * N) :=
  let v := snap_of s era k in
  (k, perbill_mul (perbill_ratio (sn_bond v) (sn_total v)) (due s era reward k)) :: nominator_dues (sn_total v) (due s era reward k) (sn_noms v).
Definition taken (s : st) (era k : N) : st :=
  s <| s_awarded := <[era := delete k (awarded_in s era)]> (s_awarded s) |> <| s_snaps := <[era := delete k (mget ∅ era (s_snaps s))]> (s_snaps s) |>.
Lemma keys_elem {V} (m : gmap N V) k : k ∈ keys m <-> is_Some (m !! k).
Proof.
  unfold keys. rewrite merge_sort_Permutation. rewrite elem_of_list_fmap. split.
  - intros ([k' v] & -> & H). apply elem_of_map_to_list in H. by eexists.
  - intros [v H]. exists (k, v). split; [done|]. by apply elem_of_map_to_list.
Qed.
Lemma pick_some order m k : pick order m = Some k -> is_Some (m !! k).
Proof. unfold pick. intros H. apply nth_error_In in H. apply keys_elem. by apply elem_of_list_In. Qed.
Lemma pick_none order m : pick order m = None -> m = ∅.
Proof.
  unfold pick. intros H. apply nth_error_None in H. assert (L : length (keys m) = 0%nat). { destruct (keys m); [done|]. exfalso. cbn [length] in H. lia. }
  apply map_empty. intros k. destruct (m !! k) eqn:E; [|done]. assert (Hk : k ∈ keys m) by (apply keys_elem; by eexists). destruct (keys m); [by apply elem_of_nil in Hk|done].
Qed.
Lemma handle_ok c order s : exists s', handle_delayed_payouts c order s = (s', Ok tt) /\
  ((s' = s /\ (s_era s < c_delay c \/ s_delayed s !! paid_era c s = None)) \/
   (c_delay c <= s_era s /\ exists reward, s_delayed s !! paid_era c s = Some reward /\
    ((exists k evs, is_Some (awarded_in s (paid_era c s) !! k) /\ points_of s (paid_era c s) <> 0 /\ pays c evs (taken s (paid_era c s) k) s' /\ attempts evs = rev (dues s (paid_era c s) reward k) /\
       (psum (dues s (paid_era c s) reward k) <= free_of s (c_pot c) -> (forall a, free_of s a + psum (dues s (paid_era c s) reward k) <= U128_MAX) -> rewards evs = attempts evs)) \/
     ((awarded_in s (paid_era c s) = ∅ \/ points_of s (paid_era c s) = 0) /\ s' = s <| s_delayed := delete (paid_era c s) (s_delayed s) |> <| s_points := delete (paid_era c s) (s_points s) |>)))).
Proof.
  unfold handle_delayed_payouts. unfold mbind_ at 1, get_st at 1. destruct (N.ltb_spec (s_era s) (c_delay c)) as [H|H]. { eexists. split; [reflexivity|]. left. split; [done|by left]. }
  cbv zeta. fold (paid_era c s). destruct (s_delayed s !! paid_era c s) as [reward|] eqn:Ed; [|eexists; split; [reflexivity|]; left; split; [done|by right]].
  unfold mbind_ at 1. unfold pay_one_collator. unfold mbind_ at 1, get_st at 1. destruct (N.eqb_spec (points_of s (paid_era c s)) 0) as [H1|H1].
  { unfold mret_, modify. eexists. split; [reflexivity|]. right. split; [done|]. exists reward. split; [done|]. right. split; [by right|done]. }
  destruct (pick order (awarded_in s (paid_era c s))) as [k|] eqn:Ep; [|unfold mret_, modify; eexists; split; [reflexivity|]; right; split; [done|]; exists reward; split; [done|]; right; split; [left; by eapply pick_none|done]].
  cbv zeta. unfold mbind_ at 1, modify at 1. fold (taken s (paid_era c s) k). fold (snap_of s (paid_era c s) k). fold (due s (paid_era c s) reward k).
  destruct (pay_all_ok c (dues s (paid_era c s) reward k) (taken s (paid_era c s) k)) as (s2 & evs & E & P & A & R). exists s2.
  unfold dues in E. cbv zeta in E. cbn [pay_all fst snd] in E. unfold mbind_ in E.
  destruct (pay_reward_ok c (perbill_mul (perbill_ratio (sn_bond (snap_of s (paid_era c s) k)) (sn_total (snap_of s (paid_era c s) k))) (due s (paid_era c s) reward k)) k (taken s (paid_era c s) k)) as (s3 & e & E3 & _).
  rewrite E3 in E. unfold mbind_, mret_. rewrite E3, pay_nominators_all, E. split; [done|]. right. split; [done|]. exists reward. split; [done|]. left. exists k, evs. split; [by eapply pick_some|]. done.
Qed.

(** ** Growth payments leave the rest alone *)
Definition book_side (s : st) := (s_era s, s_points s, s_awarded s, s_snaps s, s_staked s, s_delayed s, s_locked s, s_selected s).
Lemma deposit_side who amount s : let s' := fst (deposit_existing who amount s) in
  book_side s' = book_side s /\ growth_side s' = growth_side s /\ s_events s' = s_events s /\ (forall a, free_of s a <= free_of s' a).
Proof.
  unfold deposit_existing, mbind_, get_st, ensure, modify. destruct (amount =? 0); [by cbv zeta; cbn [fst mret_]|]. destruct (match s_free s !! who with Some _ => true | None => false end); [|by cbv zeta; cbn [fst]].
  destruct (_ <=? _); [|by cbv zeta; cbn [fst]]. cbv zeta. cbn [fst]. split; [done|]. split; [done|]. split; [done|].
  intros a. unfold free_of. cbn. rewrite mget_insert. case_bool_decide; [subst; unfold free_of; lia|lia].
Qed.
Lemma pay_collators_side period amount l : forall s, let s' := fst (pay_collators period amount l s) in
  book_side s' = book_side s /\ growth_side s' = growth_side s /\ (forall a, free_of s a <= free_of s' a) /\ exists evs, s_events s' = evs ++ s_events s /\ Forall (fun e => match e with CollatorPaid _ _ _ => True | _ => False end) evs.
Proof.
  induction l as [|x l IH]; intros s; cbn [pay_collators]. { cbn. split_and!; try done. exists []. by split. }
  unfold mbind_. pose proof (deposit_side x.1 (perbill_mul x.2 amount) s) as D. cbv zeta in D. destruct (deposit_existing x.1 (perbill_mul x.2 amount) s) as [s1 [u|e]]; cbn [fst] in D; destruct D as (D1 & D2 & D3 & D4).
  - unfold emit, modify. set (s2 := s1 <| s_events := _ |>). specialize (IH s2). cbv zeta in *. destruct (pay_collators period amount l s2) as [s3 r]. cbn [fst] in *. destruct IH as (I1 & I2 & I3 & evs & I4 & I5).
    split; [rewrite I1; exact D1|]. split; [rewrite I2; exact D2|]. split. { intros a. etransitivity; [apply D4|]. exact (I3 a). }
    exists (evs ++ [CollatorPaid x.1 (perbill_mul x.2 amount) period]). split; [rewrite I4; unfold s2; cbn; rewrite D3, <- app_assoc; done|]. apply Forall_app. split; [done|]. by repeat constructor.
  - cbn [fst]. split_and!; try done. exists []. by split.
Qed.
Lemma payout_side c amount period s : let s' := fst (payout_collators c amount period s) in
  book_side s' = book_side s /\ (forall a, free_of s a <= free_of s' a) /\ exists evs, s_events s' = evs ++ s_events s /\ Forall (fun e => match e with CollatorPaid _ _ _ => True | _ => False end) evs.
Proof.
  cbv zeta. destruct (payout_collators c amount period s) as [s' r] eqn:E. cbn [fst]. revert E.
  unfold payout_collators. unfold mbind_ at 1, get_st at 1. unfold mbind_ at 1, ensure at 1. destruct (negb _); [|intros [= <- _]; split; [done|]; split; [intros; lia|]; exists []; by split].
  unfold mbind_ at 1. pose proof (pay_collators_side period amount (shares s period) s) as D. cbv zeta in D. destruct (pay_collators period amount (shares s period) s) as [s1 [u|e]]; cbn [fst] in D; destruct D as (D1 & D2 & D3 & evs & D4 & D5).
  - unfold mbind_, modify. set (s2 := s1 <| s_growth := _ |> <| s_processed := _ |>). cbv zeta. destruct (_ =? 0). { intros [= <- _]. split; [exact D1|]. split; [exact D3|]. by exists evs. }
    match goal with |- context [deposit_existing (c_treasury c) ?d s2] => pose proof (deposit_side (c_treasury c) d s2) as E; destruct (deposit_existing (c_treasury c) d s2) as [s3 [u3|e3]] end; cbn [fst] in *; destruct E as (E1 & E2 & E3 & E4); intros [= <- _].
    + split; [rewrite E1; exact D1|]. split. { intros a. etransitivity; [apply D3|]. exact (E4 a). } exists evs. split; [by rewrite E3|done].
    + split; [exact D1|]. split; [exact D3|]. exists evs. by split.
  - intros [= <- _]. split; [exact D1|]. split; [exact D3|]. by exists evs.
Qed.

(** ** What every reachable state satisfies *)
Definition msum (m : gmap N N) : N := nsum (map snd (map_to_list m)).
Lemma nsum_perm l l' : l ≡ₚ l' -> nsum l = nsum l'.
Proof. induction 1; cbn in *; unfold nsum in *; lia. Qed.
Lemma msum_delete m k v : m !! k = Some v -> msum m = v + msum (delete k m).
Proof. intros H. unfold msum. rewrite <- (nsum_perm _ _ (fmap_Permutation snd _ _ (map_to_list_delete _ _ _ H))). done. Qed.
Lemma msum_insert m k v : msum (<[k := v]> m) + mget 0 k m = v + msum m.
Proof.
  assert (E : msum (<[k := v]> m) = v + msum (delete k m)). { rewrite (msum_delete (<[k := v]> m) k v) by apply lookup_insert. by rewrite delete_insert_delete. }
  rewrite E. unfold mget. destruct (m !! k) as [w|] eqn:Ek; [rewrite (msum_delete m k w Ek); lia|]. rewrite delete_notin by done. lia.
Qed.
Record Inv (c : config) (s : st) : Prop := {
  r_locked : s_locked s <= free_of s (c_pot c);
  r_events : forall x, NotEnoughFunds x ∉ s_events s;
  r_delayed : forall e r, s_delayed s !! e = Some r -> e < s_era s;
  r_awarded : forall e, awarded_in s e <> ∅ -> e <= s_era s;
  r_points : forall e, points_of s e < U32_MAX -> msum (awarded_in s e) <= points_of s e;
  r_era : 1 <= s_era s <= U32_MAX }.
Lemma inv_genesis c free i x tx : Inv c (genesis free i x tx).
Proof.
  split; unfold genesis, awarded_in, points_of, mget; cbn.
  - lia.
  - intros y. apply not_elem_of_nil.
  - intros e r. by rewrite lookup_empty.
  - intros e. by rewrite lookup_empty.
  - intros e. rewrite lookup_empty. done.
  - unfold U32_MAX. lia.
Qed.
Lemma inv_start c s x : 1 <= c_delay c -> Inv c s -> exists s', start_era c x s = (s', Ok tt) /\ Inv c s'.
Proof.
  intros Hd I. unfold start_era. unfold mbind_ at 1, modify at 1. set (s0 := s <| s_era := sat32 (s_era s) 1 |>).
  assert (E0 : s_era s <= s_era s0) by (unfold s0, sat32, saturating_add; cbn; destruct I; lia).
  assert (E1 : 1 <= s_era s0 <= U32_MAX) by (unfold s0, sat32, saturating_add, U32_MAX in *; cbn; destruct I; lia).
  assert (I0 : Inv c s0) by (destruct I; split; try done; [intros e r H; specialize (r_delayed0 e r H); lia|intros e H; specialize (r_awarded0 e H); lia]). clearbody s0. clear I E0.
  unfold mbind_ at 1. destruct (c_enabled c).
  2:{ unfold mret_, modify. eexists. split; [reflexivity|]. destruct I0. split; done. }
  destruct (prepare_ok c s0) as (s' & -> & P1 & P2 & P3 & P4 & P5 & P6 & P7 & P8). unfold modify. eexists. split; [reflexivity|].
  destruct I0. split; unfold free_of, awarded_in, points_of in *; cbn in *; rewrite ?P2, ?P3, ?P4, ?P6; try done.
  - destruct P8 as [(_ & -> & _)|(_ & _ & r & _ & P8)]; [done|]. by apply P8.
  - intros y. destruct P8 as [(_ & _ & -> & _)|(_ & _ & r & _ & P8)]; [done|]. destruct (P8 r_locked0) as [-> _]. done.
  - intros e r He. destruct P8 as [(E & _)|(L & _ & r' & E & _)]; rewrite E in He; [by eapply r_delayed0|]. apply lookup_insert_Some in He as [[<- _]|[_ He]]; [unfold paid_era; lia|by eapply r_delayed0].
Qed.
Lemma nsum_filter_le l a : paid_to l a <= psum l.
Proof. unfold paid_to, psum. induction l as [|x l IH]; [done|]. rewrite filter_cons. destruct (decide _); cbn [map nsum foldr] in *; unfold nsum in *; lia. Qed.
Lemma pays_inv c evs s s' : Inv c s -> pays c evs s s' -> Inv c s'.
Proof.
  intros I (A1 & A2 & A3 & A4 & A5). assert (R : reward_side (rest s') = reward_side (rest s)) by by rewrite A1. unfold reward_side in R. cbn in R. injection R as R1 R2 R3 R4 R5 R6 R7 R8.
  destruct I. split; unfold awarded_in, points_of in *; rewrite ?R1, ?R2, ?R3, ?R6; try done.
  - specialize (A5 (c_pot c)). rewrite N.eqb_refl in A5. rewrite A4. lia.
  - intros x. rewrite A2, not_elem_of_app. split; [|done]. intros Hx. rewrite Forall_forall in A3. by apply A3 in Hx.
Qed.
Lemma inv_taken c s e k : Inv c s -> is_Some (awarded_in s e !! k) -> Inv c (taken s e k).
Proof.
  intros I [p Hk]. destruct I. split; unfold taken, awarded_in, points_of, free_of in *; cbn in *; try done.
  - intros e'. rewrite mget_insert. case_bool_decide; [|apply r_awarded0]. subst. intros _. apply r_awarded0. intros E. by rewrite E in Hk.
  - intros e' Hp. rewrite mget_insert. case_bool_decide; [|by apply r_points0]. subst. specialize (r_points0 e Hp). rewrite (msum_delete _ _ _ Hk) in r_points0. lia.
Qed.
Lemma inv_handle c order s s' : 1 <= c_delay c -> Inv c s -> handle_delayed_payouts c order s = (s', Ok tt) -> Inv c s'.
Proof.
  intros Hd I E. destruct (handle_ok c order s) as (s1 & E1 & H). rewrite E in E1. injection E1 as <-. destruct H as [[-> _]|(Hle & reward & Hr & [(k & evs & Hk & Hp & P & _)|(He & ->)])]; [done| |].
  - eapply pays_inv; [|exact P]. by apply inv_taken.
  - destruct I. split; unfold awarded_in, points_of, free_of in *; cbn in *; try done.
    + intros e r [_ H]%lookup_delete_Some. by eapply r_delayed0.
    + intros e. unfold mget at 1 3. destruct (decide (paid_era c s = e)) as [<-|Hne]; [rewrite lookup_delete|rewrite lookup_delete_ne by done; apply r_points0].
      intros _. destruct He as [->|He]; [done|]. rewrite <- He. apply r_points0. rewrite He. done.
Qed.
Lemma inv_step c s o : 1 <= c_delay c -> Inv c s -> Inv c (step c s o).
Proof.
  intros Hd I. unfold step. destruct o as [start order|who|amount period|tx ok|free i ok tx]; cbn [body].
  - assert (G : exists s1, match start with None => mret_ tt | Some x => start_era c x end s = (s1, Ok tt) /\ Inv c s1) by (destruct start; [by apply inv_start|by eexists]).
    destruct G as (s1 & E & I1). unfold mbind_. rewrite E. destruct (c_enabled c); [|done]. destruct (handle_ok c order s1) as (s2 & E2 & _). rewrite E2. cbn [fst]. by eapply inv_handle.
  - unfold note_author, modify. cbn [fst]. destruct I. split; unfold awarded_in, points_of, free_of in *; cbn in *; try done.
    + intros e. rewrite mget_insert. case_bool_decide; [subst; lia|apply r_awarded0].
    + intros e. rewrite !mget_insert. case_bool_decide as E; [|apply r_points0]. subst e. intros Hp. unfold sat32, saturating_add in *.
      pose proof (msum_insert (mget ∅ (s_era s) (s_awarded s)) who (N.min U32_MAX (mget 0 who (mget ∅ (s_era s) (s_awarded s)) + 20))) as M. specialize (r_points0 (s_era s)). lia.
  - pose proof (payout_side c amount period s) as P. cbv zeta in P. destruct (payout_collators c amount period s) as [s1 r]. cbn [fst] in *. destruct P as (B & F & evs & E1 & E2). unfold book_side in B. injection B as B1 B2 B3 B4 B5 B6 B7 B8.
    destruct I. split; unfold awarded_in, points_of in *; rewrite ?B1, ?B2, ?B3, ?B6, ?B7; try done.
    + specialize (F (c_pot c)). lia.
    + intros x. rewrite E1, not_elem_of_app. split; [|done]. intros Hx. rewrite Forall_forall in E2. by apply E2 in Hx.
  - unfold process_result, modify. cbn [fst]. destruct (s_published s !! tx); [|done]. destruct I. by split.
  - unfold modify. cbn [fst]. destruct ((_ <=? _) && _) eqn:E; [|done]. apply andb_true_iff in E as [E1 _]. apply N.leb_le in E1. destruct I. split; try done. unfold free_of in *. cbn. lia.
Qed.
