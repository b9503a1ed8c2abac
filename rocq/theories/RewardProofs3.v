(** Growth: what is accumulated, triggered and paid. *)
From Verif Require Import Base BaseLemmas RewardModel RewardProofs RewardProofs2.

(** ** The allotments of a history: period, reward, stake *)
Definition allot (c : config) (s : st) (o : op) : list (N * N * N) :=
  match o with
  | NewBlock (Some _) _ =>
      let e := s_era s + 1 - c_delay c in
      if c_enabled c && c_growth c && (c_delay c <? s_era s + 1) && negb (points_of s e =? 0)
      then [(s_index (step c s o), N.min U128_MAX (free_of s (c_pot c)) - s_locked s, mget 0 e (s_staked s))] else []
  | _ => []
  end.
Fixpoint ledger (c : config) (s : st) (l : list op) : list (N * N * N) :=
  match l with [] => [] | o :: r => allot c s o ++ ledger c (step c s o) r end.
Definition of_period (p : N) (h : list (N * N * N)) : list (N * N * N) := filter (fun x => x.1.1 = p) h.
Definition reward_sum (p : N) (h : list (N * N * N)) : N := nsum (map (fun x => x.1.2) (of_period p h)).
Definition stake_sum (p : N) (h : list (N * N * N)) : N := nsum (map snd (of_period p h)).
Definition era_count (p : N) (h : list (N * N * N)) : N := N.of_nat (length (of_period p h)).
Lemma ledger_app c l1 : forall s l2, ledger c s (l1 ++ l2) = ledger c s l1 ++ ledger c (run c s l1) l2.
Proof. induction l1 as [|o l1 IH]; intros s l2; [done|]. cbn [app ledger run fold_left]. rewrite IH. by rewrite app_assoc. Qed.
Lemma of_period_app p h x : of_period p (h ++ [x]) = of_period p h ++ (if bool_decide (x.1.1 = p) then [x] else []).
Proof. unfold of_period. rewrite filter_app, filter_cons, filter_nil. case_bool_decide; [by rewrite decide_True|by rewrite decide_False]. Qed.
Lemma nsum_app l l' : nsum (l ++ l') = nsum l + nsum l'.
Proof. unfold nsum. induction l as [|x l IH]; [done|]. cbn. rewrite IH. lia. Qed.
Lemma sums_app p h x : reward_sum p (h ++ [x]) = reward_sum p h + (if bool_decide (x.1.1 = p) then x.1.2 else 0) /\ stake_sum p (h ++ [x]) = stake_sum p h + (if bool_decide (x.1.1 = p) then x.2 else 0) /\
  era_count p (h ++ [x]) = era_count p h + (if bool_decide (x.1.1 = p) then 1 else 0).
Proof. unfold reward_sum, stake_sum, era_count. rewrite of_period_app, !map_app, !nsum_app, app_length. case_bool_decide; cbn [map nsum foldr length]; unfold nsum; cbn [foldr]; split_and!; lia. Qed.
Lemma sums_none p h : (forall x, x ∈ h -> x.1.1 <> p) -> reward_sum p h = 0 /\ stake_sum p h = 0 /\ era_count p h = 0.
Proof.
  intros H. assert (E : of_period p h = []). { unfold of_period. induction h as [|x h IH]; [done|]. rewrite filter_cons, decide_False by (apply H; left). apply IH. intros y Hy. apply H. by right. }
  unfold reward_sum, stake_sum, era_count. by rewrite E.
Qed.
Record GInv (s : st) (h : list (N * N * N)) : Prop := {
  g_sum : forall p g, s_growth s !! p = Some g -> p ∉ s_processed s -> 1 <= p <= s_index s /\ g_count g = N.min U32_MAX (era_count p h) /\ g_stake g = N.min U128_MAX (stake_sum p h) /\ g_reward g = N.min U128_MAX (reward_sum p h);
  g_score : forall p g, s_growth s !! p = Some g -> g_points g < U32_MAX -> msum (g_scores g) <= g_points g;
  g_calls : forall tx r a p, (tx, r, a, p) ∈ s_calls s -> p < s_index s /\ (p ∈ s_processed s \/ exists g, s_growth s !! p = Some g /\ g_tx g <> None) /\
              r = N.min U128_MAX (reward_sum p h) /\ a = N.min U128_MAX (stake_sum p h) / N.min U32_MAX (era_count p h) /\ r <> 0;
  g_nodup : NoDup (map snd (s_calls s));
  g_pub : forall tx p, s_published s !! tx = Some p -> p ∈ map snd (s_calls s);
  g_hist : forall x, x ∈ h -> 1 <= x.1.1 <= s_index s;
  g_cur : s_index s = 0 \/ (exists g, s_growth s !! s_index s = Some g) \/ s_index s ∈ s_processed s }.
Lemma ginv_eq s s' h : GInv s h -> s_index s' = s_index s -> s_growth s' = s_growth s -> s_processed s' = s_processed s -> s_published s' = s_published s -> s_calls s' = s_calls s -> GInv s' h.
Proof. intros [] E1 E2 E3 E4 E5. split; rewrite ?E1, ?E2, ?E3, ?E4, ?E5; done. Qed.
Lemma map_snd_elem (l : list (N * N * N * N)) p : p ∈ map snd l -> exists tx r a, (tx, r, a, p) ∈ l.
Proof. intros H. apply elem_of_list_fmap in H as ([[[tx r] a] p'] & -> & H). by eexists _, _, _. Qed.
Lemma ginv_trigger_one p s h : GInv s h -> p < s_index s -> GInv (fst (trigger_one p s)) h.
Proof.
  intros G Hp. unfold trigger_one. destruct (s_growth s !! p) as [g|] eqn:Eg; [|done]. destruct (bool_decide (p ∈ s_processed s) || _ || _) eqn:E; [done|]. apply orb_false_iff in E as [E E3]. apply orb_false_iff in E as [E1 E2].
  apply bool_decide_eq_false in E1. apply negb_false_iff, bool_decide_eq_true in E2, E3. destruct ((g_count g =? 0) || _ || _) eqn:Ez.
  - cbn [fst]. destruct G. split; cbn; try done.
    + intros p' g' H Hn. apply lookup_insert_Some in H as [[<- <-]|[_ H]]; [|by apply g_sum0]. cbn. by apply g_sum0.
    + intros p' g' H Hn. apply lookup_insert_Some in H as [[<- <-]|[_ H]]; [|by eapply g_score0]. cbn in *. by apply (g_score0 p g).
    + intros tx r a p' H. destruct (g_calls0 tx r a p' H) as (A & B & C). split; [done|]. split; [|done]. destruct B as [B|(g' & B1 & B2)]; [by left|]. right. destruct (decide (p = p')) as [->|Hne]; [rewrite lookup_insert; by eexists|rewrite lookup_insert_ne by done; by exists g'].
    + destruct g_cur0 as [H|[(g' & H)|H]]; [by left| |by right; right]. right. left. rewrite lookup_insert_ne by lia. by exists g'.
  - unfold trigger_growth, mbind_, get_st, ensure, modify, mret_. destruct (s_bridge_ok s); [|done]. cbn [fst]. unfold mget. rewrite Eg. apply orb_false_iff in Ez as [Ez Z3]. apply orb_false_iff in Ez as [Z1 Z2]. apply N.eqb_neq in Z1, Z2, Z3.
    assert (Hnew : p ∉ map snd (s_calls s)). { intros H. apply map_snd_elem in H as (tx & r & a & H). destruct (g_calls _ _ G tx r a p H) as (_ & [B|(g' & B1 & B2)] & _); [done|]. rewrite Eg in B1. injection B1 as <-. done. }
    destruct (g_sum _ _ G p g Eg E1) as (S1 & S2 & S3 & S4). destruct G. split; cbn; try done.
    + intros p' g' H Hn. apply lookup_insert_Some in H as [[<- <-]|[_ H]]; [|by apply g_sum0]. cbn. by apply g_sum0.
    + intros p' g' H Hn. apply lookup_insert_Some in H as [[<- <-]|[_ H]]; [|by eapply g_score0]. cbn in *. by apply (g_score0 p g).
    + intros tx r a p' H. apply elem_of_cons in H as [[= -> -> -> ->]|H].
      * split; [done|]. split; [right; rewrite lookup_insert; by eexists|]. split; [done|]. split; [by rewrite S2, S3|done].
      * destruct (g_calls0 tx r a p' H) as (A & B & C). split; [done|]. split; [|done]. destruct B as [B|(g' & B1 & B2)]; [by left|]. right. destruct (decide (p = p')) as [->|Hne]; [rewrite lookup_insert; by eexists|rewrite lookup_insert_ne by done; by exists g'].
    + by constructor.
    + intros tx p' H. apply lookup_insert_Some in H as [[<- <-]|[_ H]]; [left|]. right. by eapply g_pub0.
    + destruct g_cur0 as [H|[(g' & H)|H]]; [by left| |by right; right]. right. left. rewrite lookup_insert_ne by lia. by exists g'.
Qed.
Lemma ginv_trigger_from n : forall p s h, GInv s h -> (n <> 0%nat -> p + N.of_nat n <= s_index s) -> GInv (fst (trigger_from p n s)) h.
Proof.
  induction n as [|n IH]; intros p s h G Hp; [done|]. cbn [trigger_from]. unfold mbind_. destruct (trigger_one_side p s) as (s1 & E & _ & _ & Hi & _). pose proof (ginv_trigger_one p s h G ltac:(specialize (Hp ltac:(done)); lia)) as G1. rewrite E in *. cbn [fst] in G1. apply IH; [done|]. rewrite Hi. specialize (Hp ltac:(done)). lia.
Qed.
Lemma map_to_list_msum m : msum m = map_fold (fun _ v a => v + a) 0 m.
Proof. unfold msum, map_fold, nsum. cbn. rewrite foldr_fmap. apply foldr_ext; [|done|done]. by intros [??] ?. Qed.
Lemma msum_union_le (a b : gmap N N) : msum (add_scores a b) <= msum a + msum b.
Proof.
  unfold add_scores. revert b. induction a as [|k v a Hk IH] using map_ind; intros b.
  - rewrite (left_id_L ∅ _). lia.
  - rewrite (msum_delete (<[k:=v]> a) k v) by apply lookup_insert. rewrite delete_insert by done. specialize (IH (delete k b)).
    assert (E : union_with (fun a b => Some (sat32 a b)) (<[k := v]> a) b = <[k := match b !! k with Some w => sat32 v w | None => v end]> (union_with (fun a b => Some (sat32 a b)) a (delete k b))).
    { apply map_eq. intros i. rewrite lookup_union_with. destruct (decide (k = i)) as [<-|Hne]; [rewrite !lookup_insert; by destruct (b !! k)|]. rewrite !lookup_insert_ne by done. rewrite lookup_union_with, lookup_delete_ne by done. done. }
    rewrite E. pose proof (msum_insert (union_with (fun a b => Some (sat32 a b)) a (delete k b)) k (match b !! k with Some w => sat32 v w | None => v end)) as M.
    destruct (b !! k) as [w|] eqn:Eb.
    + rewrite (msum_delete b k w Eb). unfold sat32, saturating_add in *. lia.
    + rewrite delete_notin in * by done. lia.
Qed.
Lemma ginv_update c era staked reward points scores s h :
  GInv s h -> s_index s < U32_MAX -> (points < U32_MAX -> msum scores <= points) -> staked <= U128_MAX -> reward <= U128_MAX ->
  let s' := fst (update_collator_payout c era staked reward points scores s) in GInv s' (h ++ [(s_index s', reward, staked)]) /\ s_index s <= s_index s' <= s_index s + 1.
Proof.
  intros G Hi Hsc Hst Hrw. unfold update_collator_payout, mbind_, get_st, modify. destruct ((s_index s =? 0) || _) eqn:E.
  - cbv zeta. assert (Ei : sat32 (s_index s) 1 = s_index s + 1) by (unfold sat32, saturating_add; lia). rewrite Ei. unfold trigger_outstanding, mbind_, get_st. cbn [s_last].
    match goal with |- context [trigger_from ?x ?n ?t] => set (s1 := t) end. match goal with |- context [trigger_from ?x ?n s1] => destruct (trigger_from_side n x s1) as (s2 & E2 & _ & _ & Hx & _); pose proof (ginv_trigger_from n x s1 (h ++ [(s_index s + 1, reward, staked)])) as T end.
    rewrite E2 in *. cbn [fst] in *. rewrite Hx. change (s_index s1) with (s_index s + 1) in *. split; [|lia]. apply T; [|change (s_last s1) with (s_last s); rewrite N2Nat.id; lia]. clear T E2 Hx s2. unfold s1. clear s1.
    destruct G. split; cbn; try done.
    + intros p g H Hn. apply lookup_insert_Some in H as [[<- <-]|[Hne H]].
      * cbn. destruct (sums_app (s_index s + 1) h (s_index s + 1, reward, staked)) as (-> & -> & ->). destruct (sums_none (s_index s + 1) h) as (-> & -> & ->). { intros x Hx. apply g_hist0 in Hx. lia. }
        cbn [fst snd]. rewrite bool_decide_true by done. split; [lia|]. unfold U32_MAX in *. split_and!; lia.
      * destruct (g_sum0 p g H Hn) as (A & B). destruct (sums_app p h (s_index s + 1, reward, staked)) as (-> & -> & ->). cbn [fst]. rewrite bool_decide_false by lia. rewrite !N.add_0_r. split; [lia|done].
    + intros p g H Hn. apply lookup_insert_Some in H as [[<- <-]|[_ H]]; [cbn in *; by apply Hsc|by eapply g_score0].
    + intros tx r a p H. destruct (g_calls0 tx r a p H) as (A & B & C). destruct (sums_app p h (s_index s + 1, reward, staked)) as (-> & -> & ->). cbn [fst]. rewrite bool_decide_false by lia. rewrite !N.add_0_r. split; [lia|]. split; [|done].
      destruct B as [B|(g' & B1 & B2)]; [by left|]. right. rewrite lookup_insert_ne by lia. by exists g'.
    + intros x Hx. apply elem_of_app in Hx as [Hx|Hx]; [apply g_hist0 in Hx; lia|]. apply elem_of_list_singleton in Hx as ->. cbn. lia.
    + right. left. rewrite lookup_insert. by eexists.
  - apply orb_false_iff in E as [E _]. apply N.eqb_neq in E. cbv zeta. cbn [fst]. change (s_index (s <| s_growth := _ |>)) with (s_index s). split; [|cbn; lia]. cbn [s_index]. destruct G. split; cbn; try done.
    + intros p g H Hn. apply lookup_insert_Some in H as [[<- <-]|[Hne H]].
      * destruct g_cur0 as [H|[(g & H)|H]]; [done| |done]. destruct (g_sum0 _ g H Hn) as (A & B & C & D). unfold mget. rewrite H. cbn. destruct (sums_app (s_index s) h (s_index s, reward, staked)) as (-> & -> & ->). cbn [fst snd]. rewrite bool_decide_true by done.
        rewrite B, C, D. unfold sat, sat32, saturating_add. split; [lia|]. split_and!; lia.
      * destruct (g_sum0 p g H Hn) as (A & B). destruct (sums_app p h (s_index s, reward, staked)) as (-> & -> & ->). cbn [fst]. rewrite bool_decide_false by congruence. rewrite !N.add_0_r. done.
    + intros p g H Hpts. apply lookup_insert_Some in H as [[<- <-]|[_ H]]; [|by eapply g_score0]. cbn in *. pose proof (msum_union_le (g_scores (mget growth_default (s_index s) (s_growth s))) scores) as M.
      assert (M2 : g_points (mget growth_default (s_index s) (s_growth s)) < U32_MAX -> msum (g_scores (mget growth_default (s_index s) (s_growth s))) <= g_points (mget growth_default (s_index s) (s_growth s))).
      { unfold mget. destruct (s_growth s !! s_index s) as [g|] eqn:Eg; [by eapply g_score0|done]. }
      unfold sat32, saturating_add in *. lia.
    + intros tx r a p H. destruct (g_calls0 tx r a p H) as (A & B & C). destruct (sums_app p h (s_index s, reward, staked)) as (-> & -> & ->). cbn [fst]. rewrite bool_decide_false by lia. rewrite !N.add_0_r. split; [lia|]. split; [|done].
      destruct B as [B|(g' & B1 & B2)]; [by left|]. right. rewrite lookup_insert_ne by lia. by exists g'.
    + intros x Hx. apply elem_of_app in Hx as [Hx|Hx]; [by apply g_hist0 in Hx|]. apply elem_of_list_singleton in Hx as ->. cbn. lia.
    + right. left. rewrite lookup_insert. by eexists.
Qed.
Lemma prepare_growth c s : s_locked s <= free_of s (c_pot c) -> exists s2, growth_side s2 = growth_side s /\
  prepare_payouts c s = if c_growth c && (c_delay c <? s_era s) && negb (points_of s (paid_era c s) =? 0)
    then update_collator_payout c (paid_era c s) (mget 0 (paid_era c s) (s_staked s)) (N.min U128_MAX (free_of s (c_pot c)) - s_locked s) (points_of s (paid_era c s)) (awarded_in s (paid_era c s)) s2
    else (s2, Ok tt).
Proof.
  intros L. unfold prepare_payouts. unfold mbind_ at 1, get_st at 1. destruct (N.leb_spec (s_era s) (c_delay c)) as [H|H]. { destruct (N.ltb_spec (c_delay c) (s_era s)); [lia|]. rewrite andb_false_r. by exists s. }
  destruct (N.ltb_spec (c_delay c) (s_era s)); [|lia]. rewrite andb_true_r. cbv zeta. fold (paid_era c s). destruct (N.eqb_spec (points_of s (paid_era c s)) 0) as [H1|H1]; [rewrite andb_false_r; by exists s|]. rewrite andb_true_r.
  unfold mbind_, modify, compute_total_reward, get_st, mret_, emit. cbv zeta. unfold mbind_, modify. set (s0 := s <| s_staked := _ |>). change (free_of s0 (c_pot c)) with (free_of s (c_pot c)). change (s_locked s0) with (s_locked s). cbv beta. destruct (N.leb_spec (s_locked s) (free_of s (c_pot c))); [|lia].
  destruct (N.leb_spec (s_locked s + (free_of s (c_pot c) - s_locked s)) U128_MAX) as [L2|L2].
  - replace (N.min U128_MAX (free_of s (c_pot c)) - s_locked s) with (free_of s (c_pot c) - s_locked s) by lia. destruct (c_growth c); (eexists; split; [|reflexivity]; done).
  - replace (N.min U128_MAX (free_of s (c_pot c)) - s_locked s) with (saturating_sub U128_MAX (s_locked s)) by (unfold saturating_sub; lia). destruct (c_growth c); (eexists; split; [|reflexivity]; done).
Qed.
Lemma growth_same s s' h : growth_side s' = growth_side s -> GInv s h -> GInv s' h.
Proof. intros E G. unfold growth_side in E. injection E as E1 E2 E3 E4 E5 E6 E7 E8 E9. by eapply ginv_eq. Qed.
Lemma pays_growth c evs s s' : pays c evs s s' -> growth_side s' = growth_side s.
Proof. intros (A1 & _). assert (R : growth_side (rest s') = growth_side (rest s)) by by rewrite A1. exact R. Qed.
Lemma handle_growth c order s : growth_side (fst (handle_delayed_payouts c order s)) = growth_side s.
Proof.
  destruct (handle_ok c order s) as (s' & -> & H). cbn [fst]. destruct H as [[-> _]|(_ & r & _ & [(k & evs & _ & _ & P & _)|(_ & ->)])]; [done| |done]. by rewrite (pays_growth _ _ _ _ P).
Qed.
Lemma ginv_payout c amount period s h : GInv s h -> GInv (fst (payout_collators c amount period s)) h.
Proof.
  intros G. destruct (payout_collators c amount period s) as [s' r] eqn:E. cbn [fst]. revert E.
  unfold payout_collators. unfold mbind_ at 1, get_st at 1. unfold mbind_ at 1, ensure at 1. destruct (negb _); [|by intros [= <- _]].
  unfold mbind_ at 1. pose proof (pay_collators_side period amount (shares s period) s) as D. cbv zeta in D. destruct (pay_collators period amount (shares s period) s) as [s1 [u|e]]; cbn [fst] in D; destruct D as (_ & D2 & _); pose proof (growth_same _ _ _ D2 G) as G1; [|by intros [= <- _]].
  unfold mbind_, modify. set (s2 := s1 <| s_growth := _ |> <| s_processed := _ |>).
  assert (G2 : GInv s2 h).
  { unfold s2. destruct G1. split; cbn; try done.
    - intros p g [_ H]%lookup_delete_Some Hn. apply g_sum0; [done|]. set_solver.
    - intros p g [_ H]%lookup_delete_Some. by eapply g_score0.
    - intros tx r' a p H. destruct (g_calls0 tx r' a p H) as (A & B & C). split; [done|]. split; [|done]. destruct (decide (period = p)) as [->|Hne]; [left; set_solver|]. destruct B as [B|(g' & B1 & B2)]; [left; set_solver|]. right. rewrite lookup_delete_ne by done. by exists g'.
    - destruct g_cur0 as [H|H]; [by left|]. right. destruct (decide (period = s_index s1)) as [->|Hne]; [right; set_solver|]. destruct H as [(g' & H)|H]; [left; rewrite lookup_delete_ne by done; by exists g'|right; set_solver]. }
  cbv zeta. destruct (_ =? 0). { by intros [= <- _]. }
  match goal with |- context [deposit_existing (c_treasury c) ?d s2] => pose proof (deposit_side (c_treasury c) d s2) as F; destruct (deposit_existing (c_treasury c) d s2) as [s3 [u3|e3]] end; cbn [fst] in *; destruct F as (_ & F2 & _); intros [= <- _]; [|done].
  by eapply growth_same.
Qed.
Lemma payout_index c amount period s : s_index (fst (payout_collators c amount period s)) = s_index s /\ s_calls (fst (payout_collators c amount period s)) = s_calls s.
Proof.
  destruct (payout_collators c amount period s) as [s' r] eqn:E. cbn [fst]. revert E.
  unfold payout_collators. unfold mbind_ at 1, get_st at 1. unfold mbind_ at 1, ensure at 1. destruct (negb _); [|by intros [= <- _]].
  unfold mbind_ at 1. pose proof (pay_collators_side period amount (shares s period) s) as D. cbv zeta in D. destruct (pay_collators period amount (shares s period) s) as [s1 [u|e]]; cbn [fst] in D; destruct D as (_ & D2 & _); unfold growth_side in D2; injection D2 as D21 D22 D23 D24 D25 D26 D27 D28 D29; [|by intros [= <- _]].
  unfold mbind_, modify. set (s2 := s1 <| s_growth := _ |> <| s_processed := _ |>). cbv zeta. destruct (_ =? 0). { by intros [= <- _]. }
  match goal with |- context [deposit_existing (c_treasury c) ?d s2] => pose proof (deposit_side (c_treasury c) d s2) as F; destruct (deposit_existing (c_treasury c) d s2) as [s3 [u3|e3]] end; cbn [fst] in *; destruct F as (_ & F2 & _); unfold growth_side in F2; injection F2 as F21 F22 F23 F24 F25 F26 F27 F28 F29; intros [= <- _]; [|done].
  by rewrite F22, F29.
Qed.
Lemma ginv_step c s o h : 1 <= c_delay c -> Inv c s -> s_index s < s_era s -> s_era (step c s o) < U32_MAX -> (forall e, mget 0 e (s_staked s) <= U128_MAX) -> GInv s h ->
  GInv (step c s o) (h ++ allot c s o) /\ s_index (step c s o) < s_era (step c s o).
Proof.
  intros Hd I Hi Hmax Hst G. destruct o as [[x|] order|who|amount period|tx ok|free i ok tx].
  - assert (G1 : GInv (opened c (Some x) s) (h ++ allot c s (NewBlock (Some x) order)) /\ s_index (step c s (NewBlock (Some x) order)) = s_index (opened c (Some x) s) /\ s_index (opened c (Some x) s) <= s_index s + 1 /\ growth_side (step c s (NewBlock (Some x) order)) = growth_side (opened c (Some x) s) /\ s_era s + 1 = s_era (step c s (NewBlock (Some x) order))).
    { assert (Eg : growth_side (step c s (NewBlock (Some x) order)) = growth_side (opened c (Some x) s)). { destruct (c_enabled c) eqn:He; [|by rewrite disabled_step]. rewrite block_step by done. apply handle_growth. }
      assert (Ei : s_index (step c s (NewBlock (Some x) order)) = s_index (opened c (Some x) s)) by (unfold growth_side in Eg; by injection Eg).
      assert (Ee : s_era s + 1 = s_era (step c s (NewBlock (Some x) order))).
      { assert (A : s_era (step c s (NewBlock (Some x) order)) = s_era (opened c (Some x) s)). { destruct (c_enabled c) eqn:He; [|by rewrite disabled_step]. rewrite block_step by done. destruct (handle_ok c order (opened c (Some x) s)) as (s' & -> & H). cbn [fst]. destruct H as [[-> _]|(_ & r & _ & [(k & evs & _ & _ & P & _)|(_ & ->)])]; [done| |done]. by apply pays_books in P as (-> & _). }
        rewrite A in *. destruct (opened_awarded c (Some x) s) as (_ & _ & _ & _ & B & _). rewrite B in *. unfold sat32, saturating_add in *. lia. }
      rewrite <- Ee in *. split; [|split; [done|]; split; [|by split]]; unfold allot; rewrite ?Ei; unfold opened, start_era; unfold mbind_, modify; set (s0 := s <| s_era := sat32 (s_era s) 1 |>);
      assert (E0 : s_era s0 = s_era s + 1) by (unfold s0, sat32, saturating_add; cbn; lia); (destruct (c_enabled c); cbn [andb]; [|unfold mret_; cbn; rewrite ?app_nil_r; try lia; by eapply ginv_eq]);
      (destruct (prepare_growth c s0) as (s2 & A & ->); [by destruct I|]); unfold paid_era; rewrite E0; change (points_of s0) with (points_of s); change (free_of s0) with (free_of s); change (s_staked s0) with (s_staked s); change (awarded_in s0) with (awarded_in s); change (s_locked s0) with (s_locked s);
      (destruct (c_growth c && _ && _); [|rewrite ?app_nil_r; cbn; unfold growth_side in A; injection A as A1 A2 A3 A4 A5 A6 A7 A8 A9; try (rewrite A2; lia); by eapply ginv_eq]);
      match goal with |- context [update_collator_payout ?c ?e ?st ?r ?p ?sc s2] => pose proof (ginv_update c e st r p sc s2 h) as U; destruct (update_side c e st r p sc s2) as (s3 & E3 & _) end; cbv zeta in U; rewrite E3 in *; cbn [fst] in *;
      assert (A2 : s_index s2 = s_index s) by (unfold growth_side in A; by injection A); (destruct U as [U1 U2]; [exact (growth_same s s2 h A G)|lia|intros Hp; by apply (r_points c s I)|apply Hst|lia|]).
      - cbn. by eapply ginv_eq.
      - cbn. lia. }
    destruct G1 as (G1 & G2 & G3 & G4 & G5). split; [by eapply growth_same|]. rewrite G2. lia.
  - cbn [allot]. rewrite app_nil_r. assert (Eg : growth_side (step c s (NewBlock None order)) = growth_side s). { destruct (c_enabled c) eqn:He; [|by rewrite disabled_step]. rewrite block_step by done. apply handle_growth. }
    pose proof (era_step c s (NewBlock None order) ltac:(destruct I; lia)). split; [by eapply growth_same|]. assert (Ei : s_index (step c s (NewBlock None order)) = s_index s) by (unfold growth_side in Eg; by injection Eg). lia.
  - cbn [allot]. rewrite app_nil_r. split; [by eapply ginv_eq|done].
  - cbn [allot]. rewrite app_nil_r. split; [by apply ginv_payout|]. unfold step. cbn [body]. pose proof (payout_side c amount period s) as P. cbv zeta in P. pose proof (ginv_payout c amount period s h G).
    assert (Hx : s_index (fst (payout_collators c amount period s)) = s_index s). { destruct (payout_index c amount period s) as [-> _]. done. } rewrite Hx. destruct P as (P & _). unfold book_side in P. injection P as -> _. done.
  - cbn [allot]. rewrite app_nil_r. unfold step. cbn [body]. unfold process_result, modify. cbn [fst]. destruct (s_published s !! tx) as [p|] eqn:Ep; [|done]. split; [|done].
    assert (Hc : p ∈ s_processed s \/ exists g, s_growth s !! p = Some g /\ g_tx g <> None). { apply (g_pub _ _ G) in Ep. apply map_snd_elem in Ep as (tx' & r & a & Ep). by apply (g_calls _ _ G) in Ep as (_ & ? & _). }
    destruct G. split; cbn; try done.
    + intros p' g H Hn. apply lookup_insert_Some in H as [[<- <-]|[_ H]]; [|by apply g_sum0]. destruct Hc as [Hc|(g & Hg & _)]; [done|]. unfold mget. rewrite Hg. cbn. by apply g_sum0.
    + intros p' g H Hn. apply lookup_insert_Some in H as [[<- <-]|[_ H]]; [|by eapply g_score0]. cbn in *. unfold mget in *. destruct (s_growth s !! p) as [g'|] eqn:Eg; [by eapply g_score0|done].
    + intros tx' r a p' H. destruct (g_calls0 tx' r a p' H) as (A & B & C). split; [done|]. split; [|done]. destruct B as [B|(g' & B1 & B2)]; [by left|]. right. destruct (decide (p = p')) as [->|Hne]; [rewrite lookup_insert; unfold mget; rewrite B1; eexists; split; [reflexivity|done]|rewrite lookup_insert_ne by done; by exists g'].
    + destruct g_cur0 as [H|[(g' & H)|H]]; [by left| |by right; right]. right. left. destruct (decide (p = s_index s)) as [->|Hne]; [rewrite lookup_insert; by eexists|rewrite lookup_insert_ne by done; by exists g'].
  - cbn [allot]. rewrite app_nil_r. unfold step. cbn [body]. unfold modify. cbn [fst]. destruct (_ && _); [|done]. split; [by eapply ginv_eq|done].
Qed.
Definition good_stake (o : op) : Prop := match o with NewBlock (Some x) _ => x.2 <= U128_MAX | _ => True end.
Lemma staked_step c s o : good_stake o -> (forall e, mget 0 e (s_staked s) <= U128_MAX) -> forall e, mget 0 e (s_staked (step c s o)) <= U128_MAX.
Proof.
  intros Ho Hs e. destruct o as [start order|who|amount period|tx ok|free i ok tx].
  - assert (G : forall e, mget 0 e (s_staked (opened c start s)) <= U128_MAX).
    { intros e'. unfold opened. destruct start as [x|]; [|apply Hs]. unfold start_era, mbind_, modify. set (s0 := s <| s_era := _ |>).
      assert (P : exists s1, (if c_enabled c then prepare_payouts c else mret_ tt) s0 = (s1, Ok tt) /\ forall e, mget 0 e (s_staked s1) <= U128_MAX).
      { destruct (c_enabled c); [|by eexists]. unfold prepare_payouts. unfold mbind_ at 1, get_st at 1. destruct (_ <=? _); [by eexists|]. cbv zeta. destruct (_ =? 0); [by eexists|]. unfold mbind_ at 1, modify at 1. set (s2 := s0 <| s_staked := _ |>).
        assert (H2 : forall e, mget 0 e (s_staked s2) <= U128_MAX). { intros e2. unfold s2. cbn. rewrite mget_delete. case_bool_decide; [unfold U128_MAX; lia|apply Hs]. }
        assert (P : exists r s3, compute_total_reward c s2 = (s3, Ok r) /\ s_staked s3 = s_staked s2).
        { unfold compute_total_reward, mbind_, get_st, emit, modify, mret_. cbv zeta. destruct (s_locked s2 <=? free_of s2 (c_pot c)); destruct (_ <=? U128_MAX); by eexists _, _. }
        destruct P as (r & s3 & P & P2). unfold mbind_ at 1. rewrite P. unfold mbind_ at 1, modify at 1. destruct (c_growth c).
        - match goal with |- context [update_collator_payout ?c ?e ?st ?r ?p ?sc ?t] => destruct (update_side c e st r p sc t) as (s4 & -> & R & _) end. exists s4. split; [done|]. unfold reward_side in R. injection R as R1 R2 R3 R4 R5 R6. rewrite R5. cbn. by rewrite P2.
        - unfold mret_. eexists. split; [reflexivity|]. cbn. by rewrite P2. }
      destruct P as (s1 & -> & P). cbn. rewrite mget_insert. case_bool_decide; [exact Ho|apply P]. }
    destruct (c_enabled c) eqn:He; [|by rewrite disabled_step]. rewrite block_step by done. destruct (handle_ok c order (opened c start s)) as (s2 & -> & H). cbn [fst].
    destruct H as [[-> _]|(_ & r & _ & [(k & evs & _ & _ & P & _)|(_ & ->)])]; [apply G| |apply G]. destruct P as (P & _). assert (R : reward_side (rest s2) = reward_side (rest (taken (opened c start s) (paid_era c (opened c start s)) k))) by by rewrite P.
    unfold reward_side in R. cbn in R. injection R as R1 R2 R3 R4 R5 R6. rewrite R5. apply G.
  - apply Hs.
  - unfold step. cbn [body]. pose proof (payout_side c amount period s) as P. cbv zeta in P. destruct P as (P & _). unfold book_side in P. injection P as P1 P2 P3 P4 P5 P6. rewrite P5. apply Hs.
  - unfold step. cbn [body]. unfold process_result, modify. cbn [fst]. destruct (s_published s !! tx); apply Hs.
  - unfold step. cbn [body]. unfold modify. cbn [fst]. destruct (_ && _); apply Hs.
Qed.
Lemma ginv_run c l : forall s h, 1 <= c_delay c -> Inv c s -> s_index s < s_era s -> s_era (run c s l) < U32_MAX -> Forall good_stake l -> (forall e, mget 0 e (s_staked s) <= U128_MAX) -> GInv s h -> GInv (run c s l) (h ++ ledger c s l).
Proof.
  induction l as [|o l IH]; intros s h Hd I Hi Hmax Hl Hst G; [cbn; by rewrite app_nil_r|]. apply Forall_cons in Hl as [Ho Hl]. rewrite run_cons in *. cbn [ledger]. rewrite app_assoc.
  pose proof (era_step c s o ltac:(destruct I; lia)) as Hera. pose proof (era_run c (step c s o) l ltac:(lia)) as Hrun. destruct (ginv_step c s o h Hd I Hi ltac:(lia) Hst G) as [G1 G2]. apply IH; try done; [by apply inv_step|by apply staked_step].
Qed.
Lemma ginv_genesis free i x tx : GInv (genesis free i x tx) [].
Proof.
  split; unfold genesis; cbn.
  - intros p g. by rewrite lookup_empty.
  - intros p g. by rewrite lookup_empty.
  - intros t r a p H. by apply elem_of_nil in H.
  - constructor.
  - intros t p. by rewrite lookup_empty.
  - intros y H. by apply elem_of_nil in H.
  - by left.
Qed.

(** ** A successful growth payout *)
Definition amounts (s : st) (period amount : N) : list (N * N) := map (fun x => (x.1, perbill_mul x.2 amount)) (shares s period).
Lemma deposit_ok who amount s s' : deposit_existing who amount s = (s', Ok tt) -> (forall a, free_of s' a = free_of s a + (if a =? who then amount else 0)) /\ (s_issuance s + amount <= U128_MAX -> s_issuance s' = s_issuance s + amount) /\ dom (s_free s') = dom (s_free s).
Proof.
  unfold deposit_existing, mbind_, get_st, ensure, modify. destruct (N.eqb_spec amount 0) as [->|]. { intros [= <-]. split; [intros a; destruct (a =? who); lia|]. split; [intros; lia|done]. }
  destruct (s_free s !! who) eqn:Ew; [|done]. destruct (_ <=? _); [|done]. intros [= <-]. split; [|split; [cbn; unfold sat, saturating_add; lia|cbn; rewrite dom_insert_L; assert (who ∈ dom (s_free s)) by (apply elem_of_dom; by eexists); set_solver]]. intros a. unfold free_of. cbn. rewrite mget_insert. destruct (N.eqb_spec a who); case_bool_decide; try done. - by subst. - lia.
Qed.
Lemma deposit_unit who amount s s' u : deposit_existing who amount s = (s', Ok u) -> deposit_existing who amount s = (s', Ok tt).
Proof. by destruct u. Qed.
Lemma pay_collators_ok period amount l : forall s s', pay_collators period amount l s = (s', Ok tt) ->
  s_events s' = rev (map (fun x => CollatorPaid x.1 (perbill_mul x.2 amount) period) l) ++ s_events s /\ (forall a, free_of s' a = free_of s a + paid_to (map (fun x => (x.1, perbill_mul x.2 amount)) l) a) /\
  (s_issuance s + psum (map (fun x => (x.1, perbill_mul x.2 amount)) l) <= U128_MAX -> s_issuance s' = s_issuance s + psum (map (fun x => (x.1, perbill_mul x.2 amount)) l)) /\ dom (s_free s') = dom (s_free s).
Proof.
  induction l as [|x l IH]; intros s s'; cbn [pay_collators]. { intros [= <-]. split; [done|]. split; [intros a; cbn; lia|]. split; [cbn; lia|done]. }
  unfold mbind_. pose proof (deposit_side x.1 (perbill_mul x.2 amount) s) as D. cbv zeta in D. destruct (deposit_existing x.1 (perbill_mul x.2 amount) s) as [s1 [u|e]] eqn:Ed; [|done]. destruct D as (_ & _ & D3 & _). cbn [fst] in D3. destruct (deposit_ok _ _ _ _ (deposit_unit _ _ _ _ _ Ed)) as (D1 & D2 & D4). unfold emit, modify. intros H. apply IH in H as (I1 & I2 & I3 & I4). cbn in I1, I3, I4.
  split; [rewrite I1, D3; cbn [map rev]; by rewrite <- app_assoc|]. split; [|split; [|congruence]].
  - intros a. rewrite I2. cbn [map]. match goal with |- _ = _ + paid_to (?y :: ?r) a => change (y :: r) with ([y] ++ r) end. rewrite paid_to_app, paid_to_one. cbn [fst snd]. change (free_of (s1 <| s_events := _ |>) a) with (free_of s1 a). rewrite D1, (N.eqb_sym a). lia.
  - cbn [map]. match goal with |- context [psum (?y :: ?r)] => change (psum (y :: r)) with (y.2 + psum r) end. cbn [snd]. intros Hle. rewrite D2 in I3 by lia. rewrite I3 by lia. lia.
Qed.
Lemma lsum_psum s period amount : lsum (map (fun x => perbill_mul x.2 amount) (shares s period)) = psum (amounts s period amount).
Proof. unfold amounts, psum, lsum, nsum. by rewrite map_map. Qed.
Lemma payout_ok c amount period s s' : payout_collators c amount period s = (s', Ok tt) ->
  period ∉ s_processed s /\ s_processed s' = s_processed s ∪ {[period]} /\ s_events s' = rev (map (fun x => CollatorPaid x.1 x.2 period) (amounts s period amount)) ++ s_events s /\
  exists dust, (forall a, free_of s' a = free_of s a + paid_to (amounts s period amount) a + (if a =? c_treasury c then dust else 0)) /\ dust <= amount - psum (amounts s period amount) /\
    (is_Some (s_free s !! c_treasury c) -> free_of s (c_treasury c) + amount + psum (amounts s period amount) <= U128_MAX -> dust = amount - psum (amounts s period amount)) /\
    (s_issuance s + psum (amounts s period amount) + dust <= U128_MAX -> s_issuance s' = s_issuance s + psum (amounts s period amount) + dust).
Proof.
  unfold payout_collators. unfold mbind_ at 1, get_st at 1. unfold mbind_ at 1, ensure at 1. destruct (negb _) eqn:En; [|done]. apply negb_true_iff, bool_decide_eq_false in En.
  unfold mbind_ at 1. pose proof (pay_collators_side period amount (shares s period) s) as D. cbv zeta in D. destruct (pay_collators period amount (shares s period) s) as [s1 [u|e]] eqn:Ep; [|done]. cbn [fst] in D. destruct u. destruct (pay_collators_ok _ _ _ _ _ Ep) as (P1 & P2 & P3 & P4).
  assert (Em : map (fun x => CollatorPaid x.1 (perbill_mul x.2 amount) period) (shares s period) = map (fun x => CollatorPaid x.1 x.2 period) (amounts s period amount)) by (unfold amounts; by rewrite map_map). rewrite Em in P1. clear Em. fold (amounts s period amount) in P2, P3.
  destruct D as (_ & D2 & _). unfold growth_side in D2. injection D2 as D21 D22 D23 D24 D25 D26 D27 D28 D29.
  unfold mbind_, modify. cbv zeta. rewrite lsum_psum. set (s2 := s1 <| s_growth := _ |> <| s_processed := _ |>). destruct (N.eqb_spec (amount - psum (amounts s period amount)) 0) as [Ez|Ez].
  - intros [= <-]. split; [done|]. split; [cbn; by rewrite D24|]. split; [exact P1|]. exists 0. split; [intros a; change (free_of s2 a) with (free_of s1 a); rewrite P2; destruct (a =? _); lia|]. split; [lia|]. split; [lia|]. intros H. change (s_issuance s2) with (s_issuance s1). rewrite P3 by lia. lia.
  - destruct (deposit_existing (c_treasury c) (amount - psum (amounts s period amount)) s2) as [s3 [u|e]] eqn:Ed; intros [= <-].
    + pose proof (deposit_side (c_treasury c) (amount - psum (amounts s period amount)) s2) as F. rewrite Ed in F. cbn [fst] in F. cbv zeta in F. destruct F as (_ & F2 & F3 & _). unfold growth_side in F2. injection F2 as F21 F22 F23 F24 F25 F26 F27 F28 F29.
      destruct (deposit_ok _ _ _ _ (deposit_unit _ _ _ _ _ Ed)) as (D1 & D2 & D4). split; [done|]. split; [rewrite F24; cbn; by rewrite D24|]. split; [rewrite F3; exact P1|]. exists (amount - psum (amounts s period amount)).
      split; [intros a; rewrite D1; change (free_of s2 a) with (free_of s1 a); rewrite P2; lia|]. split; [lia|]. split; [done|]. intros H. change (s_issuance s2) with (s_issuance s1) in D2. rewrite P3 in D2 by lia. rewrite D2; lia.
    + split; [done|]. split; [cbn; by rewrite D24|]. split; [exact P1|]. exists 0. split; [intros a; change (free_of s2 a) with (free_of s1 a); rewrite P2; destruct (a =? _); lia|]. split; [lia|]. split; [|intros H; change (s_issuance s2) with (s_issuance s1); rewrite P3 by lia; lia].
      intros [w Hw] Hle. exfalso. revert Ed. unfold deposit_existing, mbind_, get_st, ensure, modify. destruct (N.eqb_spec (amount - psum (amounts s period amount)) 0); [done|].
      assert (Ht : is_Some (s_free s1 !! c_treasury c)). { apply elem_of_dom. rewrite P4. apply elem_of_dom. by eexists. } destruct Ht as [w' Hw']. change (s_free s2) with (s_free s1). rewrite Hw'. change (free_of s2) with (free_of s1). pose proof (P2 (c_treasury c)) as Pt. pose proof (nsum_filter_le (amounts s period amount) (c_treasury c)). destruct (N.leb_spec (free_of s1 (c_treasury c) + (amount - psum (amounts s period amount))) U128_MAX); [done|]. lia.
Qed.
Lemma amounts_sum s period amount h : GInv s h -> (forall g, s_growth s !! period = Some g -> g_points g <> 0 /\ g_points g < U32_MAX) -> 2 * psum (amounts s period amount) <= 2 * amount + N.of_nat (length (amounts s period amount)).
Proof.
  intros G Hg. unfold amounts, psum. rewrite map_map. cbn [snd]. rewrite map_length. rewrite <- (map_length snd (shares s period)). rewrite <- (map_map snd (fun r => perbill_mul r amount)). apply shares_sum. unfold shares. destruct (s_growth s !! period) as [g|] eqn:Eg.
  - destruct (Hg g eq_refl) as [H1 H2]. rewrite map_map. cbn [snd]. rewrite <- (map_map (fun k => mget 0 k (g_scores g)) (fun p => perbill_ratio p (g_points g))). apply ratios_sum; [done|]. rewrite keys_sum. by eapply (g_score _ _ G).
  - rewrite map_map. cbn [snd]. destruct (s_selected s) as [|k l] eqn:Es; [cbn; unfold BILLION; lia|]. rewrite <- Es. rewrite <- (map_map (fun _ => 1) (fun p => perbill_ratio p (N.of_nat (length (s_selected s))))). apply ratios_sum; [rewrite Es; cbn; lia|].
    clear. induction (s_selected s) as [|k l IH]; [done|]. cbn [map nsum foldr length]. unfold nsum in IH. lia.
Qed.
