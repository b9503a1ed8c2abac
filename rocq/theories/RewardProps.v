(** Staking rewards and collator growth: the theorems. *)
From Verif Require Import Base BaseLemmas RewardModel RewardProofs RewardProofs2 RewardProofs3.

(** ** Specification
    [share_of p q x a]: [a] is [p/q] of [x], give or take half a unit and three parts per billion of [x]. *)
Definition share_of (p q x a : N) : Prop :=
  BILLION * (2 * q * a) <= BILLION * (2 * p * x + q) + 6 * q * x /\ BILLION * (2 * p * x) <= BILLION * (2 * q * a + q) + 6 * q * x.
Definition from_pot (c : config) (payments : list (N * N)) (s s' : st) : Prop :=
  forall a, free_of s' a + (if a =? c_pot c then psum payments else 0) = free_of s a + paid_to payments a.
Lemma share_ok p q x : q <> 0 -> p <= q -> share_of p q x (perbill_mul (perbill_ratio p q) x).
Proof.
  intros Hq Hp. destruct (ratio_accurate p q Hq Hp) as [R1 R2]. destruct (mul_nearest (perbill_ratio p q) x) as [M1 M2]. set (r := perbill_ratio p q) in *. set (a := perbill_mul r x) in *. clearbody r a. unfold share_of.
  assert (A1 : x * (r * q) <= x * (BILLION * p + 2 * q)) by by apply N.mul_le_mono_l. assert (A2 : x * (BILLION * p) <= x * ((r + 3) * q)) by by apply N.mul_le_mono_l.
  assert (A3 : q * (2 * BILLION * a) <= q * (2 * (r * x) + BILLION)) by by apply N.mul_le_mono_l. assert (A4 : q * (2 * (r * x)) <= q * (2 * BILLION * a + BILLION)) by by apply N.mul_le_mono_l. unfold BILLION in *. lia.
Qed.

Lemma mul_full x : perbill_mul BILLION x = x.
Proof. pose proof (mul_nearest BILLION x) as [H1 H2]. unfold BILLION in *. lia. Qed.

(** A sample chain: payments two eras later, one era per growth period; collator 1 has bonded 60 with a nomination of 40
    by account 7, collator 2 has bonded 50; the pot is 100 with balance 1000, the treasury 101. *)
Definition sample_c : config := mkConfig 2 true 1 100 101 true.
Definition sample_x : gmap N snapshot * list N * N := ({[1 := mkSnap 60 [(7, 40)] 100; 2 := mkSnap 50 [] 50]}, [1; 2], 150).
Definition sample_g : st := genesis {[1 := 5; 2 := 5; 7 := 5; 100 := 1000; 101 := 1]} 1016 sample_x 1.
Definition sample_l : list op := [Author 1; NewBlock None 0; Author 1; NewBlock None 0; Author 2; NewBlock (Some sample_x) 0].
Definition sample_s : st := run sample_c sample_g sample_l.
Lemma sample_good : good_snaps sample_x.1.1.
Proof. intros k v H. unfold sample_x in H. cbn [fst] in H. apply lookup_insert_Some in H as [[_ <-]|[_ H]]; [by split|]. apply lookup_singleton_Some in H as [_ <-]. by split. Qed.

(** ** C48: rewards are paid out of the pot only, within what was set aside *)
Theorem C48_budget_covered c free issuance x tx l : 1 <= c_delay c ->
  let s := run c (genesis free issuance x tx) l in s_locked s <= free_of s (c_pot c) /\ forall y, NotEnoughFunds y ∉ s_events s.
Proof. intros Hd s. destruct (inv_run c _ l Hd (inv_genesis c free issuance x tx)). done. Qed.
(** At the start of an era, the era paid next is allotted everything in the pot that is not yet set aside. *)
Theorem C48_era_budget c free issuance x tx l y order : 1 <= c_delay c -> c_enabled c = true ->
  let s := run c (genesis free issuance x tx) l in let e := s_era s + 1 - c_delay c in let s' := step c s (NewBlock (Some y) order) in
  c_delay c < s_era s + 1 -> s_era s < U32_MAX -> free_of s (c_pot c) <= U128_MAX -> points_of s e <> 0 -> awarded_in s e <> ∅ ->
  s_delayed s' !! e = Some (free_of s (c_pot c) - s_locked s) /\ s_locked s' = free_of s (c_pot c) - psum (rewards (news s s')).
Proof.
  intros Hd Hen s e s' Hlt Hmax Hpot Hp Ha. assert (I : Inv c s) by (apply inv_run; [done|apply inv_genesis]). pose proof (opened_events c (Some y) s ltac:(by destruct I)) as Hev.
  pose proof (block_cases c s (Some y) order Hd I Hen) as B. cbv zeta in B. fold s' in B. unfold opened in *. destruct (start_ok c y s) as (s1 & E & _ & A2 & A3 & A4 & _ & A6 & _ & A). rewrite E in *. cbn [fst] in *.
  assert (Epe : paid_era c s1 = e) by (unfold paid_era; rewrite A2; unfold sat32, saturating_add; unfold e; lia). rewrite Epe in *. destruct A as [(_ & _ & _ & [A|[A|A]])|(_ & _ & _ & r & Ar & A)]; [congruence|rewrite A2 in A; unfold sat32, saturating_add in A; lia|done|].
  destruct (A ltac:(by destruct I)) as (_ & A7 & _). destruct (A7 Hpot) as [A8 A9]. assert (Hd1 : s_delayed s1 !! e = Some r) by (rewrite Ar; apply lookup_insert).
  destruct B as [[B [B1|B1]]|(_ & r' & B2 & [(k & evs & B3 & _ & B4 & B5 & _)|([Bz|Bz] & _)])]; [rewrite A2 in B1; unfold sat32, saturating_add in B1; lia|congruence| |done|done].
  pose proof (pays_books _ _ _ _ B4) as (_ & C2 & _ & _ & _ & C6). destruct B4 as (_ & _ & _ & B4 & _). unfold taken in *. cbn in C2, C6, B4. rewrite C2, Hd1, A8. split; [done|]. rewrite Hev in C6. rewrite (news_app _ _ _ C6), B4, A9. done.
Qed.
(** Blocks move money from the pot to those they report as rewarded, and nothing else; no block creates money. *)
Theorem C48_only_from_pot c free issuance x tx l o : 1 <= c_delay c -> (forall a p, o <> GrowthLifted a p) -> (forall f i b t, o <> Elsewhere f i b t) ->
  let s := run c (genesis free issuance x tx) l in let s' := step c s o in from_pot c (rewards (news s s')) s s' /\ s_issuance s' = s_issuance s.
Proof.
  intros Hd N1 N2 s s'. assert (I : Inv c s) by (apply inv_run; [done|apply inv_genesis]). destruct o as [start order|who|a p|t b|f i b t]; [| |by destruct (N1 a p)| |by destruct (N2 f i b t)].
  - destruct (opened_awarded c start s) as (_ & _ & O3 & O4 & _). pose proof (opened_events c start s ltac:(by destruct I)) as Hev.
    assert (Hsame : forall t, s_free t = s_free s -> s_issuance t = s_issuance s -> s_events t = s_events s -> from_pot c (rewards (news s t)) s t /\ s_issuance t = s_issuance s).
    { intros t T1 T2 T3. split; [|done]. rewrite (news_same _ _ T3). intros a. unfold free_of. rewrite T1. cbn. destruct (a =? _); done. }
    destruct (c_enabled c) eqn:He; [|unfold s'; rewrite disabled_step by done; by apply Hsame].
    destruct (block_cases c s start order Hd I He) as [[E _]|(_ & r & _ & [(k & evs & _ & _ & P & _)|(_ & E)])]; [unfold s'; rewrite E; by apply Hsame| |unfold s'; rewrite E; by apply Hsame].
    fold s' in P. pose proof (pays_books _ _ _ _ P) as (_ & _ & _ & _ & _ & C6). unfold taken in C6. cbn in C6. rewrite Hev in C6. rewrite (news_app _ _ _ C6). destruct P as (P1 & _ & _ & _ & P5).
    assert (R : reward_side (rest s') = reward_side (rest (taken (opened c start s) (paid_era c (opened c start s)) k))) by by rewrite P1. unfold reward_side in R. cbn in R. injection R as R1 R2 R3 R4 R5 R6 R7 R8.
    split; [|by rewrite R7]. intros a. rewrite P5. unfold free_of, taken. cbn. by rewrite O3.
  - unfold s', step. cbn [body]. unfold note_author, modify. cbn [fst]. split; [|done]. rewrite (news_same s) by done. intros a. cbn. destruct (a =? _); done.
  - unfold s', step. cbn [body]. unfold process_result, modify. cbn [fst]. destruct (s_published s !! t); (split; [|done]); rewrite (news_same s) by done; intros a; cbn; destruct (a =? _); done.
Qed.
Example C48_case : let s := sample_s in let s' := step sample_c s (NewBlock (Some sample_x) 0) in
  c_delay sample_c < s_era s + 1 /\ points_of s 1 = 60 /\ awarded_in s 1 <> ∅ /\ s_delayed s' !! 1 = Some 1000 /\ s_locked s' = 333 /\ news s s' = [Rewarded 7 267; Rewarded 1 400] /\ free_of s' 100 = 333 /\ free_of s' 7 = 272.
Proof. split_and!; try (vm_compute; done). Qed.

(** ** C49: what a collator and its nominators get *)

(** A collator's points of an era are used up only by the block that pays that era's collator, which then attempts to pay
    the collator and its nominators their shares of the collator's share of the era's allotment. *)
Theorem C49_settlement c free issuance x tx l o e k : 1 <= c_delay c -> good_snaps x.1.1 -> Forall good_op l ->
  let s := run c (genesis free issuance x tx) l in let s' := step c s o in
  is_Some (awarded_in s e !! k) -> awarded_in s' e !! k = None -> points_of s e < U32_MAX ->
  let v := snap_of s e k in
  c_enabled c = true /\ (exists start order, o = NewBlock start order) /\ e + c_delay c = s_era s' /\
  (forall k', k' <> k -> awarded_in s' e !! k' = awarded_in s e !! k') /\
  exists reward due own noms, s_delayed s' !! e = Some reward /\ share_of (mget 0 k (awarded_in s e)) (points_of s e) reward due /\
    (if sn_total v =? 0 then own = due /\ noms = []
     else share_of (sn_bond v) (sn_total v) due own /\ Forall2 (fun n y => y.1 = n.1 /\ share_of n.2 (sn_total v) due y.2) (sn_noms v) noms) /\
    attempts (news s s') = rev ((k, own) :: filter (fun y => y.2 <> 0) noms).
Proof.
  intros Hd Hgx Hgl s s' Hk Hk' Hmax v. assert (I : Inv c s) by (apply inv_run; [done|apply inv_genesis]). assert (Hg : good_snap v).
  { apply snap_good. apply good_run; [done|apply inv_genesis|done|]. intros e'. unfold genesis, mget. cbn. destruct (decide (e' = 1)) as [->|]; [by rewrite lookup_singleton|rewrite lookup_singleton_ne by done]. intros k0 v0. by rewrite lookup_empty. }
  destruct (settle_cases c s o e k Hd I Hk Hk') as (A1 & A2 & A3 & A4 & r & evs & A5 & A6 & A7 & A8). split; [done|]. split; [done|]. split; [done|]. split; [done|].
  fold s' in A5, A6, A7. unfold dues in A8. cbv zeta in A8. fold v in A8. assert (Hpts : mget 0 k (awarded_in s e) <= points_of s e). { pose proof (r_points c s I e Hmax) as M. destruct Hk as [p Hk]. rewrite (msum_delete _ _ _ Hk) in M. unfold mget. rewrite Hk. lia. }
  exists r, (due s e r k), (perbill_mul (perbill_ratio (sn_bond v) (sn_total v)) (due s e r k)), (map (fun n => (n.1, perbill_mul (perbill_ratio n.2 (sn_total v)) (due s e r k))) (sn_noms v)). split; [done|]. split; [by apply share_ok|]. split; [|by rewrite (news_app _ _ _ A7)].
  destruct Hg as [G1 G2]. destruct (N.eqb_spec (sn_total v) 0) as [Ez|Ez].
  - rewrite (G2 Ez). split; [|done]. rewrite Ez. unfold perbill_ratio. cbn [N.eqb orb]. apply mul_full.
  - split; [apply share_ok; [done|lia]|]. clear A8. assert (G3 : nsum (map snd (sn_noms v)) <= sn_total v) by lia. clear -Ez G3. induction (sn_noms v) as [|n r' IH]; [constructor|]. cbn [map nsum foldr] in *. unfold nsum in *. constructor; [|apply IH; lia]. split; [done|]. cbn [snd]. apply share_ok; [done|lia].
Qed.
(** A collator is settled at most once for an era: points of past eras never come back. *)
Theorem C49_once c free issuance x tx l more e k : 1 <= c_delay c ->
  let s := run c (genesis free issuance x tx) l in e < s_era s -> awarded_in s e !! k = None -> awarded_in (run c s more) e !! k = None.
Proof.
  intros Hd s He Hk. assert (I : Inv c s) by (apply inv_run; [done|apply inv_genesis]). pose proof (past_run c s more e Hd I He) as P. destruct (awarded_in (run c s more) e !! k) eqn:E; [|done]. eapply lookup_weaken in E; [|exact P]. congruence.
Qed.
(** Points are earned by authoring blocks only, twenty for each block, in the current era. *)
Theorem C49_points c free issuance x tx l o e k : 1 <= c_delay c -> let s := run c (genesis free issuance x tx) l in let s' := step c s o in
  awarded_in s' e !! k = awarded_in s e !! k \/ (awarded_in s' e !! k = None /\ e < s_era s') \/
  (o = Author k /\ e = s_era s /\ awarded_in s' e !! k = Some (N.min U32_MAX (mget 0 k (awarded_in s e) + 20)) /\ points_of s' e = N.min U32_MAX (points_of s e + 20)).
Proof.
  intros Hd s s'. assert (I : Inv c s) by (apply inv_run; [done|apply inv_genesis]). destruct (awarded_in s' e !! k) as [p|] eqn:E.
  - assert (Hcase : (exists who, o = Author who) \/ awarded_in s' e !! k = awarded_in s e !! k).
    { destruct (decide (awarded_in s' e !! k = awarded_in s e !! k)) as [|Hne]; [by right|]. left. destruct o as [start order|who|a q|t b|f i b t]; [| by eexists| | |]; exfalso; apply Hne.
      - destruct (opened_awarded c start s) as (O1 & _). destruct (c_enabled c) eqn:He; [|unfold s'; rewrite disabled_step by done; unfold awarded_in; by rewrite O1].
        destruct (block_cases c s start order Hd I He) as [[E1 _]|(_ & r & _ & [(k0 & evs & _ & _ & P & _)|(_ & E1)])]; [unfold s'; rewrite E1; unfold awarded_in; by rewrite O1| |unfold s'; rewrite E1; unfold awarded_in; cbn; by rewrite O1].
        fold s' in P. apply pays_books in P as (_ & _ & _ & P & _). unfold awarded_in in *. rewrite P in E |- *. unfold taken in *. cbn in *. rewrite mget_insert in E |- *. case_bool_decide; [|by rewrite O1]. subst e. unfold awarded_in in *. rewrite O1 in *. apply lookup_delete_Some in E as [Ek E]. rewrite lookup_delete_ne by done. done.
      - unfold s', step. cbn [body]. pose proof (payout_side c a q s) as P. cbv zeta in P. destruct P as (P & _). unfold book_side in P. injection P as P1 P2 P3 P4 P5 P6. unfold awarded_in. by rewrite P3.
      - unfold s', step. cbn [body]. unfold process_result, modify. cbn [fst]. by destruct (s_published s !! t).
      - unfold s', step. cbn [body]. unfold modify. cbn [fst]. by destruct (_ && _). }
    destruct Hcase as [(who & ->)|Hc]; [|left; by rewrite <- E]. unfold s', step in *. cbn [body] in *. unfold note_author, modify in *. cbn [fst] in *. unfold awarded_in, points_of in *. cbn in *. rewrite mget_insert in E. rewrite mget_insert. case_bool_decide as Ee; [|left; by rewrite <- E].
    subst e. destruct (decide (who = k)) as [->|Hne]; [|rewrite lookup_insert_ne in E by done; left; by rewrite <- E]. right. right. rewrite lookup_insert in E. injection E as <-. done.
  - destruct (awarded_in s e !! k) eqn:E2; [|by left]. right. left. split; [done|]. destruct (settle_cases c s o e k Hd I ltac:(by eexists) E) as (_ & _ & A & _). fold s' in A. lia.
Qed.
(** All payments attempted for an era, over any later history, stay within the allotment up to rounding: at most one unit
    for each collator and half a unit for each nominator. *)
Theorem C49_era_total c free issuance x tx l y order more e : 1 <= c_delay c -> c_enabled c = true -> good_snaps x.1.1 -> Forall good_op l ->
  let s := run c (genesis free issuance x tx) l in
  e + c_delay c = s_era s + 1 -> 1 <= e -> points_of s e <> 0 -> points_of s e < U32_MAX -> free_of s (c_pot c) <= U128_MAX -> s_era (run c s (NewBlock (Some y) order :: more)) < U32_MAX ->
  2 * spent c e s (NewBlock (Some y) order :: more) <= 2 * (free_of s (c_pot c) - s_locked s) + recipients s e.
Proof.
  intros Hd Hen Hgx Hgl s He He1 Hp Hmax Hpot Hera. assert (I : Inv c s) by (apply inv_run; [done|apply inv_genesis]).
  assert (Hg : forall e', good_snaps (mget ∅ e' (s_snaps s))). { apply good_run; [done|apply inv_genesis|done|]. intros e'. unfold genesis, mget. cbn. destruct (decide (e' = 1)) as [->|]; [by rewrite lookup_singleton|rewrite lookup_singleton_ne by done]. intros k0 v0. by rewrite lookup_empty. }
  pose proof (spent_era c s y order e more Hd Hen I He He1 Hp Hpot Hera) as S. pose proof (outstanding_bound s e (free_of s (c_pot c) - s_locked s) Hg (r_points c s I e Hmax) Hp). lia.
Qed.
(** Every attempted payment is made unless the pot or the range of balances does not suffice. *)
Theorem C49_all_paid c free issuance x tx l start order : 1 <= c_delay c ->
  let s := run c (genesis free issuance x tx) l in let s' := step c s (NewBlock start order) in
  psum (attempts (news s s')) <= free_of s (c_pot c) -> (forall a, free_of s a + psum (attempts (news s s')) <= U128_MAX) -> rewards (news s s') = attempts (news s s').
Proof.
  intros Hd s s'. assert (I : Inv c s) by (apply inv_run; [done|apply inv_genesis]). pose proof (opened_events c start s ltac:(by destruct I)) as Hev.
  destruct (c_enabled c) eqn:He; [|unfold s'; rewrite disabled_step by done; by rewrite (news_same _ _ Hev)].
  destruct (block_cases c s start order Hd I He) as [[E _]|(_ & r & _ & [(k & evs & _ & _ & P & A & R)|(_ & E)])]; [unfold s'; rewrite E; by rewrite (news_same _ _ Hev)| |unfold s'; rewrite E; by rewrite (news_same s) by exact Hev].
  fold s' in P. apply pays_books in P as (_ & _ & _ & _ & _ & C6). unfold taken in C6. cbn in C6. rewrite Hev in C6. rewrite (news_app _ _ _ C6), A, psum_rev, <- A. exact R.
Qed.
(** Once an era is being paid, as many blocks as there are collators with points settle them all, in whatever order and
    whatever else happens in between. *)
Theorem C49_all_settled c free issuance x tx l more e r : 1 <= c_delay c -> c_enabled c = true ->
  let s := run c (genesis free issuance x tx) l in
  e + c_delay c = s_era s -> s_delayed s !! e = Some r -> points_of s e <> 0 -> Forall quiet more -> (size (awarded_in s e) <= blocks more)%nat -> awarded_in (run c s more) e = ∅.
Proof. intros Hd Hen s. intros. eapply quiet_progress; try done. apply inv_run; [done|apply inv_genesis]. Qed.
Example C49_case : let s := sample_s in let s' := step sample_c s (NewBlock (Some sample_x) 0) in let s'' := step sample_c s' (NewBlock None 0) in
  awarded_in s 1 !! 1 = Some 40 /\ awarded_in s' 1 !! 1 = None /\ awarded_in s' 1 !! 2 = Some 20 /\ points_of s 1 = 60 /\ s_delayed s' !! 1 = Some 1000 /\ 1 + c_delay sample_c = s_era s' /\
  attempts (news s s') = [(7, 267); (1, 400)] /\ attempts (news s' s'') = [(2, 333)] /\ spent sample_c 1 s [NewBlock (Some sample_x) 0; NewBlock None 0] = 1000 /\ size (awarded_in s'' 1) = 0%nat /\ Forall good_op sample_l.
Proof. split_and!; try (vm_compute; done). unfold sample_l. repeat (apply Forall_cons; split; [first [exact sample_good|exact Logic.I]|]). by constructor. Qed.

(** ** C50: growth reported to Ethereum *)

(** Each period is reported to Ethereum at most once, after it ended, with the sum of what its eras were allotted and the
    average of their stakes, rounded down. *)
Theorem C50_reported c free issuance x tx l : 1 <= c_delay c -> x.2 <= U128_MAX -> Forall good_stake l ->
  let g := genesis free issuance x tx in let s := run c g l in let h := ledger c g l in s_era s < U32_MAX ->
  NoDup (map snd (s_calls s)) /\
  forall t r a p, (t, r, a, p) ∈ s_calls s ->
    p < s_index s /\ r = N.min U128_MAX (reward_sum p h) /\ r <> 0 /\ a = N.min U128_MAX (stake_sum p h) / N.min U32_MAX (era_count p h).
Proof.
  intros Hd Hx Hl g s h Hmax. assert (G : GInv s h).
  { unfold h. rewrite <- (app_nil_l (ledger c g l)). apply ginv_run; try done; [apply inv_genesis| |apply ginv_genesis]. intros e. unfold g, genesis, mget. cbn. destruct (decide (e = 1)) as [->|]; [by rewrite lookup_singleton|rewrite lookup_singleton_ne by done; unfold U128_MAX; lia]. }
  split; [apply (g_nodup _ _ G)|]. intros t r a p Hc. destruct (g_calls _ _ G t r a p Hc) as (A & _ & B & C & D). done.
Qed.
(** ** C51: paying growth *)

(** A payout that succeeds marks its period; a marked period stays marked and is never paid again. *)
Theorem C51_paid_once c s amount period : let r := body c (GrowthLifted amount period) s in
  (snd r = Ok tt -> period ∉ s_processed s /\ period ∈ s_processed (fst r)) /\ (period ∈ s_processed s -> fst r = s /\ snd r <> Ok tt).
Proof.
  cbn [body]. split.
  - destruct (payout_collators c amount period s) as [s' r] eqn:E. cbn [fst snd]. intros ->. destruct (payout_ok _ _ _ _ _ E) as (A & B & _). split; [done|]. rewrite B. set_solver.
  - intros H. unfold payout_collators. unfold mbind_, get_st, ensure. rewrite bool_decide_true by done. done.
Qed.
Theorem C51_marked_stays c s l : s_processed s ⊆ s_processed (run c s l).
Proof.
  revert s. induction l as [|o l IH]; intros s; [done|]. rewrite run_cons. etransitivity; [|apply IH]. clear IH l. destruct o as [start order|who|amount period|tx ok|free i ok tx].
  - assert (E : s_processed (step c s (NewBlock start order)) = s_processed (opened c start s)).
    { destruct (c_enabled c) eqn:He; [|by rewrite disabled_step]. rewrite block_step by done. pose proof (handle_growth c order (opened c start s)) as H. unfold growth_side in H. by injection H. }
    rewrite E. unfold opened. destruct start as [x|]; [|done]. destruct (start_ok c x s) as (s1 & -> & A & _). cbn [fst]. by rewrite A.
  - done.
  - unfold step. cbn [body]. destruct (payout_collators c amount period s) as [s' r] eqn:E. cbn [fst]. destruct r as [u|e].
    + destruct u. destruct (payout_ok _ _ _ _ _ E) as (_ & B & _). rewrite B. set_solver.
    + revert E. unfold payout_collators. unfold mbind_ at 1, get_st at 1. unfold mbind_ at 1, ensure at 1. destruct (negb _); [|by intros [= <- _]].
      unfold mbind_ at 1. pose proof (pay_collators_side period amount (shares s period) s) as D. cbv zeta in D. destruct (pay_collators period amount (shares s period) s) as [s1 [u|e']]; cbn [fst] in D; destruct D as (_ & D2 & _).
      * unfold mbind_, modify. cbv zeta. destruct (_ =? 0); [by intros [= _ ?]|]. destruct (deposit_existing _ _ _) as [s3 [?|?]]; by intros [= _ ?].
      * intros [= <- _]. unfold growth_side in D2. injection D2 as D21 D22 D23 D24. by rewrite D24.
  - unfold step. cbn [body]. unfold process_result, modify. cbn [fst]. by destruct (s_published s !! tx).
  - unfold step. cbn [body]. unfold modify. cbn [fst]. by destruct (_ && _).
Qed.
(** What a successful payout does to balances: every collator of the period is credited its share, as its events say, and
    the remainder goes to the treasury; nothing else changes. *)
Theorem C51_payout c s amount period : let s' := step c s (GrowthLifted amount period) in snd (body c (GrowthLifted amount period) s) = Ok tt ->
  exists l dust, (forall a, free_of s' a = free_of s a + paid_to l a + (if a =? c_treasury c then dust else 0)) /\
    news s s' = rev (map (fun y => CollatorPaid y.1 y.2 period) l) /\
    match s_growth s !! period with
    | Some g => map fst l = keys (g_scores g) /\ (forall k a, (k, a) ∈ l -> mget 0 k (g_scores g) <= g_points g -> g_points g <> 0 -> share_of (mget 0 k (g_scores g)) (g_points g) amount a)
    | None => map fst l = s_selected s /\ forall k a, (k, a) ∈ l -> share_of 1 (N.of_nat (length (s_selected s))) amount a
    end /\
    dust <= amount - psum l /\ (is_Some (s_free s !! c_treasury c) -> free_of s (c_treasury c) + amount + psum l <= U128_MAX -> dust = amount - psum l) /\
    (s_issuance s + psum l + dust <= U128_MAX -> s_issuance s' = s_issuance s + psum l + dust).
Proof.
  intros s' Hok. unfold s', step. cbn [body] in *. destruct (payout_collators c amount period s) as [s1 r] eqn:E. cbn [fst snd] in *. subst r. destruct (payout_ok _ _ _ _ _ E) as (_ & _ & A & dust & B1 & B2 & B3 & B4).
  exists (amounts s period amount), dust. split; [done|]. split; [by apply news_app|]. split; [|done]. unfold amounts, shares. destruct (s_growth s !! period) as [g|]; rewrite !map_map; cbn [fst snd].
  - split; [apply map_id|]. intros k a Hin Hle Hp. apply elem_of_list_fmap in Hin as (k' & [= <- ->] & _). by apply share_ok.
  - split; [apply map_id|]. intros k a Hin. apply elem_of_list_fmap in Hin as (k' & [= <- ->] & Hin). apply elem_of_list_In in Hin. apply share_ok; destruct (s_selected s); cbn [length] in *; try done; lia.
Qed.
(** The collators' part of a payout is the amount up to half a unit each. *)
Theorem C51_payout_total c free issuance x tx l amount period : 1 <= c_delay c -> x.2 <= U128_MAX -> Forall good_stake l ->
  let s := run c (genesis free issuance x tx) l in s_era s < U32_MAX -> (forall g, s_growth s !! period = Some g -> g_points g <> 0 /\ g_points g < U32_MAX) ->
  2 * psum (amounts s period amount) <= 2 * amount + N.of_nat (length (amounts s period amount)).
Proof.
  intros Hd Hx Hl s Hmax Hg. apply (amounts_sum s period amount ([] ++ ledger c (genesis free issuance x tx) l)); [|done]. apply ginv_run; try done; [apply inv_genesis| |apply ginv_genesis].
  intros e. unfold genesis, mget. cbn. destruct (decide (e = 1)) as [->|]; [by rewrite lookup_singleton|rewrite lookup_singleton_ne by done; unfold U128_MAX; lia].
Qed.
(** It can exceed the amount: three collators share 2 units and get 1 each. *)
Theorem C51_exact_refuted : exists c s amount period, snd (body c (GrowthLifted amount period) s) = Ok tt /\ s_issuance (step c s (GrowthLifted amount period)) = s_issuance s + amount + 1.
Proof.
  exists sample_c, (genesis {[1 := 5; 2 := 5; 3 := 5; 101 := 1]} 16 (∅, [1; 2; 3], 0) 1), 2, 1. by vm_compute.
Qed.
(** A payout that fails half way, here because account 2 does not exist, keeps what it paid and can be repeated. *)
Theorem C51_no_partial_payment_refuted : exists c s amount period, let s1 := step c s (GrowthLifted amount period) in let s2 := step c s1 (GrowthLifted amount period) in
  snd (body c (GrowthLifted amount period) s) <> Ok tt /\ free_of s1 1 = free_of s 1 + amount / 2 /\ free_of s2 1 = free_of s 1 + amount.
Proof.
  exists sample_c, (genesis {[1 := 5; 101 := 1]} 6 (∅, [1; 2], 0) 1), 10, 1. by vm_compute.
Qed.
Example C50_C51_case : let l := sample_l ++ [NewBlock (Some sample_x) 0; Author 2; NewBlock (Some sample_x) 0; NewBlock (Some sample_x) 0; NewBlock (Some sample_x) 0] in let s := run sample_c sample_g l in
  s_calls s = [(1, 1000, 150, 1)] /\ s_index s = 2 /\ reward_sum 1 (ledger sample_c sample_g l) = 1000 /\ Forall good_stake l /\
  snd (body sample_c (GrowthLifted 90 1) s) = Ok tt /\ news s (step sample_c s (GrowthLifted 90 1)) = [CollatorPaid 2 30 1; CollatorPaid 1 60 1].
Proof.
  split; [vm_compute; done|]. split; [vm_compute; done|]. split; [vm_compute; done|]. split; [|split; vm_compute; done].
  unfold sample_l. cbn [app]. repeat (apply Forall_cons; split; [first [exact Logic.I|change (150 <= U128_MAX); by vm_compute]|]). by constructor.
Qed.
