(** Conservation and replay protection for the token manager. *)
From Verif Require Import Base BaseLemmas CodecModel CodecProofs SigModel TokenModel TokenSpec TokenProofs.

Lemma run_ind c cr (P : st -> Prop) s ops :
  P s -> (forall s o, P s -> In o ops -> P (step c cr s o)) -> P (run c cr s ops).
Proof.
  revert s. induction ops as [|o ops IH]; intros s H0 Hs; [exact H0|]. cbn. apply IH.
  - apply Hs; [exact H0|now left].
  - intros s' o' HP Hin. apply Hs; [exact HP|now right].
Qed.
Lemma run_app c cr s a b : run c cr s (a ++ b) = run c cr (run c cr s a) b.
Proof. unfold run. apply fold_left_app. Qed.

(** ** Sums *)
Lemma sum_over_app f a b : sum_over f (a ++ b) = sum_over f a + sum_over f b.
Proof. unfold sum_over. induction a as [|e a IH]; cbn; [lia|]. rewrite IH. lia. Qed.
Lemma sum_over_cons f e l : sum_over f (e :: l) = f e + sum_over f l.
Proof. reflexivity. Qed.
Lemma sum_over_zero f l : (forall e, In e l -> f e = 0) -> sum_over f l = 0.
Proof. induction l as [|e l IH]; intros H; [reflexivity|]. rewrite sum_over_cons, IH, H; [reflexivity|now left|intros; apply H; now right]. Qed.

Lemma total_insert t k v m :
  msum (fun k v => if fst k =? t then v else 0) (<[k := v]> m) + (if fst k =? t then mget 0 k m else 0) =
  msum (fun (k : N * N) (v : N) => if fst k =? t then v else 0) m + (if fst k =? t then v else 0).
Proof.
  pose proof (msum_insert (fun (k : N * N) (v : N) => if fst k =? t then v else 0) m k v) as H.
  rewrite <- H. f_equal. unfold mget. destruct (m !! k); cbn; destruct (fst k =? t); reflexivity.
Qed.
Lemma free_insert k v (m : gmap N N) : msum (fun _ v => v) (<[k := v]> m) + mget 0 k m = msum (fun _ v => v) m + v.
Proof.
  pose proof (msum_insert (fun (_ : N) (v : N) => v) m k v) as H. rewrite <- H. f_equal. unfold mget. destruct (m !! k); reflexivity.
Qed.
Lemma free_le k (m : gmap N N) : mget 0 k m <= msum (fun _ v => v) m.
Proof. unfold mget. destruct (m !! k) eqn:E; [|lia]. apply (msum_lookup_le (fun (_ : N) (v : N) => v) _ _ _ E). Qed.

(** ** Token balances *)
Definition Bal (s s' : st) : Prop := exists new, s_events s' = new ++ s_events s /\
  (forall t, token_total t s' + sum_over (token_debit t) new = token_total t s + sum_over (token_credit t) new) /\
  ((forall k, mget 0 k (s_bal s) <= U128_MAX) -> forall k, mget 0 k (s_bal s') <= U128_MAX).

Lemma bal_refl s s' : s_bal s' = s_bal s -> (exists new, s_events s' = new ++ s_events s /\
  forall t e, In e new -> token_debit t e = 0 /\ token_credit t e = 0) -> Bal s s'.
Proof.
  intros Hb (new & He & Hz). exists new. split; [exact He|]. split.
  - intros t. unfold token_total. rewrite Hb. rewrite !sum_over_zero; [lia| |]; intros e Hin; apply (Hz t e Hin).
  - now rewrite Hb.
Qed.
Lemma bal_trans s s1 s2 : Bal s s1 -> Bal s1 s2 -> Bal s s2.
Proof.
  intros (n1 & E1 & T1 & U1) (n2 & E2 & T2 & U2). exists (n2 ++ n1). split; [rewrite E2, E1; now rewrite app_assoc|]. split.
  - intros t. rewrite !sum_over_app. specialize (T1 t). specialize (T2 t). lia.
  - auto.
Qed.

Lemma mget_insert (k k' : N * N) (v : N) (m : gmap (N * N) N) : mget 0 k' (<[k := v]> m) = if decide (k = k') then v else mget 0 k' m.
Proof. unfold mget. destruct (decide (k = k')) as [->|]; [now rewrite lookup_insert|now rewrite lookup_insert_ne]. Qed.

Lemma xfer_bal token from to amount s s1 : xfer token from to amount s s1 -> Bal s s1.
Proof.
  intros [Ht Hc|Ht Hz Hne Hle Hb|Ht Hle Hne Hb|Ht Hle Heq].
  - apply bal_refl; [reflexivity|]. exists []. split; [reflexivity|intros ? ? []].
  - apply bal_refl; [reflexivity|]. exists []. split; [reflexivity|intros ? ? []].
  - exists [TokenTransferred token from to amount]. split; [reflexivity|]. split.
    + intros t. unfold token_total. cbn.
      pose proof (total_insert t (token, to) (bal_of s token to + amount) (<[(token, from) := bal_of s token from - amount]> (s_bal s))) as H1.
      pose proof (total_insert t (token, from) (bal_of s token from - amount) (s_bal s)) as H2. cbn [fst] in *.
      rewrite mget_insert in H1. rewrite decide_False in H1 by (intros [= ?]; auto). unfold bal_of in *.
      destruct (token =? t); lia.
    + intros HU k. cbn. rewrite !mget_insert. repeat destruct (decide _); [exact Hb| |apply HU].
      specialize (HU (token, from)). unfold bal_of. lia.
  - exists [TokenTransferred token from to amount]. split; [reflexivity|]. split.
    + intros t. unfold token_total. cbn. subst to.
      pose proof (total_insert t (token, from) (bal_of s token from) (s_bal s)) as H2. cbn [fst] in *.
      unfold bal_of in *. destruct (token =? t); lia.
    + intros HU k. cbn. rewrite !mget_insert. repeat destruct (decide _); [|apply HU]. apply HU.
Qed.
Lemma debit_bal token from to amount t1 id s s1 : debit token from to amount t1 id s s1 -> Bal s s1.
Proof.
  intros [Ht Hz Hle|Ht Hle].
  - apply bal_refl; [reflexivity|]. eexists [_]. split; [reflexivity|intros ? ? [<-|[]]; auto].
  - eexists [_]. split; [reflexivity|]. split.
    + intros t. unfold token_total. cbn.
      pose proof (total_insert t (token, from) (bal_of s token from - amount) (s_bal s)) as H2. cbn [fst] in *.
      unfold bal_of in *. destruct (token =? t); lia.
    + intros HU k. cbn. rewrite !mget_insert. repeat destruct (decide _); [|apply HU].
      specialize (HU (token, from)). unfold bal_of. lia.
Qed.
(** A credit announced by matching events. *)
Lemma credit_bal token who amount ea et s s1 : credit token who amount ea et s s1 ->
  (forall t, token_credit t ea = 0 /\ token_debit t ea = 0) ->
  (forall t, token_credit t et = (if token =? t then amount else 0) /\ token_debit t et = 0) -> Bal s s1.
Proof.
  intros [Ht Hz Hle|Ht Hz Hle] Ha He.
  - apply bal_refl; [reflexivity|]. eexists [_]. split; [reflexivity|]. intros t ? [<-|[]]. destruct (Ha t); auto.
  - eexists [_]. split; [reflexivity|]. split.
    + intros t. unfold token_total. cbn [s_bal add_event]. rewrite !sum_over_cons. destruct (He t) as [-> ->]. cbn.
      pose proof (total_insert t (token, who) (bal_of s token who + amount) (s_bal s)) as H2. cbn [fst] in *.
      unfold bal_of in *. destruct (token =? t); lia.
    + intros HU k. cbn. rewrite !mget_insert. repeat destruct (decide _); [|apply HU]. exact Hle.
Qed.
Lemma payouts_bal s s' : payouts s s' -> Bal s s'.
Proof.
  induction 1 as [s|s a n s' Hz Hb Hp IH].
  - apply bal_refl; [reflexivity|]. exists []. split; [reflexivity|intros ? ? []].
  - refine (bal_trans _ _ _ _ IH). apply bal_refl; [reflexivity|]. eexists [_]. split; [reflexivity|intros ? ? [<-|[]]; auto].
Qed.
Lemma bal_events s s1 s2 (l : list event) : Bal s s1 -> s_bal s2 = s_bal s1 -> s_events s2 = l ++ s_events s1 ->
  (forall t e, In e l -> token_debit t e = 0 /\ token_credit t e = 0) -> Bal s s2.
Proof. intros H Hb He Hz. apply (bal_trans _ _ _ H). apply bal_refl; [exact Hb|]. exists l. auto. Qed.

Lemma proxy_event_zero o e : In e (proxy_event o) -> exists r, e = CallDispatched r.
Proof. destruct o; cbn; intros []; [subst; eauto|contradiction]. Qed.

Lemma same_core_bal s s' : same_core s s' -> Bal s s'.
Proof.
  intros H. apply bal_refl; [apply (SC_bal _ _ H)|]. destruct (SC_events _ _ H) as (new & He & Hn). exists new. split; [exact He|].
  intros t e Hin. apply Hn in Hin.
  destruct Hin as [->|[->|[(?&->)|[(?&?&->)|[(?&?&->)|[->|(?&->)]]]]]]; auto.
Qed.

Ltac nobal := apply bal_refl; [reflexivity|]; first
  [exists []; split; [reflexivity|intros ? ? []] | eexists [_]; split; [reflexivity|intros ? ? [<-|[]]; auto]].

Lemma effect_bal c cr s o s' : effect c cr s o s' -> Bal s s'.
Proof.
  intros [o'|o' s2 Hn Hsc|o' origin p from to token amount s1 Hs Ho Hv Hx|o' origin p from token amount t1 Hs Ho Hz Hv Ha
    |from token amount t1 Hz Ha|o' token from to amount s1 Hc Hx|id t s1 Ha Hw Hd Hdeb|id t Ha Hw|id t Ha|id t w Ha
    |from to token amount t1 id s1 Hd Hdeb|who id params d Hr|who id params Hr Hf|id params d Hp Hl|id params Hp|id params d Hp Hl
    |e token who amount s1 Hk Hc|e amount period s1 s2 fl Hk Hz Hc Hp Hfl|e id x Hk Hr|e token who amount id t1 x s1 Hk Hr Hc
    |e token who amount id t1 x Hk Hr Hc|token who amount Hb].
  - nobal.
  - now apply same_core_bal.
  - apply xfer_bal in Hx. apply (bal_events _ _ _ (proxy_event o') Hx); [reflexivity|reflexivity|].
    intros t e Hin. apply proxy_event_zero in Hin as [r ->]. auto.
  - apply bal_refl; [reflexivity|]. exists (proxy_event o' ++ [LowerRequested token from amount t1 (Some (nonce_of s from)) (s_lower_nonce s)]).
    split; [cbn; now rewrite <- app_assoc|]. intros t e Hin. apply in_app_or in Hin as [Hin|[<-|[]]]; [|auto].
    apply proxy_event_zero in Hin as [r ->]. auto.
  - nobal.
  - apply xfer_bal in Hx. eapply (bal_events _ _ _ _ Hx); [reflexivity|reflexivity|].
    intros t e Hin. destruct o'; cbn in Hin; try contradiction; destruct Hin as [<-|[]]; auto.
  - apply debit_bal in Hdeb.
    apply (bal_trans _ (s <| s_agenda := delete id (s_agenda s) |>)); [nobal|].
    apply (bal_events _ _ _ [SchedulerDispatched id true] Hdeb); [reflexivity|reflexivity|]. intros ? ? [<-|[]]; auto.
  - nobal.
  - nobal.
  - nobal.
  - apply debit_bal in Hdeb. apply (bal_events _ _ _ [] Hdeb); [reflexivity|reflexivity|]. intros ? ? [].
  - nobal.
  - nobal.
  - nobal.
  - nobal.
  - nobal.
  - eapply credit_bal; [exact Hc| |]; intros; cbn; auto.
  - eapply (bal_events s s2 _ fl); [|reflexivity|reflexivity|destruct Hfl as [->| ->]; [intros ? ? []|intros ? ? [<-|[]]; auto]].
    apply payouts_bal in Hp. refine (bal_trans _ _ _ _ Hp). inversion Hc as [Ht Hz' Hle|]; subst; [|contradiction].
    nobal.
  - nobal.
  - apply (bal_trans _ (s <| s_ready := delete id (s_ready s) |>)); [nobal|].
    eapply credit_bal; [exact Hc| |]; intros; cbn; auto.
  - nobal.
  - eexists [_]. split; [reflexivity|]. split.
    + intros t. unfold token_total. cbn. 
      pose proof (total_insert t (token, who) (bal_of s token who + amount) (s_bal s)) as H2. cbn [fst] in *.
      unfold bal_of in *. destruct (token =? t); lia.
    + intros HU k. cbn. rewrite !mget_insert. repeat destruct (decide _); [|apply HU]. exact Hb.
Qed.

Lemma run_bal c cr s ops : Bal s (run c cr s ops).
Proof.
  apply (run_ind c cr (Bal s)); [apply bal_refl; [reflexivity|exists []; split; [reflexivity|intros ? ? []]]|].
  intros s1 o H _. apply (bal_trans _ _ _ H). apply (effect_bal c cr s1 o), step_effect.
Qed.

(** ** Native supply *)
(** As long as everything ever credited fits in u128, the issuance is exact. *)
Definition Nat_ (B : N) (s s' : st) : Prop := exists new, s_events s' = new ++ s_events s /\
  native_total s' + sum_over native_debit new = native_total s + sum_over native_credit new /\
  (native_total s = s_issuance s -> native_total s + sum_over native_credit new <= B -> native_total s' = s_issuance s').

Lemma nat_refl B s s' : s_free s' = s_free s -> s_issuance s' = s_issuance s -> (exists new, s_events s' = new ++ s_events s /\
  forall e, In e new -> native_debit e = 0 /\ native_credit e = 0) -> Nat_ B s s'.
Proof.
  intros Hb Hi (new & He & Hz). exists new. split; [exact He|]. unfold native_total. rewrite Hb. split.
  - rewrite !sum_over_zero; [lia| |]; intros e Hin; apply (Hz e Hin).
  - intros H _. congruence.
Qed.
Lemma nat_trans B s s1 s2 : Nat_ B s s1 -> Nat_ B s1 s2 -> Nat_ B s s2.
Proof.
  intros (n1 & E1 & T1 & U1) (n2 & E2 & T2 & U2). exists (n2 ++ n1). split; [rewrite E2, E1; now rewrite app_assoc|].
  rewrite !sum_over_app. split; [lia|]. intros H HB. apply U2; [apply U1; [exact H|lia]|lia].
Qed.
Lemma mget_insertN (k k' v : N) (m : gmap N N) : mget 0 k' (<[k := v]> m) = if decide (k = k') then v else mget 0 k' m.
Proof. unfold mget. destruct (decide (k = k')) as [->|]; [now rewrite lookup_insert|now rewrite lookup_insert_ne]. Qed.

Lemma xfer_nat B token from to amount s s1 : xfer token from to amount s s1 -> Nat_ B s s1.
Proof.
  intros [Ht Hc|Ht Hz Hne Hle Hb|Ht Hle Hne Hb|Ht Hle Heq].
  - apply nat_refl; try reflexivity. exists []. split; [reflexivity|intros ? []].
  - exists []. split; [reflexivity|]. unfold native_total. cbn.
    pose proof (free_insert to (free_of s to + amount) (<[from := free_of s from - amount]> (s_free s))) as H1.
    pose proof (free_insert from (free_of s from - amount) (s_free s)) as H2.
    rewrite mget_insertN, decide_False in H1 by auto. unfold free_of in *. split; [lia|intros]. lia.
  - apply nat_refl; try reflexivity. eexists [_]. split; [reflexivity|intros ? [<-|[]]; auto].
  - apply nat_refl; try reflexivity. eexists [_]. split; [reflexivity|intros ? [<-|[]]; auto].
Qed.
Lemma debit_nat B token from to amount t1 id s s1 : debit token from to amount t1 id s s1 -> Nat_ B s s1.
Proof.
  intros [Ht Hz Hle|Ht Hle].
  - eexists [_]. split; [reflexivity|]. unfold native_total. cbn.
    pose proof (free_insert from (free_of s from - amount) (s_free s)) as H2. pose proof (free_le from (s_free s)) as H3.
    unfold free_of in *. split; [lia|intros]. lia.
  - apply nat_refl; try reflexivity. eexists [_]. split; [reflexivity|intros ? [<-|[]]; auto].
Qed.
Lemma add_free_nat who amount e s : native_credit e = amount -> native_debit e = 0 ->
  Nat_ U128_MAX s (add_event e (s <| s_free := <[who := free_of s who + amount]> (s_free s) |>
                       <| s_issuance := saturating_add U128_MAX (s_issuance s) amount |>)).
Proof.
  intros Hc Hd. exists [e]. split; [reflexivity|]. rewrite !sum_over_cons, Hc, Hd. unfold native_total. cbn.
  pose proof (free_insert who (free_of s who + amount) (s_free s)) as H2. unfold free_of, saturating_add in *. split; [lia|].
  intros. lia.
Qed.
Lemma credit_nat token who amount ea et s s1 : credit token who amount ea et s s1 ->
  native_credit ea = amount -> native_debit ea = 0 -> (token <> s_avt s -> native_credit et = 0 /\ native_debit et = 0) -> Nat_ U128_MAX s s1.
Proof.
  intros [Ht Hz Hle|Ht Hz Hle] Ha Hb He; [now apply add_free_nat|].
  apply nat_refl; try reflexivity. eexists [_]. split; [reflexivity|intros ? [<-|[]]]. destruct (He Ht); auto.
Qed.
Lemma payouts_nat s s' : payouts s s' -> Nat_ U128_MAX s s'.
Proof.
  induction 1 as [s|s a n s' Hz Hb Hp IH].
  - apply nat_refl; try reflexivity. exists []. split; [reflexivity|intros ? []].
  - refine (nat_trans _ _ _ _ _ IH). now apply add_free_nat.
Qed.
Lemma nat_events B s s1 s2 (l : list event) : Nat_ B s s1 -> s_free s2 = s_free s1 -> s_issuance s2 = s_issuance s1 -> s_events s2 = l ++ s_events s1 ->
  (forall e, In e l -> native_debit e = 0 /\ native_credit e = 0) -> Nat_ B s s2.
Proof. intros H Hb Hi He Hz. apply (nat_trans _ _ _ _ H). apply nat_refl; [exact Hb|exact Hi|]. exists l. auto. Qed.
Lemma same_core_nat B s s' : same_core s s' -> Nat_ B s s'.
Proof.
  intros H. apply nat_refl; [apply (SC_free _ _ H)|apply (SC_iss _ _ H)|]. destruct (SC_events _ _ H) as (new & He & Hn). exists new. split; [exact He|].
  intros e Hin. apply Hn in Hin.
  destruct Hin as [->|[->|[(?&->)|[(?&?&->)|[(?&?&->)|[->|(?&->)]]]]]]; auto.
Qed.
Ltac nonat := apply nat_refl; [reflexivity|reflexivity|]; first
  [exists []; split; [reflexivity|intros ? []] | eexists [_]; split; [reflexivity|intros ? [<-|[]]; auto]].

Lemma effect_nat c cr s o s' : effect c cr s o s' -> Nat_ U128_MAX s s'.
Proof.
  intros [o'|o' s2 Hn Hsc|o' origin p from to token amount s1 Hs Ho Hv Hx|o' origin p from token amount t1 Hs Ho Hz Hv Ha
    |from token amount t1 Hz Ha|o' token from to amount s1 Hc Hx|id t s1 Ha Hw Hd Hdeb|id t Ha Hw|id t Ha|id t w Ha
    |from to token amount t1 id s1 Hd Hdeb|who id params d Hr|who id params Hr Hf|id params d Hp Hl|id params Hp|id params d Hp Hl
    |e token who amount s1 Hk Hc|e amount period s1 s2 fl Hk Hz Hc Hp Hfl|e id x Hk Hr|e token who amount id t1 x s1 Hk Hr Hc
    |e token who amount id t1 x Hk Hr Hc|token who amount Hb].
  - nonat.
  - now apply same_core_nat.
  - apply (xfer_nat U128_MAX) in Hx. apply (nat_events _ _ _ _ (proxy_event o') Hx); [reflexivity|reflexivity|reflexivity|].
    intros e Hin. apply proxy_event_zero in Hin as [r ->]. auto.
  - apply nat_refl; [reflexivity|reflexivity|]. exists (proxy_event o' ++ [LowerRequested token from amount t1 (Some (nonce_of s from)) (s_lower_nonce s)]).
    split; [cbn; now rewrite <- app_assoc|]. intros e Hin. apply in_app_or in Hin as [Hin|[<-|[]]]; [|auto].
    apply proxy_event_zero in Hin as [r ->]. auto.
  - nonat.
  - apply (xfer_nat U128_MAX) in Hx. eapply (nat_events _ _ _ _ _ Hx); [reflexivity|reflexivity|reflexivity|].
    intros e Hin. destruct o'; cbn in Hin; try contradiction; destruct Hin as [<-|[]]; auto.
  - apply (debit_nat U128_MAX) in Hdeb.
    apply (nat_trans _ _ (s <| s_agenda := delete id (s_agenda s) |>)); [nonat|].
    apply (nat_events _ _ _ _ [SchedulerDispatched id true] Hdeb); [reflexivity|reflexivity|reflexivity|]. intros ? [<-|[]]; auto.
  - nonat.
  - nonat.
  - nonat.
  - apply (debit_nat U128_MAX) in Hdeb. apply (nat_events _ _ _ _ [] Hdeb); [reflexivity|reflexivity|reflexivity|]. intros ? [].
  - nonat.
  - nonat.
  - nonat.
  - nonat.
  - nonat.
  - eapply credit_nat; [exact Hc|reflexivity|reflexivity|]; intros; cbn; auto.
  - eapply (nat_events _ s s2 _ fl); [|reflexivity|reflexivity|reflexivity|destruct Hfl as [->| ->]; [intros ? []|intros ? [<-|[]]; auto]].
    apply payouts_nat in Hp. refine (nat_trans _ _ _ _ _ Hp).
    eapply credit_nat; [exact Hc|reflexivity|reflexivity|]. intros []. reflexivity.
  - nonat.
  - apply (nat_trans _ _ (s <| s_ready := delete id (s_ready s) |>)); [nonat|].
    eapply credit_nat; [exact Hc|reflexivity|reflexivity|]; intros; cbn; auto.
  - nonat.
  - nonat.
Qed.
Lemma run_nat c cr s ops : Nat_ U128_MAX s (run c cr s ops).
Proof.
  apply (run_ind c cr (Nat_ U128_MAX s)); [nonat|].
  intros s1 o H _. apply (nat_trans _ _ _ _ H). apply (effect_nat c cr s1 o), step_effect.
Qed.
