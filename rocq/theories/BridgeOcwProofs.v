(** Lemmas: what one operation does to the active request, for histories with Ethereum. *)
From Verif Require Import Base BaseLemmas AvnModel CodecModel BridgeModel BridgeProofs BridgeSpec BridgeProofs2 BridgeProofs3 BridgeProofs4.

Lemma served_instance c q s s' : served c q s s' -> s_instance s' = s_instance s.
Proof. induction 1 as [s|r rest s s' Hst|r rest s s' Hsv IH]; [reflexivity| |exact IH]. now destruct (started_fields _ _ _ _ _ Hst) as (_ & _ & _ & _ & _ & _ & E & _). Qed.

Lemma started_instance c s r k s' : started c s r k s' -> s_instance s' = s_instance s.
Proof. intros H. now destruct (started_fields _ _ _ _ _ H) as (_ & _ & _ & _ & _ & _ & E & _). Qed.
Lemma step_instance c verify s o : (forall n, o <> OpSetInstance n) -> s_instance (step c verify s o) = s_instance s.
Proof.
  intros Ho. pose proof (step_effect c verify s o) as He. remember (step c verify s o) as s' eqn:Es. destruct He; try reflexivity.
  - rewrite Es. unfold step. destruct (valid verify s o); [|reflexivity]. destruct o; try contradiction; try reflexivity. now destruct (Ho n).
  - cbn. match goal with X : started _ _ _ _ _ |- _ => now rewrite (started_instance _ _ _ _ _ X) end.
  - cbn. match goal with X : started _ _ _ _ _ |- _ => now rewrite (started_instance _ _ _ _ _ X) end.
  - match goal with X : served _ _ _ _ |- _ => now rewrite (served_instance _ _ _ _ X) end.
  - match goal with X : started _ _ _ _ _ |- _ => now rewrite (started_instance _ _ _ _ _ X) end.
  - match goal with X : served _ _ _ _ |- _ => now rewrite (served_instance _ _ _ _ X) end.
  - cbn. match goal with X : served _ _ _ _ |- _ => now rewrite (served_instance _ _ _ _ X) end.
  - now destruct (Ho n).
Qed.

(** Changing the contract leaves no reports on the active transaction. *)
Lemma step_set_instance c verify s n : W c s -> let s' := step c verify s (OpSetInstance n) in s' = s \/ forall a t, s_active s' = Some a -> ac_tx a = Some t -> tx_success t = [] /\ tx_failure t = [] /\ tx_hash t = 0.
Proof.
  intros HW s'. unfold s', step. cbn [valid signed_payload]. cbn [exec]. destruct (dispatch (set_instance c n) s) as [s1 r] eqn:E. cbn [fst].
  apply dispatch_inv in E as [([] & E & ->)| ->]; [|now left]. right. unfold set_instance in E. minv E.
  - destruct (ac_req a1) as [r|r] eqn:Er.
    + intros a' t Ha Ht. apply set_up_tx_inv in E. destruct E as [[_ Hs]|[_ [e He]]]; [|discriminate].
      destruct (started_fields _ _ _ _ _ Hs) as (_ & _ & _ & _ & _ & _ & _ & b & Eb & _ & _ & Et & _). assert (b = a') as -> by congruence. destruct (Et t Ht) as (? & ? & _ & _ & ? & _). auto.
    + minv E. intros a' t Ha Ht. cbn in Ha, Hopt. assert (a' = a1) as -> by congruence. pose proof (W_shape _ _ HW a1 Hopt) as Hsh. rewrite Er in Hsh. congruence.
  - intros a' t Ha Ht. cbn in *. congruence.
Qed.

Lemma in_send_ids x l : In x (send_ids l) <-> exists r, In (RSend r) l /\ sr_id r = x.
Proof.
  unfold send_ids. rewrite <- elem_of_list_In, elem_of_list_omap. split.
  - intros ([r|r] & Hin & E); [|discriminate]. apply (inj Some) in E. exists r. now rewrite <- elem_of_list_In.
  - intros (r & Hin & <-). exists (RSend r). now rewrite elem_of_list_In.
Qed.

(** ** What an operation does to the active request *)
Definition fresh_after (s s' : st) : Prop :=
  (forall a, s_active s' = Some a -> untouched a) /\
  (forall x, In x (send_ids (outstanding s')) -> In x (send_ids (s_queue s)) \/ (s_active s = None /\ x = s_next s)).
Definition decides (verify : N -> payload -> N -> bool) (s : st) (o : op) (a : active) (r : send_req) (t : tx_data) (su hv : bool) (v : validator) : Prop :=
  exists sig, o = OpCorroborate (sr_id r) su hv v (tx_attempt t) sig /\ valid verify s o = true /\ s_active s = Some a /\ ac_req a = RSend r /\ ac_tx a = Some t /\
  has_enough_corroborations s (N.of_nat (length (matching t su)) + 1) = true /\ ~ In (v_account v) (tx_success t ++ tx_failure t).
Inductive ends (c : config) (verify : N -> payload -> N -> bool) (s : st) (o : op) (s' : st) : Prop :=
| EIdle : s_active s = None -> s_active s' = None -> s_settled s' = s_settled s -> ends c verify s o s'
| EGrown a a' : s_active s = Some a -> s_active s' = Some a' -> grown c verify s o a a' -> s_settled s' = s_settled s -> ends c verify s o s'
| EReplay a r t hv v a' t' : decides verify s o a r t false hv v -> s_active s' = Some a' -> ac_req a' = RSend r -> ac_tx a' = Some t' -> untouched a' ->
    tx_attempt t' = saturating_add 65535 (tx_attempt t) 1 -> s_settled s' = s_settled s -> ends c verify s o s'
| ESettled a r t su hv v d : decides verify s o a r t su hv v -> s_settled s' = <[sr_id r := d]> (s_settled s) -> se_succeeded d = su -> fresh_after s s' -> ends c verify s o s'
| EOver : fresh_after s s' -> s_settled s' = s_settled s -> ends c verify s o s'.

Lemma served_fresh c s0 s1 s' : served c (s_queue s0) s1 s' -> s_active s1 = None -> fresh_after s0 s'.
Proof.
  intros H Ha. apply served_facts in H as (told & nn & Eq & _ & _ & _ & _ & _ & _ & _ & _ & H); [|exact Ha]. split.
  - intros a E. now apply H.
  - intros x Hx. left. rewrite Eq, send_ids_app. apply in_or_app. now right.
Qed.
Lemma len_corroborated t su hv w : len (matching (corroborated t su hv w) su) = N.of_nat (length (matching t su)) + 1.
Proof. unfold len, matching, corroborated. destruct su, hv; cbn; rewrite app_length; cbn; lia. Qed.

Lemma started_untouched c s r k s' a : started c s r k s' -> s_active s' = Some a -> untouched a /\ ac_req a = r /\ (forall t, ac_tx a = Some t -> tx_attempt t = k) /\
  match r with RSend _ => is_Some (ac_tx a) | RLower _ => ac_tx a = None end.
Proof.
  intros H Ha. destruct (started_fields _ _ _ _ _ H) as (_ & _ & _ & _ & _ & _ & _ & b & Eb & Er & Ec & Et & Es). assert (b = a) as -> by congruence.
  split; [split; [exact Ec|intros t Ht; destruct (Et t Ht) as (? & ? & ? & ? & ? & ?); auto]|]. split; [exact Er|]. split; [|exact Es]. intros t Ht. now destruct (Et t Ht) as (_ & _ & _ & _ & _ & ?).
Qed.

Lemma effect_ends c verify s o s' : effect c verify s o s' -> W c s -> (forall n, o <> OpSetInstance n) -> ends c verify s o s'.
Proof.
  intros He HW Ho. pose proof (effect_grown c verify s o s' He) as Hg.
  assert (Hkeep : s_active s' = s_active s -> s_settled s' = s_settled s -> ends c verify s o s').
  { intros E1 E2. destruct (s_active s) as [a|] eqn:Ea; [|now apply EIdle]. apply (EGrown _ _ _ _ _ a a); auto. apply grown_refl. }
  assert (Hone : forall a a', s_active s = Some a -> s_active s' = Some a' -> ~ untouched a' -> s_settled s' = s_settled s -> ends c verify s o s').
  { intros a a' E1 E2 Hn E3. destruct (Hg a' E2) as [?|(b & Eb & G)]; [contradiction|]. now apply (EGrown _ _ _ _ _ b a'). }
  destruct He.
  - now apply Hkeep.
  - apply Hkeep; [now rewrite (SC_active _ _ H0)|now rewrite (SC_settled _ _ H0)].
  - now apply Hkeep.
  - now apply Hkeep.
  - apply EOver; [|now destruct (started_fields _ _ _ _ _ H0) as (_ & _ & E & _)]. destruct (started_fields _ _ _ _ _ H0) as (Eq & _ & _ & _ & _ & _ & _ & b & Eb & Er & _). split.
    + intros a Ha. now destruct (started_untouched _ _ _ _ _ _ H0 Ha).
    + cbn in Eq |- *. unfold outstanding. cbn. rewrite Eb, Eq, Er. rewrite (W_idle _ _ HW H). cbn. intros x [<-|[]]. right. auto.
  - now apply Hkeep.
  - apply EOver; [|now destruct (started_fields _ _ _ _ _ H0) as (_ & _ & E & _)]. destruct (started_fields _ _ _ _ _ H0) as (Eq & _ & _ & _ & _ & _ & _ & b & Eb & Er & _). split.
    + intros a Ha. now destruct (started_untouched _ _ _ _ _ _ H0 Ha).
    + cbn in Eq |- *. unfold outstanding. cbn. rewrite Eb, Eq, Er. rewrite (W_idle _ _ HW H). cbn. intros x [].
  - apply (Hone a (add_confirmation_to a conf <| ac_updated := s_block s |>)); auto. intros [E _]. cbn in E. now apply app_eq_nil in E as [_ ?].
  - apply EOver; [|now apply served_next in H8 as (_ & -> & _)]. now apply (served_fresh c s _ _ H8).
  - eapply (EGrown _ _ _ _ _ a (a <| ac_tx := Some (t <| tx_hash := hash |>) |> <| ac_updated := s_block s |>)); [exact H0|reflexivity| |reflexivity]. split; [unfold same_attempt; cbn; rewrite H2; cbn; auto 6|]. split; [auto|]. intros t0 t' E1 E2. cbn in E2. injection E2 as <-.
    assert (t0 = t) as -> by congruence. intros su x Hx. left. destruct su; exact Hx.
  - eapply (Hone a _ H0 eq_refl); [|reflexivity]. intros [_ Hu]. destruct (Hu _ eq_refl) as (_ & E1 & E2 & _). unfold corroborated in E1, E2.
    destruct su, hv; cbn in E1, E2; try (now apply app_eq_nil in E1 as [_ ?]); now apply app_eq_nil in E2 as [_ ?].
  - match goal with X : started _ _ _ _ _ |- _ => rename X into Hst end.
    destruct (started_fields _ _ _ _ _ Hst) as (_ & _ & Es & _ & _ & _ & _ & b & Eb & Er & _ & _ & [t2 Et2]). destruct (started_untouched _ _ _ _ _ _ Hst Eb) as (Hu & _ & Hat & _).
    apply (EReplay _ _ _ _ _ a r t hv v b t2); auto.
    + exists sig. subst. split; [reflexivity|]. split; [assumption|]. repeat (split; [assumption|]). split.
      * rewrite <- len_corroborated with (hv := hv) (w := v_account v). assumption.
      * rewrite in_app_iff. tauto.
    + rewrite (Hat _ Et2). subst t'. unfold corroborated. destruct hv; reflexivity.
  - match goal with X : served _ _ _ _ |- _ => rename X into Hsv end.
    eapply (ESettled _ _ _ _ _ a r t su hv v).
    + exists sig. subst. split; [reflexivity|]. split; [assumption|]. repeat (split; [assumption|]). split.
      * rewrite <- len_corroborated with (hv := hv) (w := v_account v). assumption.
      * rewrite in_app_iff. tauto.
    + apply served_next in Hsv as (_ & -> & _); [|reflexivity]. reflexivity.
    + reflexivity.
    + now apply (served_fresh c s _ _ Hsv).
  - apply EOver; [|cbn; now apply served_next in H0 as (_ & -> & _)]. destruct (served_fresh c s _ _ H0 eq_refl) as [F1 F2]. split; [exact F1|exact F2].
  - now destruct (Ho n).
Qed.
