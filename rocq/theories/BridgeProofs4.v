(** What can settle a transaction, set its hash or complete a lower proof. *)
From Verif Require Import Base BaseLemmas AvnModel CodecModel BridgeModel BridgeProofs BridgeSpec BridgeProofs2 BridgeProofs3.

Lemma effect_settled_done c verify s o s' id d : effect c verify s o s' -> s_settled s' !! id = Some d ->
  s_settled s !! id = Some d \/
  exists a r t hv w, let su := se_succeeded d in
    s_active s = Some a /\ ac_req a = RSend r /\ sr_id r = id /\ ac_tx a = Some t /\
    reports verify id su (tx_attempt t) w s o /\ w <> tx_sender t /\ ~ In w (tx_success t) /\ ~ In w (tx_failure t) /\
    has_enough_corroborations s (len (matching (corroborated t su hv w) su)) = true /\
    se_fn d = sr_fn r /\ se_params d = tx_params t /\ se_sender d = tx_sender t.
Proof.
  intros He Hd. destruct He; auto.
  - left. now destruct H0 as [_ _ <- _ _].
  - left. destruct (started_fields _ _ _ _ _ H0) as (_ & _ & Es & _). cbn in *. now rewrite Es in Hd.
  - left. destruct (started_fields _ _ _ _ _ H0) as (_ & _ & Es & _). cbn in *. now rewrite Es in Hd.
  - left. apply served_next in H8 as (_ & E & _); auto. cbn in E. now rewrite E in Hd.
  - left. destruct (started_fields _ _ _ _ _ H11) as (_ & _ & Es & _). cbn in *. now rewrite Es in Hd.
  - apply served_next in H12 as (_ & E & _); auto. cbn in E. rewrite E in Hd.
    destruct (decide (sr_id r = id)) as [<-|Hne]; [|left; now rewrite lookup_insert_ne in Hd by exact Hne].
    rewrite lookup_insert in Hd. injection Hd as <-. right. exists a, r, t, hv, (v_account v). cbn -[matching corroborated]. subst t' k.
    split; [assumption|]. split; [assumption|]. split; [reflexivity|]. split; [assumption|].
    split; [now rewrite H2; apply valid_corroborate|]. repeat (split; [assumption|]).
    assert (E2 : tx_params (corroborated t su hv (v_account v)) = tx_params t /\ tx_sender (corroborated t su hv (v_account v)) = tx_sender t) by (unfold corroborated; destruct su, hv; auto).
    destruct E2 as [-> ->]. auto.
  - left. apply served_next in H0 as (_ & E & _); auto. cbn in *. now rewrite E in Hd.
  - left. destruct (started_fields _ _ _ _ _ H1) as (_ & _ & Es & _). cbn in *. now rewrite Es in Hd.
Qed.

Lemma run_settled c verify g ops id d : s_settled g = ∅ -> s_settled (run c verify g ops) !! id = Some d ->
  exists pre o rest, ops = pre ++ o :: rest /\ s_settled (run c verify g pre) !! id <> Some d /\
    s_settled (step c verify (run c verify g pre) o) !! id = Some d.
Proof.
  intros Hg. induction ops as [|o ops IH] using rev_ind; intros H.
  - cbn in H. rewrite Hg, lookup_empty in H. discriminate.
  - destruct (decide (is_Some (s_settled (run c verify g ops) !! id) /\ fmap se_succeeded (s_settled (run c verify g ops) !! id) = None)) as [[[x Hx] Hy]|_].
    { rewrite Hx in Hy. discriminate. }
    rewrite run_snoc in H. destruct (s_settled (run c verify g ops) !! id) as [d0|] eqn:E0.
    + assert (Hdec : {d0 = d} + {d0 <> d}) by (repeat decide equality). destruct Hdec as [->|Hne].
      * destruct (IH eq_refl) as (pre & o' & rest & -> & H1 & H2). exists pre, o', (rest ++ [o]). rewrite <- app_assoc. auto.
      * exists ops, o, []. split; [reflexivity|]. rewrite E0. split; [congruence|exact H].
    + exists ops, o, []. split; [reflexivity|]. rewrite E0. split; [discriminate|exact H].
Qed.

(** The hash recorded for the active transaction. *)
Lemma effect_hash c verify s o s' a t a' t' : effect c verify s o s' ->
  s_active s = Some a -> ac_tx a = Some t -> s_active s' = Some a' -> ac_tx a' = Some t' ->
  untouched a' \/ (same_attempt a a' /\ (tx_hash t' = tx_hash t \/
    (tx_hash t = 0 /\ exists hash v sig, o = OpEthTxHash (request_id (ac_req a)) hash v sig /\ valid verify s o = true /\
       v_account v = tx_sender t /\ tx_hash t' = hash))).
Proof.
  intros He Ha Ht Ha' Ht'.
  destruct (effect_grown _ _ _ _ _ He a' Ha') as [?|(a0 & Ha0 & Hs & _)]; [now left|]. assert (a0 = a) as -> by congruence.
  assert (Hst : forall s0 r k s1, started c s0 r k s1 -> s_active s1 = Some a' -> untouched a').
  { intros s0 r k s1 H Hb. destruct (started_fields _ _ _ _ _ H) as (_ & _ & _ & _ & _ & _ & _ & b & Ea & _ & Ec & Et & _).
    assert (a' = b) as -> by congruence. split; [exact Ec|]. intros u Hu. destruct (Et u Hu) as (? & ? & ? & ? & ? & ?). auto. }
  assert (Hsv : forall q s0 s1, served c q s0 s1 -> s_active s0 = None -> s_active s1 = Some a' -> untouched a').
  { intros q s0 s1 H H0 Hb. apply served_facts in H as (? & ? & _ & _ & _ & _ & _ & _ & _ & _ & _ & H); [|exact H0]. now apply H in Hb as [? _]. }
  assert (Hsame : ac_tx a' = ac_tx a -> tx_hash t' = tx_hash t) by (intros E; congruence).
  destruct He; try (right; split; [exact Hs|]; left; apply Hsame; cbn in Ha'; congruence); try (left; cbn in Ha'; eauto; fail).
  - right. split; [exact Hs|]. left. apply Hsame. rewrite (SC_active _ _ H0) in Ha'. congruence.
  - right. split; [exact Hs|]. left. apply Hsame. cbn in Ha'. injection Ha' as <-. cbn. congruence.
  - right. split; [exact Hs|]. right. assert (a0 = a) as -> by congruence. assert (t0 = t) as -> by congruence.
    split; [assumption|]. exists hash, v, sig. rewrite (matches_id _ _ H1). split; [reflexivity|]. split; [assumption|]. split; [congruence|].
    cbn in Ha'. injection Ha' as <-. cbn in Ht'. injection Ht' as <-. reflexivity.
  - right. split; [exact Hs|]. left. assert (a0 = a) as -> by congruence. assert (t0 = t) as -> by congruence.
    cbn in Ha'. injection Ha' as <-. cbn in Ht'. injection Ht' as <-. unfold corroborated. destruct su, hv; reflexivity.
Qed.

(** Confirmations of a lower proof. *)
Lemma step_confirm_lower c verify s a r id conf v sig : s_active s = Some a -> ac_req a = RLower r -> lr_id r = id ->
  valid verify s (OpConfirm id conf v sig) = true -> eth_signature_is_valid c s (ac_msg a) (v_account v) conf = true ->
  ~ In conf (ac_confirmations a) -> len (ac_confirmations a) < CONFIRMATIONS_LIMIT -> has_enough_confirmations s a = false ->
  step c verify s (OpConfirm id conf v sig) =
    if avn_supermajority (s_vs s) <=? len (ac_confirmations a) + 1
    then fst (complete_lower_proof_request c r s) else saved s (add_confirmation_to a conf).
Proof.
  intros Ha Hr Hid Hv Hs Hn Hl He. unfold step. rewrite Hv. cbn [exec]. unfold dispatch, add_confirmation, mbind_ at 1, get_st. rewrite Ha, Hr. cbn [id_matches].
  rewrite Hid, N.eqb_refl, He. unfold mbind_ at 1, ensure at 1. rewrite Hs. unfold mbind_ at 1, ensure at 1.
  assert (memN conf (ac_confirmations a) = false) as ->.
  { now apply memN_false. }
  cbn [negb]. unfold mbind_ at 1, ensure at 1. rewrite (proj2 (N.ltb_lt _ _) Hl).
  assert (has_enough_confirmations s (a <| ac_confirmations := ac_confirmations a ++ [conf] |>) = (avn_supermajority (s_vs s) <=? len (ac_confirmations a) + 1)) as ->.
  { unfold has_enough_confirmations. cbn. rewrite Hr. unfold len. rewrite app_length. cbn. f_equal. lia. }
  destruct (avn_supermajority (s_vs s) <=? _).
  - destruct (complete_lower_proof_request c r s) as [s1 [u|e]] eqn:E; [reflexivity|]. exfalso.
    unfold complete_lower_proof_request, mbind_ at 1, notify, modify in E. apply process_next_inv in E as [? _]. discriminate.
  - unfold save_active, modify, saved, add_confirmation_to. reflexivity.
Qed.

(** No operation both notifies and accepts. *)
Lemma effect_told_or_new c verify s o s' : effect c verify s o s' ->
  s_notices s' = s_notices s \/ accepted (s_events s') = accepted (s_events s).
Proof.
  intros He. destruct He; auto.
  - left. now destruct H0.
  - left. destruct (started_fields _ _ _ _ _ H0) as (_ & _ & _ & E & _). exact E.
  - left. destruct (started_fields _ _ _ _ _ H0) as (_ & _ & _ & E & _). exact E.
  - right. apply served_next in H8 as (_ & _ & E & _); auto. now rewrite E.
  - left. destruct (started_fields _ _ _ _ _ H11) as (_ & _ & _ & E & _). exact E.
  - right. apply served_next in H12 as (_ & _ & E & _); auto. rewrite E. cbn -[accepted]. unfold offence_of.
    destruct (_ =? 0); cbn -[accepted]; rewrite ?accepted_cons, ?app_nil_r; reflexivity.
  - right. apply served_next in H0 as (_ & _ & E & _); auto. cbn -[accepted]. rewrite accepted_cons, app_nil_r, E. reflexivity.
  - left. destruct (started_fields _ _ _ _ _ H1) as (_ & _ & _ & E & _). exact E.
Qed.

Definition good (n : notice) : Prop := match n with NResult _ _ true | NProof _ _ true => True | _ => False end.
Lemma served_bad c q s s' : served c q s s' -> exists nn, s_notices s' = nn ++ s_notices s /\ (forall n, In n nn -> ~ good n).
Proof.
  induction 1 as [s|r rest s s' Hst|r rest s s' Hsv IH].
  - exists []. split; [reflexivity|]. intros n [].
  - exists []. destruct (started_fields _ _ _ _ _ Hst) as (_ & _ & _ & E & _). split; [exact E|]. intros n [].
  - destruct IH as (nn & E & Hb). exists (nn ++ [failure_notice r]). rewrite <- app_assoc. split; [exact E|].
    intros n Hn. apply in_app_or in Hn as [Hn|[<-|[]]]; [auto|]. destruct r; cbn; auto.
Qed.
(** What a message of success is based on. *)
Lemma effect_good c verify s o s' : effect c verify s o s' -> exists nn, s_notices s' = nn ++ s_notices s /\
  forall n, In n nn -> good n ->
    (exists r d, n = NResult (sr_id r) (sr_caller r) true /\ s_settled s' !! sr_id r = Some d /\ se_succeeded d = true /\ outstanding s = RSend r :: s_queue s) \/
    (exists r a conf v sig, n = NProof (lr_id r) (lr_caller r) true /\ s_active s = Some a /\ ac_req a = RLower r /\ o = OpConfirm (lr_id r) conf v sig /\
       confirms c verify (lr_id r) (ac_msg a) conf (v_account v) s o /\ ~ In conf (ac_confirmations a) /\
       avn_supermajority (s_vs s) <= len (ac_confirmations a) + 1).
Proof.
  intros He.
  assert (Hsame : s_notices s' = s_notices s -> exists nn, s_notices s' = nn ++ s_notices s /\
    forall n, In n nn -> good n -> (exists r d, n = NResult (sr_id r) (sr_caller r) true /\ s_settled s' !! sr_id r = Some d /\ se_succeeded d = true /\ outstanding s = RSend r :: s_queue s) \/
    (exists r a conf v sig, n = NProof (lr_id r) (lr_caller r) true /\ s_active s = Some a /\ ac_req a = RLower r /\ o = OpConfirm (lr_id r) conf v sig /\
       confirms c verify (lr_id r) (ac_msg a) conf (v_account v) s o /\ ~ In conf (ac_confirmations a) /\
       avn_supermajority (s_vs s) <= len (ac_confirmations a) + 1)).
  { intros E. exists []. split; [exact E|]. intros n []. }
  destruct He; try (apply Hsame; reflexivity).
  - apply Hsame. now destruct H0.
  - apply Hsame. destruct (started_fields _ _ _ _ _ H0) as (_ & _ & _ & E & _). exact E.
  - apply Hsame. destruct (started_fields _ _ _ _ _ H0) as (_ & _ & _ & E & _). exact E.
  - destruct (served_bad _ _ _ _ H8) as (nn & E & Hb). exists (nn ++ [NProof (lr_id r) (lr_caller r) true]). rewrite <- app_assoc. split; [exact E|].
    intros n Hn Hg. apply in_app_or in Hn as [Hn|[<-|[]]]; [exfalso; eapply Hb; eauto|]. right. exists r, a, conf, v, sig. rewrite H2.
    split; [reflexivity|]. split; [assumption|]. split; [assumption|]. split; [reflexivity|]. split; [now apply valid_confirm|]. split; [assumption|].
    unfold has_enough_confirmations in H7. cbn in H7. rewrite H1 in H7. apply N.leb_le in H7. unfold len in *. rewrite app_length in H7. cbn in H7. lia.
  - apply Hsame. destruct (started_fields _ _ _ _ _ H11) as (_ & _ & _ & E & _). exact E.
  - destruct (served_bad _ _ _ _ H12) as (nn & E & Hb). exists (nn ++ [NResult (sr_id r) (sr_caller r) su]). rewrite <- app_assoc. split; [exact E|].
    intros n Hn Hg. apply in_app_or in Hn as [Hn|[<-|[]]]; [exfalso; eapply Hb; eauto|]. destruct su; [|destruct Hg]. left. eexists r, _.
    split; [reflexivity|]. apply served_next in H12 as (_ & E2 & _); [|reflexivity]. rewrite E2. cbn. rewrite lookup_insert. split; [reflexivity|]. split; [reflexivity|].
    unfold outstanding. rewrite H0, H1. reflexivity.
  - destruct (served_bad _ _ _ _ H0) as (nn & E & Hb). exists (nn ++ [failure_notice (ac_req a)]). rewrite <- app_assoc. split; [exact E|].
    intros n Hn Hg. apply in_app_or in Hn as [Hn|[<-|[]]]; [exfalso; eapply Hb; eauto|]. exfalso. destruct (ac_req a); exact Hg.
  - apply Hsame. destruct (started_fields _ _ _ _ _ H1) as (_ & _ & _ & E & _). exact E.
Qed.
