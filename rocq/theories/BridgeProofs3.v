(** Transaction ids and histories of the outgoing bridge. *)
From Verif Require Import Base BaseLemmas AvnModel CodecModel BridgeModel BridgeProofs BridgeSpec BridgeProofs2.

Lemma send_ids_app a b : send_ids (a ++ b) = send_ids a ++ send_ids b.
Proof. unfold send_ids. apply omap_app. Qed.

Lemma served_next c q s s' : served c q s s' -> s_active s = None -> s_next s' = s_next s /\ s_settled s' = s_settled s /\ s_events s' = s_events s /\ s_vs s' = s_vs s.
Proof. intros H Ha. apply served_facts in H as (? & ? & ? & ? & ? & ? & ? & ? & ? & _); auto. Qed.

(** What an operation does to the id counter and to the accepted requests. *)
Lemma effect_ids c verify s o s' : effect c verify s o s' -> (match o with OpSetTxId _ => False | _ => True end) ->
  exists new, accepted (s_events s') = accepted (s_events s) ++ new /\
   ((send_ids new = [] /\ (s_next s' = s_next s \/ s_next s' = (s_next s + 1) mod 2 ^ 32)) \/
    (send_ids new = [s_next s] /\ s_next s' = (s_next s + 1) mod 2 ^ 32)).
Proof.
  intros He Ho. destruct He.
  - exists []. rewrite app_nil_r. auto.
  - exists []. rewrite app_nil_r. split; [now apply same_core_accepted|]. left. split; [reflexivity|].
    destruct H1 as [?|[n [-> _]]]; [auto|contradiction].
  - exists []. rewrite app_nil_r. auto.
  - exists [RSend r]. cbn -[accepted]. rewrite accepted_cons. auto.
  - exists [RSend r]. cbn -[accepted]. rewrite accepted_cons.
    destruct (started_fields _ _ _ _ _ H0) as (_ & En & _). cbn in En. auto.
  - exists [RLower r]. cbn -[accepted]. rewrite accepted_cons. auto.
  - exists [RLower r]. cbn -[accepted]. rewrite accepted_cons.
    destruct (started_fields _ _ _ _ _ H0) as (_ & En & _). cbn in En. auto.
  - exists []. rewrite app_nil_r. auto.
  - exists []. rewrite app_nil_r. apply served_next in H8 as (-> & _ & -> & _); auto.
  - exists []. rewrite app_nil_r. auto.
  - exists []. rewrite app_nil_r. auto.
  - exists []. rewrite app_nil_r. destruct (started_fields _ _ _ _ _ H11) as (_ & En & _ & _ & Ee & _). cbn in En, Ee.
    rewrite Ee, accepted_cons, app_nil_r. auto.
  - exists []. rewrite app_nil_r. apply served_next in H12 as (-> & _ & -> & _); auto. cbn -[accepted].
    unfold offence_of. destruct (_ =? 0); cbn -[accepted]; [auto|]. rewrite accepted_cons, app_nil_r. auto.
  - exists []. apply served_next in H0 as (E1 & _ & E2 & _); auto. cbn -[accepted]. rewrite accepted_cons, E1, E2, !app_nil_r. auto.
  - exists []. rewrite app_nil_r. destruct (started_fields _ _ _ _ _ H1) as (_ & En & _ & _ & Ee & _). cbn in En, Ee. rewrite Ee. auto.
Qed.

(** The only writes to the settled transactions. *)
Lemma effect_settled c verify s o s' : effect c verify s o s' ->
  s_settled s' = s_settled s \/
  exists a r d rest, s_active s = Some a /\ ac_req a = RSend r /\ s_settled s' = <[sr_id r := d]> (s_settled s) /\
    s_notices s' = rest ++ NResult (sr_id r) (sr_caller r) (se_succeeded d) :: s_notices s.
Proof.
  intros He. destruct He; auto.
  - left. now destruct H0.
  - left. destruct (started_fields _ _ _ _ _ H0) as (_ & _ & Es & _). exact Es.
  - left. destruct (started_fields _ _ _ _ _ H0) as (_ & _ & Es & _). exact Es.
  - left. apply served_next in H8 as (_ & -> & _); auto.
  - left. destruct (started_fields _ _ _ _ _ H11) as (_ & _ & Es & _). exact Es.
  - right. apply served_facts in H12 as (told & nn & _ & E2 & _ & _ & _ & E6 & _); [|reflexivity].
    exists a, r, (mkSettled (sr_fn r) (tx_params t') (tx_sender t') (if su && has_enough_corroborations s (len (tx_invalid_hash t')) then 0 else tx_hash t') su), nn.
    auto.
  - left. cbn. apply served_next in H0 as (_ & -> & _); auto.
  - left. destruct (started_fields _ _ _ _ _ H1) as (_ & _ & Es & _). exact Es.
Qed.

Record Ids (s : st) : Prop := mkIds {
  I_sorted : StronglySorted N.lt (send_ids (accepted (s_events s)));
  I_lt : Forall (fun i => i < s_next s) (send_ids (accepted (s_events s)));
  I_settled : exists told, accepted (s_events s) = told ++ outstanding s /\
      forall i, is_Some (s_settled s !! i) -> In i (send_ids told) }.

Lemma sorted_snoc l x : StronglySorted N.lt l -> Forall (fun i => i < x) l -> StronglySorted N.lt (l ++ [x]).
Proof.
  induction 1 as [|y l Hs IH Hy]; intros Hx; cbn; [constructor; constructor|].
  apply Forall_cons in Hx as [Hx1 Hx2]. constructor; [now apply IH|]. apply Forall_app. split; [exact Hy|]. constructor; [exact Hx1|constructor].
Qed.
Lemma sorted_nodup l : StronglySorted N.lt l -> NoDup l.
Proof.
  induction 1 as [|y l Hs IH Hy]; [constructor|]. constructor; [|exact IH]. intros Hin.
  rewrite Forall_forall in Hy. apply Hy in Hin. lia.
Qed.

Lemma effect_Ids c verify s o s' : effect c verify s o s' -> (match o with OpSetTxId _ => False | _ => True end) ->
  s_next s + 1 < 2 ^ 32 -> W c s -> Ids s -> Ids s' /\ s_next s' <= s_next s + 1.
Proof.
  intros He Ho Hb HW [HS HL (told & HT & Hset)].
  destruct (effect_ids _ _ _ _ _ He Ho) as (new & Eac & Hnew).
  destruct (effect_fifo _ _ _ _ _ He HW) as [_ (told' & new' & nn & F1 & F2 & F3 & F4)].
  assert (new' = new) as -> by (rewrite Eac in F4; now apply app_inv_head in F4).
  pose proof (N.mod_small (s_next s + 1) (2 ^ 32) Hb) as Em.
  assert (Hn : s_next s <= s_next s' <= s_next s + 1) by (destruct Hnew as [[_ [->| ->]]|[_ ->]]; lia).
  split; [|lia].
  assert (Hacc : send_ids (accepted (s_events s')) = send_ids (accepted (s_events s)) ++ send_ids new) by now rewrite Eac, send_ids_app.
  constructor.
  - rewrite Hacc. destruct Hnew as [[-> _]|[-> _]]; [now rewrite app_nil_r|]. now apply sorted_snoc.
  - rewrite Hacc. apply Forall_app. split.
    + eapply Forall_impl; [exact HL|]. cbn. lia.
    + destruct Hnew as [[-> _]|[-> ->]]; [constructor|]. constructor; [lia|constructor].
  - exists (told ++ told'). split.
    + rewrite F4, HT, <- !app_assoc, F1. reflexivity.
    + intros i Hi. rewrite send_ids_app. apply in_or_app.
      destruct (effect_settled _ _ _ _ _ He) as [E|(a & r & d & rest & Ea & Er & Es & En)]; [left; apply Hset; now rewrite <- E|].
      rewrite Es in Hi. destruct (decide (sr_id r = i)) as [<-|Hne]; [|rewrite lookup_insert_ne in Hi by auto; left; now apply Hset].
      right. destruct told' as [|r0 told'].
      * exfalso. apply Forall2_nil_inv_l in F3. apply (f_equal (@rev notice)) in F3. rewrite rev_involutive in F3. cbn in F3. subst nn.
        rewrite F2 in En. cbn in En. apply (f_equal length) in En. rewrite app_length in En. cbn in En. lia.
      * unfold outstanding in F1 at 1. rewrite Ea in F1. cbn in F1. injection F1 as <- _. rewrite Er. cbn. now left.
Qed.

Lemma run_Ids c verify g ops : no_id_reset ops -> s_next g + N.of_nat (length ops) < 2 ^ 32 -> W c g -> Ids g ->
  Ids (run c verify g ops) /\ s_next (run c verify g ops) <= s_next g + N.of_nat (length ops).
Proof.
  intros Hr Hb HW HI. induction ops as [|o ops IH] using rev_ind; [cbn; split; [exact HI|lia]|].
  rewrite run_snoc. rewrite app_length in Hb. cbn in Hb.
  destruct IH as [IH1 IH2]; [intros x Hx; apply Hr, in_or_app; now left|lia|].
  destruct (effect_Ids _ _ _ _ _ (step_effect c verify (run c verify g ops) o)) as [H1 H2].
  - apply Hr, in_or_app. right. now left.
  - lia.
  - now apply run_W.
  - exact IH1.
  - split; [exact H1|]. rewrite app_length. cbn. lia.
Qed.
Lemma genesis_Ids next life inst vs : Ids (genesis next life inst vs).
Proof. constructor; cbn; [constructor|constructor|]. exists []. split; [reflexivity|]. intros i [x Hx]. now rewrite lookup_empty in Hx. Qed.

(** ** Histories of the active request *)

(** The active request of [s'] is new, or the one of [s] with at most one submission added. *)
Definition grown (c : config) (verify : N -> payload -> N -> bool) (s : st) (o : op) (a a' : active) : Prop :=
  same_attempt a a' /\
  (forall x, In x (ac_confirmations a') -> In x (ac_confirmations a) \/ exists w, confirms c verify (request_id (ac_req a)) (ac_msg a) x w s o) /\
  (forall t t', ac_tx a = Some t -> ac_tx a' = Some t' -> forall su x, In x (matching t' su) ->
     In x (matching t su) \/ reports verify (request_id (ac_req a)) su (tx_attempt t) x s o).

Lemma same_attempt_refl a : same_attempt a a.
Proof. unfold same_attempt. destruct (ac_tx a); auto 6. Qed.
Lemma same_attempt_trans a b d : same_attempt a b -> same_attempt b d -> same_attempt a d.
Proof.
  unfold same_attempt. intros (E1 & E2 & E3) (E4 & E5 & E6). split; [congruence|]. split; [congruence|].
  destruct (ac_tx a), (ac_tx b), (ac_tx d); try contradiction; auto. destruct E3 as (? & ? & ? & ?), E6 as (? & ? & ? & ?). repeat split; congruence.
Qed.
Lemma grown_refl c verify s o a : grown c verify s o a a.
Proof. split; [apply same_attempt_refl|]. split; [auto|]. intros t t' E1 E2. assert (t' = t) as -> by congruence. auto. Qed.

Lemma valid_corroborate verify s id su hv v k sig : valid verify s (OpCorroborate id su hv v k sig) = true ->
  reports verify id su k (v_account v) s (OpCorroborate id su hv v k sig).
Proof.
  unfold valid. cbn. rewrite andb_true_iff. intros [H1 H2]. destruct v as [a key]. exists hv, key, sig. auto.
Qed.
Lemma valid_confirm c verify s id conf v sig msg : eth_signature_is_valid c s msg (v_account v) conf = true ->
  confirms c verify id msg conf (v_account v) s (OpConfirm id conf v sig).
Proof.
  unfold eth_signature_is_valid. rewrite andb_true_iff. intros [H1 H2].
  destruct (c_recover c conf msg) as [key|] eqn:Er; [|discriminate]. destruct (s_keys s !! key) as [a|] eqn:Ek; [|discriminate].
  apply N.eqb_eq in H2. subst a. exists v, sig, key. auto.
Qed.
Lemma matches_id r id : id_matches r id = true -> request_id r = id.
Proof. destruct r; cbn; apply N.eqb_eq. Qed.
Lemma corroborated_matching t su hv w su' x : In x (matching (corroborated t su hv w) su') ->
  In x (matching t su') \/ (su' = su /\ x = w).
Proof.
  unfold corroborated, matching. destruct su, hv, su'; cbn; rewrite ?in_app_iff; cbn; intuition.
Qed.

Lemma effect_grown c verify s o s' : effect c verify s o s' -> forall a', s_active s' = Some a' ->
  untouched a' \/ exists a, s_active s = Some a /\ grown c verify s o a a'.
Proof.
  assert (Hst : forall s0 r k s1 b, started c s0 r k s1 -> s_active s1 = Some b -> untouched b).
  { intros s0 r k s1 b H Hb. destruct (started_fields _ _ _ _ _ H) as (_ & _ & _ & _ & _ & _ & _ & a & Ea & _ & Ec & Et & _).
    assert (b = a) as -> by congruence. split; [exact Ec|]. intros t Ht. destruct (Et t Ht) as (? & ? & ? & ? & ? & ?). auto. }
  assert (Hsv : forall q s0 s1 b, served c q s0 s1 -> s_active s0 = None -> s_active s1 = Some b -> untouched b).
  { intros q s0 s1 b H H0 Hb. apply served_facts in H as (? & ? & _ & _ & _ & _ & _ & _ & _ & _ & _ & H); [|exact H0]. now apply H in Hb as [? _]. }
  intros He b Hb. destruct He.
  - right. exists b. split; [exact Hb|apply grown_refl].
  - right. exists b. rewrite (SC_active _ _ H0) in Hb. split; [exact Hb|apply grown_refl].
  - right. exists b. split; [exact Hb|apply grown_refl].
  - right. exists b. split; [exact Hb|apply grown_refl].
  - left. eapply Hst; eauto.
  - right. exists b. split; [exact Hb|apply grown_refl].
  - left. eapply Hst; eauto.
  - right. exists a. split; [exact H0|]. cbn in Hb. injection Hb as <-. split.
    + unfold same_attempt. cbn. destruct (ac_tx a); auto 6.
    + split; [|intros t t' E1 E2; cbn in E2; assert (t' = t) as -> by congruence; auto].
      intros x Hx. cbn in Hx. apply in_app_or in Hx as [Hx|[<-|[]]]; [auto|]. right. exists (v_account v).
      rewrite (matches_id _ _ H1). now apply valid_confirm.
  - left. eapply Hsv; eauto.
  - right. exists a. split; [exact H0|]. cbn in Hb. injection Hb as <-. split.
    + unfold same_attempt. cbn. rewrite H2. cbn. auto 6.
    + split; [auto|]. intros t0 t' E1 E2. cbn in E2. injection E2 as <-. assert (t0 = t) as -> by congruence.
      intros su x Hx. left. destruct su; exact Hx.
  - right. exists a. split; [exact H0|]. cbn in Hb. injection Hb as <-. split.
    + unfold same_attempt. cbn. rewrite H2. unfold corroborated. destruct su, hv; cbn; auto 6.
    + split; [auto|]. intros t0 t' E1 E2. cbn in E2. injection E2 as <-. assert (t0 = t) as -> by congruence.
      intros su' x Hx. apply corroborated_matching in Hx as [Hx|[-> ->]]; [auto|]. right. rewrite (matches_id _ _ H1), <- H3.
      now apply valid_corroborate.
  - left. eapply Hst; eauto.
  - left. eapply Hsv; eauto.
  - left. cbn in Hb. eapply Hsv; eauto.
  - left. eapply Hst; eauto.
Qed.

Lemma happened_snoc c verify s0 ops o P : happened c verify s0 ops P -> happened c verify s0 (ops ++ [o]) P.
Proof. intros (q & x & r & -> & H). exists q, x, (r ++ [o]). rewrite <- app_assoc. auto. Qed.
Lemma happened_last c verify s0 ops o (P : st -> op -> Prop) : P (run c verify s0 ops) o -> happened c verify s0 (ops ++ [o]) P.
Proof. intros H. exists ops, o, []. auto. Qed.

Lemma snoc_split {A} (post : list A) o q r : post ++ [o] = q ++ r -> r = [] /\ q = post ++ [o] \/ exists r', r = r' ++ [o] /\ post = q ++ r'.
Proof.
  destruct r as [|x r] using rev_ind; [rewrite app_nil_r; auto|]. rewrite app_assoc. intros H. apply app_inj_tail in H as [-> ->]. eauto.
Qed.

Lemma run_history c verify g ops : s_active g = None -> let s := run c verify g ops in
  forall a, s_active s = Some a -> exists pre post, ops = pre ++ post /\ began c verify g pre post a /\
    (forall x, In x (ac_confirmations a) -> exists w, happened c verify (run c verify g pre) post (confirms c verify (request_id (ac_req a)) (ac_msg a) x w)) /\
    (forall t, ac_tx a = Some t -> forall su x, In x (matching t su) ->
       happened c verify (run c verify g pre) post (reports verify (request_id (ac_req a)) su (tx_attempt t) x)).
Proof.
  intros Hg. induction ops as [|o ops IH] using rev_ind; cbv zeta; intros a' Ha'; [cbn in Ha'; congruence|].
  rewrite run_snoc in Ha'. set (s := run c verify g ops) in *.
  destruct (effect_grown _ _ _ _ _ (step_effect c verify s o) _ Ha') as [Hun|(a & Ha & Hsame & Hc & Ht)].
  - exists (ops ++ [o]), []. rewrite app_nil_r. split; [reflexivity|]. rewrite run_snoc. fold s.
    assert (Hbegan : began c verify g (ops ++ [o]) [] a').
    { split.
      - exists a'. rewrite run_snoc. split; [exact Ha'|]. split; [exact Hun|apply same_attempt_refl].
      - intros q r E. symmetry in E. apply app_eq_nil in E as [-> ->]. rewrite app_nil_r, run_snoc. exists a'. split; [exact Ha'|apply same_attempt_refl]. }
    destruct Hun as [Hu1 Hu2]. split; [exact Hbegan|]. split.
    + rewrite Hu1. intros x [].
    + intros t Et su x Hx. destruct (Hu2 t Et) as (_ & E1 & E2 & _). destruct su; cbn in Hx; rewrite ?E1, ?E2 in Hx; destruct Hx.
  - destruct (IH a Ha) as (pre & post & E & [(a0 & B1 & B2 & B3) B4] & Hcs & Hts). exists pre, (post ++ [o]).
    split; [rewrite E; now rewrite app_assoc|]. destruct Hsame as (S1 & S2 & S3).
    assert (Hs' : same_attempt a a') by (split; auto).
    split; [|split].
    + split; [exists a0; split; [exact B1|]; split; [exact B2|eapply same_attempt_trans; eassumption]|].
      intros q r Er. apply snoc_split in Er as [[-> ->]|(r' & -> & Er)].
      * exists a'. rewrite app_assoc, <- E, run_snoc. split; [exact Ha'|apply same_attempt_refl].
      * destruct (B4 _ _ Er) as (a1 & H1 & H2). exists a1. split; [exact H1|eapply same_attempt_trans; eassumption].
    + intros x Hx. rewrite <- S1, <- S2. apply Hc in Hx as [Hx|[w Hw]].
      * destruct (Hcs x Hx) as [w Hw]. exists w. now apply happened_snoc.
      * exists w. apply happened_last. rewrite <- run_app, <- E. exact Hw.
    + intros t' Et' su x Hx. destruct (ac_tx a) as [t|] eqn:Et; [|rewrite Et' in S3; contradiction].
      rewrite Et' in S3. destruct S3 as (_ & <- & _). rewrite <- S1. apply (Ht t t' eq_refl Et') in Hx as [Hx|Hx].
      * apply happened_snoc. now apply Hts.
      * apply happened_last. rewrite <- run_app, <- E. exact Hx.
Qed.

(** ** Lists of the active request *)
Record Lists (s : st) : Prop := mkLists {
  L_conf : forall a, s_active s = Some a -> NoDup (ac_confirmations a);
  L_tx : forall a t, s_active s = Some a -> ac_tx a = Some t ->
    NoDup (tx_success t ++ tx_failure t) /\ ~ In (tx_sender t) (tx_success t ++ tx_failure t) /\
    Permutation (tx_valid_hash t ++ tx_invalid_hash t) (tx_success t ++ tx_failure t) }.

Lemma untouched_lists s : (forall a, s_active s = Some a -> untouched a) -> Lists s.
Proof.
  intros H. constructor.
  - intros a Ha. destruct (H a Ha) as [-> _]. constructor.
  - intros a t Ha Ht. destruct (H a Ha) as [_ Hu]. destruct (Hu t Ht) as (_ & -> & -> & -> & ->). cbn. repeat split; auto using NoDup_nil_2.
Qed.

Lemma corroborated_ok t su hv w : NoDup (tx_success t ++ tx_failure t) -> ~ In (tx_sender t) (tx_success t ++ tx_failure t) ->
  Permutation (tx_valid_hash t ++ tx_invalid_hash t) (tx_success t ++ tx_failure t) ->
  w <> tx_sender t -> ~ In w (tx_success t) -> ~ In w (tx_failure t) ->
  let t' := corroborated t su hv w in
  NoDup (tx_success t' ++ tx_failure t') /\ ~ In (tx_sender t') (tx_success t' ++ tx_failure t') /\
  Permutation (tx_valid_hash t' ++ tx_invalid_hash t') (tx_success t' ++ tx_failure t').
Proof.
  intros H1 H2 H3 Hs Hw1 Hw2 t'.
  assert (P1 : Permutation (tx_success t' ++ tx_failure t') (w :: tx_success t ++ tx_failure t)).
  { unfold t', corroborated. destruct su, hv; cbn; rewrite <- ?app_assoc; cbn; first [symmetry; apply Permutation_middle | rewrite app_assoc; symmetry; apply Permutation_cons_append]. }
  assert (P2 : Permutation (tx_valid_hash t' ++ tx_invalid_hash t') (w :: tx_valid_hash t ++ tx_invalid_hash t)).
  { unfold t', corroborated. destruct su, hv; cbn; rewrite <- ?app_assoc; cbn;
      first [symmetry; apply Permutation_middle | rewrite app_assoc; symmetry; apply Permutation_cons_append]. }
  assert (E : tx_sender t' = tx_sender t) by (unfold t', corroborated; destruct su, hv; reflexivity).
  rewrite E. split; [|split].
  - rewrite P1. constructor; [|exact H1]. intros Hin. apply elem_of_list_In, in_app_or in Hin. tauto.
  - intros Hin. apply (Permutation_in _ P1) in Hin. destruct Hin as [Hin|Hin]; auto.
  - rewrite P1, P2, H3. reflexivity.
Qed.

Lemma effect_Lists c verify s o s' : effect c verify s o s' -> Lists s -> Lists s'.
Proof.
  assert (Hst : forall s0 r k s1, started c s0 r k s1 -> Lists s1).
  { intros s0 r k s1 H. apply untouched_lists. intros b Hb. destruct (started_fields _ _ _ _ _ H) as (_ & _ & _ & _ & _ & _ & _ & a & Ea & _ & Ec & Et & _).
    assert (b = a) as -> by congruence. split; [exact Ec|]. intros t Ht. destruct (Et t Ht) as (? & ? & ? & ? & ? & ?). auto. }
  assert (Hsv : forall q s0 s1, served c q s0 s1 -> s_active s0 = None -> Lists s1).
  { intros q s0 s1 H H0. apply untouched_lists. intros b Hb. apply served_facts in H as (? & ? & _ & _ & _ & _ & _ & _ & _ & _ & _ & H); [|exact H0]. now apply H in Hb as [? _]. }
  assert (Hev : forall s0 e, Lists s0 -> Lists (s0 <| s_events := e |>)) by (intros s0 e [L1 L2]; now constructor).
  intros He [HL1 HL2]. destruct He; try (constructor; assumption); try (apply Hev; eauto; fail); eauto.
  - constructor; rewrite (SC_active _ _ H0); auto.
  - constructor; cbn; intros b; intros Hb; [|intros Hb']; [injection Hb as <-|injection Hb' as <-]; cbn.
    + apply NoDup_app. split; [now apply HL1|]. split; [|apply NoDup_singleton]. intros x Hx Hx'. apply elem_of_list_singleton in Hx'. subst.
      apply elem_of_list_In in Hx. contradiction.
    + now apply HL2.
  - constructor; cbn; intros b; intros Hb; [|intros Hb']; [injection Hb as <-|injection Hb' as <-]; cbn.
    + now apply HL1.
    + intros E. injection E as <-. cbn. now apply HL2 with a.
  - constructor; cbn; intros b; intros Hb; [|intros Hb']; [injection Hb as <-|injection Hb' as <-]; cbn.
    + now apply HL1.
    + intros E. injection E as <-. destruct (HL2 a t H0 H2) as (? & ? & ?). now apply corroborated_ok.
Qed.
Lemma run_Lists c verify g ops : s_active g = None -> Lists (run c verify g ops).
Proof.
  intros Hg. induction ops as [|o ops IH] using rev_ind.
  - apply untouched_lists. cbn. congruence.
  - rewrite run_snoc. eapply effect_Lists; [apply step_effect|exact IH].
Qed.
