(** Lemmas: what holds of the world in every history with honest keys. *)
From Verif Require Import Base BaseLemmas AvnModel CodecModel HttpModel BridgeModel BridgeProofs BridgeSpec BridgeProofs2 BridgeProofs3 BridgeProofs4 BridgeOcwProofs.
From Verif Require Import CorroborateModel CorroborateProps BridgeOcwModel BridgeOcwSpec BridgeOcwProofs2.

Record G (c : config) (A K : N -> Prop) (w : world) : Prop := mkG {
  G_W : W c (w_st w);
  G_lists : Lists (w_st w);
  G_keys : keys_of_honest A K (s_vs (w_st w));
  G_sig : forall k i id hv x att, K k -> In (k, PCorroborate i id true hv x att) (w_sigs w) -> executed (w_eth w) i id;
  G_act : forall a r t su x, s_active (w_st w) = Some a -> ac_req a = RSend r -> ac_tx a = Some t -> In x (matching t su) ->
    exists key hv, In (key, PCorroborate (s_instance (w_st w)) (sr_id r) su hv x (tx_attempt t)) (w_sigs w) /\ (A x -> K key) }.

Lemma reports_signed A K w o id su k x : allowed A K w (WSubmit o) -> keys_of_honest A K (s_vs (w_st w)) -> reports (verified w) id su k x (w_st w) o ->
  exists key hv, In (key, PCorroborate (s_instance (w_st w)) id su hv x k) (w_sigs w) /\ (A x -> K key).
Proof.
  intros [Hau _] HK (hv & key & sig & -> & _ & Hv). exists key, hv. unfold verified in Hv. apply bool_decide_eq_true in Hv. rewrite elem_of_list_In in Hv. split; [exact Hv|].
  intros HA. specialize (Hau _ eq_refl). exact (HK _ Hau HA).
Qed.
Lemma worker_sigs c n w k p : In (k, p) (w_sigs (wstep c w (WWorker n))) -> In (k, p) (w_sigs w) \/
  exists v x, worker c n (w_st w) = Some (v, x) /\ k = v_key v /\ payload_of (w_st w) (v_account v) x = Some p.
Proof.
  cbn. destruct (worker c n (w_st w)) as [[v x]|]; [|auto]. cbn. rewrite in_app_iff. intros [H|H]; [|auto]. right. exists v, x. split; [reflexivity|].
  destruct (payload_of _ _ _) as [q|]; [|destruct H]. destruct H as [[= <- <-]|[]]. auto.
Qed.
Lemma worker_consents c n w k q : In (k, q) (w_consents (wstep c w (WWorker n))) -> In (k, q) (w_consents w) \/
  exists v x, worker c n (w_st w) = Some (v, x) /\ k = v_key v /\ consent (w_st w) x = Some q.
Proof.
  cbn. destruct (worker c n (w_st w)) as [[v x]|]; [|auto]. cbn. rewrite in_app_iff. intros [H|H]; [|auto]. right. exists v, x. split; [reflexivity|].
  destruct (consent _ _) as [y|]; [|destruct H]. destruct H as [[= <- <-]|[]]. auto.
Qed.
Lemma wstep_st c w o : w_st (wstep c w o) = match o with WSubmit o => step c (verified w) (w_st w) o | _ => w_st w end.
Proof. destruct o; cbn; try reflexivity. now destruct (worker c n (w_st w)) as [[v x]|]. Qed.
Lemma wstep_sigs c w o p : In p (w_sigs w) -> In p (w_sigs (wstep c w o)).
Proof. destruct o; cbn; auto. destruct (worker c n (w_st w)) as [[v x]|]; auto. cbn. rewrite in_app_iff. auto. Qed.
Lemma wstep_consents c w o p : In p (w_consents w) -> In p (w_consents (wstep c w o)).
Proof. destruct o; cbn; auto. destruct (worker c n (w_st w)) as [[v x]|]; auto. cbn. rewrite in_app_iff. auto. Qed.

(** What an honest worker newly signs as a report. *)
Lemma honest_report A K c w n k i id su hv x att : allowed A K w (WWorker n) -> K k -> In (k, PCorroborate i id su hv x att) (w_sigs (wstep c w (WWorker n))) ->
  In (k, PCorroborate i id su hv x att) (w_sigs w) \/
  exists a r t time, s_active (w_st w) = Some a /\ ac_req a = RSend r /\ ac_tx a = Some t /\ i = s_instance (w_st w) /\ id = sr_id r /\ att = tx_attempt t /\
    time <= e_time (w_eth w) /\ contract_says (w_eth w) time i id (tx_expiry t) = if su then Executed else Expired.
Proof.
  intros Hal Hk H. apply worker_sigs in H as [H|(v & y & Hw & -> & Hp)]; [auto|right]. pose proof (worker_inv _ _ _ _ _ Hw) as [Hl Hy]. specialize (Hal v Hl Hk).
  destruct y as [|y conf|y h|y su' hv' k']; try discriminate; cbn in Hp. injection Hp as <- <- <- <- <- <-. destruct Hy as (a & r & t & Ha & Hr & Ht & -> & -> & Hrep).
  destruct (report_true _ _ _ _ _ _ _ _ _ Hrep Hal Ha Hr Ht) as (time & Hle & Hsay). exists a, r, t, time. auto 10.
Qed.

Lemma G_step c A K w o : G c A K w -> allowed A K w o -> G c A K (wstep c w o).
Proof.
  intros [HW HL HK HS HA] Hal. pose proof (wstep_later c w o) as Hlat.
  assert (Hsame : (forall q, o <> WSubmit q) -> (forall k i id hv x att, K k -> In (k, PCorroborate i id true hv x att) (w_sigs (wstep c w o)) -> executed (w_eth (wstep c w o)) i id) -> G c A K (wstep c w o)).
  { intros Hn Hs. assert (E : w_st (wstep c w o) = w_st w) by (rewrite wstep_st; destruct o; auto; now destruct (Hn o)). split; rewrite ?E; auto.
    intros a r t su x H1 H2 H3 H4. destruct (HA a r t su x H1 H2 H3 H4) as (key & hv & Hin & Hh). exists key, hv. split; [now apply wstep_sigs|exact Hh]. }
  destruct o as [n|k p|o|t|i id ex].
  - apply Hsame; [discriminate|]. intros k i id hv x att Hk Hin. apply (executed_later _ _ _ _ Hlat). apply (honest_report A K) in Hin; [|exact Hal|exact Hk].
    destruct Hin as [Hin|(a & r & t & time & _ & _ & _ & _ & _ & _ & _ & Hsay)]; [now apply (HS k i id hv x att)|now apply says_executed in Hsay].
  - apply Hsame; [discriminate|]. intros k' i id hv x att Hk Hin. apply (executed_later _ _ _ _ Hlat). cbn in Hin. destruct Hin as [[= -> _]|Hin]; [now destruct Hal|now apply (HS k' i id hv x att)].
  - clear Hsame. pose proof (step_effect c (verified w) (w_st w) o) as He. split; cbn [wstep w_st w_sigs w_eth].
    + change (W c (step c (verified w) (w_st w) o)). now destruct (effect_fifo _ _ _ _ _ He HW).
    + change (Lists (step c (verified w) (w_st w) o)). now apply (effect_Lists _ _ _ _ _ He).
    + change (keys_of_honest A K (s_vs (step c (verified w) (w_st w) o))).
      assert (Hd : (exists vs, o = EnvValidators vs) \/ (forall vs, o <> EnvValidators vs)) by (destruct o; try (right; discriminate); left; eauto).
      destruct Hd as [[vs ->]|Hd]; [|now rewrite step_vs]. destruct Hal as [_ Hal]. exact (Hal vs eq_refl).
    + exact HS.
    + intros a r t su x. change (s_active (step c (verified w) (w_st w) o) = Some a -> ac_req a = RSend r -> ac_tx a = Some t -> In x (matching t su) ->
        exists key hv, In (key, PCorroborate (s_instance (step c (verified w) (w_st w) o)) (sr_id r) su hv x (tx_attempt t)) (w_sigs w) /\ (A x -> K key)). intros Ha Hr Ht Hx.
      assert (Hd : (exists n, o = OpSetInstance n) \/ (forall n, o <> OpSetInstance n)) by (destruct o; try (right; discriminate); left; eauto). destruct Hd as [[n ->]|Hd].
      * destruct (step_set_instance c (verified w) (w_st w) n HW) as [E|E]; [rewrite E in *; now apply (HA a r t su x)|]. destruct (E a t Ha Ht) as (E1 & E2 & _). unfold matching in Hx. destruct su; [rewrite E1 in Hx|rewrite E2 in Hx]; destruct Hx.
      * rewrite (step_instance c _ _ o Hd). destruct (effect_grown _ _ _ _ _ He a Ha) as [[_ Hu]|(b & Hb & (Hsa & _ & Hg))].
        -- destruct (Hu t Ht) as (_ & E1 & E2 & _). unfold matching in Hx. destruct su; [rewrite E1 in Hx|rewrite E2 in Hx]; destruct Hx.
        -- unfold same_attempt in Hsa. rewrite Ht in Hsa. destruct Hsa as (Er & _ & Hsa). destruct (ac_tx b) as [u|] eqn:Eu; [|contradiction]. destruct Hsa as (_ & Eat & _).
           rewrite Hr in Er. rewrite <- Eat. destruct (Hg u t eq_refl Ht su x Hx) as [Hold|Hrep]; [now apply (HA b r u su x)|].
           rewrite Er in Hrep. cbn [request_id] in Hrep. now apply (reports_signed A K w o).
  - apply Hsame; [discriminate|]. intros k i id hv x att Hk Hin. apply (executed_later _ _ _ _ Hlat). now apply (HS k i id hv x att).
  - apply Hsame; [discriminate|]. intros k i' id' hv x att Hk Hin. apply (executed_later _ _ _ _ Hlat). now apply (HS k i' id' hv x att).
Qed.
Lemma G_run c A K w ops : G c A K w -> honest_history c A K w ops -> G c A K (wrun c w ops).
Proof.
  revert w. induction ops as [|o ops IH]; intros w HG H; [exact HG|]. destruct H as [H1 H2]. cbn. apply IH; [now apply G_step|exact H2].
Qed.
Lemma G_start c A K next life inst vs : keys_of_honest A K vs -> G c A K (wstart (genesis next life inst vs)).
Proof. intros H. split; cbn; try discriminate; try contradiction; [apply genesis_W|apply untouched_lists; discriminate|exact H]. Qed.

(** ** Undisturbed histories *)
Record J (c : config) (A K : N -> Prop) (inst : N) (w : world) : Prop := mkJ {
  J_G : G c A K w;
  J_inst : s_instance (w_st w) = inst;
  J_ids : Ids (w_st w);
  J_log : forall i id ex t, In (i, id, ex, t) (e_log (w_eth w)) -> t <= ex /\ exists k, K k /\ In (k, (i, id, ex)) (w_consents w);
  J_consent : forall k i id ex, K k -> In (k, (i, id, ex)) (w_consents w) -> i = inst /\ id < s_next (w_st w) /\ ~ In id (send_ids (s_queue (w_st w))) /\
    forall a r t, s_active (w_st w) = Some a -> ac_req a = RSend r -> ac_tx a = Some t -> id = sr_id r -> ex = tx_expiry t \/ dead (w_eth w) inst id ex;
  J_sig : forall k i id hv x att, K k -> In (k, PCorroborate i id false hv x att) (w_sigs w) -> id < s_next (w_st w) /\ ~ In id (send_ids (s_queue (w_st w))) /\
    forall a r t, s_active (w_st w) = Some a -> ac_req a = RSend r -> ac_tx a = Some t -> id = sr_id r -> att <= tx_attempt t /\ (att = tx_attempt t -> dead (w_eth w) inst id (tx_expiry t));
  J_settled : forall id d, s_settled (w_st w) !! id = Some d ->
    if se_succeeded d then executed (w_eth w) inst id else forall k ex, K k -> In (k, (inst, id, ex)) (w_consents w) -> dead (w_eth w) inst id ex;
  J_offence : forall p l su x, In (OffenceReported p l su) (s_events (w_st w)) -> In x l -> ~ A x }.

Lemma matching_other t su hv x : matching (BridgeProofs.corroborated t su hv x) (negb su) = matching t (negb su).
Proof. unfold matching, BridgeProofs.corroborated. now destruct su, hv. Qed.
Lemma effect_offence c verify s o s' p l su : effect c verify s o s' -> W c s -> In (OffenceReported p l su) (s_events s') -> In (OffenceReported p l su) (s_events s) \/
  exists a r t hv v, decides verify s o a r t su hv v /\ l = matching t (negb su).
Proof.
  intros He HW Hin. destruct He; auto.
  - match goal with X : same_core _ _ |- _ => destruct (SC_events _ _ X) as [E|[[m E]|[m E]]]; rewrite E in Hin end; auto; destruct Hin as [Hin|Hin]; auto; discriminate.
  - cbn in Hin. destruct Hin as [Hin|Hin]; [discriminate|auto].
  - cbn in Hin. destruct Hin as [Hin|Hin]; [discriminate|auto].
  - cbn in Hin. destruct Hin as [Hin|Hin]; [discriminate|auto].
  - cbn in Hin. destruct Hin as [Hin|Hin]; [discriminate|auto].
  - match goal with X : served _ _ _ _ |- _ => apply served_next in X as (_ & _ & E & _); [|reflexivity] end. rewrite E in Hin. auto.
  - match goal with X : started _ _ _ _ _ |- _ => destruct (started_fields _ _ _ _ _ X) as (_ & _ & _ & _ & E & _) end. rewrite E in Hin. cbn in Hin. destruct Hin as [Hin|Hin]; [discriminate|auto].
  - match goal with X : served _ _ _ _ |- _ => apply served_next in X as (_ & _ & E & _); [|reflexivity] end. rewrite E in Hin. cbn in Hin.
    apply in_app_iff in Hin as [Hin|Hin]; [|auto]. right. unfold offence_of in Hin. destruct (_ =? 0); [destruct Hin|]. destruct Hin as [[= <- <- <-]|[]].
    exists a, r, t, hv, v. subst. split; [|apply matching_other]. exists sig. split; [reflexivity|]. split; [assumption|]. repeat (split; [assumption|]). split.
    + rewrite <- len_corroborated with (hv := hv) (w := v_account v). assumption.
    + rewrite in_app_iff. tauto.
  - cbn in Hin. match goal with X : served _ _ _ _ |- _ => apply served_next in X as (_ & _ & E & _); [|reflexivity] end. rewrite E in Hin. cbn in Hin. destruct Hin as [Hin|Hin]; [discriminate|auto].
  - match goal with X : started _ _ _ _ _ |- _ => destruct (started_fields _ _ _ _ _ X) as (_ & _ & _ & _ & E & _) end. rewrite E in Hin. auto.
Qed.

Lemma decider A K c w o a r t su hv v : G c A K w -> allowed A K w (WSubmit o) -> backed A w (WSubmit o) -> decides (verified w) (w_st w) o a r t su hv v ->
  exists k hv' x, K k /\ In (k, PCorroborate (s_instance (w_st w)) (sr_id r) su hv' x (tx_attempt t)) (w_sigs w).
Proof.
  intros HG Hal Hb (sig & -> & Hv & Ha & Hr & Ht & Hen & Hni). destruct (Hb _ _ _ _ _ _ a t eq_refl Ha Ht Hen) as (x & Hx & HA). destruct Hx as [<-|Hx].
  - destruct (reports_signed A K w _ (sr_id r) su (tx_attempt t) (v_account v) Hal (G_keys _ _ _ _ HG)) as (k & hv' & Hin & Hh); [now apply valid_corroborate|]. exists k, hv', (v_account v). auto.
  - destruct (G_act _ _ _ _ HG a r t su x Ha Hr Ht) as (k & hv' & Hin & Hh); [exact Hx|]. exists k, hv', x. auto.
Qed.

Section JStep.
Context (c : config) (A K : N -> Prop) (inst : N).

(** An attempt that an honest node found expired is dead, and so is everything consented to for the transaction. *)
Lemma failed_dead w a r t k hv x : J c A K inst w -> s_active (w_st w) = Some a -> ac_req a = RSend r -> ac_tx a = Some t ->
  K k -> In (k, PCorroborate (s_instance (w_st w)) (sr_id r) false hv x (tx_attempt t)) (w_sigs w) ->
  forall k' ex, K k' -> In (k', (inst, sr_id r, ex)) (w_consents w) -> dead (w_eth w) inst (sr_id r) ex.
Proof.
  intros HJ Ha Hr Ht Hk Hin k' ex Hk' Hc. destruct (J_sig _ _ _ _ _ HJ _ _ _ _ _ _ Hk Hin) as (_ & _ & Hd). destruct (Hd a r t Ha Hr Ht eq_refl) as [_ Hd1]. specialize (Hd1 eq_refl).
  destruct (J_consent _ _ _ _ _ HJ _ _ _ _ Hk' Hc) as (_ & _ & _ & Hcur). destruct (Hcur a r t Ha Hr Ht eq_refl) as [->|?]; assumption.
Qed.
Lemma dead_not_executed w id : J c A K inst w -> (forall k ex, K k -> In (k, (inst, id, ex)) (w_consents w) -> dead (w_eth w) inst id ex) -> ~ executed (w_eth w) inst id.
Proof. intros HJ Hd (ex & t & Hin). destruct (J_log _ _ _ _ _ HJ _ _ _ _ Hin) as (_ & k & Hk & Hc). destruct (Hd k ex Hk Hc) as [_ Hno]. now apply (Hno t). Qed.

Lemma J_other w o : J c A K inst w -> allowed A K w o -> (forall q, o <> WSubmit q) -> J c A K inst (wstep c w o).
Proof.
  intros HJ Hal Hn. pose proof (wstep_later c w o) as Hlat. assert (E : w_st (wstep c w o) = w_st w) by (rewrite wstep_st; destruct o; auto; now destruct (Hn o)).
  pose proof (J_G _ _ _ _ _ HJ) as HG.
  (* new consents and new honest failure reports concern the active transaction *)
  assert (HC : forall k i id ex, K k -> In (k, (i, id, ex)) (w_consents (wstep c w o)) -> In (k, (i, id, ex)) (w_consents w) \/
    exists a r t, s_active (w_st w) = Some a /\ ac_req a = RSend r /\ ac_tx a = Some t /\ i = inst /\ id = sr_id r /\ ex = tx_expiry t).
  { intros k i id ex Hk H. destruct o as [n|k0 p|o|u|i0 id0 ex0]; auto. apply worker_consents in H as [H|(v & x & Hw & -> & Hc)]; [auto|right].
    destruct (worker_consent _ _ _ _ _ _ _ _ (G_W _ _ _ _ HG) Hw Hc) as (a & r & t & Ha & Hr & Ht & -> & -> & ->). exists a, r, t. rewrite (J_inst _ _ _ _ _ HJ). auto 8. }
  assert (HSg : forall k i id hv x att, K k -> In (k, PCorroborate i id false hv x att) (w_sigs (wstep c w o)) -> In (k, PCorroborate i id false hv x att) (w_sigs w) \/
    exists a r t, s_active (w_st w) = Some a /\ ac_req a = RSend r /\ ac_tx a = Some t /\ id = sr_id r /\ att = tx_attempt t /\ dead (w_eth w) inst id (tx_expiry t)).
  { intros k i id hv x att Hk H. destruct o as [n|k0 p|o|u|i0 id0 ex0]; auto.
    - apply (honest_report A K) in H; [|exact Hal|exact Hk]. destruct H as [H|(a & r & t & time & Ha & Hr & Ht & -> & -> & -> & Hle & Hsay)]; [auto|right]. exists a, r, t. split_and!; auto.
      apply says_expired in Hsay as [Hu He]. rewrite (J_inst _ _ _ _ _ HJ) in Hu. split; [lia|]. intros t1 Hin. pose proof (used_at_false _ _ _ _ _ _ Hu Hin). destruct (J_log _ _ _ _ _ HJ _ _ _ _ Hin) as [? _]. lia.
    - cbn in H. destruct H as [[= -> _]|H]; [now destruct Hal|auto]. }
  split; rewrite ?E.
  - apply G_step; [apply HJ|exact Hal].
  - apply HJ.
  - apply HJ.
  - intros i id ex t Hin. assert (Hold : In (i, id, ex, t) (e_log (w_eth w)) -> t <= ex /\ exists k, K k /\ In (k, (i, id, ex)) (w_consents (wstep c w o))).
    { intros H. destruct (J_log _ _ _ _ _ HJ _ _ _ _ H) as (? & k & ? & ?). split; [assumption|]. exists k. split; [assumption|]. now apply wstep_consents. }
    destruct o as [n|k0 p|o|u|i0 id0 ex0]; try (apply Hold; exact Hin).
    + cbn in Hin. destruct (worker c n (w_st w)) as [[v x]|]; apply Hold; exact Hin.
    + cbn in Hin. unfold execute in Hin. destruct (negb _ && _) eqn:Eb; [|apply Hold; exact Hin]. apply andb_true_iff in Eb as [_ Eb]. apply N.leb_le in Eb. cbn in Hin. destruct Hin as [[= <- <- <- <-]|Hin]; [|apply Hold; exact Hin].
      split; [exact Eb|]. exact Hal.
  - intros k i id ex Hk H. destruct (HC _ _ _ _ Hk H) as [Hold|(a & r & t & Ha & Hr & Ht & -> & -> & ->)].
    + destruct (J_consent _ _ _ _ _ HJ _ _ _ _ Hk Hold) as (E1 & E2 & E3 & E4). split_and!; auto. intros a r t Ha Hr Ht Hid. destruct (E4 a r t Ha Hr Ht Hid); [auto|right]. now apply (dead_later _ _ _ _ _ Hlat).
    + destruct (Ids_active _ a r (J_ids _ _ _ _ _ HJ) Ha Hr) as (_ & E2 & E3). split_and!; auto. intros a' r' t' Ha' Hr' Ht' _. left. congruence.
  - intros k i id hv x att Hk H. destruct (HSg _ _ _ _ _ _ Hk H) as [Hold|(a & r & t & Ha & Hr & Ht & -> & -> & Hd)].
    + destruct (J_sig _ _ _ _ _ HJ _ _ _ _ _ _ Hk Hold) as (E1 & E2 & E3). split_and!; auto. intros a r t Ha Hr Ht Hid. destruct (E3 a r t Ha Hr Ht Hid) as [? Hd]. split; [assumption|]. intros Eat. now apply (dead_later _ _ _ _ _ Hlat), Hd.
    + destruct (Ids_active _ a r (J_ids _ _ _ _ _ HJ) Ha Hr) as (_ & E2 & E3). split_and!; auto. intros a' r' t' Ha' Hr' Ht' _. assert (t' = t) as -> by congruence. split; [lia|]. intros _. now apply (dead_later _ _ _ _ _ Hlat).
  - intros id d Hd. pose proof (J_settled _ _ _ _ _ HJ id d Hd) as H. destruct (se_succeeded d); [now apply (executed_later _ _ _ _ Hlat)|].
    intros k ex Hk Hc. apply (dead_later _ _ _ _ _ Hlat). destruct (HC _ _ _ _ Hk Hc) as [Hold|(a & r & t & Ha & Hr & Ht & _ & -> & ->)]; [now apply (H k)|].
    destruct (Ids_active _ a r (J_ids _ _ _ _ _ HJ) Ha Hr) as (E1 & _). congruence.
  - apply HJ.
Qed.

Lemma J_submit w o : J c A K inst w -> allowed A K w (WSubmit o) -> backed A w (WSubmit o) -> undisturbed w (WSubmit o) -> J c A K inst (wstep c w (WSubmit o)).
Proof.
  intros HJ Hal Hbk (Hn1 & Hn2 & Hnx & Hatt). pose proof (G_step c A K w _ (J_G _ _ _ _ _ HJ) Hal) as HG'. pose proof (J_G _ _ _ _ _ HJ) as HG. pose proof (G_W _ _ _ _ HG) as HW.
  assert (Hi : forall n, o <> OpSetInstance n) by (intros n ->; now destruct (Hn2 n)).
  assert (Hid : match o with OpSetTxId _ => False | _ => True end) by (destruct o; auto; now destruct (Hn1 n)).
  pose proof (step_effect c (verified w) (w_st w) o) as He. set (s' := step c (verified w) (w_st w) o) in *.
  destruct (effect_Ids _ _ _ _ _ He Hid Hnx HW (J_ids _ _ _ _ _ HJ)) as [HI' _].
  assert (Hmono : s_next (w_st w) <= s_next s').
  { destruct (effect_ids _ _ _ _ _ He Hid) as (new & _ & [[_ [E|E]]|[_ E]]); rewrite E; try lia; rewrite N.mod_small by lia; lia. }
  assert (Hkeep : forall id, id < s_next (w_st w) -> ~ In id (send_ids (s_queue (w_st w))) -> id < s_next s' /\ ~ In id (send_ids (s_queue s'))).
  { intros id H1 H2. split; [lia|]. intros H. destruct (effect_queue _ _ _ _ _ He HW id H) as [?| ->]; [contradiction|lia]. }
  pose proof (effect_ends _ _ _ _ _ He HW Hi) as Hends.
  assert (Hfresh : fresh_after (w_st w) s' -> forall id a r, id < s_next (w_st w) -> ~ In id (send_ids (s_queue (w_st w))) -> s_active s' = Some a -> ac_req a = RSend r -> id = sr_id r -> False).
  { intros [_ Hf] id a r H1 H2 Ha Hr ->. destruct (Hf (sr_id r)) as [?|[_ ?]]; [|contradiction|lia]. unfold outstanding. rewrite Ha, Hr. cbn. auto. }
  split.
  - exact HG'.
  - change (s_instance s' = inst). unfold s'. rewrite step_instance by exact Hi. apply HJ.
  - exact HI'.
  - apply HJ.
  - intros k i id ex Hk Hc. change (In (k, (i, id, ex)) (w_consents w)) in Hc. change (i = inst /\ id < s_next s' /\ ~ In id (send_ids (s_queue s')) /\
      forall a r t, s_active s' = Some a -> ac_req a = RSend r -> ac_tx a = Some t -> id = sr_id r -> ex = tx_expiry t \/ dead (w_eth w) inst id ex).
    destruct (J_consent _ _ _ _ _ HJ _ _ _ _ Hk Hc) as (-> & E2 & E3 & E4). destruct (Hkeep id E2 E3) as [? ?]. split_and!; auto. intros a r t Ha Hr Ht Eid.
    destruct Hends as [H1 H2 _|b b' H1 H2 Hg _|b r0 t0 hv v b' t' Hdc H2 Er0 Et' _ _ _|b r0 t0 su hv v d _ _ _ Hf|Hf _].
    + congruence.
    + assert (b' = a) as -> by congruence. destruct Hg as [Hsa _]. unfold same_attempt in Hsa. rewrite Ht in Hsa. destruct Hsa as (Er & _ & Hsa). destruct (ac_tx b) as [u|] eqn:Eu; [|contradiction]. destruct Hsa as (_ & _ & Eex & _).
      rewrite <- Eex. apply (E4 b r u H1); congruence.
    + right. assert (r0 = r) as -> by congruence. subst id. destruct (decider A K c w o b r t0 false hv v HG Hal Hbk Hdc) as (k1 & hv1 & x1 & Hk1 & Hin1). destruct Hdc as (sig & _ & _ & Hb & Hbr & Hbt & _).
      now apply (failed_dead w b r t0 k1 hv1 x1 HJ Hb Hbr Hbt Hk1 Hin1 k ex).
    + destruct (Hfresh Hf id a r); assumption.
    + destruct (Hfresh Hf id a r); assumption.
  - intros k i id hv x att Hk Hin. change (In (k, PCorroborate i id false hv x att) (w_sigs w)) in Hin. change (id < s_next s' /\ ~ In id (send_ids (s_queue s')) /\
      forall a r t, s_active s' = Some a -> ac_req a = RSend r -> ac_tx a = Some t -> id = sr_id r -> att <= tx_attempt t /\ (att = tx_attempt t -> dead (w_eth w) inst id (tx_expiry t))).
    destruct (J_sig _ _ _ _ _ HJ _ _ _ _ _ _ Hk Hin) as (E2 & E3 & E4). destruct (Hkeep id E2 E3) as [? ?]. split_and!; auto. intros a r t Ha Hr Ht Eid.
    destruct Hends as [H1 H2 _|b b' H1 H2 Hg _|b r0 t0 hv0 v b' t' Hdc H2 Er0 Et' _ Eatt _|b r0 t0 su hv0 v d _ _ _ Hf|Hf _].
    + congruence.
    + assert (b' = a) as -> by congruence. destruct Hg as [Hsa _]. unfold same_attempt in Hsa. rewrite Ht in Hsa. destruct Hsa as (Er & _ & Hsa). destruct (ac_tx b) as [u|] eqn:Eu; [|contradiction]. destruct Hsa as (_ & Eat & Eex & _).
      rewrite <- Eex, <- Eat. apply (E4 b r u H1); congruence.
    + assert (r0 = r) as -> by congruence. destruct Hdc as (sig & _ & _ & Hb & Hbr & Hbt & _). destruct (E4 b r t0 Hb Hbr Hbt Eid) as [Hle _]. assert (t' = t) as -> by congruence.
      specialize (Hatt b t0 Hb Hbt). unfold saturating_add in Eatt. rewrite N.min_r in Eatt by lia || rewrite N.min_l in Eatt by lia. split; [lia|]. intros ->. lia.
    + destruct (Hfresh Hf id a r); assumption.
    + destruct (Hfresh Hf id a r); assumption.
  - intros id d Hd. change (s_settled s' !! id = Some d) in Hd. change (if se_succeeded d then executed (w_eth w) inst id else forall k ex, K k -> In (k, (inst, id, ex)) (w_consents w) -> dead (w_eth w) inst id ex).
    assert (Hold : s_settled s' = s_settled (w_st w) -> if se_succeeded d then executed (w_eth w) inst id else forall k ex, K k -> In (k, (inst, id, ex)) (w_consents w) -> dead (w_eth w) inst id ex).
    { intros E. rewrite E in Hd. now apply (J_settled _ _ _ _ _ HJ). }
    destruct Hends as [H1 H2 E|b b' H1 H2 Hg E|b r0 t0 hv0 v b' t' Hdc H2 Er0 Et' _ Eatt E|b r0 t0 su hv0 v d0 Hdc E Esu Hf|Hf E]; try exact (Hold E).
    rewrite E in Hd. destruct (decide (id = sr_id r0)) as [->|Hne]; [|rewrite lookup_insert_ne in Hd by congruence; now apply (J_settled _ _ _ _ _ HJ)].
    rewrite lookup_insert in Hd. apply (inj Some) in Hd as <-. destruct (decider A K c w o b r0 t0 su hv0 v HG Hal Hbk Hdc) as (k1 & hv1 & x1 & Hk1 & Hin1). destruct Hdc as (sig & _ & _ & Hb & Hbr & Hbt & _).
    rewrite Esu. destruct su.
    + rewrite (J_inst _ _ _ _ _ HJ) in Hin1. now apply (G_sig _ _ _ _ HG k1 inst (sr_id r0) hv1 x1 (tx_attempt t0)).
    + now apply (failed_dead w b r0 t0 k1 hv1 x1 HJ Hb Hbr Hbt Hk1 Hin1).
  - intros p l su x Hin Hx HAx. change (In (OffenceReported p l su) (s_events s')) in Hin. apply (effect_offence _ _ _ _ _ _ _ _ He HW) in Hin as [Hin|(b & r & t & hv & v & Hdc & ->)]; [now apply (J_offence _ _ _ _ _ HJ p l su x)|].
    destruct (decider A K c w o b r t su hv v HG Hal Hbk Hdc) as (k1 & hv1 & x1 & Hk1 & Hin1). destruct Hdc as (sig & _ & _ & Hb & Hbr & Hbt & _).
    destruct (G_act _ _ _ _ HG b r t (negb su) x Hb Hbr Hbt Hx) as (k2 & hv2 & Hin2 & Hk2). specialize (Hk2 HAx).
    assert (Hno : forall k hv k' hv' y y', K k -> K k' -> In (k, PCorroborate (s_instance (w_st w)) (sr_id r) true hv y (tx_attempt t)) (w_sigs w) ->
       In (k', PCorroborate (s_instance (w_st w)) (sr_id r) false hv' y' (tx_attempt t)) (w_sigs w) -> False).
    { intros k hv0 k' hv' y y' Hk Hk' H1 H2. apply (dead_not_executed w (sr_id r) HJ); [|rewrite (J_inst _ _ _ _ _ HJ) in H1; now apply (G_sig _ _ _ _ HG k inst (sr_id r) hv0 y (tx_attempt t))].
      now apply (failed_dead w b r t k' hv' y' HJ Hb Hbr Hbt Hk' H2). }
    destruct su; cbn [negb] in Hin2; eauto.
Qed.
Lemma J_step w o : J c A K inst w -> allowed A K w o -> backed A w o -> undisturbed w o -> J c A K inst (wstep c w o).
Proof. intros HJ Hal Hb Hu. destruct o; try (apply J_other; [exact HJ|exact Hal|discriminate]). now apply J_submit. Qed.
Lemma J_run w ops : J c A K inst w -> honest_history c A K w ops -> always c (backed A) w ops -> always c undisturbed w ops -> J c A K inst (wrun c w ops).
Proof.
  revert w. induction ops as [|o ops IH]; intros w HJ H Hb Hu; [exact HJ|]. destruct H as [H1 H2], Hb as [Hb1 Hb2], Hu as [Hu1 Hu2]. cbn. apply IH; auto. now apply J_step.
Qed.
Lemma J_start next life vs : keys_of_honest A K vs -> J c A K inst (wstart (genesis next life inst vs)).
Proof.
  intros H. split; cbn; try discriminate; try contradiction; try reflexivity.
  - now apply G_start.
  - apply genesis_Ids.
Qed.
Lemma J_outcome w id d : J c A K inst w -> s_settled (w_st w) !! id = Some d -> se_succeeded d = true <-> executed (w_eth w) inst id.
Proof.
  intros HJ Hd. pose proof (J_settled _ _ _ _ _ HJ id d Hd) as H. destruct (se_succeeded d); [tauto|]. split; [discriminate|]. intros He. now destruct (dead_not_executed w id HJ H).
Qed.
End JStep.
