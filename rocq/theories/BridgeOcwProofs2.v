(** Lemmas: what workers report and consent to; one step of the world. *)
From Verif Require Import Base BaseLemmas AvnModel CodecModel HttpModel BridgeModel BridgeProofs BridgeSpec BridgeProofs2 BridgeProofs3 BridgeProofs4 BridgeOcwProofs.
From Verif Require Import CorroborateModel CorroborateProps BridgeOcwModel BridgeOcwSpec.

(** ** The worker *)
Lemma ocw_inv s me fin signs h l rep :
  match ocw s me fin signs h l rep with
  | Nothing => True
  | SubmitConfirmation id _ | SendAndSubmitHash id _ => exists a, s_active s = Some a /\ id = request_id (ac_req a)
  | SubmitCorroboration id su hv k => exists a r t, s_active s = Some a /\ ac_req a = RSend r /\ ac_tx a = Some t /\ id = sr_id r /\ k = tx_attempt t /\ rep = Some (su, hv)
  end.
Proof.
  unfold ocw. destruct (s_active s) as [a|] eqn:Ea; [|exact I]. cbv zeta. destruct (fin <? ac_updated a); [exact I|]. destruct (ac_req a) as [r|r] eqn:Er.
  - destruct (ac_tx a) as [t|] eqn:Et; [|exact I].
    destruct (negb (me =? tx_sender t) && negb (has_enough_confirmations s a)).
    + destruct (memN _ _); [exact I|]. exists a. rewrite Er. auto.
    + destruct ((me =? tx_sender t) && has_enough_confirmations s a && negb (negb (tx_hash t =? 0))).
      * destruct l; [exact I|]. exists a. rewrite Er. auto.
      * destruct (negb (me =? tx_sender t) && (negb (tx_hash t =? 0) || (tx_expiry t <? s_time s))); [|exact I].
        destruct (requires_corroboration t me); [|exact I]. destruct rep as [[su hv]|]; [|exact I]. exists a, r, t. auto 8.
  - destruct (has_enough_confirmations s a); [exact I|]. destruct (memN _ _); [exact I|]. exists a. rewrite Er. auto.
Qed.
Lemma worker_inv c n s v x : worker c n s = Some (v, x) -> local_validator n s = Some v /\
  match x with
  | Nothing => True
  | SubmitConfirmation id _ | SendAndSubmitHash id _ => exists a, s_active s = Some a /\ id = request_id (ac_req a)
  | SubmitCorroboration id su hv k => exists a r t, s_active s = Some a /\ ac_req a = RSend r /\ ac_tx a = Some t /\ id = sr_id r /\ k = tx_attempt t /\ report c n s = Some (su, hv)
  end.
Proof.
  unfold worker. destruct (local_validator n s) as [u|]; [|discriminate]. intros E. apply (inj Some) in E. apply pair_equal_spec in E as [-> <-]. split; [reflexivity|].
  pose proof (ocw_inv s (v_account v) (n_finalised n) (fun m => default 0 (n_signs n m)) (default 0 (n_send n)) (n_locked n) (report c n s)) as H.
  destruct (ocw _ _ _ _ _ _ _) as [|id conf|id h|id su hv k]; auto.
  - destruct (s_active s) as [a|]; [|exact I]. destruct (n_signs n (ac_msg a)); [exact H|exact I].
  - destruct (n_send n); [exact H|exact I].
Qed.
Lemma worker_consent c n s v x i id ex : W c s -> worker c n s = Some (v, x) -> consent s x = Some (i, id, ex) ->
  exists a r t, s_active s = Some a /\ ac_req a = RSend r /\ ac_tx a = Some t /\ i = s_instance s /\ id = sr_id r /\ ex = tx_expiry t.
Proof.
  intros HW H Hc. apply worker_inv in H as [_ H]. unfold consent in Hc. destruct x as [|y conf|y h|y su hv k]; try discriminate.
  all: destruct H as (a & Ha & ->); rewrite Ha in Hc; destruct (ac_tx a) as [t|] eqn:Et; [|discriminate];
    pose proof (W_shape _ _ HW a Ha) as Hs; destruct (ac_req a) as [r|r] eqn:Er; [|congruence];
    apply (inj Some) in Hc; apply pair_equal_spec in Hc as [Hc <-]; apply pair_equal_spec in Hc as [<- <-]; exists a, r, t; cbn; auto 8.
Qed.
Lemma report_status c n s su hv : report c n s = Some (su, hv) -> tx_status (n_view n) = Ok (Some su).
Proof.
  unfold report. destruct (s_active s) as [a|]; [|discriminate]. destruct (ac_tx a) as [t|]; [|discriminate]. unfold corroborate.
  destruct (tx_status (n_view n)) as [[b|]|]; cbn; try discriminate. repeat case_match; cbn in *; try discriminate; intros [= ]; congruence.
Qed.
Lemma report_true c n s e su hv a r t : report c n s = Some (su, hv) -> truthful e s n -> s_active s = Some a -> ac_req a = RSend r -> ac_tx a = Some t ->
  exists time, time <= e_time e /\ contract_says e time (s_instance s) (sr_id r) (tx_expiry t) = if su then Executed else Expired.
Proof.
  intros H Ht Ha Hr Hx. apply report_status in H. destruct (n_view n) as [b|] eqn:En; [|discriminate]. destruct (Ht a r t b Ha Hr Hx En) as (time & Hl & ->).
  exists time. split; [exact Hl|]. rewrite C68_status_read in H. destruct (contract_says _ _ _ _ _), su; congruence.
Qed.
Lemma used_at_executed e time inst id : used_at e time inst id = true -> executed e inst id.
Proof.
  unfold used_at, executed. rewrite existsb_exists. intros ([[[i x] ex] t] & Hin & H). rewrite !andb_true_iff, !N.eqb_eq in H. destruct H as ((-> & ->) & _). eauto.
Qed.
Lemma used_at_false e time inst id ex t : used_at e time inst id = false -> In (inst, id, ex, t) (e_log e) -> time < t.
Proof.
  intros H Hin. destruct (N.lt_ge_cases time t) as [|Hle]; [assumption|exfalso]. assert (used_at e time inst id = true); [|congruence].
  unfold used_at. apply existsb_exists. exists (inst, id, ex, t). split; [exact Hin|]. rewrite !N.eqb_refl. cbn. now apply N.leb_le.
Qed.
Lemma says_executed e time inst id ex : contract_says e time inst id ex = Executed -> executed e inst id.
Proof. unfold contract_says. destruct (used_at e time inst id) eqn:E; [intros _; now apply used_at_executed in E|]. destruct (ex <? time); discriminate. Qed.
Lemma says_expired e time inst id ex : contract_says e time inst id ex = Expired -> used_at e time inst id = false /\ ex < time.
Proof. unfold contract_says. destruct (used_at e time inst id) eqn:E; [discriminate|]. destruct (ex <? time) eqn:E2; [|discriminate]. apply N.ltb_lt in E2. auto. Qed.

(** ** Ethereum *)
Definition dead (e : eth) (inst id ex : N) : Prop := ex < e_time e /\ forall t, ~ In (inst, id, ex, t) (e_log e).
Definition later (e e' : eth) : Prop := e_time e <= e_time e' /\ exists new, e_log e' = new ++ e_log e /\ forall i id ex t, In (i, id, ex, t) new -> e_time e <= ex.
Lemma later_refl e : later e e.
Proof. split; [lia|]. exists []. split; [reflexivity|contradiction]. Qed.
Lemma wstep_later c w o : later (w_eth w) (w_eth (wstep c w o)).
Proof.
  destruct o; cbn.
  - destruct (worker c n (w_st w)) as [[v x]|]; apply later_refl.
  - apply later_refl.
  - apply later_refl.
  - split; [cbn; lia|]. exists []. split; [reflexivity|contradiction].
  - unfold execute. destruct (negb _ && _) eqn:E; [|apply later_refl]. apply andb_true_iff in E as [_ E]. apply N.leb_le in E. split; [cbn; lia|].
    eexists [_]. split; [reflexivity|]. intros i x ex t [[= <- <- <- <-]|[]]. exact E.
Qed.
Lemma dead_later e e' inst id ex : later e e' -> dead e inst id ex -> dead e' inst id ex.
Proof. intros (Ht & new & En & Hn) [H1 H2]. split; [lia|]. intros t. rewrite En, in_app_iff. intros [H|H]; [apply Hn in H; lia|now apply (H2 t)]. Qed.
Lemma executed_later e e' inst id : later e e' -> executed e inst id -> executed e' inst id.
Proof. intros (_ & new & En & _) (ex & t & H). exists ex, t. rewrite En. apply in_or_app. auto. Qed.

(** ** The chain *)
Lemma step_vs c verify s o : (forall vs, o <> EnvValidators vs) -> s_vs (step c verify s o) = s_vs s.
Proof.
  intros Ho. pose proof (step_effect c verify s o) as He. remember (step c verify s o) as s' eqn:Es. destruct He; try reflexivity.
  - rewrite Es. unfold step. destruct (valid verify s o); [|reflexivity]. destruct o; try contradiction; try reflexivity; try (now destruct (Ho vs)).
    cbn [exec]. destruct (dispatch (set_instance c n) s) as [s1 r] eqn:E. cbn [fst]. apply dispatch_inv in E as [([] & E & ->)| ->]; [|reflexivity]. unfold set_instance in E. minv E.
    + destruct (ac_req a1) as [r|r]; [|now minv E]. apply set_up_tx_inv in E. destruct E as [[_ Hs]|[_ [e He]]]; [|discriminate]. now destruct (started_fields _ _ _ _ _ Hs) as (_ & _ & _ & _ & _ & E & _).
    + reflexivity.
  - cbn. match goal with X : started _ _ _ _ _ |- _ => destruct (started_fields _ _ _ _ _ X) as (_ & _ & _ & _ & _ & E & _) end. exact E.
  - cbn. match goal with X : started _ _ _ _ _ |- _ => destruct (started_fields _ _ _ _ _ X) as (_ & _ & _ & _ & _ & E & _) end. exact E.
  - match goal with X : served _ _ _ _ |- _ => apply served_next in X as (_ & _ & _ & ->); reflexivity end.
  - match goal with X : started _ _ _ _ _ |- _ => destruct (started_fields _ _ _ _ _ X) as (_ & _ & _ & _ & _ & E & _) end. exact E.
  - match goal with X : served _ _ _ _ |- _ => apply served_next in X as (_ & _ & _ & ->); reflexivity end.
  - cbn. match goal with X : served _ _ _ _ |- _ => apply served_next in X as (_ & _ & _ & ->); reflexivity end.
  - match goal with X : started _ _ _ _ _ |- _ => destruct (started_fields _ _ _ _ _ X) as (_ & _ & _ & _ & _ & E & _) end. exact E.
Qed.
Lemma effect_queue c verify s o s' : effect c verify s o s' -> W c s -> forall x, In x (send_ids (s_queue s')) -> In x (send_ids (s_queue s)) \/ x = s_next s.
Proof.
  intros He HW x. destruct He; auto.
  - match goal with X : same_core _ _ |- _ => rewrite (SC_queue _ _ X) end. auto.
  - cbn. rewrite send_ids_app, in_app_iff. cbn. intuition.
  - match goal with X : started _ _ _ _ _ |- _ => destruct (started_fields _ _ _ _ _ X) as (E & _) end. cbn in E |- *. rewrite E. auto.
  - cbn. rewrite send_ids_app, in_app_iff. cbn. intuition.
  - match goal with X : started _ _ _ _ _ |- _ => destruct (started_fields _ _ _ _ _ X) as (E & _) end. cbn in E |- *. rewrite E. auto.
  - match goal with X : served _ _ _ _ |- _ => apply (served_fresh c s) in X as [_ F]; [|reflexivity] end. intros Hx. destruct (F x) as [?|[? _]]; auto; [|congruence].
    unfold outstanding. rewrite send_ids_app. apply in_or_app. auto.
  - match goal with X : started _ _ _ _ _ |- _ => destruct (started_fields _ _ _ _ _ X) as (E & _) end. cbn in E |- *. rewrite E. auto.
  - match goal with X : served _ _ _ _ |- _ => apply (served_fresh c s) in X as [_ F]; [|reflexivity] end. intros Hx. destruct (F x) as [?|[? _]]; auto; [|congruence].
    unfold outstanding. rewrite send_ids_app. apply in_or_app. auto.
  - cbn. match goal with X : served _ _ _ _ |- _ => apply (served_fresh c s) in X as [_ F]; [|reflexivity] end. intros Hx. destruct (F x) as [?|[? _]]; auto; [|congruence].
    unfold outstanding. rewrite send_ids_app. apply in_or_app. auto.
  - match goal with X : started _ _ _ _ _ |- _ => destruct (started_fields _ _ _ _ _ X) as (E & _) end. cbn in E |- *. rewrite E. auto.
Qed.
Lemma Ids_active s a r : Ids s -> s_active s = Some a -> ac_req a = RSend r -> s_settled s !! sr_id r = None /\ ~ In (sr_id r) (send_ids (s_queue s)) /\ sr_id r < s_next s.
Proof.
  intros [HS HL (told & E & Hs)] Ha Hr. unfold outstanding in E. rewrite Ha, Hr in E. apply sorted_nodup in HS. rewrite E, send_ids_app in HS, HL. cbn in HS, HL. split_and!.
  - destruct (s_settled s !! sr_id r) as [d|] eqn:Ed; [|reflexivity]. exfalso. apply NoDup_app in HS as (_ & HS & _). apply (HS (sr_id r)); [apply elem_of_list_In, Hs; eauto|left].
  - apply NoDup_app in HS as (_ & _ & HS). apply NoDup_cons in HS as [HS _]. now rewrite <- elem_of_list_In.
  - apply Forall_app in HL as [_ HL]. now apply Forall_cons in HL as [? _].
Qed.
