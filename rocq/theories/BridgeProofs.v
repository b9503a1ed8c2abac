(** What each operation of the outgoing bridge can do, as a case list. *)
From Verif Require Import Base BaseLemmas AvnModel CodecModel BridgeModel.

(** A request becomes the active one: no confirmations, no hash, no corroborations yet. *)
Inductive started (c : config) (s : st) : request -> N -> st -> Prop :=
| StSend r h i sender k :
    let expiry := (s_time s + s_life s) mod 2 ^ 64 in
    bound_params (extended r expiry) = Ok tt ->
    c_hash_send c (sr_fn r) (extended r expiry) (s_instance s) = Some h ->
    advance_primary (s_vs s) (s_index s) = Ok (i, sender) ->
    started c s (RSend r) k
      (s <| s_index := i |> <| s_active := Some (mkActive (RSend r) h []
         (Some (mkTx (extended r expiry) sender expiry 0 [] [] [] [] k)) (s_block s)) |>)
| StLower r h : c_hash_lower c (lr_params r) (s_instance s) = Some h ->
    started c s (RLower r) 0 (s <| s_active := Some (mkActive (RLower r) h [] None (s_block s)) |>).

(** Requests taken from the front of the queue until one could be started. *)
Inductive served (c : config) : list request -> st -> st -> Prop :=
| SvNil s : served c [] s (s <| s_queue := [] |>)
| SvOk r rest s s' : started c (s <| s_queue := rest |>) r 0 s' -> served c (r :: rest) s s'
| SvSkip r rest s s' :
    served c rest (s <| s_queue := rest |> <| s_notices := failure_notice r :: s_notices s |> <| s_active := None |>) s' ->
    served c (r :: rest) s s'.

Definition add_confirmation_to (a : active) (conf : N) : active := a <| ac_confirmations := ac_confirmations a ++ [conf] |>.
Definition corroborated (t : tx_data) (su hv : bool) (who : N) : tx_data :=
  let t1 := if hv then t <| tx_valid_hash := tx_valid_hash t ++ [who] |> else t <| tx_invalid_hash := tx_invalid_hash t ++ [who] |> in
  if su then t1 <| tx_success := tx_success t ++ [who] |> else t1 <| tx_failure := tx_failure t ++ [who] |>.
Definition matching (t : tx_data) (su : bool) : list N := if su then tx_success t else tx_failure t.
Definition saved (s : st) (a : active) : st := s <| s_active := Some (a <| ac_updated := s_block s |>) |>.
Definition offence_of (t : tx_data) (su : bool) : list event :=
  if len (matching t (negb su)) =? 0 then [] else [OffenceReported (tx_sender t) (matching t (negb su)) su].

(** Only settings and the environment changed. *)
Record same_core (s s' : st) : Prop := mkSameCore {
  SC_queue : s_queue s' = s_queue s; SC_active : s_active s' = s_active s; SC_settled : s_settled s' = s_settled s;
  SC_notices : s_notices s' = s_notices s;
  SC_events : s_events s' = s_events s \/ (exists n, s_events s' = EthTxLifetimeUpdated n :: s_events s) \/ (exists n, s_events s' = EthTxIdUpdated n :: s_events s) }.
Definition neutral_op (o : op) : Prop :=
  match o with OpSetLifetime _ | OpSetTxId _ | OpSetInstance _ | EnvBlock _ _ | EnvValidators _ | EnvIndex _ | EnvKeys _ | EnvHandler _ => True | _ => False end.

Inductive effect (c : config) (verify : N -> payload -> N -> bool) (s : st) : op -> st -> Prop :=
| FNone o : effect c verify s o s
| FNeutral o s' : neutral_op o -> same_core s s' ->
    (s_next s' = s_next s \/ exists n, o = OpSetTxId n /\ s_next s' = n) -> effect c verify s o s'
| FBurn fn ps caller : effect c verify s (OpPublish false fn ps caller) (s <| s_next := (s_next s + 1) mod 2 ^ 32 |>)
| FQueued rb fn ps caller a : s_active s = Some a -> len (s_queue s) < c_max_queue c ->
    let r := mkSend (s_next s) fn ps caller in
    effect c verify s (OpPublish rb fn ps caller)
      (s <| s_next := (s_next s + 1) mod 2 ^ 32 |> <| s_queue := s_queue s ++ [RSend r] |> <| s_events := PublishToEthereum r :: s_events s |>)
| FStarted rb fn ps caller s' : s_active s = None ->
    let r := mkSend (s_next s) fn ps caller in
    started c (s <| s_next := (s_next s + 1) mod 2 ^ 32 |>) (RSend r) 0 s' ->
    effect c verify s (OpPublish rb fn ps caller) (s' <| s_events := PublishToEthereum r :: s_events s |>)
| FQueuedLower rb id params caller a : s_active s = Some a -> len (s_queue s) < c_max_queue c ->
    let r := mkLower id params caller in
    effect c verify s (OpLowerProof rb id params caller)
      (s <| s_queue := s_queue s ++ [RLower r] |> <| s_events := LowerProofRequested r :: s_events s |>)
| FStartedLower rb id params caller s' : s_active s = None ->
    let r := mkLower id params caller in
    started c s (RLower r) 0 s' ->
    effect c verify s (OpLowerProof rb id params caller) (s' <| s_events := LowerProofRequested r :: s_events s |>)
| FConfirmed id conf v sig a : valid verify s (OpConfirm id conf v sig) = true -> s_active s = Some a -> id_matches (ac_req a) id = true ->
    has_enough_confirmations s a = false ->
    (forall t, ac_tx a = Some t -> match ac_req a with RSend _ => v_account v <> tx_sender t | _ => True end) ->
    eth_signature_is_valid c s (ac_msg a) (v_account v) conf = true -> ~ In conf (ac_confirmations a) ->
    len (ac_confirmations a) < CONFIRMATIONS_LIMIT ->
    (forall r, ac_req a = RLower r -> has_enough_confirmations s (add_confirmation_to a conf) = false) ->
    effect c verify s (OpConfirm id conf v sig) (saved s (add_confirmation_to a conf))
| FProofDone id conf v sig a r s' : valid verify s (OpConfirm id conf v sig) = true -> s_active s = Some a -> ac_req a = RLower r -> lr_id r = id ->
    has_enough_confirmations s a = false ->
    eth_signature_is_valid c s (ac_msg a) (v_account v) conf = true -> ~ In conf (ac_confirmations a) ->
    len (ac_confirmations a) < CONFIRMATIONS_LIMIT ->
    has_enough_confirmations s (add_confirmation_to a conf) = true ->
    served c (s_queue s) (s <| s_notices := NProof (lr_id r) (lr_caller r) true :: s_notices s |> <| s_active := None |>) s' ->
    effect c verify s (OpConfirm id conf v sig) s'
| FHash id hash v sig a t : valid verify s (OpEthTxHash id hash v sig) = true -> s_active s = Some a -> id_matches (ac_req a) id = true ->
    ac_tx a = Some t -> tx_hash t = 0 -> tx_sender t = v_account v ->
    effect c verify s (OpEthTxHash id hash v sig) (saved s (a <| ac_tx := Some (t <| tx_hash := hash |>) |>))
| FCorroborated id su hv v k sig a t : valid verify s (OpCorroborate id su hv v k sig) = true -> s_active s = Some a -> id_matches (ac_req a) id = true ->
    ac_tx a = Some t -> k = tx_attempt t -> v_account v <> tx_sender t ->
    ~ In (v_account v) (tx_success t) -> ~ In (v_account v) (tx_failure t) ->
    has_enough_corroborations s (len (matching (corroborated t su hv (v_account v)) su)) = false ->
    effect c verify s (OpCorroborate id su hv v k sig) (saved s (a <| ac_tx := Some (corroborated t su hv (v_account v)) |>))
| FReplayed id hv v k sig a r t t' s' : valid verify s (OpCorroborate id false hv v k sig) = true -> s_active s = Some a -> ac_req a = RSend r -> sr_id r = id ->
    ac_tx a = Some t -> k = tx_attempt t -> v_account v <> tx_sender t ->
    ~ In (v_account v) (tx_success t) -> ~ In (v_account v) (tx_failure t) ->
    t' = corroborated t false hv (v_account v) ->
    has_enough_corroborations s (len (tx_failure t')) = true -> has_enough_corroborations s (len (tx_invalid_hash t')) = true ->
    started c (s <| s_events := ActiveRequestRetried r :: s_events s |>) (RSend r) (saturating_add 65535 (tx_attempt t') 1) s' ->
    effect c verify s (OpCorroborate id false hv v k sig) s'
| FTxDone id su hv v k sig a r t t' s' : valid verify s (OpCorroborate id su hv v k sig) = true -> s_active s = Some a -> ac_req a = RSend r -> sr_id r = id ->
    ac_tx a = Some t -> k = tx_attempt t -> v_account v <> tx_sender t ->
    ~ In (v_account v) (tx_success t) -> ~ In (v_account v) (tx_failure t) ->
    t' = corroborated t su hv (v_account v) ->
    has_enough_corroborations s (len (matching t' su)) = true ->
    (su = false -> has_enough_corroborations s (len (tx_invalid_hash t')) = false) ->
    s_handler s (sr_id r) su = true ->
    served c (s_queue s)
      (s <| s_notices := NResult (sr_id r) (sr_caller r) su :: s_notices s |>
         <| s_events := offence_of t' su ++ s_events s |>
         <| s_settled := <[sr_id r := mkSettled (sr_fn r) (tx_params t') (tx_sender t')
               (if su && has_enough_corroborations s (len (tx_invalid_hash t')) then 0 else tx_hash t') su]> (s_settled s) |>
         <| s_active := None |>) s' ->
    effect c verify s (OpCorroborate id su hv v k sig) s'
| FRemoved a s' : s_active s = Some a ->
    served c (s_queue s) (s <| s_notices := failure_notice (ac_req a) :: s_notices s |> <| s_active := None |>) s' ->
    effect c verify s OpRemoveActive (s' <| s_events := ActiveRequestRemoved (request_id (ac_req a)) :: s_events s' |>)
| FReset n a r s' : s_active s = Some a -> ac_req a = RSend r ->
    started c (s <| s_instance := n |>) (RSend r) 0 s' ->
    effect c verify s (OpSetInstance n) s'.

Lemma set_up_tx_inv c r rp s s' res : set_up_active_tx c r rp s = (s', res) ->
  (res = Ok tt /\ started c s (RSend r) (default 0 rp) s') \/ (s' = s /\ exists e, res = Err e).
Proof.
  unfold set_up_active_tx, mbind_, get_st, lift_res, some_or, assign_sender, modify, mret_, fail. cbv zeta.
  set (expiry := (s_time s + s_life s) mod 2 ^ 64).
  destruct (bound_params (extended r expiry)) as [[]|e] eqn:Eb; [|intros H; injection H as <- <-; eauto].
  destruct (c_hash_send c (sr_fn r) (extended r expiry) (s_instance s)) as [h|] eqn:Eh; [|intros H; injection H as <- <-; eauto].
  unfold mbind_, get_st. destruct (advance_primary (s_vs s) (s_index s)) as [[i a]|e] eqn:Ea; cbn; [|intros H; injection H as <- <-; eauto].
  intros H; injection H as <- <-. left. split; [reflexivity|].
  exact (StSend c s r h i a (default 0 rp) Eb Eh Ea).
Qed.
Lemma set_up_lower_inv c r s s' res : set_up_active_lower_proof c r s = (s', res) ->
  (res = Ok tt /\ started c s (RLower r) 0 s') \/ (s' = s /\ exists e, res = Err e).
Proof.
  unfold set_up_active_lower_proof, mbind_, get_st, some_or, modify, mret_, fail.
  destruct (c_hash_lower c (lr_params r) (s_instance s)) as [h|] eqn:Eh; intros H; injection H as <- <-; [left|right; eauto].
  split; [reflexivity|]. now apply StLower.
Qed.
Lemma set_up_inv c r s s' res : set_up c r s = (s', res) ->
  (res = Ok tt /\ started c s r 0 s') \/ (s' = s /\ exists e, res = Err e).
Proof. destruct r; cbn [set_up]; intros H; [apply set_up_tx_inv in H|apply set_up_lower_inv in H]; exact H. Qed.

Lemma serve_inv c q : forall s s' res, serve c q s = (s', res) -> res = Ok tt /\ served c q s s'.
Proof.
  induction q as [|r rest IH]; intros s s' res H; cbn [serve] in H.
  - apply modify_inv in H as [-> ->]. split; [reflexivity|constructor].
  - unfold mbind_ at 1, modify at 1 in H. unfold mbind_ at 1, attempt in H.
    set (s1 := s <| s_queue := rest |>) in *.
    destruct (set_up c r s1) as [s2 r2] eqn:E. apply set_up_inv in E as [[-> Hst]|[-> [e ->]]]; cbn [is_ok] in H.
    + apply mret_inv in H as [-> ->]. split; [reflexivity|]. now apply SvOk.
    + unfold mbind_ at 1, notify, modify at 1 in H. unfold mbind_ at 1, modify at 1 in H.
      apply IH in H as [-> H]. split; [reflexivity|]. apply SvSkip. exact H.
Qed.
Lemma process_next_inv c s s' res : process_next_request c s = (s', res) ->
  res = Ok tt /\ served c (s_queue s) (s <| s_active := None |>) s'.
Proof. unfold process_next_request, mbind_ at 1, modify at 1, mbind_, gets. apply serve_inv. Qed.

Lemma started_fields c s r k s' : started c s r k s' -> s_queue s' = s_queue s /\ s_next s' = s_next s /\ s_settled s' = s_settled s /\
  s_notices s' = s_notices s /\ s_events s' = s_events s /\ s_vs s' = s_vs s /\ s_instance s' = s_instance s /\
  exists a, s_active s' = Some a /\ ac_req a = r /\ ac_confirmations a = [] /\
    (forall t, ac_tx a = Some t -> tx_success t = [] /\ tx_failure t = [] /\ tx_valid_hash t = [] /\ tx_invalid_hash t = [] /\ tx_hash t = 0 /\ tx_attempt t = k) /\
    (match r with RSend _ => is_Some (ac_tx a) | RLower _ => ac_tx a = None end).
Proof.
  intros H. destruct H; cbn; repeat split; eexists; (split; [reflexivity|]); cbn; repeat split; eauto;
    match goal with X : Some _ = Some _ |- _ => injection X as <-; reflexivity | X : None = Some _ |- _ => discriminate end.
Qed.

Lemma add_new_send_ok c fn ps caller s s' r : add_new_send_request c fn ps caller s = (s', Ok r) ->
  r = mkSend (s_next s) fn ps caller /\
  ((exists x, s_active s = Some x /\ len (s_queue s) < c_max_queue c /\
     s' = s <| s_next := (s_next s + 1) mod 2 ^ 32 |> <| s_queue := s_queue s ++ [RSend r] |>) \/
   (s_active s = None /\ started c (s <| s_next := (s_next s + 1) mod 2 ^ 32 |>) (RSend r) 0 s')).
Proof.
  unfold add_new_send_request, use_next_tx_id, queue_request. intros H. minv H; (split; [reflexivity|]).
  - left. match goal with X : _ = Some ?x |- _ => exists x; cbn in X end. cbn in *. repeat split; auto. lia.
  - right. match goal with X : set_up_active_tx _ _ _ _ = (_, Ok ?u) |- _ => destruct u; apply set_up_tx_inv in X as [[_ Hst]|[_ [e He]]]; [|discriminate] end.
    auto.
Qed.
Lemma add_new_send_err c fn ps caller s s' e : add_new_send_request c fn ps caller s = (s', Err e) ->
  s' = s \/ s' = s <| s_next := (s_next s + 1) mod 2 ^ 32 |>.
Proof.
  unfold add_new_send_request. intros E1.
  apply mbind_inv in E1 as [(s2 & u1 & E1' & E1)|(e1 & E1 & _)]; [apply ensure_inv in E1' as ->|apply ensure_inv in E1 as ->; auto].
  apply mbind_inv in E1 as [(s2 & u2 & E1' & E1)|(e2 & E1 & _)]; [apply ensure_inv in E1' as ->|apply ensure_inv in E1 as ->; auto].
  apply mbind_inv in E1 as [(s2 & u3 & E1' & E1)|(e3 & E1 & _)]; [|unfold use_next_tx_id, mbind_, gets, modify, mret_ in E1; discriminate].
  unfold use_next_tx_id, mbind_, gets, modify, mret_ in E1'. injection E1' as <- <-. right.
  apply mbind_inv in E1 as [(s2 & u4 & E1' & E1)|(e4 & E1 & _)]; [apply ensure_inv in E1' as ->|now apply ensure_inv in E1 as ->].
  apply mbind_inv in E1 as [(s2 & u5 & E1' & E1)|(e5 & E1 & _)]; [apply lift_res_inv in E1' as [-> _]|now apply lift_res_inv in E1 as [-> _]].
  apply mbind_inv in E1 as [(s2 & u6 & E1' & E1)|(e6 & E1 & _)]; [apply ensure_inv in E1' as ->|now apply ensure_inv in E1 as ->].
  cbv zeta in E1. apply mbind_inv in E1 as [(s2 & u7 & E1' & E1)|(e7 & E1 & _)]; [|apply gets_inv in E1 as [? _]; discriminate].
  apply gets_inv in E1' as [E1' ->]. injection E1' as ->. cbn in E1.
  apply mbind_inv in E1 as [(s2 & u8 & E1' & E1)|(e8 & E1 & _)]; [discriminate|].
  destruct (s_active s) as [x|] eqn:Ea.
  - unfold queue_request in E1. apply mbind_inv in E1 as [(s2 & u9 & E1' & E1)|(e9 & E1 & _)]; [|apply gets_inv in E1 as [? _]; discriminate].
    apply gets_inv in E1' as [_ ->]. apply mbind_inv in E1 as [(s2 & u10 & E1' & E1)|(e10 & E1 & _)]; [apply modify_inv in E1 as [_ ?]; discriminate|].
    now apply ensure_inv in E1 as ->.
  - apply set_up_tx_inv in E1 as [[? _]|[-> _]]; [discriminate|reflexivity].
Qed.
Lemma generate_ok c id params caller s s1 : generate_lower_proof c id params caller s = (s1, Ok tt) ->
  forall verify rb, effect c verify s (OpLowerProof rb id params caller) s1.
Proof.
  intros E1 verify rb. unfold generate_lower_proof, emit, queue_request in E1. minv E1.
  - cbn in *. eapply FQueuedLower; [eassumption|]. lia.
  - match goal with X : set_up_active_lower_proof _ _ _ = (_, Ok ?u) |- _ => destruct u; apply set_up_lower_inv in X as [[_ Hst]|[_ [e He]]]; [|discriminate] end.
    pose proof (started_fields _ _ _ _ _ Hst) as (_ & _ & _ & _ & Ev & _). cbn in Ev. rewrite Ev. now apply FStartedLower.
Qed.
Lemma generate_err c id params caller s s1 e : generate_lower_proof c id params caller s = (s1, Err e) -> s1 = s.
Proof.
  intros E1. unfold generate_lower_proof in E1.
  apply mbind_inv in E1 as [(s2 & u1 & E1' & E1)|(e1 & E1 & _)]; [apply ensure_inv in E1' as ->|now apply ensure_inv in E1 as ->].
  cbv zeta in E1. apply mbind_inv in E1 as [(s2 & u2 & E1' & E1)|(e2 & E1 & _)]; [|apply gets_inv in E1 as [? _]; discriminate].
  apply gets_inv in E1' as [E1' ->]. injection E1' as ->.
  apply mbind_inv in E1 as [(s2 & u3 & E1' & E1)|(e3 & E1 & _)]; [apply modify_inv in E1 as [_ ?]; discriminate|].
  destruct (s_active s) as [x|] eqn:Ea.
  - unfold queue_request in E1. apply mbind_inv in E1 as [(s2 & u4 & E1' & E1)|(e4 & E1 & _)]; [|apply gets_inv in E1 as [? _]; discriminate].
    apply gets_inv in E1' as [_ ->]. apply mbind_inv in E1 as [(s2 & u5 & E1' & E1)|(e5 & E1 & _)]; [apply modify_inv in E1 as [_ ?]; discriminate|].
    now apply ensure_inv in E1 as ->.
  - apply set_up_lower_inv in E1 as [[? _]|[-> _]]; [discriminate|reflexivity].
Qed.

Lemma publish_effect c verify rb fn ps caller s s1 id : publish c fn ps caller s = (s1, Ok id) ->
  id = s_next s /\ effect c verify s (OpPublish rb fn ps caller) s1.
Proof.
  unfold publish, emit. intros H. minv H.
  match goal with X : add_new_send_request _ _ _ _ _ = _ |- _ => apply add_new_send_ok in X as [-> [(x & Ea & Hl & ->)|[Ea Hst]]] end.
  - split; [reflexivity|]. exact (FQueued c verify s rb fn ps caller x Ea Hl).
  - split; [reflexivity|]. pose proof (started_fields _ _ _ _ _ Hst) as (_ & _ & _ & _ & Ev & _). cbn in Ev. rewrite Ev. exact (FStarted c verify s rb fn ps caller _ Ea Hst).
Qed.

Lemma step_effect c verify s o : effect c verify s o (step c verify s o).
Proof.
  unfold step. destruct (valid verify s o) eqn:Hv; [|apply FNone].
  destruct (exec c o s) as [s' res] eqn:E. cbn [fst]. destruct o; cbn [exec] in E.
  - (* publish *)
    unfold maybe_dispatch in E. destruct rolled_back.
    + destruct (dispatch _ s) as [s1 r1] eqn:E1. injection E as <- <-. destruct r1 as [id|e]; [|apply dispatch_err in E1; subst; apply FNone].
      apply dispatch_ok in E1. now apply (publish_effect c verify true) in E1 as [_ E1].
    + destruct (publish c fn ps caller s) as [s1 [id|e]] eqn:E1; injection E as <- <-; [now apply (publish_effect c verify false) in E1 as [_ E1]|].
      unfold publish in E1. apply mbind_inv in E1 as [(s2 & r & _ & E2)|(e1 & E1 & _)]; [unfold emit, mbind_, modify, mret_ in E2; discriminate|].
      apply add_new_send_err in E1 as [->| ->]; [apply FNone|apply FBurn].
  - (* lower proof *)
    unfold maybe_dispatch in E. destruct rolled_back.
    + destruct (dispatch _ s) as [s1 r1] eqn:E1. injection E as <- <-. destruct r1 as [[]|e]; [|apply dispatch_err in E1; subst; apply FNone].
      apply dispatch_ok in E1. now apply generate_ok.
    + destruct (generate_lower_proof c id params caller s) as [s1 [[]|e]] eqn:E1; injection E as <- <-; [now apply generate_ok|].
      apply generate_err in E1 as ->. apply FNone.
  - (* confirm *)
    apply dispatch_inv in E as [([] & E & ->)| ->]; [|apply FNone]. unfold add_confirmation in E. minv E; try (apply FNone).
    match goal with X : s_active s = Some ?x |- _ => rename X into Ha; rename x into a end.
    match goal with X : eth_signature_is_valid _ _ _ _ _ = true |- _ => rename X into Hsig end.
    match goal with X : negb (memN _ _) = true |- _ => apply negb_true_iff, memN_false in X; rename X into Hdup end.
    match goal with X : id_matches _ _ = true |- _ => rename X into Hid end.
    match goal with X : has_enough_confirmations s a = false |- _ => rename X into Hne end.
    destruct (ac_req a) as [r|r] eqn:Er.
    + unfold save_active in E. minv E.
      apply (FConfirmed c verify s id conf author sig a); auto; rewrite ?Er; auto; try lia; [|congruence].
      intros t Ht. rewrite Ht in *. lia.
    + minv E.
      * unfold complete_lower_proof_request, notify in E. minv E.
        apply process_next_inv in E as [_ E]. apply (FProofDone c verify s id conf author sig a r); auto; try lia. cbn in Hid. lia.
      * unfold save_active in E. minv E. apply (FConfirmed c verify s id conf author sig a); auto; rewrite ?Er; auto. lia.
  - (* hash *)
    apply dispatch_inv in E as [([] & E & ->)| ->]; [|apply FNone]. unfold add_eth_tx_hash in E. minv E; try (apply FNone).
    unfold save_active in E. minv E. eapply FHash; eauto; lia.
  - (* corroborate *)
    apply dispatch_inv in E as [([] & E & ->)| ->]; [|apply FNone]. unfold add_corroboration in E. minv E; try (apply FNone);
    match goal with X : s_active s = Some ?x |- _ => rename X into Ha; rename x into a end;
    match goal with X : id_matches _ _ = true |- _ => rename X into Hid end;
    match goal with X : negb (requires_corroboration _ _) = false |- _ => unfold requires_corroboration in X;
           apply negb_false_iff, andb_true_iff in X as [HX1 HX2]; apply negb_true_iff, memN_false in HX1, HX2 end;
    match goal with Y : ac_tx _ = Some ?u, X : has_enough_corroborations _ (len (if _ then tx_success ?x else _)) = _ |- _ =>
           change x with (corroborated u succeeded hash_valid (v_account author)) in *; rename X into Hq; rename Y into Ht; rename u into t end.
    + destruct (ac_req a) as [r|r] eqn:Er; [|now apply fail_ok in E].
      unfold finalize_state in E. minv E.
      * unfold replay_send_request, emit in E. minv E. apply set_up_tx_inv in E as [[_ E]|[_ [e He]]]; [|discriminate].
        match goal with X : negb succeeded && _ = true |- _ => apply andb_true_iff in X as [Hs Hi]; apply negb_true_iff in Hs; subst succeeded end.
        cbn in Hid. eapply (FReplayed c verify s id hash_valid author attempt sig a r t); eauto; lia.
      * unfold complete_transaction, notify, report_offence, emit in E.
        match goal with X : negb succeeded && _ = false |- _ => rename X into Hi end.
        assert (HI : succeeded = false -> has_enough_corroborations s (len (tx_invalid_hash (corroborated t succeeded hash_valid (v_account author)))) = false)
          by (intros ->; exact Hi). clear Hi.
        cbn in Hid.
        apply (FTxDone c verify s id succeeded hash_valid author attempt sig a r t (corroborated t succeeded hash_valid (v_account author)) s' Hv Ha Er); [lia|exact Ht|lia|lia|exact HX1|exact HX2|reflexivity|exact Hq|exact HI|..].
        -- minv E; cbn in *; assumption.
        -- unfold offence_of. destruct succeeded; minv E; apply process_next_inv in E as [_ E]; cbn [matching negb] in *;
             match goal with X : (len _ =? 0) = _ |- _ => rewrite X end; exact E.
    + unfold save_active in E. minv E. apply (FCorroborated c verify s id succeeded hash_valid author attempt sig a t); auto; lia.
  - apply mbind_inv in E as [(s1 & u & E1 & E)|(e & E & _)]; [|discriminate]. apply modify_inv in E1 as [-> _]. apply modify_inv in E as [-> _].
    apply FNeutral; [exact I| |left; reflexivity]. constructor; try reflexivity. cbn. eauto.
  - apply mbind_inv in E as [(s1 & u & E1 & E)|(e & E & _)]; [|discriminate]. apply modify_inv in E1 as [-> _]. apply modify_inv in E as [-> _].
    apply FNeutral; [exact I| |right; exists n; split; reflexivity]. constructor; try reflexivity. cbn. eauto.
  - apply dispatch_inv in E as [([] & E & ->)| ->]; [|apply FNone]. unfold remove_active_request, notify, emit in E. minv E.
    match goal with X : process_next_request _ _ = _ |- _ => apply process_next_inv in X as [_ X] end.
    eapply FRemoved; eassumption.
  - apply dispatch_inv in E as [([] & E & ->)| ->]; [|apply FNone]. unfold set_instance in E. minv E.
    + match goal with X : _ = Some ?x |- _ => cbn in X; rename X into Ha; rename x into act end.
      destruct (ac_req act) as [r|r] eqn:Er.
      * apply set_up_tx_inv in E as [[_ E]|[_ [e He]]]; [|discriminate]. eapply FReset; eassumption.
      * minv E. apply FNeutral; [exact I| |left; reflexivity]. constructor; auto; cbn; auto.
    + apply FNeutral; [exact I| |left; reflexivity]. constructor; auto; cbn; auto.
  - apply modify_inv in E as [-> _]. apply FNeutral; [exact I| |left; reflexivity]. constructor; auto; cbn; auto.
  - apply modify_inv in E as [-> _]. apply FNeutral; [exact I| |left; reflexivity]. constructor; auto; cbn; auto.
  - apply modify_inv in E as [-> _]. apply FNeutral; [exact I| |left; reflexivity]. constructor; auto; cbn; auto.
  - apply modify_inv in E as [-> _]. apply FNeutral; [exact I| |left; reflexivity]. constructor; auto; cbn; auto.
  - apply modify_inv in E as [-> _]. apply FNeutral; [exact I| |left; reflexivity]. constructor; auto; cbn; auto.
Qed.
