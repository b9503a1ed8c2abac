(** What each operation of the token manager can do, as a case list. *)
From Verif Require Import Base BaseLemmas CodecModel CodecProofs SigModel TokenModel.

Definition add_event (e : event) (s : st) : st := s <| s_events := e :: s_events s |>.

(** Moving [amount] of [token]. *)
Inductive xfer (token from to amount : N) (s : st) : st -> Prop :=
| XNop : token = s_avt s -> amount = 0 \/ from = to -> xfer token from to amount s s
| XNative : token = s_avt s -> amount <> 0 -> from <> to ->
    amount <= free_of s from -> free_of s to + amount <= U128_MAX ->
    xfer token from to amount s
      (s <| s_free := <[to := free_of s to + amount]> (<[from := free_of s from - amount]> (s_free s)) |>)
| XToken : token <> s_avt s -> amount <= bal_of s token from -> from <> to ->
    bal_of s token to + amount <= U128_MAX ->
    xfer token from to amount s
      (add_event (TokenTransferred token from to amount)
        (s <| s_bal := <[(token, to) := bal_of s token to + amount]> (<[(token, from) := bal_of s token from - amount]> (s_bal s)) |>))
| XTokenSelf : token <> s_avt s -> amount <= bal_of s token from -> from = to ->
    xfer token from to amount s
      (add_event (TokenTransferred token from to amount)
        (s <| s_bal := <[(token, from) := bal_of s token from]> (s_bal s) |>)).

(** Debiting [amount] of [token] for lower [id]. *)
Inductive debit (token from to amount t1 id : N) (s : st) : st -> Prop :=
| DNative : token = s_avt s -> amount <> 0 -> amount <= free_of s from ->
    debit token from to amount t1 id s
      (add_event (AvtLowered from to amount t1 id)
        (s <| s_free := <[from := free_of s from - amount]> (s_free s) |> <| s_issuance := s_issuance s - amount |>))
| DToken : token <> s_avt s -> amount <= bal_of s token from ->
    debit token from to amount t1 id s
      (add_event (TokenLowered token from to amount t1 id)
        (s <| s_bal := <[(token, from) := bal_of s token from - amount]> (s_bal s) |>)).

(** Crediting [amount] of [token]; the two events are the ones for a native and another token. *)
Inductive credit (token who amount : N) (ea et : event) (s : st) : st -> Prop :=
| CNative : token = s_avt s -> amount <> 0 -> free_of s who + amount <= U128_MAX ->
    credit token who amount ea et s
      (add_event ea (s <| s_free := <[who := free_of s who + amount]> (s_free s) |>
                       <| s_issuance := saturating_add U128_MAX (s_issuance s) amount |>))
| CToken : token <> s_avt s -> amount <> 0 -> bal_of s token who + amount <= U128_MAX ->
    credit token who amount ea et s
      (add_event et (s <| s_bal := <[(token, who) := bal_of s token who + amount]> (s_bal s) |>)).

(** Payments to collators. *)
Inductive payouts : st -> st -> Prop :=
| PNil s : payouts s s
| PCons s a n s' : n <> 0 -> free_of s a + n <= U128_MAX ->
    payouts (add_event (CollatorPaid a n)
       (s <| s_free := <[a := free_of s a + n]> (s_free s) |> <| s_issuance := saturating_add U128_MAX (s_issuance s) n |>)) s' ->
    payouts s s'.

Definition pending_data (s : st) (token from amount t1 id : N) : list N :=
  concat_lower_data (mkLowerData token amount t1 id from (s_time s)).

(** The signed instruction of an operation, if it is one: the origin the inner call runs with and
    the call. *)
Definition signed_of (o : op) : option (N * inner_call) :=
  match o with
  | OpSigned origin i => Some (origin, i)
  | OpProxy relayer i =>
      match inner_proof i with Some p => if relayer =? pf_relayer p then Some (pf_signer p, i) else None | None => None end
  | _ => None
  end.
Definition proxy_event (o : op) : list event := match o with OpProxy r _ => [CallDispatched r] | _ => [] end.
Definition bumped (a : N) (s : st) : st := s <| s_nonces := <[a := (nonce_of s a + 1) mod 2 ^ 64]> (s_nonces s) |>.
Definition scheduled (c : config) (from token amount t1 : N) (nonce : option N) (s : st) : st :=
  add_event (LowerRequested token from amount t1 nonce (s_lower_nonce s))
    (s <| s_agenda := <[s_lower_nonce s := mkTask (saturating_add U32_MAX (saturating_add U32_MAX (s_block s) (s_period s)) 1)
                          from (c_lower_account c) token amount t1]> (s_agenda s) |>
       <| s_lower_nonce := (s_lower_nonce s + 1) mod 2 ^ 32 |>).

(** Nothing but settings, the clock and the environment differs, and an event without meaning for
    balances or lowers may have been deposited. *)
Record same_core (s s' : st) : Prop := mkSameCore {
  SC_free : s_free s' = s_free s; SC_iss : s_issuance s' = s_issuance s; SC_bal : s_bal s' = s_bal s;
  SC_nonces : s_nonces s' = s_nonces s; SC_ready : s_ready s' = s_ready s; SC_pending : s_pending s' = s_pending s;
  SC_failed : s_failed s' = s_failed s; SC_ln : s_lower_nonce s' = s_lower_nonce s; SC_agenda : s_agenda s' = s_agenda s;
  SC_events : exists new, s_events s' = new ++ s_events s /\
     forall e, In e new -> e = LoweringEnabled \/ e = LoweringDisabled \/ (exists p, e = LowerSchedulePeriodUpdated p) \/
       (exists a b, e = NativeTokenEthAddressUpdated a b) \/ (exists a b, e = AvtTransferredFromTreasury a b) \/ e = EventRejected None \/ (exists id, e = EventRejected (Some id)) }.
Definition neutral_op (o : op) : Prop :=
  match o with OpSetPeriod _ | OpToggle _ | OpSetAvt _ | EnvBlock _ _ | EnvFrozen _ _ | EnvProcessed _ | EnvBridge _ | EnvSched _ | EnvGrowth _ _ | OpEthEvent _ => True | _ => False end.

Inductive effect (c : config) (cr : crypto) (s : st) : op -> st -> Prop :=
| FNone o : effect c cr s o s
| FNeutral o s' : neutral_op o -> same_core s s' -> effect c cr s o s'
| FTransfer o origin p from to token amount s1 :
    signed_of o = Some (origin, CSignedTransfer p from to token amount) -> origin = from ->
    verify_signature cr p (transfer_payload (pf_relayer p) from to token amount (nonce_of s from)) = true ->
    xfer token from to amount s s1 ->
    effect c cr s o (bumped from s1 <| s_events := proxy_event o ++ s_events s1 |>)
| FLower o origin p from token amount t1 :
    signed_of o = Some (origin, CSignedLower p from token amount t1) -> origin = from -> amount <> 0 ->
    verify_signature cr p (lower_payload (pf_relayer p) from token amount t1 (nonce_of s from)) = true ->
    s_agenda s !! s_lower_nonce s = None ->
    effect c cr s o (let s1 := bumped from (scheduled c from token amount t1 (Some (nonce_of s from)) s) in
                     s1 <| s_events := proxy_event o ++ s_events s1 |>)
| FDirect from token amount t1 : amount <> 0 -> s_agenda s !! s_lower_nonce s = None ->
    effect c cr s (OpDirectLower from from token amount t1) (scheduled c from token amount t1 None s)
| FPay o token from to amount s1 :
    (o = OpPayFee token amount from to \/ (o = OpPayTreasury amount from /\ token = s_avt s /\ to = c_treasury c) \/
     (o = OpTreasury to amount /\ token = s_avt s /\ from = c_treasury c /\ amount <> 0) \/
     (o = OpNativeTransfer from to amount /\ token = s_avt s)) ->
    xfer token from to amount s s1 ->
    effect c cr s o (s1 <| s_events := (match o with OpTreasury _ _ => [AvtTransferredFromTreasury to amount] | _ => [] end) ++ s_events s1 |>)
| FTaskOk id t s1 : s_agenda s !! id = Some t -> tk_when t <= s_block s -> s_disabled s = false ->
    debit (tk_token t) (tk_from t) (tk_to t) (tk_amount t) (tk_t1 t) id (s <| s_agenda := delete id (s_agenda s) |>) s1 ->
    effect c cr s (OpRunTask id)
      (add_event (SchedulerDispatched id true)
        (s1 <| s_pending := <[id := pending_data s (tk_token t) (tk_from t) (tk_amount t) (tk_t1 t) id]> (s_pending s1) |>))
| FTaskFail id t : s_agenda s !! id = Some t -> tk_when t <= s_block s ->
    effect c cr s (OpRunTask id) (add_event (SchedulerDispatched id false) (s <| s_agenda := delete id (s_agenda s) |>))
| FCancel id t : s_agenda s !! id = Some t ->
    effect c cr s (OpCancelTask id) (add_event (SchedulerCanceled id) (s <| s_agenda := delete id (s_agenda s) |>))
| FResched id t w : s_agenda s !! id = Some t ->
    effect c cr s (OpReschedule id w)
      (s <| s_agenda := <[id := mkTask w (tk_from t) (tk_to t) (tk_token t) (tk_amount t) (tk_t1 t)]> (s_agenda s) |>)
| FRootExec from to token amount t1 id s1 : s_disabled s = false ->
    debit token from to amount t1 id s s1 ->
    effect c cr s (OpRootExecute from to token amount t1 id)
      (s1 <| s_pending := <[id := pending_data s token from amount t1 id]> (s_pending s1) |>)
| FRegenReady who id params d : s_ready s !! id = Some (params, d) ->
    effect c cr s (OpRegenerate who id)
      (add_event (RegeneratingLowerProof id who)
        (s <| s_ready := delete id (s_ready s) |> <| s_pending := <[id := params]> (s_pending s) |>))
| FRegenFailed who id params : s_ready s !! id = None -> s_failed s !! id = Some params ->
    effect c cr s (OpRegenerate who id)
      (add_event (RegeneratingFailedLowerProof id who)
        (s <| s_failed := delete id (s_failed s) |> <| s_pending := <[id := params]> (s_pending s) |>))
| FProofReady id params d : s_pending s !! id = Some params -> N.of_nat (length d) <= LOWER_DATA_LIMIT ->
    effect c cr s (OpProofResult id PALLET_ID (Some d))
      (add_event (LowerReadyToClaim id)
        (s <| s_pending := delete id (s_pending s) |> <| s_ready := <[id := (params, d)]> (s_ready s) |>))
| FProofFailed id params : s_pending s !! id = Some params ->
    effect c cr s (OpProofResult id PALLET_ID None)
      (add_event (FailedToGenerateLowerProof id)
        (s <| s_pending := delete id (s_pending s) |> <| s_failed := <[id := params]> (s_failed s) |>))
| FProofLost id params d : s_pending s !! id = Some params -> LOWER_DATA_LIMIT < N.of_nat (length d) ->
    effect c cr s (OpProofResult id PALLET_ID (Some d)) (s <| s_pending := delete id (s_pending s) |>)
| FLift e token who amount s1 : e ∈ s_processed s ->
    credit token who amount (AVTLifted who amount e) (TokenLifted token who amount e) s s1 ->
    effect c cr s (OpEthEvent (mkEthEvent e (LogLifted token who amount))) s1
| FGrowth e amount period s1 s2 fl : e ∈ s_processed s -> amount <> 0 ->
    credit (s_avt s) (c_treasury c) (perbill_mul (c_growth c) amount)
      (AVTGrowthLifted (perbill_mul (c_growth c) amount) (amount - perbill_mul (c_growth c) amount) e)
      LoweringEnabled s s1 -> payouts s1 s2 -> (fl = [] \/ fl = [EventRejected None]) ->
    effect c cr s (OpEthEvent (mkEthEvent e (LogAvtGrowthLifted amount period))) (s2 <| s_events := fl ++ s_events s2 |>)
| FClaim e id x : e ∈ s_processed s -> s_ready s !! id = Some x ->
    effect c cr s (OpEthEvent (mkEthEvent e (LogLowerClaimed id)))
      (add_event (AvtLowerClaimed id) (s <| s_ready := delete id (s_ready s) |>))
| FRevert e token who amount id t1 x s1 : e ∈ s_processed s -> s_ready s !! id = Some x ->
    credit token who amount (AVTLowerReverted who amount e id t1) (TokenLowerReverted token who amount e id t1)
      (s <| s_ready := delete id (s_ready s) |>) s1 ->
    effect c cr s (OpEthEvent (mkEthEvent e (LogLowerReverted token who amount id t1))) s1
| FConsumed e token who amount id t1 x : e ∈ s_processed s -> s_ready s !! id = Some x ->
    (amount = 0 \/ (token = s_avt s /\ U128_MAX < free_of s who + amount) \/
     (token <> s_avt s /\ U128_MAX < bal_of s token who + amount)) ->
    effect c cr s (OpEthEvent (mkEthEvent e (LogLowerReverted token who amount id t1)))
      (add_event (EventRejected (Some id)) (s <| s_ready := delete id (s_ready s) |>))
| FDeposit token who amount : bal_of s token who + amount <= U128_MAX ->
    effect c cr s (OpDeposit token who amount)
      (add_event (TokensDeposited token who amount) (s <| s_bal := <[(token, who) := bal_of s token who + amount]> (s_bal s) |>)).

(** ** The pieces *)
Lemma native_transfer_ok from to amount s s' :
  native_transfer from to amount s = (s', Ok tt) -> xfer (s_avt s) from to amount s s'.
Proof.
  intros H. unfold native_transfer in H. minv H.
  - apply XNop; [reflexivity|]. apply orb_true_iff in Hif as [?|?]; [left|right]; lia.
  - apply orb_false_iff in Hif as [? ?]. apply XNative; lia.
Qed.
Lemma settle_transfer_ok token from to amount s s' :
  settle_transfer token from to amount s = (s', Ok tt) -> xfer token from to amount s s'.
Proof.
  intros H. unfold settle_transfer in H. minv H.
  - apply N.eqb_eq in Hif as ->. now apply native_transfer_ok.
  - assert (from = to) as <- by lia.
    match goal with |- xfer _ _ _ _ _ (?f _) => idtac | _ => idtac end.
    unfold emit in H. minv H.
    replace (_ <| s_events := _ |>) with
      (add_event (TokenTransferred token from from amount) (s <| s_bal := <[(token, from) := bal_of s token from]> (s_bal s) |>)).
    + apply XTokenSelf; lia.
    + destruct s; unfold add_event, bal_of, mget, set in *; cbn in *. f_equal. rewrite lookup_insert, insert_insert. f_equal. lia.
  - unfold emit in H. minv H.
    replace (_ <| s_events := _ |>) with
      (add_event (TokenTransferred token from to amount)
        (s <| s_bal := <[(token, to) := bal_of s token to + amount]> (<[(token, from) := bal_of s token from - amount]> (s_bal s)) |>)).
    + apply XToken; lia.
    + destruct s; unfold add_event, bal_of, mget, set in *; cbn in *. f_equal. rewrite lookup_insert_ne by (intros [= ->]; lia). reflexivity.
Qed.

Lemma credit_avt_ok who amount s s' a :
  credit_avt_balance who amount s = (s', Ok a) ->
  a = amount /\ amount <> 0 /\ free_of s who + amount <= U128_MAX /\
  s' = s <| s_free := <[who := free_of s who + amount]> (s_free s) |> <| s_issuance := saturating_add U128_MAX (s_issuance s) amount |>.
Proof.
  intros H. unfold credit_avt_balance, native_deposit, drop_positive in H. minv H.
  - discriminate.
  - split; [reflexivity|]. split; [lia|]. split; [lia|reflexivity].
  - discriminate.
Qed.
Lemma credit_avt_err who amount s s' e :
  credit_avt_balance who amount s = (s', Err e) -> s' = s /\ (amount = 0 \/ U128_MAX < free_of s who + amount).
Proof.
  unfold credit_avt_balance, native_deposit, mbind_, get_st.
  destruct (N.eqb_spec amount 0) as [E|E]; cbn.
  - intros H. injection H as <- _. auto.
  - destruct (N.leb_spec (free_of s who + amount) U128_MAX) as [E2|E2]; cbn.
    + unfold ensure. destruct (N.eqb_spec amount 0); cbn; intros H; [lia|discriminate].
    + intros H. injection H as <- _. auto.
Qed.
Lemma credit_token_ok token who amount s s' a :
  credit_token_balance token who amount s = (s', Ok a) ->
  a = amount /\ bal_of s token who + amount <= U128_MAX /\
  s' = s <| s_bal := <[(token, who) := bal_of s token who + amount]> (s_bal s) |>.
Proof.
  intros H. unfold credit_token_balance in H. minv H. unfold checked_add in Hsome.
  destruct (N.leb_spec (bal_of s token who + amount) U128_MAX); [|discriminate]. injection Hsome as <-. auto.
Qed.
Lemma credit_token_err token who amount s s' e :
  credit_token_balance token who amount s = (s', Err e) -> s' = s /\ U128_MAX < bal_of s token who + amount.
Proof.
  unfold credit_token_balance, mbind_, get_st, checked_add.
  destruct (N.leb_spec (bal_of s token who + amount) U128_MAX); cbn; intros E; [discriminate|]. injection E as <- _. auto.
Qed.

Lemma settle_lower_ok token from to amount t1 id s s' :
  settle_lower token from to amount t1 id s = (s', Ok tt) ->
  exists s1, debit token from to amount t1 id s s1 /\
    s' = s1 <| s_pending := <[id := pending_data s token from amount t1 id]> (s_pending s1) |>.
Proof.
  intros H. unfold settle_lower, bridge_generate, native_withdraw, drop_negative, emit in H. minv H.
  - discriminate.
  - eexists. split; [apply DNative; lia|]. reflexivity.
  - eexists. split; [apply DToken; lia|]. reflexivity.
Qed.
Lemma execute_lower_ok from to token amount t1 id s s' :
  execute_lower from to token amount t1 id s = (s', Ok tt) ->
  s_disabled s = false /\ exists s1, debit token from to amount t1 id s s1 /\
    s' = s1 <| s_pending := <[id := pending_data s token from amount t1 id]> (s_pending s1) |>.
Proof.
  intros H. unfold execute_lower in H. minv H. split; [now destruct (s_disabled s)|]. now apply settle_lower_ok.
Qed.

Lemma schedule_lower_ok c from token amount t1 nonce s s' :
  schedule_lower c from token amount t1 nonce s = (s', Ok tt) ->
  s_agenda s !! s_lower_nonce s = None /\ s' = scheduled c from token amount t1 nonce s.
Proof.
  intros H. unfold schedule_lower, schedule_named, emit in H. minv H.
  split; [destruct (s_agenda s !! s_lower_nonce s); [discriminate|reflexivity]|]. reflexivity.
Qed.

Lemma pay_all_eff l s s' r : pay_all l s = (s', r) -> r = Ok tt /\ payouts s s'.
Proof.
  revert s. induction l as [|[a n] l IH]; intros s H; cbn in H.
  - injection H as <- <-. split; [reflexivity|constructor].
  - unfold mbind_ at 1 in H. unfold pay_one, mbind_, get_st in H. cbn [fst snd] in H.
    destruct ((n =? 0) || negb (free_of s a + n <=? U128_MAX)) eqn:E.
    + cbn in H. apply IH, H.
    + cbn in H. apply orb_false_iff in E as [E1 E2].
      apply IH in H as [-> H]. split; [reflexivity|]. eapply (PCons _ a n); [| |exact H]; lia.
Qed.

Ltac units := repeat match goal with u : unit |- _ => destruct u end.
Lemma run_inner_ok c cr origin i s s' :
  run_inner c cr origin i s = (s', Ok tt) ->
  (exists p from to token amount s1, i = CSignedTransfer p from to token amount /\ origin = from /\
     verify_signature cr p (transfer_payload (pf_relayer p) from to token amount (nonce_of s from)) = true /\
     xfer token from to amount s s1 /\ s' = bumped from s1) \/
  (exists p from token amount t1, i = CSignedLower p from token amount t1 /\ origin = from /\ amount <> 0 /\
     verify_signature cr p (lower_payload (pf_relayer p) from token amount t1 (nonce_of s from)) = true /\
     s_agenda s !! s_lower_nonce s = None /\
     s' = bumped from (scheduled c from token amount t1 (Some (nonce_of s from)) s)).
Proof.
  destruct i as [p from to token amount|p from token amount t1|n]; cbn; intros H.
  - left. unfold signed_transfer, bump_nonce in H. minv H. apply N.eqb_eq in Hens as ->.
    units. match goal with X : settle_transfer _ _ _ _ _ = _ |- _ => apply settle_transfer_ok in X end. do 6 eexists. repeat (split; [reflexivity || eassumption|]). reflexivity.
  - right. unfold schedule_signed_lower, bump_nonce in H. minv H. apply N.eqb_eq in Hens as ->.
    units. match goal with X : schedule_lower _ _ _ _ _ _ _ = _ |- _ => apply schedule_lower_ok in X as [? ->] end. do 5 eexists. repeat (split; [reflexivity || eassumption || lia|]). reflexivity.
  - minv H.
Qed.

Lemma xfer_avt token from to amount s s1 : xfer token from to amount s s1 -> s_avt s1 = s_avt s.
Proof. now intros []. Qed.

Lemma set_events_id s : s <| s_events := s_events s |> = s.
Proof. now destruct s. Qed.

Ltac fin := first [apply FNone | idtac].

Lemma event_known_ok e s s' : event_known e s = (s', Ok tt) -> s' = s /\ e ∈ s_processed s.
Proof. intros H. unfold event_known in H. minv H. apply bool_decide_eq_true in Hens. auto. Qed.
Lemma event_known_err e s s' er : event_known e s = (s', Err er) -> s' = s.
Proof. unfold event_known, mbind_, get_st, ensure. destruct (bool_decide _); intros H; injection H as <- _; reflexivity. Qed.

Lemma rejected_neutral s o : same_core s (add_event (EventRejected o) s).
Proof.
  constructor; try reflexivity. exists [EventRejected o]. split; [reflexivity|]. intros e [<-|[]].
  destruct o; eauto 10.
Qed.

Lemma eth_effect c cr s e : effect c cr s (OpEthEvent e) (fst (on_event_processed c e s)).
Proof.
  destruct e as [e d]. unfold on_event_processed, processed_event_handler. cbn [ee_data ee_id].
  destruct d as [token who amount|amount period|id|token who amount id t1]; cbn [lower_of].
  - (* lift *)
    unfold process_lift. unfold mbind_ at 1.
    destruct (event_known e s) as [s0 [[]|er]] eqn:Ek; [|apply event_known_err in Ek as ->; apply FNeutral; [exact I|apply rejected_neutral]].
    apply event_known_ok in Ek as [-> Hk]. unfold mbind_ at 1. unfold ensure at 1.
    destruct (N.eqb_spec amount 0) as [E0|E0]; cbn [negb]; [apply FNeutral; [exact I|apply rejected_neutral]|].
    unfold mbind_ at 1, get_st at 1. destruct (N.eqb_spec token (s_avt s)) as [Et|Et].
    + unfold mbind_ at 1. destruct (credit_avt_balance who amount s) as [s1 [a|er]] eqn:Ec.
      * apply credit_avt_ok in Ec as (-> & _ & Hb & ->). cbn. apply FLift; [exact Hk|]. apply CNative; assumption.
      * apply credit_avt_err in Ec as [-> _]. apply FNeutral; [exact I|apply rejected_neutral].
    + unfold mbind_ at 1. destruct (credit_token_balance token who amount s) as [s1 [a|er]] eqn:Ec.
      * apply credit_token_ok in Ec as (-> & Hb & ->). cbn. apply FLift; [exact Hk|]. apply CToken; assumption.
      * apply credit_token_err in Ec as [-> _]. apply FNeutral; [exact I|apply rejected_neutral].
  - (* growth *)
    unfold process_avt_growth_lift. unfold mbind_ at 1.
    destruct (event_known e s) as [s0 [[]|er]] eqn:Ek; [|apply event_known_err in Ek as ->; apply FNeutral; [exact I|apply rejected_neutral]].
    apply event_known_ok in Ek as [-> Hk]. unfold mbind_ at 1. unfold ensure at 1.
    destruct (N.eqb_spec amount 0) as [E0|E0]; cbn [negb]; [apply FNeutral; [exact I|apply rejected_neutral]|].
    cbv zeta. unfold mbind_ at 1.
    destruct (credit_avt_balance (c_treasury c) (perbill_mul (c_growth c) amount) s) as [s1 [a|er]] eqn:Ec;
      [|apply credit_avt_err in Ec as [-> _]; apply FNeutral; [exact I|apply rejected_neutral]].
    apply credit_avt_ok in Ec as (-> & Hz & Hb & ->). unfold mbind_ at 1. unfold emit at 1, modify at 1.
    unfold on_growth_lifted. unfold mbind_ at 1, gets at 1. unfold mbind_.
    match goal with |- context [pay_all ?l ?x] => destruct (pay_all l x) as [s2 r] eqn:Ep end.
    apply pay_all_eff in Ep as [-> Hp]. unfold ensure.
    match goal with |- context [snd ?g] => destruct (snd g) eqn:Eg end.
    + cbn. rewrite <- (set_events_id s2). eapply (FGrowth c cr s e amount period _ s2 []); [exact Hk|exact E0| |exact Hp|auto].
      apply CNative; [reflexivity|exact Hz|exact Hb].
    + eapply (FGrowth c cr s e amount period _ s2 [EventRejected None]); [exact Hk|exact E0| |exact Hp|auto].
      apply CNative; [reflexivity|exact Hz|exact Hb].
  - (* claim *)
    unfold process_lower_claim. unfold mbind_ at 1.
    destruct (event_known e s) as [s0 [[]|er]] eqn:Ek; [|apply event_known_err in Ek as ->; apply FNeutral; [exact I|apply rejected_neutral]].
    apply event_known_ok in Ek as [-> Hk]. unfold mbind_, remove_used_lower, get_st, ensure, mbind_.
    destruct (s_ready s !! id) as [x|] eqn:Er; cbn.
    + eapply FClaim; eassumption.
    + apply FNeutral; [exact I|apply rejected_neutral].
  - (* revert *)
    unfold process_lower_reverted. unfold mbind_ at 1.
    destruct (event_known e s) as [s0 [[]|er]] eqn:Ek; [|apply event_known_err in Ek as ->; apply FNeutral; [exact I|apply rejected_neutral]].
    apply event_known_ok in Ek as [-> Hk]. unfold mbind_ at 1. unfold remove_used_lower, mbind_ at 1, get_st at 1, mbind_ at 1, ensure at 1.
    destruct (s_ready s !! id) as [x|] eqn:Er; [|apply FNeutral; [exact I|apply rejected_neutral]].
    cbn [modify]. unfold mbind_ at 1, ensure at 1.
    destruct (N.eqb_spec amount 0) as [E0|E0]; cbn [negb]; [eapply FConsumed; eauto|].
    unfold mbind_ at 1, get_st at 1. set (s1 := s <| s_ready := delete id (s_ready s) |>).
    change (s_avt s1) with (s_avt s). destruct (N.eqb_spec token (s_avt s)) as [Et|Et].
    + unfold mbind_ at 1. destruct (credit_avt_balance who amount s1) as [s2 [a|er]] eqn:Ec.
      * apply credit_avt_ok in Ec as (-> & _ & Hb & ->). cbn. eapply FRevert; [exact Hk|exact Er|]. apply CNative; assumption.
      * apply credit_avt_err in Ec as [-> Hc]. cbn. eapply FConsumed; [exact Hk|exact Er|].
        destruct Hc as [Hc|Hc]; [left; exact Hc|right; left; split; [exact Et|exact Hc]].
    + unfold mbind_ at 1. destruct (credit_token_balance token who amount s1) as [s2 [a|er]] eqn:Ec.
      * apply credit_token_ok in Ec as (-> & Hb & ->). cbn. eapply FRevert; [exact Hk|exact Er|]. apply CToken; assumption.
      * apply credit_token_err in Ec as [-> Hc]. cbn. eapply FConsumed; [exact Hk|exact Er|]. right; right. split; [exact Et|exact Hc].
Qed.

Lemma fst_dispatch {A} (m : M st A) s :
  (exists s' a, m s = (s', Ok a) /\ fst (dispatch m s) = s') \/ fst (dispatch m s) = s.
Proof. unfold dispatch. destruct (m s) as [s1 [a|e]]; [left; eauto|right; reflexivity]. Qed.
Ltac disp H := match goal with |- context [fst (dispatch ?m ?s)] =>
  let s' := fresh "s'" in let a := fresh "a" in let E := fresh "E" in
  destruct (fst_dispatch m s) as [(s' & a & H & E)|E]; rewrite E; clear E; [|apply FNone] end.
Ltac neutral := apply FNeutral; [exact I|constructor; try reflexivity; eexists []; split; [reflexivity|intros ? []]].

Theorem step_effect c cr s o : effect c cr s o (step c cr s o).
Proof.
  unfold step. destruct o; cbn [exec].
  - (* signed *) disp H. destruct a. apply run_inner_ok in H as [(p & from & to & token & amount & s1 & -> & -> & Hv & Hx & ->)|(p & from & token & amount & t1 & -> & -> & Hz & Hv & Ha & ->)].
    + eapply (FTransfer c cr s (OpSigned from (CSignedTransfer p from to token amount))); eauto; reflexivity.
    + eapply (FLower c cr s (OpSigned from (CSignedLower p from token amount t1))); eauto; reflexivity.
  - (* proxy *) disp H. destruct a. unfold proxy, emit in H. minv H. units. match goal with X : dispatch _ _ = _ |- _ => apply dispatch_ok in X; rename X into Hd1 end.
    apply run_inner_ok in Hd1 as [(p & from & to & token & amount & s1 & -> & Ho & Hv & Hx & ->)|(p & from & token & amount & t1 & -> & Ho & Hz & Hv & Ha & ->)];
      cbn in Hsome; injection Hsome as <-.
    + eapply (FTransfer c cr s (OpProxy relayer (CSignedTransfer p from to token amount)) from p from to token amount s1); eauto.
      cbn. rewrite Hens. now rewrite Ho.
    + eapply (FLower c cr s (OpProxy relayer (CSignedLower p from token amount t1)) from p from token amount t1); eauto.
      cbn. rewrite Hens. now rewrite Ho.
  - (* direct lower *) disp H. destruct a. unfold schedule_direct_lower in H. minv H. apply N.eqb_eq in Hens as ->.
    apply schedule_lower_ok in H as [? ->]. apply FDirect; [lia|assumption].
  - (* task *) unfold run_task, mbind_, get_st. destruct (s_agenda s !! id) as [t|] eqn:Et; [|apply FNone]. cbn [some_or mret_].
    unfold ensure. destruct (N.leb_spec (tk_when t) (s_block s)) as [Hw|Hw]; [|apply FNone].
    cbn [modify]. set (s1 := s <| s_agenda := _ |>). unfold dispatch.
    match goal with |- context [execute_lower ?a ?b ?c ?d ?e ?f s1] => destruct (execute_lower a b c d e f s1) as [s2 [[]|er]] eqn:Ex end; cbn [fst snd is_ok emit modify].
    + apply execute_lower_ok in Ex as (Hd & s3 & Hdeb & ->). apply (FTaskOk c cr s id t s3); [exact Et|exact Hw|exact Hd|exact Hdeb].
    + apply (FTaskFail c cr s id t); assumption.
  - (* cancel *) disp H. destruct a. unfold emit in H. minv H. destruct (s_agenda s !! id) eqn:Et; [|discriminate]. eapply FCancel; exact Et.
  - disp H. destruct a. minv H. eapply FResched; eassumption.
  - disp H. destruct a. apply execute_lower_ok in H as (Hd & s3 & Hdeb & ->). now apply FRootExec.
  - disp H. destruct a. unfold regenerate_lower_proof, regenerate_proof, bridge_generate, emit in H. minv H.
    + destruct p as [params d]. minv H. apply (FRegenReady c cr s requester id params d). assumption.
    + match goal with X : s_failed s !! id = Some ?l |- _ => apply (FRegenFailed c cr s requester id l); assumption end.
  - (* proof result *) unfold bridge_reports. cbn [fst]. unfold process_lower_proof_result, mbind_ at 1, get_st at 1.
    destruct (s_pending s !! id) as [params|] eqn:Ep; [|apply FNone].
    destruct (bool_decide_reflect (caller = PALLET_ID)) as [->|_]; [|apply FNone].
    unfold mbind_ at 1, modify at 1. destruct data as [d|].
    + unfold mbind_ at 1, ensure. destruct (N.leb_spec (N.of_nat (length d)) LOWER_DATA_LIMIT).
      * cbn. eapply FProofReady; eassumption.
      * cbn. eapply FProofLost; eassumption.
    + cbn. eapply FProofFailed; eassumption.
  - apply eth_effect.
  - disp H. destruct a. unfold deposit_tokens, emit in H. minv H. match goal with X : credit_token_balance _ _ _ _ = _ |- _ => apply credit_token_ok in X as (-> & Hb & ->) end. now apply FDeposit.
  - disp H. destruct a. unfold pay_fee in H. apply settle_transfer_ok in H. rewrite <- (set_events_id s').
    eapply (FPay c cr s (OpPayFee token amount payer recipient)); eauto.
  - disp H. destruct a. unfold pay_treasury in H. minv H. apply settle_transfer_ok in H. rewrite <- (set_events_id s').
    eapply (FPay c cr s (OpPayTreasury amount payer)); eauto 10.
  - disp H. destruct a. unfold transfer_from_treasury, emit in H. minv H. units. match goal with X : native_transfer _ _ _ _ = _ |- _ => apply native_transfer_ok in X; rename X into Hm0 end.
    eapply (FPay c cr s (OpTreasury recipient amount)); [|exact Hm0]. right; right; left. repeat split. lia.
  - disp H. destruct a. apply native_transfer_ok in H. rewrite <- (set_events_id s').
    eapply (FPay c cr s (OpNativeTransfer from to amount)); eauto 10.
  - apply FNeutral; [exact I|constructor; try reflexivity]. eexists [_]. split; [reflexivity|]. intros ? [<-|[]]; eauto 10.
  - apply FNeutral; [exact I|constructor; try reflexivity]. eexists [_]. split; [reflexivity|]. intros ? [<-|[]]. destruct enabled; auto.
  - disp H. destruct a0. unfold emit in H. minv H. apply FNeutral; [exact I|constructor; try reflexivity]. eexists [_]. split; [reflexivity|]. intros ? [<-|[]]; eauto 10.
  - neutral.
  - neutral.
  - neutral.
  - neutral.
  - neutral.
  - neutral.
Qed.
