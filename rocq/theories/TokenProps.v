(** Theorems about the token manager: C02 - C06. *)
From Verif Require Import Base BaseLemmas CodecModel CodecProofs SigModel TokenModel TokenSpec TokenProofs TokenProofs2 TokenProofs3.

(** A concrete world: native token 7, another token 5; accounts 1, 2 and relayer 9; the toy signature
    of a message by an account is the number of message bytes plus the account, good enough to run. *)
Definition ex_cr : crypto := mkCrypto (fun a m sg => sg =? a + fold_left N.add m 0) (fun _ _ => None).
Definition ex_c : config := mkConfig 1000 750000000 666.
Definition ex_s : st := genesis (<[1 := 500]> ∅) (<[(5, 1) := 40]> ∅) 7 10.
Definition ex_sign (who : N) (payload : list N) : multisig := SigSr25519 (who + fold_left N.add payload 0).
Definition ex_transfer (n : N) : inner_call :=
  CSignedTransfer (mkProof 1 9 (ex_sign 1 (transfer_payload 9 1 2 5 15 n))) 1 2 5 15.
Definition ex_slower (n : N) : inner_call :=
  CSignedLower (mkProof 1 9 (ex_sign 1 (lower_payload 9 1 7 100 33 n))) 1 7 100 33.
(** A relayed transfer (and its replay, which fails), a relayed lower that is executed, proven,
    regenerated, proven again and refunded; a second lower that is claimed; a lift; growth. *)
Definition ex_ops : list op :=
  [OpProxy 9 (ex_transfer 0); OpProxy 9 (ex_transfer 0); OpProxy 9 (ex_slower 1); EnvBlock 20 1000; OpRunTask 0; OpRunTask 0;
   OpProofResult 0 PALLET_ID (Some [1; 2; 3]); OpRegenerate 2 0; OpProofResult 0 PALLET_ID (Some [4]);
   EnvProcessed 71; OpEthEvent (mkEthEvent 71 (LogLowerReverted 7 1 100 0 33)); OpEthEvent (mkEthEvent 71 (LogLowerReverted 7 1 100 0 33));
   OpDirectLower 2 2 5 6 44; EnvBlock 20 2000; OpRunTask 1; OpProofResult 1 PALLET_ID (Some [4]);
   EnvProcessed 72; OpEthEvent (mkEthEvent 72 (LogLowerClaimed 1)); OpEthEvent (mkEthEvent 71 (LogLifted 5 2 11));
   EnvGrowth [(3, 20)] true; OpEthEvent (mkEthEvent 72 (LogAvtGrowthLifted 80 1))].
Example ex_history :
  let s := run ex_c ex_cr ex_s ex_ops in
  bal_of s 5 1 = 25 /\ bal_of s 5 2 = 20 /\ free_of s 1 = 500 /\ free_of s 1000 = 60 /\ free_of s 3 = 20 /\
  s_issuance s = 580 /\ nonce_of s 1 = 2 /\ executed (s_events s) = [1; 0] /\ settled (s_events s) = [1; 0] /\
  requested (s_events s) = [1; 0] /\ length (accepted_payloads ex_c ex_cr ex_s ex_ops) = 2%nat.
Proof. vm_compute. auto 20. Qed.

(** ** C02: token balances *)

(** After any history, from any state: the sum of all balances of a token, plus what the deposited
    [TokenLowered] events say was lowered, is the initial sum plus what the [TokenLifted],
    [TokensDeposited] and [TokenLowerReverted] events say was credited; and no balance exceeds u128. *)
Theorem C02_conservation c cr s0 ops t : s_events s0 = [] ->
  let s := run c cr s0 ops in
  token_total t s + sum_over (token_debit t) (s_events s) = token_total t s0 + sum_over (token_credit t) (s_events s).
Proof.
  intros H0 s. destruct (run_bal c cr s0 ops) as (new & He & HT & _). fold s in He, HT. rewrite He, H0, app_nil_r. apply HT.
Qed.
Print Assumptions C02_conservation.
Theorem C02_no_overflow c cr s0 ops : (forall t a, bal_of s0 t a <= U128_MAX) ->
  forall t a, bal_of (run c cr s0 ops) t a <= U128_MAX.
Proof.
  intros H0 t a. destruct (run_bal c cr s0 ops) as (new & He & _ & HU). apply HU. intros [t' a']. apply H0.
Qed.
Print Assumptions C02_no_overflow.

(** Only the execution of a lower, an Ethereum event and a token deposit can change the sum of a token. *)
Theorem C02_transfers_keep_total c cr s o t :
  match o with OpRunTask _ | OpRootExecute _ _ _ _ _ _ | OpEthEvent _ | OpDeposit _ _ _ => False | _ => True end ->
  token_total t (step c cr s o) = token_total t s.
Proof.
  intros Ho. pose proof (step_effect c cr s o) as He. pose proof (effect_bal c cr s o _ He) as (new & E & HT & _).
  specialize (HT t). enough (sum_over (token_debit t) new = 0 /\ sum_over (token_credit t) new = 0) by lia.
  assert (Hq : forall l, (forall e, In e l -> token_debit t e = 0 /\ token_credit t e = 0) -> sum_over (token_debit t) l = 0 /\ sum_over (token_credit t) l = 0).
  { intros l Hl. split; apply sum_over_zero; intros e Hin; apply Hl, Hin. }
  apply Hq. clear HT Hq. revert He E Ho. generalize (step c cr s o) as s'. intros s' He E Ho e Hin.
  assert (Hn : forall l, s_events s' = l ++ s_events s -> new = l) by (intros l El; rewrite El in E; now apply app_inv_tail in E).
  destruct He as [o'|o' s2 Hn' Hsc|o' origin p from to token amount s1 Hs Hor Hv Hx|o' origin p from token amount t1 Hs Hor Hz Hv Ha
    |from token amount t1 Hz Ha|o' token from to amount s1 Hc Hx|id t0 s1 Ha Hw Hd Hdeb|id t0 Ha Hw|id t0 Ha|id t0 w Ha
    |from to token amount t1 id s1 Hd Hdeb|who id params d Hr|who id params Hr Hf|id params d Hp Hl|id params Hp|id params d Hp Hl
    |ev token who amount s1 Hk Hc|ev amount period s1 s2 fl Hk Hz Hc Hp Hfl|ev id x Hk Hr|ev token who amount id t1 x s1 Hk Hr Hc
    |ev token who amount id t1 x Hk Hr Hc|token who amount Hb]; try contradiction.
  - rewrite (Hn [] eq_refl) in Hin. destruct Hin.
  - destruct (SC_events _ _ Hsc) as (l & El & Hl). rewrite (Hn l El) in Hin. apply Hl in Hin.
    destruct Hin as [->|[->|[(?&->)|[(?&?&->)|[(?&?&->)|[->|(?&->)]]]]]]; auto.
  - assert (Hx2 : exists l, s_events s1 = l ++ s_events s /\ forall e, In e l -> exists a b c d, e = TokenTransferred a b c d).
    { destruct Hx; first [exists []; split; [reflexivity|intros ? []]|eexists [_]; split; [reflexivity|intros ? [<-|[]]; eauto]]. }
    destruct Hx2 as (l & El & Hl). rewrite (Hn (proxy_event o' ++ l)) in Hin by (cbn; rewrite El; now rewrite app_assoc).
    apply in_app_or in Hin as [Hin|Hin]; [apply proxy_event_zero in Hin as [r ->]; auto|apply Hl in Hin as (?&?&?&?&->); auto].
  - rewrite (Hn (proxy_event o' ++ [LowerRequested token from amount t1 (Some (nonce_of s from)) (s_lower_nonce s)])) in Hin by (cbn; now rewrite <- app_assoc).
    apply in_app_or in Hin as [Hin|[<-|[]]]; [apply proxy_event_zero in Hin as [r ->]; auto|auto].
  - rewrite (Hn [LowerRequested token from amount t1 None (s_lower_nonce s)] eq_refl) in Hin. destruct Hin as [<-|[]]; auto.
  - assert (Hx2 : exists l, s_events s1 = l ++ s_events s /\ forall e, In e l -> exists a b c d, e = TokenTransferred a b c d).
    { destruct Hx; first [exists []; split; [reflexivity|intros ? []]|eexists [_]; split; [reflexivity|intros ? [<-|[]]; eauto]]. }
    destruct Hx2 as (l & El & Hl).
    set (l2 := match o' with OpTreasury _ _ => [AvtTransferredFromTreasury to amount] | _ => [] end) in *.
    rewrite (Hn (l2 ++ l)) in Hin by (cbn; rewrite El; now rewrite app_assoc).
    apply in_app_or in Hin as [Hin|Hin]; [|apply Hl in Hin as (?&?&?&?&->); auto].
    subst l2. destruct o'; cbn in Hin; try contradiction; destruct Hin as [<-|[]]; auto.
  - rewrite (Hn [SchedulerCanceled id] eq_refl) in Hin. destruct Hin as [<-|[]]; auto.
  - rewrite (Hn [] eq_refl) in Hin. destruct Hin.
  - rewrite (Hn [RegeneratingLowerProof id who] eq_refl) in Hin. destruct Hin as [<-|[]]; auto.
  - rewrite (Hn [RegeneratingFailedLowerProof id who] eq_refl) in Hin. destruct Hin as [<-|[]]; auto.
  - rewrite (Hn [LowerReadyToClaim id] eq_refl) in Hin. destruct Hin as [<-|[]]; auto.
  - rewrite (Hn [FailedToGenerateLowerProof id] eq_refl) in Hin. destruct Hin as [<-|[]]; auto.
  - rewrite (Hn [] eq_refl) in Hin. destruct Hin.
Qed.
Print Assumptions C02_transfers_keep_total.

(** What one transfer does to every balance: [amount] leaves [from] and arrives at [to] (also when
    they are the same account), in the native currency for the native token, in the token's
    balances otherwise; nothing else moves. *)
Definition moves (token from to amount : N) (s s' : st) : Prop :=
  let d (b : bool) := if b then amount else 0 in
  (forall a, free_of s' a + d ((token =? s_avt s) && (a =? from)) = free_of s a + d ((token =? s_avt s) && (a =? to))) /\
  (forall t a, bal_of s' t a + d (negb (token =? s_avt s) && (t =? token) && (a =? from)) =
               bal_of s t a + d (negb (token =? s_avt s) && (t =? token) && (a =? to))).
Lemma xfer_moves token from to amount s s' : xfer token from to amount s s' -> moves token from to amount s s'.
Proof.
  intros [Ht Hc|Ht Hz Hne Hle Hb|Ht Hle Hne Hb|Ht Hle Heq]; unfold moves; cbv zeta.
  - destruct (N.eqb_spec token (s_avt s)); [cbn [negb andb]|contradiction]. split; intros; [|lia].
    destruct (N.eqb_spec a from), (N.eqb_spec a to); destruct Hc; subst; lia.
  - destruct (N.eqb_spec token (s_avt s)); [cbn [negb andb]|contradiction]. split; intros; [|reflexivity].
    unfold free_of in *. cbn. rewrite !mget_insertN.
    destruct (N.eqb_spec a from), (N.eqb_spec a to); subst; repeat (destruct (decide _); subst); try lia; congruence.
  - destruct (N.eqb_spec token (s_avt s)); [contradiction|cbn [negb andb]]. split; intros; [reflexivity|].
    unfold bal_of in *. cbn. rewrite !mget_insert.
    destruct (N.eqb_spec t token), (N.eqb_spec a from), (N.eqb_spec a to); subst; cbn [andb];
      repeat match goal with |- context [decide ?P] => destruct (decide P) end; try congruence; try lia.
  - destruct (N.eqb_spec token (s_avt s)); [contradiction|cbn [negb andb]]. split; intros; [reflexivity|].
    unfold bal_of in *. cbn. rewrite !mget_insert.
    destruct (N.eqb_spec t token), (N.eqb_spec a from), (N.eqb_spec a to); subst; cbn [andb];
      repeat match goal with |- context [decide ?P] => destruct (decide P) end; try congruence; try lia.
Qed.
Theorem C02_transfer_moves_exactly c cr s o p from to token amount :
  accepted c cr s o = Some (CSignedTransfer p from to token amount) -> moves token from to amount s (step c cr s o).
Proof.
  unfold accepted, step. destruct o; try (cbn; discriminate); cbn [call_of].
  - destruct (exec c cr (OpSigned origin i) s) as [s' [[]|e]] eqn:E; cbn; [|discriminate]. intros H; injection H as ->.
    cbn in E. apply dispatch_ok in E. unfold signed_transfer, bump_nonce in E. minv E. units.
    match goal with X : settle_transfer _ _ _ _ _ = _ |- _ => apply settle_transfer_ok, xfer_moves in X; exact X end.
  - destruct (exec c cr (OpProxy relayer i) s) as [s' [[]|e]] eqn:E; cbn; [|discriminate]. intros H; injection H as ->.
    cbn in E. apply dispatch_ok in E. unfold proxy, emit in E. minv E. units.
    match goal with X : dispatch _ _ = _ |- _ => apply dispatch_ok in X; rename X into E end. cbn in E.
    unfold signed_transfer, bump_nonce in E. minv E. units.
    match goal with X : settle_transfer _ _ _ _ _ = _ |- _ => apply settle_transfer_ok, xfer_moves in X; exact X end.
Qed.
Print Assumptions C02_transfer_moves_exactly.
Theorem C02_fee_moves_exactly c cr s token amount payer recipient :
  snd (exec c cr (OpPayFee token amount payer recipient) s) = Ok tt ->
  moves token payer recipient amount s (step c cr s (OpPayFee token amount payer recipient)).
Proof.
  unfold step. destruct (exec c cr (OpPayFee token amount payer recipient) s) as [s' r] eqn:E. cbn. intros ->.
  cbn in E. apply dispatch_ok in E. now apply settle_transfer_ok, xfer_moves in E.
Qed.
Print Assumptions C02_fee_moves_exactly.

(** ** C03: native supply *)

(** From genesis, as long as the initial supply plus everything ever credited fits in a u128: total
    issuance plus all lowered amounts is the initial supply plus all lifted, growth and refunded
    amounts, and the issuance is exactly the sum of all accounts. *)
Theorem C03_issuance c cr free bal avt period ops :
  let s0 := genesis free bal avt period in let s := run c cr s0 ops in
  native_total s0 + sum_over native_credit (s_events s) <= U128_MAX ->
  s_issuance s + sum_over native_debit (s_events s) = s_issuance s0 + sum_over native_credit (s_events s) /\
  s_issuance s = native_total s.
Proof.
  intros s0 s HB. destruct (run_nat c cr s0 ops) as (new & He & HT & HU). fold s in He, HT, HU.
  cbn in He. rewrite app_nil_r in He. rewrite He in *.
  specialize (HU eq_refl HB). rewrite <- HU. split; [exact HT|reflexivity].
Qed.
Print Assumptions C03_issuance.
Example C03_example : let s := run ex_c ex_cr ex_s ex_ops in
  native_total ex_s + sum_over native_credit (s_events s) = 680 /\ sum_over native_debit (s_events s) = 100.
Proof. vm_compute. auto. Qed.

(** Running the task of a lower either changes no balance at all, or debits exactly the lowered
    amount from its sender and nothing from anybody else, in the native currency (and then the
    issuance falls by the same amount) or in the token. *)
Theorem C03_lower_debits_exactly c cr s id :
  let s' := step c cr s (OpRunTask id) in
  same_balances s s' \/
  exists t, s_agenda s !! id = Some t /\ tk_when t <= s_block s /\ s_disabled s = false /\
    let d (b : bool) := if b then tk_amount t else 0 in let nat := tk_token t =? s_avt s in
    (forall a, free_of s' a + d (nat && (a =? tk_from t)) = free_of s a) /\
    (forall k a, bal_of s' k a + d (negb nat && (k =? tk_token t) && (a =? tk_from t)) = bal_of s k a) /\
    s_issuance s' = s_issuance s - d nat.
Proof.
  intros s'. pose proof (step_effect c cr s (OpRunTask id)) as He. fold s' in He. revert He. generalize s'. clear s'. intros s' He.
  inversion He as [o'|o' s2 Hn Hsc|o' origin p from to token amount s1 Hs Ho Hv Hx|o' origin p from token amount t1 Hs Ho Hz Hv Ha
    |from token amount t1 Hz Ha|o' token from to amount s1 Hc Hx|id' t s1 Ha Hw Hd Hdeb|id' t Ha Hw| | | | | | | | | | | | | | ]; subst;
    try (left; repeat split; fail); try (cbn in *; contradiction); try (cbn in *; discriminate).
  - exfalso. destruct Hc as [?|[[? _]|[[? _]|[? _]]]]; discriminate.
  - right. exists t. split; [exact Ha|]. split; [exact Hw|]. split; [exact Hd|]. cbv zeta.
    inversion Hdeb as [Ht Hz Hle E|Ht Hle E]; subst; cbn in Ht.
    + destruct (N.eqb_spec (tk_token t) (s_avt s)) as [|]; [|contradiction]. cbn [negb andb].
      cbn in Hle. split; [|split].
      * intros a. unfold free_of in *. cbn in *. rewrite mget_insertN.
        destruct (N.eqb_spec a (tk_from t)); subst; repeat destruct (decide _); subst; try congruence; lia.
      * intros. cbn. unfold bal_of. cbn. lia.
      * reflexivity.
    + destruct (N.eqb_spec (tk_token t) (s_avt s)) as [|]; [contradiction|]. cbn [negb andb]. split; [|split].
      * intros. unfold free_of. cbn. lia.
      * intros k a. unfold bal_of in *. cbn in *. rewrite mget_insert.
        destruct (N.eqb_spec k (tk_token t)), (N.eqb_spec a (tk_from t)); subst; cbn [andb];
          repeat match goal with |- context [decide ?P] => destruct (decide P) end; try congruence; lia.
      * cbn. lia.
Qed.
Print Assumptions C03_lower_debits_exactly.

(** Transfers (signed, relayed, fees, treasury) leave the issuance and the sum of native balances unchanged. *)
Theorem C03_transfers_keep_supply c cr s o :
  match o with OpRunTask _ | OpRootExecute _ _ _ _ _ _ | OpEthEvent _ => False | _ => True end ->
  s_issuance (step c cr s o) = s_issuance s /\ native_total (step c cr s o) = native_total s.
Proof.
  intros Ho. pose proof (step_effect c cr s o) as He. revert He Ho. generalize (step c cr s o) as s'. intros s' He Ho.
  destruct He as [o'|o' s2 Hn' Hsc|o' origin p from to token amount s1 Hs Hor Hv Hx|o' origin p from token amount t1 Hs Hor Hz Hv Ha
    |from token amount t1 Hz Ha|o' token from to amount s1 Hc Hx|id t0 s1 Ha Hw Hd Hdeb|id t0 Ha Hw|id t0 Ha|id t0 w Ha
    |from to token amount t1 id s1 Hd Hdeb|who id params d Hr|who id params Hr Hf|id params d Hp Hl|id params Hp|id params d Hp Hl
    |ev token who amount s1 Hk Hc|ev amount period s1 s2 fl Hk Hz Hc Hp Hfl|ev id x Hk Hr|ev token who amount id t1 x s1 Hk Hr Hc
    |ev token who amount id t1 x Hk Hr Hc|token who amount Hb]; try contradiction; try (split; reflexivity).
  - unfold native_total. rewrite (SC_free _ _ Hsc), (SC_iss _ _ Hsc). auto.
  - split; [destruct Hx; reflexivity|]. destruct (xfer_nat 0 _ _ _ _ _ _ Hx) as (new & E & HT & _).
    assert (Hz : forall e, In e new -> exists a b c d, e = TokenTransferred a b c d).
    { assert (Hn : forall l, s_events s1 = l ++ s_events s -> new = l) by (intros l El; rewrite El in E; now apply app_inv_tail in E).
      destruct Hx; [rewrite (Hn [] eq_refl)|rewrite (Hn [] eq_refl)|erewrite (Hn [_] eq_refl)|erewrite (Hn [_] eq_refl)]; intros e Hin; first [now destruct Hin | destruct Hin as [<-|[]]; eauto]. }
    rewrite !sum_over_zero in HT; [|intros e Hin; apply Hz in Hin as (?&?&?&?&->); reflexivity..]. unfold native_total in *. cbn. lia.
  - split; [destruct Hx; reflexivity|]. destruct (xfer_nat 0 _ _ _ _ _ _ Hx) as (new & E & HT & _).
    assert (Hz : forall e, In e new -> exists a b c d, e = TokenTransferred a b c d).
    { assert (Hn : forall l, s_events s1 = l ++ s_events s -> new = l) by (intros l El; rewrite El in E; now apply app_inv_tail in E).
      destruct Hx; [rewrite (Hn [] eq_refl)|rewrite (Hn [] eq_refl)|erewrite (Hn [_] eq_refl)|erewrite (Hn [_] eq_refl)]; intros e Hin; first [now destruct Hin | destruct Hin as [<-|[]]; eauto]. }
    rewrite !sum_over_zero in HT; [|intros e Hin; apply Hz in Hin as (?&?&?&?&->); reflexivity..]. unfold native_total in *. cbn. lia.
Qed.
Print Assumptions C03_transfers_keep_supply.

(** ** C04: signed instructions *)

(** A signed transfer or lower takes effect only if the signature in it verifies over the relayer,
    the sender, all arguments and the sender's current nonce; the call runs with the sender's own
    origin, and when relayed it is the signer who is the sender and the relayer is the one named. *)
Theorem C04_needs_signature_over_current_nonce c cr s o i : accepted c cr s o = Some i ->
  exists p, inner_proof i = Some p /\
    verify_signature cr p (payload_of i (nonce_of s (from_of i))) = true /\
    match o with
    | OpSigned origin _ => origin = from_of i
    | OpProxy relayer _ => relayer = pf_relayer p /\ pf_signer p = from_of i
    | _ => False
    end.
Proof. intros H. apply accepted_inv in H as (p & H1 & H2 & _ & H3). eauto. Qed.
Print Assumptions C04_needs_signature_over_current_nonce.

(** The signed bytes determine the relayer, every argument and the nonce, and transfers and lowers
    never share them. *)
Theorem C04_payload_binds i i' n n' p p' : typed_call i -> typed_call i' -> n < 2 ^ 64 -> n' < 2 ^ 64 ->
  inner_proof i = Some p -> inner_proof i' = Some p' ->
  payload_of i n = payload_of i' n' -> same_instruction i i' /\ n = n'.
Proof. exact (payload_inj i i' n n' p p'). Qed.
Print Assumptions C04_payload_binds.

(** Success adds one to the nonce of the sender and leaves the others alone; a failing signed
    instruction changes nothing at all; no other operation touches a nonce. *)
Theorem C04_nonce_steps c cr s o a : nonce_of s a + 1 < 2 ^ 64 ->
  nonce_of (step c cr s o) a =
    match accepted c cr s o with Some i => if from_of i =? a then nonce_of s a + 1 else nonce_of s a | None => nonce_of s a end.
Proof.
  intros Hb. unfold nonce_of at 1. rewrite step_nonces. destruct (accepted c cr s o) as [i|]; [|reflexivity].
  rewrite nonce_up_of. destruct (N.eqb_spec (from_of i) a) as [->|Hne].
  - rewrite decide_True by reflexivity. now apply N.mod_small.
  - now rewrite decide_False by exact Hne.
Qed.
Print Assumptions C04_nonce_steps.
Theorem C04_failure_changes_nothing c cr s o i : call_of o = Some i -> accepted c cr s o = None -> step c cr s o = s.
Proof. exact (not_accepted c cr s o i). Qed.
Print Assumptions C04_failure_changes_nothing.

(** Along any history shorter than 2^64 operations, no signed payload takes effect twice. *)
Theorem C04_no_payload_accepted_twice c cr free bal avt period ops :
  Forall typed_op ops -> N.of_nat (length ops) < 2 ^ 64 ->
  NoDup (accepted_payloads c cr (genesis free bal avt period) ops).
Proof.
  intros Ht Hb. apply accepted_payloads_nodup; [exact Ht|]. intros a.
  change (nonce_of (genesis free bal avt period) a) with 0. lia.
Qed.
Print Assumptions C04_no_payload_accepted_twice.

(** And so, when a signature is good for one message only, no signature of an account is ever
    accepted twice, whatever the call it is attached to. *)
Theorem C04_no_signature_accepted_twice c cr free bal avt period ops1 o1 ops2 o2 ops3 i1 i2 p1 p2 :
  let ops := ops1 ++ o1 :: ops2 ++ o2 :: ops3 in
  let s1 := run c cr (genesis free bal avt period) ops1 in let s2 := run c cr s1 (o1 :: ops2) in
  one_message cr -> Forall typed_op ops -> N.of_nat (length ops) < 2 ^ 64 ->
  accepted c cr s1 o1 = Some i1 -> accepted c cr s2 o2 = Some i2 ->
  inner_proof i1 = Some p1 -> inner_proof i2 = Some p2 ->
  pf_signer p1 = pf_signer p2 -> pf_sig p1 = pf_sig p2 -> False.
Proof.
  intros ops s1 s2 [Hsr Hec] Ht Hb Ha1 Ha2 Hp1 Hp2 Hsg Hsig.
  assert (Hnd : NoDup (accepted_payloads c cr (genesis free bal avt period) ops)) by (now apply C04_no_payload_accepted_twice).
  assert (Happ : forall a b s, accepted_payloads c cr s (a ++ b) = accepted_payloads c cr s a ++ accepted_payloads c cr (run c cr s a) b).
  { clear. induction a as [|o a IH]; intros b s; [reflexivity|]. cbn. rewrite IH. now rewrite app_assoc. }
  unfold ops in Hnd. rewrite Happ in Hnd. fold s1 in Hnd. apply NoDup_app in Hnd as (_ & _ & Hnd).
  change (o1 :: ops2 ++ o2 :: ops3) with ((o1 :: ops2) ++ o2 :: ops3) in Hnd. rewrite Happ in Hnd. fold s2 in Hnd.
  cbn [accepted_payloads] in Hnd. rewrite Ha1, Ha2 in Hnd. cbn [app] in Hnd.
  apply NoDup_cons in Hnd as [Hnd _].
  apply accepted_inv in Ha1 as (q1 & Hq1 & Hv1 & _). apply accepted_inv in Ha2 as (q2 & Hq2 & Hv2 & _).
  assert (q1 = p1) as -> by congruence. assert (q2 = p2) as -> by congruence.
  set (m1 := payload_of i1 _) in *. set (m2 := payload_of i2 _) in *.
  assert (Em : m1 = m2).
  { unfold verify_signature in Hv1, Hv2. rewrite <- Hsig, <- Hsg in Hv2. destruct (pf_sig p1) as [sg|sg|sg].
    - apply orb_true_iff in Hv1, Hv2. destruct Hv1 as [H1|H1], Hv2 as [H2|H2]; pose proof (Hsr _ _ _ _ H1 H2) as E.
      + now apply wrapped_inj.
      + now apply (wrapped_ne i2 _ p2) in E.
      + symmetry in E. now apply (wrapped_ne i1 _ p1) in E.
      + exact E.
    - destruct (cr_recover cr sg m1) as [a1|] eqn:E1; [|discriminate]. destruct (cr_recover cr sg m2) as [a2|] eqn:E2; [|discriminate].
      apply N.eqb_eq in Hv1, Hv2. subst a1 a2. eapply Hec; eassumption.
    - discriminate. }
  apply Hnd. rewrite Em. apply elem_of_app. right. left.
Qed.
Print Assumptions C04_no_signature_accepted_twice.
Example C04_example : Forall typed_op ex_ops /\ accepted ex_c ex_cr ex_s (OpProxy 9 (ex_transfer 0)) = Some (ex_transfer 0) /\
  accepted ex_c ex_cr (step ex_c ex_cr ex_s (OpProxy 9 (ex_transfer 0))) (OpProxy 9 (ex_transfer 0)) = None.
Proof.
  split; [|split; vm_compute; reflexivity]. repeat constructor.
Qed.

(** ** C05: the stages of a lower *)

(** In every history in which root does not run [execute_lower] by hand: ids are issued 0, 1, 2, ...
    and never reused; an id is in at most one stage; a scheduled lower has not been debited, one in
    a later stage has been debited exactly once, and no id is ever debited twice.  Partial: see the
    refutation for root calls. *)
Theorem C05_one_stage_partial c cr free bal avt period ops :
  no_root_execute ops -> N.of_nat (length ops) < 2 ^ 32 ->
  let s := run c cr (genesis free bal avt period) ops in
  NoDup (requested (s_events s)) /\
  (forall id, In id (requested (s_events s)) <-> id < s_lower_nonce s) /\
  (forall id g, in_stage s id g -> In id (requested (s_events s))) /\
  (forall id g g', in_stage s id g -> in_stage s id g' -> g = g') /\
  NoDup (executed (s_events s)) /\
  (forall id g, in_stage s id g -> (In id (executed (s_events s)) <-> g <> Scheduled)).
Proof.
  intros Hr Hb s. destruct (run_life c cr ops (genesis free bal avt period) Hr Hb (genesis_life _ _ _ _)) as [HL _]. fold s in HL.
  split; [rewrite (L_req _ HL); apply nodup_seqN|].
  split; [intros id; rewrite (L_req _ HL); apply in_seqN|].
  assert (Hlt : forall id g, in_stage s id g -> id < s_lower_nonce s).
  { intros id [] H; cbn in H; [apply (L_agenda _ HL _ H)| apply (L_exec_lt _ HL), (L_pending _ HL _ H)|apply (L_exec_lt _ HL), (L_ready _ HL _ H)|apply (L_exec_lt _ HL), (L_failed _ HL _ H)]. }
  split; [intros id g H; rewrite (L_req _ HL), in_seqN; eauto|].
  assert (Hex : forall id g, in_stage s id g -> (In id (executed (s_events s)) <-> g <> Scheduled)).
  { intros id [] H; cbn in H.
    - split; [intros Hin; apply (L_agenda _ HL) in H; tauto|congruence].
    - split; [discriminate|intros _; apply (L_pending _ HL _ H)].
    - split; [discriminate|intros _; apply (L_ready _ HL _ H)].
    - split; [discriminate|intros _; apply (L_failed _ HL _ H)]. }
  split; [|split; [apply (L_exec_nd _ HL)|exact Hex]].
  intros id g g' Hg Hg'.
  pose proof (Hex _ _ Hg) as E1. pose proof (Hex _ _ Hg') as E2.
  destruct g, g'; try reflexivity; try (exfalso; apply E1; [apply E2; discriminate|reflexivity]); try (exfalso; apply E2; [apply E1; discriminate|reflexivity]);
    exfalso; cbn in Hg, Hg'.
  - apply (L_pending _ HL) in Hg as (_ & E & _). rewrite E in Hg'. destruct Hg'; discriminate.
  - apply (L_pending _ HL) in Hg as (_ & _ & E & _). rewrite E in Hg'. destruct Hg'; discriminate.
  - apply (L_pending _ HL) in Hg' as (_ & E & _). rewrite E in Hg. destruct Hg; discriminate.
  - apply (L_ready _ HL) in Hg as (_ & E & _). rewrite E in Hg'. destruct Hg'; discriminate.
  - apply (L_pending _ HL) in Hg' as (_ & _ & E & _). rewrite E in Hg. destruct Hg; discriminate.
  - apply (L_ready _ HL) in Hg' as (_ & E & _). rewrite E in Hg. destruct Hg; discriminate.
Qed.
Print Assumptions C05_one_stage_partial.

(** A lower that is in no stage any more ended for one of four reasons, each visible in an event: its
    execution failed, root cancelled it, it was claimed or refunded, or a refund event for it was
    rejected.  (Proofs longer than 10000 bytes are excluded: the bridge never produces one.) *)
Theorem C05_gone_is_explained c cr free bal avt period ops :
  no_root_execute ops -> short_proofs ops -> N.of_nat (length ops) < 2 ^ 32 ->
  let s := run c cr (genesis free bal avt period) ops in
  forall id, In id (requested (s_events s)) -> (exists g, in_stage s id g) \/
    In (SchedulerDispatched id false) (s_events s) \/ In (SchedulerCanceled id) (s_events s) \/
    In id (settled (s_events s)) \/ In (EventRejected (Some id)) (s_events s).
Proof.
  intros Hr Hsh Hb s id Hid. destruct (run_life c cr ops (genesis free bal avt period) Hr Hb (genesis_life _ _ _ _)) as [HL _]. fold s in HL.
  apply (life_ids _ HL) in Hid.
  apply (run_told c cr ops (genesis free bal avt period) Hr Hsh Hb (genesis_life _ _ _ _)); [|exact Hid].
  intros i Hi. cbn in Hi. lia.
Qed.
Print Assumptions C05_gone_is_explained.

(** The debit happens exactly in the step in which a lower leaves the scheduled stage successfully:
    an id newly reported as lowered belongs to a due task run in that step, which then awaits its
    proof; and only root running [execute_lower] could do it otherwise. *)
Theorem C05_debit_when_executed c cr s o id :
  (match o with OpRootExecute _ _ _ _ _ _ => False | _ => True end) ->
  executed (s_events (step c cr s o)) <> executed (s_events s) ->
  In id (executed (s_events (step c cr s o))) -> ~ In id (executed (s_events s)) ->
  o = OpRunTask id /\ in_stage s id Scheduled /\ in_stage (step c cr s o) id AwaitingProof /\
  s_agenda (step c cr s o) !! id = None /\ In (SchedulerDispatched id true) (s_events (step c cr s o)).
Proof.
  intros Hroot Hne Hin Hnin. pose proof (step_effect c cr s o) as He. revert He Hne Hin. generalize (step c cr s o) as s'. intros s' He Hne Hin.
  assert (Hf : forall s2, frame s s2 -> executed (s_events s2) = executed (s_events s)).
  { intros s2 [_ _ _ _ _ (new & E & Hq)]. rewrite E. apply (quiet_app new _ Hq). }
  destruct He as [o'|o' s2 Hn' Hsc|o' origin p from to token amount s1 Hs Hor Hv Hx|o' origin p from token amount t1 Hs Hor Hz Hv Ha
    |from token amount t1 Hz Ha|o' token from to amount s1 Hc Hx|id0 t0 s1 Ha Hw Hd Hdeb|id0 t0 Ha Hw|id0 t0 Ha|id0 t0 w Ha
    |from to token amount t1 id0 s1 Hd Hdeb|who id0 params d Hr|who id0 params Hr Hf'|id0 params d Hp Hl|id0 params Hp|id0 params d Hp Hl
    |ev token who amount s1 Hk Hc|ev amount period s1 s2 fl Hk Hz Hc Hp Hfl|ev id0 x Hk Hr|ev token who amount id0 t1 x s1 Hk Hr Hc
    |ev token who amount id0 t1 x Hk Hr Hc|token who amount Hb]; try contradiction; try (exfalso; apply Hne; reflexivity).
  - exfalso. apply Hne. destruct (SC_events _ _ Hsc) as (new & E & Hq). rewrite E. apply quiet_app.
    intros e Hi. apply Hq in Hi as [->|[->|[(?&->)|[(?&?&->)|[(?&?&->)|[->|(?&->)]]]]]]; exact I.
  - exfalso. apply Hne. cbn -[executed]. apply xfer_frame in Hx. destruct (quiet_app (proxy_event o') (s_events s1) (proxy_event_quiet o')) as (_ & -> & _). now apply Hf.
  - exfalso. apply Hne. cbn -[executed].
    match goal with |- executed (?l ++ ?r) = _ => destruct (quiet_app l r (proxy_event_quiet o')) as (_ & -> & _) end. reflexivity.
  - exfalso. apply Hne. cbn -[executed]. apply xfer_frame in Hx.
    match goal with |- executed (?l ++ ?r) = _ => assert (Hq : forall e, In e l -> quiet e) end.
    { intros e Hi. destruct o'; cbn in Hi; try contradiction; destruct Hi as [<-|[]]; exact I. }
    destruct (quiet_app _ (s_events s1) Hq) as (_ & -> & _). now apply Hf.
  - pose proof (debit_frame _ _ _ _ _ _ _ _ Hdeb) as (E1 & E2 & E3 & E4 & E5 & E6 & E7 & E8).
    cbn -[executed] in Hin. change (executed (SchedulerDispatched id0 true :: ?l)) with (executed l) in Hin. rewrite E7 in Hin.
    destruct Hin as [<-|Hin]; [|contradiction]. split; [reflexivity|]. split; [cbn; eauto|]. split; [cbn; rewrite lookup_insert; eauto|].
    split; [|now left]. cbn. rewrite E4. cbn. apply lookup_delete.
  - exfalso. apply Hne. destruct Hc; reflexivity.
  - exfalso. apply Hne. apply payouts_frame in Hp as (_ & _ & _ & _ & _ & _ & _ & new & P7 & P8).
    cbn -[executed]. rewrite P7. rewrite app_assoc.
    assert (Hq : forall e, In e (fl ++ new) -> quiet e).
    { intros e Hi. apply in_app_or in Hi as [Hi|Hi]; [destruct Hfl as [->| ->]; [destruct Hi|destruct Hi as [<-|[]]; exact I]|]. apply P8 in Hi as (?&?&->). exact I. }
    destruct (quiet_app _ (s_events s1) Hq) as (_ & -> & _). destruct Hc; reflexivity.
  - exfalso. apply Hne. destruct Hc; reflexivity.
Qed.
Print Assumptions C05_debit_when_executed.

(** Root running [execute_lower] with a chosen id debits the same id a second time and leaves it in
    two stages at once. *)
Definition root_ops : list op :=
  [OpDirectLower 1 1 5 10 44; EnvBlock 20 1000; OpRunTask 0; OpProofResult 0 PALLET_ID (Some [1]); OpRootExecute 1 2 5 3 44 0].
Theorem C05_root_execute_reuses_id_refuted :
  exists c cr s0 ops id, s0 = genesis (<[1 := 500]> ∅) (<[(5, 1) := 40]> ∅) 7 10 /\
    let s := run c cr s0 ops in
    executed (s_events s) = [id; id] /\ in_stage s id AwaitingProof /\ in_stage s id Ready.
Proof.
  exists ex_c, ex_cr, ex_s, root_ops, 0. split; [reflexivity|]. split; [vm_compute; reflexivity|].
  split; [exists (concat_lower_data (mkLowerData 5 3 44 0 1 1000))|exists (concat_lower_data (mkLowerData 5 10 44 0 1 1000), [1])]; vm_compute; reflexivity.
Qed.
Print Assumptions C05_root_execute_reuses_id_refuted.

(** ** C06: claims and refunds *)

(** No lower is claimed or refunded twice, or claimed and refunded (root not running [execute_lower]);
    once it is, it is in no stage any more. *)
Theorem C06_settled_once c cr free bal avt period ops :
  no_root_execute ops -> N.of_nat (length ops) < 2 ^ 32 ->
  let s := run c cr (genesis free bal avt period) ops in
  NoDup (settled (s_events s)) /\
  (forall id, In id (settled (s_events s)) -> In id (executed (s_events s)) /\ forall g, ~ in_stage s id g).
Proof.
  intros Hr Hb s. destruct (run_life c cr ops (genesis free bal avt period) Hr Hb (genesis_life _ _ _ _)) as [HL _]. fold s in HL.
  split; [apply (L_sett_nd _ HL)|]. intros id Hin. split; [now apply (L_sett_exec _ HL)|].
  intros [] H; cbn in H.
  - apply (L_agenda _ HL) in H as [_ H]. apply H. now apply (L_sett_exec _ HL).
  - apply (L_pending _ HL) in H as (_ & _ & _ & H). auto.
  - apply (L_ready _ HL) in H as (_ & _ & H). auto.
  - apply (L_failed _ HL) in H as (_ & H). auto.
Qed.
Print Assumptions C06_settled_once.

(** A refund event for a lower does exactly one of three things: nothing to balances and lowers
    (then the lower was not ready, or the event is not known as processed); consume the ready lower
    and credit the receiver named in the event with exactly the amount and token it names, nobody
    else's balance moving; or consume the ready lower crediting nobody, which happens only for a zero
    amount or a balance that would overflow. *)
Definition credits (token who amount : N) (s s' : st) : Prop :=
  let d (b : bool) := if b then amount else 0 in let nat := token =? s_avt s in
  (forall a, free_of s' a = free_of s a + d (nat && (a =? who))) /\
  (forall k a, bal_of s' k a = bal_of s k a + d (negb nat && (k =? token) && (a =? who))).
Theorem C06_refund_effect_partial c cr s e token who amount id t1 :
  let s' := step c cr s (OpEthEvent (mkEthEvent e (LogLowerReverted token who amount id t1))) in
  (same_balances s s' /\ s_ready s' = s_ready s /\ settled (s_events s') = settled (s_events s)) \/
  (is_Some (s_ready s !! id) /\ e ∈ s_processed s /\ s_ready s' = delete id (s_ready s) /\ amount <> 0 /\
   credits token who amount s s' /\ settled (s_events s') = id :: settled (s_events s)) \/
  (is_Some (s_ready s !! id) /\ e ∈ s_processed s /\ s_ready s' = delete id (s_ready s) /\ same_balances s s' /\
   settled (s_events s') = settled (s_events s) /\
   (amount = 0 \/ (token = s_avt s /\ U128_MAX < free_of s who + amount) \/
    (token <> s_avt s /\ U128_MAX < bal_of s token who + amount))).
Proof.
  intros s'. pose proof (step_effect c cr s (OpEthEvent (mkEthEvent e (LogLowerReverted token who amount id t1)))) as He. fold s' in He.
  revert He. generalize s'. clear s'. intros s' He. inversion He; subst; try (cbn in *; discriminate).
  - left. repeat split.
  - left. match goal with H : same_core _ _ |- _ => destruct H as [? ? ? ? ? ? ? ? ? (new & E & Hq)] end. repeat split; auto. rewrite E. apply quiet_app.
    intros ev Hi. apply Hq in Hi as [->|[->|[(?&->)|[(?&?&->)|[(?&?&->)|[->|(?&->)]]]]]]; exact I.
  - match goal with H : _ \/ _ |- _ => destruct H as [?|[[? _]|[[? _]|[? _]]]]; discriminate end.
  - right; left. split; [eauto|]. split; [assumption|].
    match goal with H : credit _ _ _ _ _ _ _ |- _ => inversion H as [Ht Hz Hb Es|Ht Hz Hb Es]; clear H; cbn in Ht, Hb; subst s' end.
    + repeat split; auto; intros; cbn.
      * unfold free_of in *. cbn. rewrite mget_insertN. destruct (N.eqb_spec token (s_avt s)); [|contradiction]. cbn [andb].
        destruct (N.eqb_spec a who); repeat destruct (decide _); subst; try congruence; lia.
      * unfold bal_of. cbn. destruct (N.eqb_spec token (s_avt s)); [|contradiction]. cbn. lia.
    + repeat split; auto; intros; cbn.
      * unfold free_of. cbn. destruct (N.eqb_spec token (s_avt s)); [contradiction|]. cbn. lia.
      * unfold bal_of in *. cbn. rewrite mget_insert. destruct (N.eqb_spec token (s_avt s)); [contradiction|]. cbn [negb andb].
        destruct (N.eqb_spec k token), (N.eqb_spec a who); subst; cbn [andb];
          repeat match goal with |- context [decide ?P] => destruct (decide P) end; try congruence; lia.
  - right; right. split; [eauto|]. repeat split; auto.
Qed.
Print Assumptions C06_refund_effect_partial.

(** Nothing but a claim or a refund event settles a lower, and only a lower whose proof is ready. *)
Theorem C06_settled_only_when_ready c cr s o :
  settled (s_events (step c cr s o)) = settled (s_events s) \/
  exists id e, settled (s_events (step c cr s o)) = id :: settled (s_events s) /\ in_stage s id Ready /\ ~ in_stage (step c cr s o) id Ready /\
    e ∈ s_processed s /\
    (o = OpEthEvent (mkEthEvent e (LogLowerClaimed id)) \/
     exists token who amount t1, o = OpEthEvent (mkEthEvent e (LogLowerReverted token who amount id t1))).
Proof.
  pose proof (step_effect c cr s o) as He. revert He. generalize (step c cr s o) as s'. intros s' He.
  assert (Hf : forall s2, frame s s2 -> settled (s_events s2) = settled (s_events s)).
  { intros s2 [_ _ _ _ _ (new & E & Hq)]. rewrite E. apply (quiet_app new _ Hq). }
  destruct He as [o'|o' s2 Hn' Hsc|o' origin p from to token amount s1 Hs Hor Hv Hx|o' origin p from token amount t1 Hs Hor Hz Hv Ha
    |from token amount t1 Hz Ha|o' token from to amount s1 Hc Hx|id0 t0 s1 Ha Hw Hd Hdeb|id0 t0 Ha Hw|id0 t0 Ha|id0 t0 w Ha
    |from to token amount t1 id0 s1 Hd Hdeb|who id0 params d Hr|who id0 params Hr Hf'|id0 params d Hp Hl|id0 params Hp|id0 params d Hp Hl
    |ev token who amount s1 Hk Hc|ev amount period s1 s2 fl Hk Hz Hc Hp Hfl|ev id0 x Hk Hr|ev token who amount id0 t1 x s1 Hk Hr Hc
    |ev token who amount id0 t1 x Hk Hr Hc|token who amount Hb]; try (left; reflexivity).
  - left. destruct (SC_events _ _ Hsc) as (new & E & Hq). rewrite E. apply quiet_app.
    intros e Hi. apply Hq in Hi as [->|[->|[(?&->)|[(?&?&->)|[(?&?&->)|[->|(?&->)]]]]]]; exact I.
  - left. cbn -[settled]. apply xfer_frame in Hx. destruct (quiet_app (proxy_event o') (s_events s1) (proxy_event_quiet o')) as (_ & _ & ->). now apply Hf.
  - left. cbn -[settled].
    match goal with |- settled (?l ++ ?r) = _ => destruct (quiet_app l r (proxy_event_quiet o')) as (_ & _ & ->) end. reflexivity.
  - left. cbn -[settled]. apply xfer_frame in Hx.
    match goal with |- settled (?l ++ ?r) = _ => assert (Hq : forall e, In e l -> quiet e) end.
    { intros e Hi. destruct o'; cbn in Hi; try contradiction; destruct Hi as [<-|[]]; exact I. }
    destruct (quiet_app _ (s_events s1) Hq) as (_ & _ & ->). now apply Hf.
  - left. apply debit_frame in Hdeb as (_ & _ & _ & _ & _ & _ & _ & E8). exact E8.
  - left. apply debit_frame in Hdeb as (_ & _ & _ & _ & _ & _ & _ & E8). exact E8.
  - left. destruct Hc; reflexivity.
  - left. apply payouts_frame in Hp as (_ & _ & _ & _ & _ & _ & _ & new & P7 & P8). cbn -[settled]. rewrite P7, app_assoc.
    assert (Hq : forall e, In e (fl ++ new) -> quiet e).
    { intros e Hi. apply in_app_or in Hi as [Hi|Hi]; [destruct Hfl as [->| ->]; [destruct Hi|destruct Hi as [<-|[]]; exact I]|]. apply P8 in Hi as (?&?&->). exact I. }
    destruct (quiet_app _ (s_events s1) Hq) as (_ & _ & ->). destruct Hc; reflexivity.
  - right. exists id0, ev. split; [reflexivity|]. split; [cbn; eauto|]. split; [cbn; rewrite lookup_delete; intros [? ?]; discriminate|]. auto.
  - right. exists id0, ev. split; [destruct Hc; reflexivity|]. split; [cbn; eauto|].
    split; [destruct Hc; cbn; rewrite lookup_delete; intros [? ?]; discriminate|]. split; [exact Hk|]. right. eauto.
Qed.
Print Assumptions C06_settled_only_when_ready.

(** "Whenever a refund consumes the entry it has been credited" is false: the entry is removed before
    the amount is checked, and the caller swallows the error without rolling back. *)
Theorem C06_consumed_without_credit_refuted :
  exists c cr s0 ops e, s0 = genesis (<[1 := 500]> ∅) (<[(5, 1) := 40]> ∅) 7 10 /\
    let s := run c cr s0 ops in let s' := step c cr s (OpEthEvent e) in
    in_stage s 0 Ready /\ (forall g, ~ in_stage s' 0 g) /\ same_balances s s' /\ token_total 5 s' = 30 /\
    settled (s_events s') = [].
Proof.
  exists ex_c, ex_cr, ex_s, [OpDirectLower 1 1 5 10 44; EnvBlock 20 1000; OpRunTask 0; OpProofResult 0 PALLET_ID (Some [1]); EnvProcessed 71],
    (mkEthEvent 71 (LogLowerReverted 5 1 0 0 44)).
  split; [reflexivity|]. cbv zeta.
  split; [exists (concat_lower_data (mkLowerData 5 10 44 0 1 1000), [1]); vm_compute; reflexivity|].
  split; [intros [] [x Hx]; vm_compute in Hx; discriminate|]. split; [vm_compute; auto|]. split; vm_compute; reflexivity.
Qed.
Print Assumptions C06_consumed_without_credit_refuted.
