(** Theorems about relayed calls with fees: C29. *)
From Verif Require Import Base BaseLemmas CodecModel CodecProofs SigModel ProxyModel ProxySpec ProxyProofs.
From Verif Require TokenModel TokenSpec TokenProps NftModel NftSpec NftProps.

(** A concrete world: the native token is 100; account 1 owns 50, account 2 pays fees from 20; relayer 9. *)
Definition ex_cr : crypto := mkCrypto (fun a m sg => sg =? a + fold_left N.add m 0) (fun _ _ => None).
Definition ex_c : config := mkConfig (TokenModel.mkConfig 7 0 8) NftProps.ex_c.
Definition ex_s : st := genesis (mkRt (TokenModel.genesis {[1 := 50; 2 := 20]} ∅ 100 5) NftModel.genesis).
Definition ex_sign (who : N) (payload : list N) : multisig := SigSr25519 (who + fold_left N.add payload 0).
Definition ex_proof (amount nonce : N) : proof := mkProof 1 9 (ex_sign 1 (TokenModel.transfer_payload 9 1 3 100 amount nonce)).
Definition ex_call (amount nonce : N) : call := CToken (TokenModel.CSignedTransfer (ex_proof amount nonce) 1 3 100 amount).
Definition ex_pay (amount tnonce fee pnonce : N) : payment :=
  mkPayment 2 9 fee (ex_sign 2 (payment_payload (ex_proof amount tnonce) 9 fee 100 pnonce)) 100.
Definition ex_ops : list op :=
  [OpProxy 9 (ex_call 10 0) (Some (ex_pay 10 0 4 0));      (* charged 4, moves 10 *)
   OpProxy 9 (ex_call 10 0) (Some (ex_pay 10 0 4 0));      (* replay: rejected, nothing charged *)
   OpProxy 9 (ex_call 10 0) (Some (ex_pay 10 0 4 1));      (* paid again, but the transfer is a replay *)
   OpProxy 9 (ex_call 99 1) (Some (ex_pay 99 1 4 2));      (* paid, the transfer fails *)
   OpProxy 9 (ex_call 5 1) None;                           (* free *)
   OpProxy 8 (ex_call 5 2) None].                          (* not the relayer named *)
Example C29_example : let s := run ex_c ex_cr ex_s ex_ops in
  map (TokenModel.free_of (r_tm (s_rt s))) [1; 2; 3; 9] = [35; 8; 15; 12] /\ nonce_of s 2 = 3 /\
  s_events s = [CallDispatched 9; InnerCallFailed 9 "InsufficientBalance"; InnerCallFailed 9 "UnauthorizedProxyTransaction"; CallDispatched 9] /\
  Forall typed_op ex_ops /\ Forall plain ex_ops.
Proof. split; [vm_compute; reflexivity|]. split; [vm_compute; reflexivity|]. split; [vm_compute; reflexivity|]. split; [|repeat constructor].
  repeat (apply Forall_cons; split; [|]); try apply Forall_nil; try exact I; vm_compute; auto 20. Qed.

(** A rejected relayed call changes nothing at all. *)
Theorem C29_rejected_changes_nothing c cr s relayer i pay e :
  snd (exec c cr (OpProxy relayer i pay) s) = Err e -> step c cr s (OpProxy relayer i pay) = s.
Proof.
  unfold step. cbn [exec]. destruct (dispatch _ s) as [s' r] eqn:E. cbn. intros ->. now apply dispatch_err in E.
Qed.

(** An accepted relayed call with a payment: it was submitted by the relayer named in the proof; the payer
    signed the payment over the current nonce; he is charged exactly the amount, once, whatever becomes of the
    inner call; one payment nonce is used; then the inner call runs, with the origin of the signer, to its end or
    not at all, and it does not run unless its signature is good. *)
Theorem C29_charged_exactly_once c cr s relayer i pi : let s' := step c cr s (OpProxy relayer i (Some pi)) in
  snd (exec c cr (OpProxy relayer i (Some pi)) s) = Ok tt ->
  exists p r ev, call_proof i = Some p /\ relayer = pf_relayer p /\
    verify_signature cr (mkProof (pm_payer pi) relayer (pm_sig pi)) (payload_of s (p, pi)) = true /\
    paid pi (s_rt s) r /\ outcome c cr relayer i p r (s_rt s') ev /\ s_events s' = ev :: s_events s /\
    (forall a, nonce_of s' a = if a =? pm_payer pi then (nonce_of s a + 1) mod 2 ^ 64 else nonce_of s a).
Proof.
  unfold step. cbn [exec]. destruct (dispatch _ s) as [s' r0] eqn:E. cbn [fst snd]. intros ->.
  apply dispatch_ok, proxy_ok in E as (p & r & r' & ev & Hp & Hr & (Hv & Hpd & _) & Ho & ->). exists p, r, ev.
  split; [exact Hp|]. split; [exact Hr|]. split; [exact Hv|]. split; [exact Hpd|]. split; [exact Ho|]. split; [reflexivity|]. intros a. unfold nonce_of at 1, mget. cbn [s_nonces]. destruct (N.eqb_spec a (pm_payer pi)) as [->|Hne].
  - now rewrite lookup_insert.
  - rewrite lookup_insert_ne; [reflexivity|congruence].
Qed.
(** Without a payment nothing is charged: the inner call is all that happens. *)
Theorem C29_without_payment c cr s relayer i : let s' := step c cr s (OpProxy relayer i None) in
  snd (exec c cr (OpProxy relayer i None) s) = Ok tt ->
  exists p ev, call_proof i = Some p /\ relayer = pf_relayer p /\ outcome c cr relayer i p (s_rt s) (s_rt s') ev /\
    s_events s' = ev :: s_events s /\ s_nonces s' = s_nonces s.
Proof.
  unfold step. cbn [exec]. destruct (dispatch _ s) as [s' r0] eqn:E. cbn [fst snd]. intros ->.
  apply dispatch_ok, proxy_ok in E as (p & r & r' & ev & Hp & Hr & -> & Ho & ->). exists p, ev. done.
Qed.
(** When is it accepted? When the call is supported, the relayer is right, and the payment (if there is one) is
    signed and the payer can afford it. *)
Theorem C29_accepted_when c cr s relayer i p pay r : call_proof i = Some p -> relayer = pf_relayer p ->
  (match pay with
   | Some pi => verify_signature cr (mkProof (pm_payer pi) relayer (pm_sig pi)) (payload_of s (p, pi)) = true /\
       TokenModel.pay_fee (pm_token pi) (pm_amount pi) (pm_payer pi) (pm_recipient pi) (r_tm (s_rt s)) = (r, Ok tt)
   | None => True
   end) -> snd (exec c cr (OpProxy relayer i pay) s) = Ok tt.
Proof.
  intros Hp -> Hpay. cbn [exec]. unfold dispatch, proxy. unfold mbind_ at 1. rewrite Hp. cbn [some_or mret_].
  unfold mbind_ at 1, ensure at 1. rewrite N.eqb_refl. destruct pay as [pi|].
  - destruct Hpay as [Hv Hf]. unfold mbind_ at 1, charge_fee. unfold mbind_ at 1, gets. unfold mbind_ at 1, ensure. unfold payload_of in Hv. cbn [fst snd] in Hv. rewrite Hv.
    unfold mbind_ at 1, in_rt, in_tm. rewrite Hf. cbn [fst snd modify].
    match goal with |- context [try_inner ?c ?cr ?a ?b ?i ?s] => destruct (try_inner c cr a b i s) as [s' res] eqn:E end.
    apply (try_inner_spec _ _ _ _ p) in E as [-> _]; done.
  - unfold mbind_ at 1, mret_. destruct (try_inner c cr _ _ i s) as [s' res] eqn:E. apply (try_inner_spec _ _ _ _ p) in E as [-> _]; done.
Qed.

(** Nothing else touches the payment nonces. *)
Theorem C29_nonces_only_by_payment c cr s o : payment_of c cr s o = None -> s_nonces (step c cr s o) = s_nonces s.
Proof. intros H. now rewrite exec_nonces, H. Qed.

(** The bytes the payer signs determine the relayed call's proof (hence signer, relayer and the inner signature),
    the recipient, the amount, the token and the nonce. *)
Theorem C29_payment_binds p p' pi pi' n n' : typed_payment (p, pi) -> typed_payment (p', pi') -> n < 2 ^ 64 -> n' < 2 ^ 64 ->
  payment_payload p (pm_recipient pi) (pm_amount pi) (pm_token pi) n = payment_payload p' (pm_recipient pi') (pm_amount pi') (pm_token pi') n' ->
  p = p' /\ pm_recipient pi = pm_recipient pi' /\ pm_amount pi = pm_amount pi' /\ pm_token pi = pm_token pi' /\ n = n'.
Proof. intros (T1 & T2 & T3 & T4) (U1 & U2 & U3 & U4) Hn Hn' E. apply payment_payload_inj in E; done. Qed.

(** In a history of fewer than 2^64 operations no payment authorisation of a payer is charged twice. *)
Theorem C29_no_payment_twice c cr r ops : Forall typed_op ops -> N.of_nat (length ops) < 2 ^ 64 ->
  NoDup (payments c cr (genesis r) ops).
Proof. intros Ht Hb. apply payments_nodup; [|exact Ht]. intros a. change (nonce_of (genesis r) a) with 0. lia. Qed.
Theorem C29_no_payment_signature_twice c cr r ops1 o1 ops2 o2 ops3 p1 pi1 p2 pi2 :
  let ops := ops1 ++ o1 :: ops2 ++ o2 :: ops3 in
  let s1 := run c cr (genesis r) ops1 in let s2 := run c cr s1 (o1 :: ops2) in
  one_message cr -> Forall typed_op ops -> N.of_nat (length ops) < 2 ^ 64 ->
  payment_of c cr s1 o1 = Some (p1, pi1) -> payment_of c cr s2 o2 = Some (p2, pi2) ->
  pm_payer pi1 = pm_payer pi2 -> pm_sig pi1 = pm_sig pi2 -> False.
Proof.
  intros ops s1 s2 [Hsr Hec] Ht Hb Ha1 Ha2 Hsg Hsig.
  assert (Hnd : NoDup (payments c cr (genesis r) ops)) by (now apply C29_no_payment_twice).
  unfold ops in Hnd. rewrite payments_app in Hnd. fold s1 in Hnd. apply NoDup_app in Hnd as (_ & _ & Hnd).
  change (o1 :: ops2 ++ o2 :: ops3) with ((o1 :: ops2) ++ o2 :: ops3) in Hnd. rewrite payments_app in Hnd. fold s2 in Hnd.
  cbn [payments] in Hnd. rewrite Ha1, Ha2 in Hnd. cbn [app fst snd] in Hnd. apply NoDup_cons in Hnd as [Hnd _].
  assert (Hver : forall s o p pi, payment_of c cr s o = Some (p, pi) ->
    exists rl, verify_signature cr (mkProof (pm_payer pi) rl (pm_sig pi)) (payload_of s (p, pi)) = true).
  { clear. intros s o p pi H. destruct o as [relayer i [pi0|]|o|o|f]; cbn [payment_of] in H; try discriminate.
    destruct (snd (exec c cr (OpProxy relayer i (Some pi0)) s)) as [[]|e] eqn:E; [|discriminate].
    destruct (C29_charged_exactly_once c cr s relayer i pi0 E) as (p0 & r & ev & H1 & _ & H2 & _). rewrite H1 in H. injection H as <- <-. eauto. }
  apply Hver in Ha1 as [rl1 Hv1]. apply Hver in Ha2 as [rl2 Hv2].
  assert (Em : payload_of s1 (p1, pi1) = payload_of s2 (p2, pi2)).
  { unfold verify_signature in Hv1, Hv2. cbn [pf_sig pf_signer] in Hv1, Hv2. rewrite <- Hsig, <- Hsg in Hv2. destruct (pm_sig pi1) as [sg|sg|sg].
    - apply orb_true_iff in Hv1, Hv2. destruct Hv1 as [H1|H1], Hv2 as [H2|H2]; pose proof (Hsr _ _ _ _ H1 H2) as E.
      + unfold wrapped in E. apply app_inv_head in E. now apply app_inv_tail in E.
      + exfalso. exact (payload_not_wrapped _ _ _ E).
      + exfalso. exact (payload_not_wrapped _ _ _ (eq_sym E)).
      + exact E.
    - destruct (cr_recover cr sg (payload_of s1 (p1, pi1))) as [a1|] eqn:E1; [|discriminate].
      destruct (cr_recover cr sg (payload_of s2 (p2, pi2))) as [a2|] eqn:E3; [|discriminate].
      apply N.eqb_eq in Hv1, Hv2. subst a1 a2. eapply Hec; eassumption.
    - discriminate. }
  apply Hnd. rewrite Em, Hsg. apply elem_of_app. right. left.
Qed.

(** What the relayed calls and their fees do to the token manager and to the NFT manager is a history of those
    pallets: every theorem about all histories of TokenModel and NftModel holds along relayed ones. *)
Theorem C29_composes c cr s ops : Forall plain ops -> exists ts ns,
  (length ts <= 2 * length ops)%nat /\ (length ns <= length ops)%nat /\
  r_tm (s_rt (run c cr s ops)) = TokenModel.run (c_tm c) cr (r_tm (s_rt s)) ts /\
  r_nft (s_rt (run c cr s ops)) = NftModel.run (c_nft c) cr (r_nft (s_rt s)) ns.
Proof. apply run_history. Qed.
