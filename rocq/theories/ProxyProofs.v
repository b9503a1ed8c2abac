From Verif Require Import Base BaseLemmas CodecModel CodecProofs SigModel ProxyModel ProxySpec.
From Verif Require TokenModel TokenSpec TokenProofs TokenProps NftModel NftSpec.

Lemma sig_valid_spec cr r i p : call_proof i = Some p -> signature_is_valid cr r i = true <-> signed_by_signer cr r i p.
Proof.
  destruct i as [i|i|p0 valid eff|]; cbn [call_proof signature_is_valid signed_by_signer]; intros Hp; [| |done|done].
  - destruct i as [p' from to token amount|p' from token amount t1|n]; cbn in Hp; injection Hp as <- || discriminate; done.
  - injection Hp as <-. destruct i as [p r0 l a|p id m|p id to|p id|p n l a|p b ix o r0|p b m|p b]; cbn [nft_sig_valid NftSpec.payload_of subject NftModel.call_proof];
      unfold NftSpec.nft_nonce;
      try (split; [intros H; split; [exact H|intros ? [=]]|now intros [? _]]);
      (destruct (NftModel.s_nfts (r_nft r) !! id) as [n|] eqn:E;
       [split; [intros H; split; [exact H|intros ? [= <-]; rewrite E; eauto]|now intros [? _]]
       |split; [discriminate|intros [_ H]; destruct (H id eq_refl) as [? H']; congruence]]).
Qed.

Lemma pay_fee_paid pi r r' :
  in_tm (TokenModel.pay_fee (pm_token pi) (pm_amount pi) (pm_payer pi) (pm_recipient pi)) r = (r', Ok tt) -> paid pi r r'.
Proof.
  unfold in_tm. destruct (TokenModel.pay_fee _ _ _ _ (r_tm r)) as [tm res] eqn:E. cbn. intros [= <- ->].
  unfold TokenModel.pay_fee in E. apply TokenProofs.settle_transfer_ok in E. split; [now apply TokenProps.xfer_moves|]. split; [|reflexivity].
  cbn. destruct (r_tm r). unfold only_balances; cbn in *.
  destruct E; cbn; first [exists s_free, s_bal, []; reflexivity | do 2 eexists; exists []; reflexivity | do 2 eexists; eexists [_]; reflexivity].
Qed.

Definition fee_run (pi : payment) (r r' : runtime) : Prop :=
  in_tm (TokenModel.pay_fee (pm_token pi) (pm_amount pi) (pm_payer pi) (pm_recipient pi)) r = (r', Ok tt).
Lemma charge_fee_ok cr p pi s s' : charge_fee cr p pi s = (s', Ok tt) ->
  verify_signature cr (mkProof (pm_payer pi) (pf_relayer p) (pm_sig pi)) (payload_of s (p, pi)) = true /\
  exists r, (paid pi (s_rt s) r /\ fee_run pi (s_rt s) r) /\ s' = mkSt r (<[pm_payer pi := (nonce_of s (pm_payer pi) + 1) mod 2 ^ 64]> (s_nonces s)) (s_events s).
Proof.
  intros H. unfold charge_fee in H. minv H. repeat match goal with u : unit |- _ => destruct u end.
  match goal with X : verify_signature _ _ _ = true |- _ => split; [exact X|] end.
  match goal with X : in_rt _ _ = _ |- _ => unfold in_rt in X; injection X as <- Hr end.
  exists (fst (in_tm (TokenModel.pay_fee (pm_token pi) (pm_amount pi) (pm_payer pi) (pm_recipient pi)) (s_rt s))). split; [|reflexivity].
  enough (Hf : fee_run pi (s_rt s) (fst (in_tm (TokenModel.pay_fee (pm_token pi) (pm_amount pi) (pm_payer pi) (pm_recipient pi)) (s_rt s)))) by (split; [now apply pay_fee_paid|exact Hf]).
  unfold fee_run, in_tm at 1. cbv zeta. f_equal. exact Hr.
Qed.

Lemma try_inner_spec c cr relayer i p s s' res : call_proof i = Some p -> try_inner c cr relayer (pf_signer p) i s = (s', res) ->
  res = Ok tt /\ exists r ev, outcome c cr relayer i p (s_rt s) r ev /\ s' = mkSt r (s_nonces s) (ev :: s_events s).
Proof.
  intros Hp. unfold try_inner, mbind_, get_st. cbn. destruct (signature_is_valid cr (s_rt s) i) eqn:E.
  - apply (sig_valid_spec _ _ _ _ Hp) in E. unfold dispatch. destruct (call_body c cr (pf_signer p) i (s_rt s)) as [r [[]|e]] eqn:Eb; intros [= <- <-];
      (split; [reflexivity|]); do 2 eexists; (split; [|reflexivity]); [now apply Done|now apply Failed with r].
  - intros [= <- <-]. split; [reflexivity|]. do 2 eexists. split; [|reflexivity]. apply Unsigned. intros H. apply (sig_valid_spec _ _ _ _ Hp) in H. congruence.
Qed.

(** What an accepted relayed call amounts to. *)
Lemma proxy_ok c cr relayer i pay s s' : proxy c cr relayer i pay s = (s', Ok tt) ->
  exists p r r' ev, call_proof i = Some p /\ relayer = pf_relayer p /\
    match pay with
    | Some pi => verify_signature cr (mkProof (pm_payer pi) relayer (pm_sig pi)) (payload_of s (p, pi)) = true /\ paid pi (s_rt s) r /\ fee_run pi (s_rt s) r
    | None => r = s_rt s
    end /\
    outcome c cr relayer i p r r' ev /\
    s' = mkSt r' (match pay with Some pi => <[pm_payer pi := (nonce_of s (pm_payer pi) + 1) mod 2 ^ 64]> (s_nonces s) | None => s_nonces s end) (ev :: s_events s).
Proof.
  intros H. unfold proxy in H. apply mbind_ok in H as (s1 & p & H1 & H). apply some_or_ok in H1 as [Hp ->].
  apply mbind_ok in H as (s2 & u & H1 & H). apply ensure_ok in H1 as [Hr ->]. apply N.eqb_eq in Hr.
  apply mbind_ok in H as (s2 & u2 & H1 & H). destruct u2. apply (try_inner_spec _ _ _ _ p) in H as [_ (r' & ev & Ho & ->)]; [|exact Hp].
  destruct pay as [pi|].
  - apply charge_fee_ok in H1 as (Hv & r & Hpd & ->). cbn [s_rt s_nonces s_events] in *. exists p, r, r', ev. subst relayer. done.
  - apply mret_ok in H1 as [_ ->]. exists p, (s_rt s), r', ev. done.
Qed.

(** Payment payloads say everything. *)
Local Opaque be_bytes le_bytes.
Lemma enc_sig_prefix a b x y : typed_sig a -> typed_sig b -> enc_sig a ++ x = enc_sig b ++ y -> a = b /\ x = y.
Proof.
  intros Ha Hb. destruct a as [a|a|a], b as [b|b|b]; cbn [enc_sig app]; intros E;
    try (apply (f_equal (hd 0)) in E; cbn in E; discriminate);
    apply (f_equal (@tl N)) in E; cbn [tl] in E; (apply app_split in E as [E1 E2]; [|now rewrite !be_bytes_length]);
    (apply be_bytes_inj in E1; [now subst|exact Ha|exact Hb]).
Qed.
Lemma enc_proof_prefix a b x y : typed_proof a -> typed_proof b -> enc_proof a ++ x = enc_proof b ++ y -> a = b /\ x = y.
Proof.
  intros (A1 & A2 & A3) (B1 & B2 & B3). unfold enc_proof. rewrite <- !app_assoc. intros E.
  apply app_split in E as [E1 E]; [|now rewrite !be_bytes_length]. apply app_split in E as [E2 E]; [|now rewrite !be_bytes_length].
  apply enc_sig_prefix in E as [E3 E]; [|done..]. apply be_bytes_inj in E1; [|done..]. apply be_bytes_inj in E2; [|done..].
  split; [|exact E]. destruct a, b; cbn in *; congruence.
Qed.
Lemma payment_payload_inj p p' a a' x x' t t' n n' :
  typed_payment (p, mkPayment 0 a x (SigSr25519 0) t) -> typed_payment (p', mkPayment 0 a' x' (SigSr25519 0) t') -> n < 2 ^ 64 -> n' < 2 ^ 64 ->
  payment_payload p a x t n = payment_payload p' a' x' t' n' -> p = p' /\ a = a' /\ x = x' /\ t = t' /\ n = n'.
Proof.
  intros (A1 & A2 & A3 & A4) (B1 & B2 & B3 & B4) Hn Hn'. cbn in *. unfold payment_payload. intros E. apply app_inv_head in E.
  apply enc_proof_prefix in E as [-> E]; [|done..].
  apply app_split in E as [E1 E]; [|now rewrite !be_bytes_length]. apply app_split in E as [E2 E]; [|now rewrite !le_bytes_length].
  apply app_split in E as [E3 E]; [|now rewrite !be_bytes_length].
  apply be_bytes_inj in E1; [|done..]. apply le_bytes_inj in E2; [|done..]. apply be_bytes_inj in E3; [|done..]. apply le_bytes_inj in E; [|done..]. done.
Qed.
Lemma payment_not_wrapped p a x t n m : wrapped m <> payment_payload p a x t n.
Proof. unfold wrapped, payment_payload. intros E. apply (f_equal (hd 0)) in E. vm_compute in E. discriminate. Qed.

Lemma payload_not_wrapped s x m : wrapped m <> payload_of s x.
Proof. unfold payload_of. apply payment_not_wrapped. Qed.

(** Nonces. *)
Lemma exec_nonces c cr s o : s_nonces (step c cr s o) =
  match payment_of c cr s o with
  | Some x => <[pm_payer (snd x) := (nonce_of s (pm_payer (snd x)) + 1) mod 2 ^ 64]> (s_nonces s)
  | None => s_nonces s
  end.
Proof.
  destruct o as [relayer i pay|o|o|f]; try reflexivity. unfold step, payment_of. cbn [exec].
  destruct (dispatch (proxy c cr relayer i pay) s) as [s' [[]|e]] eqn:E; cbn [fst snd].
  - apply dispatch_ok, proxy_ok in E as (p & r & r' & ev & -> & _ & _ & _ & ->). now destruct pay.
  - apply dispatch_err in E. subst. now destruct pay.
Qed.
Definition low (s : st) (k : N) : Prop := forall a, nonce_of s a + k < 2 ^ 64.
Lemma step_nonce c cr s o a k : low s (k + 1) -> nonce_of (step c cr s o) a =
  match payment_of c cr s o with Some x => if pm_payer (snd x) =? a then nonce_of s a + 1 else nonce_of s a | None => nonce_of s a end.
Proof.
  intros HL. unfold nonce_of at 1. rewrite exec_nonces. destruct (payment_of c cr s o) as [x|]; [|reflexivity].
  unfold mget. destruct (N.eqb_spec (pm_payer (snd x)) a) as [<-|Hne].
  - rewrite lookup_insert. specialize (HL (pm_payer (snd x))). rewrite N.mod_small; [reflexivity|lia].
  - now rewrite lookup_insert_ne.
Qed.
Lemma step_low c cr s o k : low s (k + 1) -> low (step c cr s o) k.
Proof.
  intros HL a. rewrite (step_nonce _ _ _ _ _ _ HL). specialize (HL a). destruct (payment_of c cr s o) as [x|]; [|lia]. destruct (_ =? _); lia.
Qed.
Lemma payment_typed c cr s o x : typed_op o -> payment_of c cr s o = Some x -> typed_payment x.
Proof.
  destruct o as [relayer i [pi|]|o|o|f]; cbn; try discriminate. destruct (snd _); [|discriminate]. destruct (call_proof i); [|discriminate].
  now intros H [= <-].
Qed.
Lemma low_le s k k' : low s k -> k' <= k -> low s k'.
Proof. intros H ? a. specialize (H a). lia. Qed.
(** Every later payment of a payer is over a nonce at least his present one. *)
Lemma later_payment c cr ops : forall s x pl, low s (N.of_nat (length ops)) -> Forall typed_op ops ->
  In (x, pl) (payments c cr s ops) -> exists p a m t n, typed_payment (p, mkPayment 0 a m (SigSr25519 0) t) /\ nonce_of s x <= n < 2 ^ 64 /\ pl = payment_payload p a m t n.
Proof.
  induction ops as [|o ops IH]; intros s x pl HL Ht Hin; [done|]. cbn in Hin. apply Forall_cons in Ht as [Ho Ht].
  assert (HL1 : low s (N.of_nat (length ops) + 1)) by (eapply low_le; [exact HL|cbn [length]; lia]).
  apply in_app_or in Hin as [Hin|Hin].
  - destruct (payment_of c cr s o) as [[p pi]|] eqn:E; [|done]. destruct Hin as [[= <- <-]|[]]. pose proof (payment_typed _ _ _ _ _ Ho E) as (T1 & T2 & T3 & T4).
    exists p, (pm_recipient pi), (pm_amount pi), (pm_token pi), (nonce_of s (pm_payer pi)). split; [done|]. split; [|done]. cbn.
    specialize (HL (pm_payer pi)). lia.
  - apply IH in Hin as (p & a & m & t & n & H1 & H2 & H3); [|now apply step_low|done]. exists p, a, m, t, n. split; [done|]. split; [|done].
    rewrite (step_nonce _ _ _ _ _ _ HL1) in H2. destruct (payment_of c cr s o) as [y|]; [|lia]. destruct (_ =? _); lia.
Qed.
Lemma payments_nodup c cr ops : forall s, low s (N.of_nat (length ops)) -> Forall typed_op ops -> NoDup (payments c cr s ops).
Proof.
  induction ops as [|o ops IH]; intros s HL Ht; [constructor|]. cbn. apply Forall_cons in Ht as [Ho Ht].
  assert (HL1 : low s (N.of_nat (length ops) + 1)) by (eapply low_le; [exact HL|cbn [length]; lia]).
  specialize (IH (step c cr s o) (step_low _ _ _ _ _ HL1) Ht). destruct (payment_of c cr s o) as [[p pi]|] eqn:E; [|exact IH].
  cbn. constructor; [|exact IH]. intros Hin. apply elem_of_list_In in Hin.
  apply later_payment in Hin as (p' & a & m & t & n & H1 & H2 & H3); [|now apply step_low|done].
  pose proof (payment_typed _ _ _ _ _ Ho E) as (T1 & T2 & T3 & T4). cbn in T2, T3, T4.
  unfold payload_of in H3. cbn in H3. apply payment_payload_inj in H3 as (_ & _ & _ & _ & <-); [|done|done| |lia].
  2: { specialize (HL (pm_payer pi)). lia. }
  rewrite (step_nonce _ _ _ _ _ _ HL1), E in H2. cbn in H2. rewrite N.eqb_refl in H2. lia.
Qed.
Lemma payments_app c cr a : forall b s, payments c cr s (a ++ b) = payments c cr s a ++ payments c cr (run c cr s a) b.
Proof. induction a as [|o a IH]; intros b s; [reflexivity|]. cbn. rewrite IH. now rewrite app_assoc. Qed.

(** Histories of relayed calls are histories of the two pallets. *)
Lemma tm_run_app c cr s a b : TokenModel.run c cr s (a ++ b) = TokenModel.run c cr (TokenModel.run c cr s a) b.
Proof. apply fold_left_app. Qed.
Lemma nft_run_app c cr s a b : NftModel.run c cr s (a ++ b) = NftModel.run c cr (NftModel.run c cr s a) b.
Proof. apply fold_left_app. Qed.
Lemma fee_history c cr pi r r' : fee_run pi r r' ->
  r_tm r' = TokenModel.step c cr (r_tm r) (TokenModel.OpPayFee (pm_token pi) (pm_amount pi) (pm_payer pi) (pm_recipient pi)).
Proof.
  unfold fee_run, in_tm, TokenModel.step. cbn [TokenModel.exec]. unfold dispatch.
  destruct (TokenModel.pay_fee _ _ _ _ (r_tm r)) as [tm [[]|e]] eqn:E; cbn; intros [=]; now subst.
Qed.
Lemma outcome_history c cr relayer i p r r' ev : outcome c cr relayer i p r r' ev -> match i with COther _ _ _ => False | _ => True end ->
  exists ts ns, (length ts <= 1)%nat /\ (length ns <= 1)%nat /\
    r_tm r' = TokenModel.run (c_tm c) cr (r_tm r) ts /\ r_nft r' = NftModel.run (c_nft c) cr (r_nft r) ns.
Proof.
  intros [r1 Hs Hb|r1 e _ _|_] Hi; [|exists [], []; cbn; repeat split; lia..].
  destruct i as [i|i|p0 v eff|]; cbn in Hb; [| |done|unfold fail in Hb; discriminate].
  - unfold in_tm in Hb. exists [TokenModel.OpSigned (pf_signer p) i], []. cbn [length TokenModel.run fold_left NftModel.run]. split; [lia|]. split; [lia|].
    unfold TokenModel.step. cbn [TokenModel.exec]. unfold dispatch.
    destruct (TokenModel.run_inner (c_tm c) cr (pf_signer p) i (r_tm r)) as [tm [[]|e]] eqn:E; cbn in Hb; [|discriminate]. injection Hb as <-. done.
  - unfold in_nft in Hb. exists [], [NftModel.OpSigned (pf_signer p) i]. cbn [length TokenModel.run fold_left NftModel.run]. split; [lia|]. split; [lia|].
    unfold NftModel.step. cbn [NftModel.exec]. unfold dispatch.
    destruct (NftModel.run_call (c_nft c) cr (pf_signer p) i (r_nft r)) as [tm [[]|e]] eqn:E; cbn in Hb; [|discriminate]. injection Hb as <-. done.
Qed.
Lemma step_history c cr s o : plain o -> exists ts ns, (length ts <= 2)%nat /\ (length ns <= 1)%nat /\
  r_tm (s_rt (step c cr s o)) = TokenModel.run (c_tm c) cr (r_tm (s_rt s)) ts /\
  r_nft (s_rt (step c cr s o)) = NftModel.run (c_nft c) cr (r_nft (s_rt s)) ns.
Proof.
  destruct o as [relayer i pay|o|o|f]; intros Hpl; cbn in Hpl; [| | |done].
  - unfold step. cbn [exec]. destruct (dispatch (proxy c cr relayer i pay) s) as [s' [[]|e]] eqn:E; cbn [fst].
    2: { apply dispatch_err in E as ->. exists [], []. cbn. repeat split; lia. }
    apply dispatch_ok, proxy_ok in E as (p & r & r' & ev & _ & _ & Hf & Ho & ->). cbn [s_rt].
    apply outcome_history in Ho as (ts & ns & Ht & Hn & -> & ->); [|now destruct i].
    destruct pay as [pi|].
    + destruct Hf as (_ & (_ & _ & Hnf) & Hf). apply (fee_history (c_tm c) cr) in Hf. rewrite Hf, Hnf.
      exists (TokenModel.OpPayFee (pm_token pi) (pm_amount pi) (pm_payer pi) (pm_recipient pi) :: ts), ns. cbn [length]. repeat split; try lia.
    + subst r. exists ts, ns. repeat split; lia.
  - exists [o], []. cbn. repeat split; lia.
  - exists [], [o]. cbn. repeat split; lia.
Qed.
Lemma run_history c cr ops : forall s, Forall plain ops -> exists ts ns, (length ts <= 2 * length ops)%nat /\ (length ns <= length ops)%nat /\
  r_tm (s_rt (run c cr s ops)) = TokenModel.run (c_tm c) cr (r_tm (s_rt s)) ts /\
  r_nft (s_rt (run c cr s ops)) = NftModel.run (c_nft c) cr (r_nft (s_rt s)) ns.
Proof.
  induction ops as [|o ops IH]; intros s Hp; [exists [], []; cbn; repeat split; lia|]. apply Forall_cons in Hp as [Ho Hp].
  destruct (step_history c cr s o Ho) as (t1 & n1 & L1 & L2 & E1 & E2). destruct (IH (step c cr s o) Hp) as (t2 & n2 & L3 & L4 & E3 & E4).
  exists (t1 ++ t2), (n1 ++ n2). rewrite !app_length. cbn [length]. split; [lia|]. split; [lia|].
  rewrite tm_run_app, nft_run_app, <- E1, <- E2. now split.
Qed.
