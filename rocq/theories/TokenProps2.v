(** C103: frozen AVT is not spent by transfers, lowers and fees. *)
From Verif Require Import Base BaseLemmas CodecModel CodecProofs SigModel TokenModel TokenSpec TokenProofs TokenProofs2 TokenProofs3 TokenProps.

(** Whatever was covered stays covered, and the frozen amounts are not this pallet's to change. *)
Definition respects (s s' : st) : Prop :=
  (forall a, mget 0 a (s_frozen s) <= free_of s a -> mget 0 a (s_frozen s) <= free_of s' a) /\ s_frozen s' = s_frozen s.
Lemma respects_refl s : respects s s. Proof. split; auto. Qed.
Lemma respects_trans a b d : respects a b -> respects b d -> respects a d.
Proof. intros [H1 H2] [H3 H4]. split; [|congruence]. intros x Hx. rewrite H2 in H3. auto. Qed.
Definition kp {A} (m : M st A) : Prop := forall s, respects s (fst (m s)).
Lemma kp_ret {A} (a : A) : kp (mret_ a). Proof. intros s. apply respects_refl. Qed.
Lemma kp_bind {A B} (m : M st A) (f : A -> M st B) : kp m -> (forall a, kp (f a)) -> kp (mbind_ m f).
Proof. intros Hm Hf s. unfold mbind_. specialize (Hm s). destruct (m s) as [s1 [a|e]]; [|exact Hm]. eapply respects_trans; [exact Hm|]. apply Hf. Qed.
Lemma kp_bind_get {B} (f : st -> M st B) : (forall s, respects s (fst (f s s))) -> kp (mbind_ get_st f).
Proof. intros Hf s. apply Hf. Qed.
Lemma kp_at {A} (m : M st A) s : kp m -> respects s (fst (m s)). Proof. intros H. apply H. Qed.
Lemma kp_get : kp get_st. Proof. intros s. apply respects_refl. Qed.
Lemma kp_gets {A} (f : st -> A) : kp (gets f). Proof. intros s. apply respects_refl. Qed.
Lemma kp_fail {A} e : kp (fail e : M st A). Proof. intros s. apply respects_refl. Qed.
Lemma kp_ensure b e : kp (ensure b e : M st unit). Proof. intros s. unfold ensure. destruct b; apply respects_refl. Qed.
Lemma kp_some_or {A} (o : option A) e : kp (some_or o e : M st A). Proof. intros s. unfold some_or. destruct o; apply respects_refl. Qed.
Lemma kp_modify f : (forall s, s_free (f s) = s_free s) -> (forall s, s_frozen (f s) = s_frozen s) -> kp (modify f).
Proof. intros H1 H2 s. unfold modify. cbn. split; [|apply H2]. intros a Ha. unfold free_of in *. by rewrite H1. Qed.
Lemma kp_emit e : kp (emit e). Proof. apply kp_modify; done. Qed.
Lemma kp_dispatch {A} (m : M st A) : kp m -> kp (dispatch m).
Proof. intros H s. unfold dispatch. specialize (H s). destruct (m s) as [s1 [a|e]]; [exact H|apply respects_refl]. Qed.
Lemma raised_free s a x : respects s (s <| s_free := <[a := free_of s a + x]> (s_free s) |>).
Proof.
  split; [|done]. intros b Hb. unfold free_of, mget in *. cbn. destruct (N.eq_dec b a) as [->|Hn]; [rewrite lookup_insert; cbn; lia|by rewrite lookup_insert_ne by congruence].
Qed.
Lemma native_transfer_kp from to amount : kp (native_transfer from to amount).
Proof.
  unfold native_transfer. apply kp_bind_get. intros s. destruct ((amount =? 0) || (from =? to)) eqn:E; [apply respects_refl|].
  apply orb_false_elim in E as [_ E]. apply N.eqb_neq in E. unfold mbind_, ensure, modify.
  destruct (amount <=? _) eqn:E1; [|apply respects_refl]. destruct (_ <=? U128_MAX); [|apply respects_refl].
  destruct (N.leb_spec (mget 0 from (s_frozen s)) (free_of s from - amount)) as [L|L]; [|apply respects_refl]. cbn [fst].
  split; [|done]. intros b Hb. unfold free_of in *. cbn. unfold mget in *. destruct (N.eq_dec b to) as [->|Ht]; [rewrite lookup_insert; cbn; lia|].
  rewrite lookup_insert_ne by congruence. destruct (N.eq_dec b from) as [->|Hf]; [rewrite lookup_insert; exact L|]. rewrite lookup_insert_ne by congruence. exact Hb.
Qed.
Lemma native_withdraw_kp who amount : kp (native_withdraw who amount).
Proof.
  unfold native_withdraw. apply kp_bind_get. intros s. destruct (amount =? 0); [apply respects_refl|]. unfold mbind_, ensure, modify, mret_.
  destruct (amount <=? _); [|apply respects_refl].
  destruct (N.leb_spec (mget 0 who (s_frozen s)) (free_of s who - amount)) as [L|L]; [|apply respects_refl]. cbn [fst].
  split; [|done]. intros b Hb. unfold free_of in *. cbn. unfold mget in *. destruct (N.eq_dec b who) as [->|Hf]; [rewrite lookup_insert; exact L|]. rewrite lookup_insert_ne by congruence. exact Hb.
Qed.
Lemma native_deposit_kp who amount : kp (native_deposit who amount).
Proof.
  unfold native_deposit. apply kp_bind_get. intros s. destruct (amount =? 0); [apply respects_refl|]. destruct (_ <=? U128_MAX); [|apply respects_refl].
  unfold mbind_, modify, mret_. cbn [fst]. apply raised_free.
Qed.
Lemma pay_one_kp p : kp (pay_one p).
Proof.
  unfold pay_one. apply kp_bind_get. intros s. destruct (_ || _); [apply respects_refl|].
  unfold mbind_, modify, emit, drop_positive. cbn [fst]. eapply respects_trans; [apply (raised_free s p.1 p.2)|]. split; [|done]. done.
Qed.
Ltac kps :=
  repeat match goal with
  | |- kp (mbind_ _ _) => apply kp_bind; [|intros ?]
  | |- kp (native_transfer _ _ _) => apply native_transfer_kp
  | |- kp (native_withdraw _ _) => apply native_withdraw_kp
  | |- kp (native_deposit _ _) => apply native_deposit_kp
  | |- kp get_st => apply kp_get
  | |- kp (gets _) => apply kp_gets
  | |- kp (fail _) => apply kp_fail
  | |- kp (mret_ _) => apply kp_ret
  | |- kp (ensure _ _) => apply kp_ensure
  | |- kp (some_or _ _) => apply kp_some_or
  | |- kp (emit _) => apply kp_emit
  | |- kp (dispatch _) => apply kp_dispatch
  | |- kp (modify _) => apply kp_modify; intros ?; reflexivity
  | |- kp (match ?x with _ => _ end) => destruct x
  | |- kp (let '(_, _) := ?x in _) => destruct x
  end.
Lemma settle_transfer_kp t f o a : kp (settle_transfer t f o a). Proof. unfold settle_transfer. kps. Qed.
Lemma settle_lower_kp t f o a x i : kp (settle_lower t f o a x i). Proof. unfold settle_lower, bridge_generate, drop_negative. kps. Qed.
Lemma schedule_lower_kp c f t a x n : kp (schedule_lower c f t a x n). Proof. unfold schedule_lower, schedule_named. kps. Qed.
Lemma run_inner_kp c cr o i : kp (run_inner c cr o i).
Proof.
  destruct i; cbn [run_inner]; [unfold signed_transfer, bump_nonce; kps; apply settle_transfer_kp|unfold schedule_signed_lower, bump_nonce; kps; apply schedule_lower_kp|kps].
Qed.
Lemma pay_all_kp l : kp (pay_all l).
Proof. induction l as [|p l IH]; cbn [pay_all]; [apply kp_ret|]. apply kp_bind; [apply pay_one_kp|intros _; exact IH]. Qed.
Lemma handler_kp c e : kp (processed_event_handler c e).
Proof.
  unfold processed_event_handler. destruct (ee_data e);
    unfold process_lift, process_avt_growth_lift, process_lower_claim, process_lower_reverted, event_known, remove_used_lower, credit_avt_balance, credit_token_balance, drop_positive, on_growth_lifted; kps.
  apply pay_all_kp.
Qed.
Lemma exec_kp c cr o : (forall a n, o <> EnvFrozen a n) -> kp (exec c cr o).
Proof.
  intros Ho. destruct o; cbn [exec]; try (kps; done).
  - apply kp_dispatch, run_inner_kp.
  - unfold proxy. kps. apply run_inner_kp.
  - unfold schedule_direct_lower. kps. apply schedule_lower_kp.
  - unfold run_task. apply kp_bind; [apply kp_get|intros s0]. kps. intros s. unfold emit, modify. cbn [fst].
    eapply respects_trans; [apply (kp_at (dispatch (execute_lower (tk_from a) (tk_to a) (tk_token a) (tk_amount a) (tk_t1 a) id)))|split; done].
    apply kp_dispatch. unfold execute_lower. kps. apply settle_lower_kp.
  - unfold execute_lower. kps. apply settle_lower_kp.
  - unfold regenerate_lower_proof, regenerate_proof, bridge_generate. kps.
  - unfold bridge_reports. intros s. cbn [fst]. apply kp_at. unfold process_lower_proof_result. kps.
  - intros s. unfold on_event_processed. pose proof (handler_kp c e s) as H. destruct (processed_event_handler c e s) as [s1 [a|x]]; cbn [fst] in *; [exact H|].
    eapply respects_trans; [exact H|]. split; done.
  - unfold deposit_tokens, credit_token_balance. kps.
  - unfold pay_fee. kps. apply settle_transfer_kp.
  - unfold pay_treasury. kps. apply settle_transfer_kp.
  - unfold transfer_from_treasury. kps.
  - by destruct (Ho a n).
Qed.
(** Whoever holds at least what is frozen of his AVT still does after any history of calls, lowers, Ethereum events, fees
    and payments: none of them can spend what is staked or locked. *)
Theorem C103_frozen_is_not_spent c cr s ops a : Forall (fun o => forall b n, o <> EnvFrozen b n) ops ->
  mget 0 a (s_frozen s) <= free_of s a ->
  s_frozen (run c cr s ops) = s_frozen s /\ mget 0 a (s_frozen s) <= free_of (run c cr s ops) a.
Proof.
  revert s. induction ops as [|o ops IH]; intros s Hf Ha; [done|]. inversion Hf as [|? ? Ho Hops]; subst.
  destruct (exec_kp c cr o Ho s) as [H1 H2]. change (run c cr s (o :: ops)) with (run c cr (step c cr s o) ops).
  specialize (IH (step c cr s o) Hops). unfold step in *. rewrite H2 in IH. apply IH. by apply H1.
Qed.
(** Locks that the rest of the runtime sets within the balance are respected at all times. *)
Theorem C103_frozen_stays_covered c cr s ops : (forall a, mget 0 a (s_frozen s) <= free_of s a) ->
  (forall l1 a n l2, ops = l1 ++ EnvFrozen a n :: l2 -> n <= free_of (run c cr s l1) a) ->
  forall a, mget 0 a (s_frozen (run c cr s ops)) <= free_of (run c cr s ops) a.
Proof.
  revert s. induction ops as [|o ops IH]; intros s Ha He; [exact Ha|]. change (run c cr s (o :: ops)) with (run c cr (step c cr s o) ops). apply IH.
  - assert (D : (exists b n, o = EnvFrozen b n) \/ (forall b n, o <> EnvFrozen b n)) by (destruct o; try (right; discriminate); by left; do 2 eexists).
    destruct D as [(b & n & ->)|Ho].
    + intros x. pose proof (He [] b n ops eq_refl) as Hn. cbn in Hn. unfold step, free_of. cbn. unfold mget. destruct (N.eq_dec x b) as [->|Hx]; [rewrite lookup_insert; exact Hn|].
      rewrite lookup_insert_ne by congruence. apply Ha.
    + destruct (exec_kp c cr o Ho s) as [H1 H2]. intros x. unfold step. rewrite H2. apply H1, Ha.
  - intros l1 b n l2 ->. exact (He (o :: l1) b n l2 eq_refl).
Qed.
(** A case: of 500 native units of account 1 480 are frozen; a transfer of 20 goes through, one of 21 does not. *)
Example C103_example : let s := step ex_c ex_cr ex_s (EnvFrozen 1 480) in
  mget 0 1 (s_frozen s) = 480 /\ free_of s 1 = 500 /\ free_of (step ex_c ex_cr s (OpNativeTransfer 1 2 20)) 1 = 480 /\
  snd (exec ex_c ex_cr (OpNativeTransfer 1 2 21) s) = Err "LiquidityRestrictions".
Proof. by vm_compute. Qed.
