(** Theorems about collator management (C52-C56). *)
From Verif Require Import Base BaseLemmas ValModel ValSpec ValProofs.

(** ** A concrete run used to show that hypotheses are met: two validators, a third is registered and confirmed. *)
Definition ex_c : config := mkConfig 1 (fun k => negb (k =? 0)).
Definition ex_free : gmap N N := {[3 := 500; 4 := 500]}.
Definition ex_env : env := mkEnv {[3; 4]} {[1; 2]} ex_free 100 true (fun a d => d <=? mget 0 a ex_free) (fun _ => true) (fun _ => true).
Definition ex_env2 : env := mkEnv {[3; 4]} {[1; 2; 3]} ∅ 100 true (fun _ _ => false) (fun _ => true) (fun _ => true).
Definition ex_g : list (N * N) := [(1, 11); (2, 12)].
Definition ex_s : st := genesis ex_g ex_env 7.
Example ex_good : good_genesis ex_c ex_g.
Proof. split; [|split]; [repeat constructor; set_solver..|]. cbn. unfold MAX_VALIDATORS. lia. Qed.
Definition ex_l : list op := [AddCollator None 3 13 None; Result 7 true].
Example ex_run : s_list (run ex_c ex_s ex_l) = [1; 2; 3] /\ s_staking (run ex_c ex_s ex_l) = [Joined 3 100].
Proof. vm_compute. done. Qed.
Example ex_pending : v_pending (replay ex_c ex_g ex_env 7 [AddCollator None 3 13 (Some 200)]) = Some (7, Adding 3 200).
Proof. vm_compute. done. Qed.

Section props.
Context (c : config) (g : list (N * N)) (e : env) (next : N) (l : list op).
Hypothesis Hg : good_genesis c g.
Let s := run c (genesis g e next) l.
Let v := replay c g e next l.

(** ** C52: the validators are the genesis ones with the confirmed requests applied in order. *)
Theorem C52_validators_follow_requests : s_list s = v_list v.
Proof. apply (i_list c), reachable_inv, Hg. Qed.
Theorem C52_bounded_and_distinct : NoDup (s_list s) /\ c_min c <= N.of_nat (length (s_list s)) <= MAX_VALIDATORS.
Proof. split; [eapply i_nodup|eapply i_bounds]; by apply reachable_inv. Qed.
(** Only root can ask, only when nothing is being decided, and only for an eligible account. *)
Theorem C52_add_request who a k d : accepted c s (AddCollator who a k d) = true ->
  who = None /\ v_pending v = None /\ a ∉ s_list s /\ (forall b, s_key s !! b <> Some k) /\ a ∈ e_session (s_env s) /\ a ∉ e_candidates (s_env s) /\
  e_min_stake (s_env s) <= default (e_min_stake (s_env s)) d <= mget 0 a (e_free (s_env s)) /\ s_list (step c s (AddCollator who a k d)) = s_list s.
Proof.
  intros H. pose proof (reachable_inv c g e next l Hg) as I. fold s v in I. apply step_accepted in H as (s' & Hb & ->).
  apply add_ok in Hb as (-> & Hn & _ & Ho & _ & Ha & _ & _ & Hses & Hcand & Hbond & ->). split; [done|]. split; [by eapply no_pending|]. split; [done|].
  split; [|split; [done|split; [done|split; [done|done]]]]. intros b Hb. apply (i_owner _ _ _ I) in Hb. congruence.
Qed.
Theorem C52_remove_request who a : accepted c s (RemoveValidator who a) = true ->
  who = None /\ v_pending v = None /\ a ∈ s_list s /\ c_min c < N.of_nat (length (s_list s)) /\ s_list (step c s (RemoveValidator who a)) = s_list s.
Proof.
  intros H. pose proof (reachable_inv c g e next l Hg) as I. fold s v in I. apply step_accepted in H as (s' & Hb & ->).
  apply remove_ok in Hb as (-> & Hn & Hl & Ha & _ & k & _ & _ & ->). split; [done|]. split; [by eapply no_pending|]. by repeat split.
Qed.
(** A request also waits until earlier ones, once completed by a session, have been cleared away: all that may remain is
    actions carried out but not yet completed by a session. *)
Theorem C52_request_waits who a k d who' a' : accepted c s (AddCollator who a k d) = true \/ accepted c s (RemoveValidator who' a') = true ->
  forall p x, s_actions s !! p = Some x -> a_status x = Actioned.
Proof.
  intros H p x Hx. assert (any_active s = false) as Ha.
  { destruct H as [H|H]; apply step_accepted in H as (s' & Hb & _); [by apply add_ok in Hb as (_ & _ & _ & _ & _ & Ha & _)|by apply remove_ok in Hb as (_ & _ & _ & Ha & _)]. }
  apply (no_active s Ha) in Hx. unfold is_active in Hx. by destruct (a_status x).
Qed.
(** Every change of the set is an Ethereum confirmation of the request being decided, and is that request's change. *)
Theorem C52_changed_by_confirmation o : s_list (step c s o) <> s_list s ->
  exists tx r, o = Result tx true /\ v_pending v = Some (tx, r) /\
    s_list (step c s o) = match r with Adding a _ => s_list s ++ [a] | Removing a => filter (fun x => x <> a) (s_list s) end.
Proof.
  intros H. pose proof (reachable_inv c g e next l Hg) as I. fold s v in I. pose proof (inv_step c o s v I) as I'. destruct (accepted c s o) eqn:E; [|by rewrite step_rejected in H].
  rewrite (i_list _ _ _ I') in *. rewrite (i_list _ _ _ I) in *. destruct o; cbn in H |- *; try done.
  destruct (v_pending v) as [[t r]|] eqn:Ev; [|done]. destruct (N.eqb_spec tx t) as [->|]; [|done]. unfold settle in *. destruct r, succeeded; cbn in *; try done; eauto.
Qed.
(** A result takes effect at most once: once a request is decided, no later report of it does anything. *)
Theorem C52_decided_once tx b : accepted c s (Result tx b) = true -> tx < s_next s ->
  forall l' b', let s' := run c (step c s (Result tx b)) l' in step c s' (Result tx b') = s'.
Proof.
  intros H Hlt l' b' s'. pose proof (reachable_inv c g e next l Hg) as I. fold s v in I.
  assert (s_txs s' !! tx = None) as Hn.
  { unfold s'. eapply txs_fresh_run; [by apply inv_step|..].
    - pose proof (next_mono c (Result tx b) s v I). lia.
    - apply step_accepted in H as (s1 & Hb & ->). apply (result_frame _ _ _ _ _ _ I) in Hb as (_ & _ & _ & _ & ->). apply lookup_delete. }
  unfold step, body, process_result, mbind_, get_st. by rewrite Hn.
Qed.
(** The request being decided was sent to Ethereum under an id already used up by the bridge. *)
Theorem C52_pending_id_used tx r : v_pending v = Some (tx, r) -> tx < s_next s.
Proof. intros H. pose proof (reachable_inv c g e next l Hg) as I. fold s v in I. pose proof (i_txs _ _ _ I) as X. rewrite H in X. apply X. Qed.

(** ** C53: Ethereum keys. *)
Theorem C53_keys_follow_requests : s_key s = v_keys v.
Proof. apply (i_keys c), reachable_inv, Hg. Qed.
Theorem C53_tables_inverse a k : s_owner s !! k = Some a <-> s_key s !! a = Some k.
Proof. eapply i_owner. by apply reachable_inv. Qed.
Theorem C53_one_key_one_account a b k : s_key s !! a = Some k -> s_key s !! b = Some k -> a = b.
Proof. rewrite <-!C53_tables_inverse. congruence. Qed.
Theorem C53_holders a : is_Some (s_key s !! a) <-> a ∈ s_list s \/ exists tx d, v_pending v = Some (tx, Adding a d).
Proof. eapply i_holders. by apply reachable_inv. Qed.
(** Keys change only by root's calls or by the result of the request being decided. *)
Theorem C53_changed_by o a : s_key (step c s o) !! a <> s_key s !! a ->
  accepted c s o = true /\
  ((exists k d, o = AddCollator None a k d /\ s_key (step c s o) !! a = Some k) \/
   (exists old new, o = RotateKey None a old new /\ s_key s !! a = Some old /\ s_key (step c s o) !! a = Some new) \/
   (exists tx d, o = Result tx false /\ v_pending v = Some (tx, Adding a d) /\ s_key (step c s o) !! a = None) \/
   (exists tx, o = Result tx true /\ v_pending v = Some (tx, Removing a) /\ s_key (step c s o) !! a = None)).
Proof.
  intros H. pose proof (reachable_inv c g e next l Hg) as I. fold s v in I. pose proof (inv_step c o s v I) as I'. destruct (accepted c s o) eqn:E; [|by rewrite step_rejected in H].
  split; [done|]. rewrite (i_keys _ _ _ I') in *. destruct o as [who b k d|who b|who b old new|tx b|active disabled order|en nx]; cbn in *; try (by rewrite (i_keys _ _ _ I) in H).
  - apply step_accepted in E as (s' & Hb & _). apply add_ok in Hb as (-> & _). left. destruct (decide (b = a)) as [->|Hne]; [|by rewrite lookup_insert_ne, (i_keys _ _ _ I) in H].
    rewrite lookup_insert. eauto.
  - apply step_accepted in E as (s' & Hb & _). apply rotate_ok in Hb as (-> & _ & _ & Ho & _). right; left. apply (i_owner _ _ _ I) in Ho. destruct (decide (b = a)) as [->|Hne]; [|by rewrite lookup_insert_ne, (i_keys _ _ _ I) in H].
    rewrite lookup_insert. eauto.
  - right; right. rewrite (i_keys _ _ _ I) in H. destruct (v_pending v) as [[t r]|] eqn:Ev; [|done]. destruct (N.eqb_spec tx t) as [->|]; [|done]. unfold settle in *. destruct r as [b0 d|b0], b; cbn in *; try done.
    + left. destruct (decide (b0 = a)) as [->|Hne]; [|by rewrite lookup_delete_ne in H]. rewrite lookup_delete. eauto.
    + right. destruct (decide (b0 = a)) as [->|Hne]; [|by rewrite lookup_delete_ne in H]. rewrite lookup_delete. eauto.
Qed.
(** Ethereum is told about exactly the accepted requests, with the account's key. *)
Theorem C53_published o : s_calls (step c s o) =
  (if accepted c s o then match o with
     | AddCollator _ a k _ => [(s_next s, AddAuthor, a, k)]
     | RemoveValidator _ a => match s_key s !! a with Some k => [(s_next s, RemoveAuthor, a, k)] | None => [] end
     | _ => [] end else []) ++ s_calls s.
Proof.
  pose proof (reachable_inv c g e next l Hg) as I. fold s v in I. destruct (accepted c s o) eqn:E; [|by rewrite step_rejected].
  apply step_accepted in E as (s' & Hb & ->). destruct o as [who a k d|who a|who a old new|tx b|active disabled order|en nx].
  - by apply add_ok in Hb as (_ & _ & _ & _ & _ & _ & _ & _ & _ & _ & _ & ->).
  - apply remove_ok in Hb as (_ & _ & _ & _ & _ & k & Hk & _ & ->). by rewrite Hk.
  - by apply rotate_ok in Hb as (_ & _ & _ & _ & ->).
  - by apply (result_frame _ _ _ _ _ _ I) in Hb as (_ & _ & _ & -> & _).
  - unfold body in Hb. minv Hb. case_bool_decide; [|done]. pose proof (visit_all_frame active disabled order s) as F. cbv zeta in F. by destruct F as (_ & _ & _ & _ & _ & _ & _ & _ & ->).
  - unfold body in Hb. by minv Hb.
Qed.

(** ** C54: what Ethereum refuses is undone. *)
Theorem C54_failure_accepted tx : accepted c s (Result tx false) = true.
Proof.
  pose proof (reachable_inv c g e next l Hg) as I. fold s v in I. unfold accepted, body, process_result, mbind_, get_st. destruct (s_txs s !! tx) as [p|] eqn:Ht; [|done].
  destruct (pending_of _ _ _ _ _ I Ht) as (r & x & _ & _ & Hx & _). unfold modify at 1. rewrite Hx. done.
Qed.
(** Operations that neither rotate a key nor report the request [tx]. *)
Definition bystander (tx : N) (o : op) : Prop := match o with RotateKey _ _ _ _ => False | Result t _ => t <> tx | _ => True end.
Lemma bystander_step tx r s0 v0 o : inv c s0 v0 -> v_pending v0 = Some (tx, r) -> bystander tx o ->
  let s1 := step c s0 o in let v1 := if accepted c s0 o then advance v0 (s_next s0, e_min_stake (s_env s0), o) else v0 in
  inv c s1 v1 /\ v1 = v0 /\ s_list s1 = s_list s0 /\ s_owner s1 = s_owner s0 /\ s_key s1 = s_key s0 /\ s_deposits s1 = s_deposits s0.
Proof.
  intros I Hp Hby s1 v1. split; [by apply inv_step|]. destruct (accepted c s0 o) eqn:E; [|unfold s1; by rewrite step_rejected].
  apply step_accepted in E as (s' & Hb & Hst). unfold s1. rewrite Hst. destruct o as [who a k d|who a|who a old new|t b|active disabled order|en nx]; [| |done|..].
  - exfalso. apply add_ok in Hb as (_ & _ & _ & _ & _ & Ha & _). apply (no_pending _ _ _ I) in Ha. congruence.
  - exfalso. apply remove_ok in Hb as (_ & _ & _ & Ha & _). apply (no_pending _ _ _ I) in Ha. congruence.
  - cbn in Hby. split; [unfold v1; cbn; rewrite Hp; by destruct (N.eqb_spec t tx)|]. destruct (result_ok _ _ _ _ _ _ I Hb) as [[_ ->]|(p & x & Htx & _ & _ & Hr)]; [done|].
    exfalso. rewrite Hp in Hr. destruct r; destruct Hr as (? & _); by subst.
  - split; [done|]. unfold body in Hb. minv Hb. case_bool_decide; [|done]. pose proof (visit_all_frame active disabled order s0) as F. cbv zeta in F. by destruct F as (-> & -> & -> & _ & -> & _).
  - split; [done|]. unfold body in Hb. by minv Hb.
Qed.
Lemma bystander_run tx r l' : forall s0 v0, inv c s0 v0 -> v_pending v0 = Some (tx, r) -> Forall (bystander tx) l' ->
  inv c (run c s0 l') v0 /\ s_list (run c s0 l') = s_list s0 /\ s_owner (run c s0 l') = s_owner s0 /\ s_key (run c s0 l') = s_key s0 /\ s_deposits (run c s0 l') = s_deposits s0.
Proof.
  induction l' as [|o l' IH]; intros s0 v0 I Hp Hf; [done|]. apply Forall_cons in Hf as [Ho Hf]. pose proof (bystander_step tx r s0 v0 o I Hp Ho) as B. cbv zeta in B.
  destruct B as (I' & Hv & H1 & H2 & H3 & H4). rewrite Hv in I'. destruct (IH _ _ I' Hp Hf) as (J & K1 & K2 & K3 & K4). cbn [run fold_left]. fold (run c (step c s0 o) l').
  rewrite K1, K2, K3, K4. auto.
Qed.
Lemma no_awaiting s0 v0 p x : inv c s0 v0 -> v_pending v0 = None -> s_actions s0 !! p = Some x -> a_status x <> Awaiting.
Proof. intros I Hp Hx Hs. destruct (i_await _ _ _ I _ _ Hx Hs) as [A _]. unfold awaits in A. by rewrite Hp in A. Qed.
(** Whatever else happens in between (sessions, other calls, other results; keys not rotated), a request refused by Ethereum
    leaves the validators, both key tables and the deposits as they were before the request, and nothing waiting. *)
Theorem C54_refused_request_undone o l' : (exists who a k d, o = AddCollator who a k d) \/ (exists who a, o = RemoveValidator who a) ->
  accepted c s o = true -> Forall (bystander (s_next s)) l' ->
  let s' := step c (run c (step c s o) l') (Result (s_next s) false) in
  s_list s' = s_list s /\ s_owner s' = s_owner s /\ s_key s' = s_key s /\ s_deposits s' = s_deposits s /\ s_deposits s = ∅ /\ s_txs s' = ∅ /\
  forall p x, s_actions s' !! p = Some x -> a_status x <> Awaiting.
Proof.
  intros Ho Hacc Hby s'. pose proof (reachable_inv c g e next l Hg) as I. fold s v in I. pose proof (inv_step c o s v I) as I1. rewrite Hacc in I1.
  apply step_accepted in Hacc as (s1 & Hb & Hst). rewrite Hst in I1.
  assert (v_pending v = None) as Hp0. { destruct Ho as [(who & a & k & d & ->)|(who & a & ->)]; [apply add_ok in Hb as (_ & _ & _ & _ & _ & Ha & _)|apply remove_ok in Hb as (_ & _ & _ & Ha & _)]; by eapply no_pending. }
  pose proof (i_deposits _ _ _ I) as Hd0. rewrite Hp0 in Hd0.
  set (v1 := advance v (s_next s, e_min_stake (s_env s), o)) in *.
  assert (exists r, v_pending v1 = Some (s_next s, r)) as [r Hp1] by (destruct Ho as [(who & a & k & d & ->)|(who & a & ->)]; cbn; eauto).
  destruct (bystander_run _ _ l' _ _ I1 Hp1 Hby) as (I2 & L2 & O2 & K2 & D2).
  assert (exists s3, body c (Result (s_next s) false) (run c s1 l') = (s3, Ok tt) /\ s' = s3) as (s3 & Hb3 & Hs3).
  { unfold s'. rewrite Hst. apply step_accepted. unfold accepted, body, process_result, mbind_, get_st. destruct (s_txs (run c s1 l') !! s_next s) as [p|] eqn:Ht; [|done].
    destruct (pending_of _ _ _ _ _ I2 Ht) as (r' & x & _ & _ & Hx & _). unfold modify at 1. rewrite Hx. done. }
  pose proof (inv_result c (s_next s) false (s_next (run c s1 l')) (e_min_stake (s_env (run c s1 l'))) _ _ _ I2 Hb3) as I3.
  assert (v_pending (advance v1 (s_next (run c s1 l'), e_min_stake (s_env (run c s1 l')), Result (s_next s) false)) = None) as Hp3. { unfold advance at 1. rewrite Hp1, N.eqb_refl. by destruct r. }
  rewrite Hs3. pose proof (i_deposits _ _ _ I3) as Hd3. rewrite Hp3 in Hd3. pose proof (i_txs _ _ _ I3) as Ht3. rewrite Hp3 in Ht3.
  assert (s_list s3 = s_list s /\ s_owner s3 = s_owner s /\ s_key s3 = s_key s) as (-> & -> & ->).
  { destruct (result_ok _ _ _ _ _ _ I2 Hb3) as [[Hn ->]|(p & x & Htx & Hx & Hs & Hr)].
    { pose proof (i_txs _ _ _ I2) as X. rewrite Hp1 in X. destruct X as (_ & p & x & X & _). rewrite X, lookup_singleton in Hn. done. }
    rewrite Hp1 in Hr. destruct Ho as [(who & a & k & d & ->)|(who & a & ->)].
    - cbn in Hp1. injection Hp1 as <-. destruct Hr as (_ & Hpa & -> & _). cbn. rewrite L2, O2, K2. apply add_ok in Hb as (_ & Hn & _ & Hok & _ & _ & _ & _ & _ & _ & _ & ->). cbn.
      assert (s_key s !! a = None) as Hka. { destruct (s_key s !! a) eqn:Ek; [|done]. destruct (proj1 (i_holders _ _ _ I a) (mk_is_Some _ _ Ek)) as [?|(? & ? & ?)]; [done|congruence]. }
      rewrite lookup_insert. split; [done|]. by rewrite !delete_insert.
    - cbn in Hp1. injection Hp1 as <-. destruct Hr as (_ & Hpa & -> & _). cbn. rewrite L2, O2, K2. by apply remove_ok in Hb as (_ & _ & _ & _ & _ & k & _ & _ & ->). }
  rewrite Hd3, Hd0. repeat split; try done. intros p x. by eapply no_awaiting.
Qed.

(** ** C55: staking done on behalf of validators. *)
Theorem C55_joins_and_leaves_follow_requests : joins_and_leaves (s_staking s) = v_staking v.
Proof. apply (i_staking c), reachable_inv, Hg. Qed.
(** Every withdrawal that is completed was started by a confirmed removal, and is completed only once. *)
Theorem C55_completed_once a : (times (Left_ a) (s_staking s) <= times (Leaving a) (s_staking s))%nat.
Proof.
  assert (balanced s) as B. { eapply balanced_run; [by apply inv_genesis|]. intros b. unfold exits_due, due. cbn [genesis s_actions]. by rewrite map_filter_empty, map_size_empty. }
  rewrite (B a). lia.
Qed.
Lemma visit_exits active disabled p s0 a : times (Left_ a) (s_staking (fst (visit active disabled p s0))) <> times (Left_ a) (s_staking s0) -> a ∉ active /\ a ∉ disabled.
Proof.
  unfold visit, set_action. repeat (case_match; cbn; try (by intros [])). rewrite times_cons. destruct (decide (Left_ a = Left_ p.1)) as [Ha|]; [|by intros []]. injection Ha as ->.
  intros _. match goal with X : bool_decide _ || bool_decide _ = false |- _ => apply orb_false_iff in X as [X1 X2] end. apply bool_decide_eq_false_1 in X1, X2. done.
Qed.
Lemma visit_all_exits active disabled a o : forall s0, times (Left_ a) (s_staking (visit_all active disabled o s0)) <> times (Left_ a) (s_staking s0) -> a ∉ active /\ a ∉ disabled.
Proof.
  induction o as [|p o IH]; intros s0; cbn; [done|]. pose proof (visit_exits active disabled p s0 a) as V. destruct (visit active disabled p s0) as [s1 go]. cbn in V.
  destruct (decide (times (Left_ a) (s_staking s1) = times (Left_ a) (s_staking s0))) as [Heq|Hne]; [rewrite <-Heq; destruct go; [apply IH|done]|auto].
Qed.
(** A withdrawal is completed only at a new session of which the account is no part. *)
Theorem C55_completed_when_out o a : times (Left_ a) (s_staking (step c s o)) <> times (Left_ a) (s_staking s) ->
  exists active disabled order, o = NewSession active disabled order /\ a ∉ active /\ a ∉ disabled.
Proof.
  pose proof (reachable_inv c g e next l Hg) as I. fold s v in I. destruct (accepted c s o) eqn:E; [|by rewrite step_rejected].
  apply step_accepted in E as (s' & Hb & ->). destruct o as [who b k d|who b|who b old new|tx b|active disabled order|en nx].
  - by apply add_ok in Hb as (_ & _ & _ & _ & _ & _ & _ & _ & _ & _ & _ & ->).
  - by apply remove_ok in Hb as (_ & _ & _ & _ & _ & k & Hk & _ & ->).
  - by apply rotate_ok in Hb as (_ & _ & _ & _ & ->).
  - destruct (result_ok _ _ _ _ _ _ I Hb) as [[_ ->]|(p & x & Htx & _ & _ & Hr)]; [done|].
    destruct (v_pending v) as [[t [a' d|a']]|]; [| |done]; destruct Hr as (_ & <- & -> & _); destruct b; cbn; rewrite ?times_cons; try (by intros []); rewrite decide_False by done; by intros [].
  - unfold body in Hb. minv Hb. case_bool_decide; [|done]. intros Hx. exists active, disabled, order. split; [done|]. by eapply visit_all_exits.
  - unfold body in Hb. by minv Hb.
Qed.

(** ** C56: a confirmation is carried out. *)
(** Proved when staking accepts the join or the withdrawal. *)
Theorem C56_confirmation_applied_partial tx r : v_pending v = Some (tx, r) ->
  match r with Adding a d => e_join (s_env s) a d = true | Removing a => e_leave (s_env s) a = true end ->
  accepted c s (Result tx true) = true /\
  s_list (step c s (Result tx true)) = match r with Adding a _ => s_list s ++ [a] | Removing a => filter (fun x => x <> a) (s_list s) end /\
  s_staking (step c s (Result tx true)) = match r with Adding a d => Joined a d | Removing a => Leaving a end :: s_staking s.
Proof.
  intros Hp Hr. pose proof (reachable_inv c g e next l Hg) as I. fold s v in I.
  assert (exists p, s_txs s !! tx = Some p) as [p Ht]. { pose proof (i_txs _ _ _ I) as X. rewrite Hp in X. destruct X as (_ & p & x & X & _). exists p. by rewrite X, lookup_singleton. }
  assert (accepted c s (Result tx true) = true) as Hacc.
  { destruct (pending_of _ _ _ _ _ I Ht) as (r' & x & Hv & _ & Hx & Hs & Haw). rewrite Hp in Hv. injection Hv as <-. unfold awaits in Haw. rewrite Hp in Haw. destruct Haw as [_ Haw].
    pose proof (i_pending _ _ _ I) as Hq. rewrite Hp in Hq. pose proof (i_deposits _ _ _ I) as Hd. rewrite Hp in Hd.
    unfold accepted, body, process_result, mbind_ at 1, get_st. rewrite Ht. unfold mbind_ at 1, modify. rewrite Hx. destruct r as [a d|a]; destruct Haw as [-> Hpa]; rewrite <-Hpa in *.
    - unfold complete_registration, mbind_, get_st, ensure, modify. cbn [negb]. cbn. destruct Hq as (_ & _ & Hq). apply N.ltb_lt in Hq. rewrite Hq. rewrite Hd, lookup_singleton. by rewrite Hr.
    - unfold complete_deregistration, mbind_, get_st, ensure, modify. cbn. by rewrite Hr. }
  split; [done|]. apply step_accepted in Hacc as (s' & Hb & ->). destruct (result_ok _ _ _ _ _ _ I Hb) as [[Hn _]|(q & x & Htx & _ & _ & Hr')]; [congruence|].
  rewrite Hp in Hr'. destruct r as [a d|a]; by destruct Hr' as (_ & _ & -> & _).
Qed.
End props.
(** Not in general: the deposit is checked but not held when the collator is proposed, so it can be spent before Ethereum
    confirms; the confirmation is then refused, and the collator stays outside although Ethereum has added it. *)
Theorem C56_confirmation_applied_refuted : exists c g e next l tx a d,
  good_genesis c g /\ v_pending (replay c g e next l) = Some (tx, Adding a d) /\
  let s := run c (genesis g e next) l in accepted c s (Result tx true) = false /\ step c s (Result tx true) = s /\ a ∉ s_list s.
Proof.
  exists ex_c, ex_g, ex_env, 7, [AddCollator None 3 13 None; Elsewhere ex_env2 8], 7, 3, 100. split; [exact ex_good|]. split; [vm_compute; done|]. cbv zeta.
  assert (accepted ex_c (run ex_c (genesis ex_g ex_env 7) [AddCollator None 3 13 None; Elsewhere ex_env2 8]) (Result 7 true) = false) as H by (vm_compute; done).
  split; [done|]. split; [by apply step_rejected|]. replace (s_list _) with [1; 2] by (vm_compute; done). set_solver.
Qed.

(** ** The hypotheses are met. *)
Example C52_remove_request_met : accepted ex_c (run ex_c ex_s ex_l) (RemoveValidator None 1) = true /\ accepted ex_c ex_s (AddCollator None 3 13 None) = true /\
  accepted ex_c (run ex_c ex_s ex_l) (AddCollator None 4 11 None) = false /\ accepted ex_c ex_s (AddCollator (Some 1) 3 13 None) = false.
Proof. vm_compute. done. Qed.
Definition ex_l2 : list op := ex_l ++ [NewSession [1; 2; 3] [] [(3, 1)]; NewSession [1; 2; 3] [] [(3, 1)]; RemoveValidator None 2; Result 8 true].
Example C55_completed_met : s_list (run ex_c ex_s ex_l2) = [1; 3] /\ times (Left_ 2) (s_staking (run ex_c ex_s ex_l2)) = 0%nat /\
  times (Left_ 2) (s_staking (step ex_c (run ex_c ex_s ex_l2) (NewSession [1; 3] [] [(2, 2)]))) = 1%nat /\
  times (Left_ 2) (s_staking (step ex_c (run ex_c ex_s ex_l2) (NewSession [1; 3; 2] [] [(2, 2)]))) = 0%nat.
Proof. vm_compute. done. Qed.
(** A request refused while a session, another request and a change elsewhere intervene. *)
Example C54_refused_met : accepted ex_c ex_s (AddCollator None 3 13 None) = true /\
  Forall (bystander (s_next ex_s)) [NewSession [1; 2] [] []; RemoveValidator None 1; Elsewhere ex_env2 8] /\
  s_key (step ex_c (run ex_c (step ex_c ex_s (AddCollator None 3 13 None)) [NewSession [1; 2] [] []; RemoveValidator None 1; Elsewhere ex_env2 8]) (Result 7 false)) !! 3 = None /\
  s_key (run ex_c (step ex_c ex_s (AddCollator None 3 13 None)) [NewSession [1; 2] [] []; RemoveValidator None 1; Elsewhere ex_env2 8]) !! 3 = Some 13.
Proof. split; [vm_compute; done|]. split; [repeat constructor; cbn; done|]. split; vm_compute; done. Qed.
