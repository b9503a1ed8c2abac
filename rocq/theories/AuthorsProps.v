(** Theorems about author management (C89-C92). *)
From Verif Require Import Base BaseLemmas AuthorsModel AuthorsSpec AuthorsProofs.

(** ** A concrete run used to show that hypotheses are met: two authors, a third is registered and confirmed. *)
Definition ex_c : config := mkConfig 1 (fun k => negb (k =? 0)) map_to_list.
Definition ex_env : env := mkEnv {[3; 4]} true.
Definition ex_g : list (N * N) := [(1, 11); (2, 12)].
Definition ex_s : st := genesis ex_g ex_env 7.
Example ex_good : good_genesis ex_c ex_g.
Proof. split; [|split; [|split]]; [repeat constructor; set_solver..| |done]. cbn. unfold MAX_AUTHORS. lia. Qed.
Definition ex_l : list op := [Add None 3 13; Result 7 true; RotateKey None 3 13 33; Remove None 2; NewSession [1; 2; 3] [] []].
Example ex_run : s_list (run ex_c ex_s ex_l) = [1; 2; 3] /\ v_pending (replay ex_c ex_g ex_env 7 ex_l) = Some (8, Removing 2) /\
  s_list (step ex_c (run ex_c ex_s ex_l) (Result 8 true)) = [1; 3].
Proof. vm_compute. done. Qed.

Lemma drop_calls c a s : s_calls (drop_key c a s) = s_calls s.
Proof. unfold drop_key. by case_match. Qed.

Section props.
Context (c : config) (g : list (N * N)) (e : env) (next : N) (l : list op).
Hypothesis Hg : good_genesis c g.
Let s := run c (genesis g e next) l.
Let v := replay c g e next l.

(** ** C89: the authors are the genesis ones with the confirmed requests applied in order. *)
Theorem C89_authors_follow_requests : s_list s = v_list v.
Proof. apply (i_list c), reachable_inv, Hg. Qed.
Theorem C89_bounded_and_distinct : NoDup (s_list s) /\ c_min c <= N.of_nat (length (s_list s)) <= MAX_AUTHORS.
Proof. split; [eapply i_nodup|eapply i_bounds]; by apply reachable_inv. Qed.
(** Exactly when a request is accepted; it changes nothing in the set, and is what is decided next. *)
Theorem C89_add_request who a k : accepted c s (Add who a k) = true <->
  who = None /\ v_pending v = None /\ s_list s <> [] /\ a ∉ s_list s /\ s_owner s !! k = None /\ N.of_nat (length (s_list s)) < MAX_AUTHORS /\
  a ∈ e_session (s_env s) /\ c_valid_key c k = true /\ e_bridge (s_env s) = true.
Proof.
  pose proof (reachable_inv c g e next l Hg) as I. fold s v in I. rewrite <-(pending_iff _ _ _ I). split.
  - intros H. apply step_accepted in H as (s' & Hb & _). apply add_iff in Hb as (? & ? & ? & ? & ? & ? & ? & ? & ? & _). split_and!; done.
  - intros (? & ? & ? & ? & ? & ? & ? & ? & ?). unfold accepted. match goal with |- match ?x with _ => _ end = _ => assert (exists s', x = (s', Ok tt)) as [s' ->]; [|done] end.
    eexists. apply add_iff. cbv zeta. split_and!; done.
Qed.
Theorem C89_remove_request who a : accepted c s (Remove who a) = true <->
  who = None /\ v_pending v = None /\ a ∈ s_list s /\ c_min c < N.of_nat (length (s_list s)) /\ e_bridge (s_env s) = true /\
  exists k, v_registered v !! a = Some k /\ c_valid_key c k = true.
Proof.
  pose proof (reachable_inv c g e next l Hg) as I. fold s v in I. rewrite <-(pending_iff _ _ _ I), <-(i_reg _ _ _ I). split.
  - intros H. apply step_accepted in H as (s' & Hb & _). apply remove_iff in Hb as (? & ? & ? & ? & ? & k & ? & ? & _). split_and!; eauto.
  - intros (? & ? & ? & ? & ? & k & ? & ?). unfold accepted. match goal with |- match ?x with _ => _ end = _ => assert (exists s', x = (s', Ok tt)) as [s' ->]; [|done] end.
    eexists. apply remove_iff. cbv zeta. split_and!; try done. exists k. split_and!; done.
Qed.
Theorem C89_request_becomes_pending o r : accepted c s o = true -> (exists who a k, o = Add who a k /\ r = Adding a k) \/ (exists who a, o = Remove who a /\ r = Removing a) ->
  v_pending (replay c g e next (l ++ [o])) = Some (s_next s, r) /\ s_list (step c s o) = s_list s.
Proof.
  intros H Ho. rewrite replay_snoc. fold s. rewrite H. split; [by destruct Ho as [(? & ? & ? & -> & ->)|(? & ? & -> & ->)]|]. apply step_accepted in H as (s' & Hb & ->).
  destruct Ho as [(? & ? & ? & -> & ->)|(? & ? & -> & ->)]; [apply add_iff in Hb as (_ & _ & _ & _ & _ & _ & _ & _ & _ & ->)|apply remove_iff in Hb as (_ & _ & _ & _ & _ & ? & _ & _ & ->)]; done.
Qed.
(** Every change of the set is an Ethereum confirmation of the request being decided, and is that request's change. *)
Theorem C89_changed_by_confirmation o : s_list (step c s o) <> s_list s ->
  exists tx r, o = Result tx true /\ v_pending v = Some (tx, r) /\
    s_list (step c s o) = match r with Adding a _ => s_list s ++ [a] | Removing a => filter (fun x => x <> a) (s_list s) end.
Proof.
  intros H. pose proof (reachable_inv c g e next l Hg) as I. fold s v in I. pose proof (inv_step c o s v I) as I'. destruct (accepted c s o) eqn:E; [|by rewrite step_rejected in H].
  rewrite (i_list _ _ _ I') in *. rewrite (i_list _ _ _ I) in *. destruct o; cbn in H |- *; try done.
  destruct (v_pending v) as [[t r]|] eqn:Ev; [|done]. destruct (N.eqb_spec tx t) as [->|]; [|done]. unfold settle in *. destruct r, succeeded; cbn in *; try done; eauto.
Qed.
(** Every result is accepted; a confirmation of the request being decided is carried out, whatever it is, and either way the request is over. *)
Theorem C89_result_accepted tx b : accepted c s (Result tx b) = true.
Proof.
  pose proof (reachable_inv c g e next l Hg) as I. fold s v in I. unfold accepted. destruct (v_pending v) as [[t r]|] eqn:Hp; [destruct (decide (tx = t)) as [->|]|].
  - destruct (result_pending c s v t r b I Hp) as (p & x & _ & _ & _ & _ & _ & ->). done.
  - rewrite (result_other c s v); [done|done|]. intros r'. congruence.
  - rewrite (result_other c s v); [done|done|]. intros r'. congruence.
Qed.
Theorem C89_confirmation_applied tx r : v_pending v = Some (tx, r) ->
  s_list (step c s (Result tx true)) = match r with Adding a _ => s_list s ++ [a] | Removing a => filter (fun x => x <> a) (s_list s) end.
Proof.
  intros Hp. pose proof (reachable_inv c g e next l Hg) as I. fold s v in I. pose proof (inv_step c (Result tx true) s v I) as I'. rewrite C89_result_accepted in I'.
  rewrite (i_list _ _ _ I'), (i_list _ _ _ I). cbn. rewrite Hp, N.eqb_refl. by destruct r.
Qed.
Theorem C89_request_ends tx r b : v_pending v = Some (tx, r) -> v_pending (replay c g e next (l ++ [Result tx b])) = None /\ forall tx', s_txs (step c s (Result tx b)) !! tx' = None.
Proof.
  intros Hp. pose proof (reachable_inv c g e next (l ++ [Result tx b]) Hg) as I. rewrite run_snoc in I. fold s in I.
  assert (v_pending (replay c g e next (l ++ [Result tx b])) = None) as Hn. { rewrite replay_snoc. fold s v. rewrite C89_result_accepted. cbn. rewrite Hp, N.eqb_refl. by destruct r, b. }
  split; [done|]. pose proof (i_actions _ _ _ I) as H. rewrite Hn in H. destruct H as [-> _]. intros tx'. apply lookup_empty.
Qed.
(** What is handed to the session: the authors, never an empty list; with a positive minimum always something. *)
Theorem C89_session_authors : (forall a, new_session s = Some a -> a = s_list s /\ a <> [] /\ NoDup a) /\ (0 < c_min c -> is_Some (new_session s)).
Proof.
  destruct C89_bounded_and_distinct as [Hn [Hb _]]. unfold new_session. split.
  - intros a. destruct (s_list s); [done|]. intros [= <-]. done.
  - intros H. destruct (s_list s); [cbn in Hb; lia|eauto].
Qed.

(** ** C90: Ethereum keys. *)
(** In runs where no key is rotated during a registration, and no session leaves out an author during its removal. *)
Theorem C90_keys_follow_requests_partial a k : tame_run c g e next l -> s_owner s !! k = Some a <-> v_keys v !! a = Some k.
Proof. intros Ht. apply (k_owner s v). by apply reachable_kinv. Qed.
Theorem C90_holders_partial a : tame_run c g e next l -> (exists k, s_owner s !! k = Some a) <-> a ∈ s_list s \/ exists tx k, v_pending v = Some (tx, Adding a k).
Proof.
  intros Ht. pose proof (reachable_kinv c g e next l Hg Ht) as K. fold s v in K. rewrite C89_authors_follow_requests, <-(k_holders _ _ K). unfold is_Some. split; intros [k H]; exists k; by apply (k_owner _ _ K).
Qed.
Theorem C90_one_key_partial a k k' : tame_run c g e next l -> s_owner s !! k = Some a -> s_owner s !! k' = Some a -> k = k'.
Proof. intros Ht. rewrite !C90_keys_follow_requests_partial by done. congruence. Qed.
(** Rotation, in any run: only by root, from a key of the account to one that belongs to nobody; and then exactly that. *)
Theorem C90_rotation who a old new : accepted c s (RotateKey who a old new) = true <-> who = None /\ s_owner s !! old = Some a /\ s_owner s !! new = None.
Proof.
  unfold accepted. split.
  - destruct (body c (RotateKey who a old new) s) as [s' [[]|]] eqn:E; [|done]. apply rotate_iff in E as (? & ? & ? & ? & _). done.
  - intros (? & Ho & Hn). match goal with |- match ?x with _ => _ end = _ => assert (exists s', x = (s', Ok tt)) as [s' ->]; [|done] end.
    eexists. apply rotate_iff. split_and!; try done. intros ->. congruence.
Qed.
Theorem C90_rotation_effect who a old new k : accepted c s (RotateKey who a old new) = true ->
  s_owner (step c s (RotateKey who a old new)) !! k = if decide (k = new) then Some a else if decide (k = old) then None else s_owner s !! k.
Proof.
  intros H. apply step_accepted in H as (s' & Hb & ->). apply rotate_iff in Hb as (_ & _ & Hne & _ & ->). cbn.
  destruct (decide (k = new)) as [->|]; [by rewrite lookup_insert|]. rewrite lookup_insert_ne by done. destruct (decide (k = old)) as [->|]; [by rewrite lookup_delete|by rewrite lookup_delete_ne].
Qed.

(** ** C91: what is sent to Ethereum. *)
(** In any run: each accepted request, once, with the key of the request or, for a removal, the key the account was last registered with. *)
Theorem C91_published o : s_calls (step c s o) =
  (if accepted c s o then match o with
     | Add _ a k => [(s_next s, AddAuthor, a, k)]
     | Remove _ a => match v_registered v !! a with Some k => [(s_next s, RemoveAuthor, a, k)] | None => [] end
     | _ => [] end else []) ++ s_calls s.
Proof.
  pose proof (reachable_inv c g e next l Hg) as I. fold s v in I. destruct (accepted c s o) eqn:E; [|by rewrite step_rejected]. rewrite <-(i_reg _ _ _ I).
  apply step_accepted in E as (s' & Hb & ->). destruct o as [who a k|who a|who a old new|tx b|active disabled order|en nx].
  - by apply add_iff in Hb as (_ & _ & _ & _ & _ & _ & _ & _ & _ & ->).
  - apply remove_iff in Hb as (_ & _ & _ & _ & _ & k & Hk & _ & ->). by rewrite Hk.
  - by apply rotate_iff in Hb as (_ & _ & _ & _ & ->).
  - destruct (v_pending v) as [[t r]|] eqn:Hp; [destruct (decide (tx = t)) as [->|]|].
    + destruct (result_pending c s v t r b I Hp) as (p & x & _ & _ & _ & _ & _ & Hb'). rewrite Hb in Hb'. injection Hb' as ->. unfold outcome. destruct r, b; cbn; try done. by rewrite drop_calls.
    + rewrite (result_other c s v) in Hb; [by injection Hb as <-|done|]. intros r'. congruence.
    + rewrite (result_other c s v) in Hb; [by injection Hb as <-|done|]. intros r'. congruence.
  - unfold body in Hb. minv Hb. case_bool_decide; [|done]. pose proof (visits_frame c active disabled order s) as F. cbv zeta in F. by destruct F as (_ & _ & _ & _ & _ & _ & ->).
  - unfold body in Hb. by minv Hb.
Qed.
(** That is the author's current key if no key was ever rotated. *)
Theorem C91_current_key_partial a k : (forall who b old new, RotateKey who b old new ∉ l) -> tame_run c g e next l -> a ∈ s_list s -> v_registered v !! a = Some k <-> s_owner s !! k = Some a.
Proof.
  intros Hr Ht Ha. rewrite C90_keys_follow_requests_partial by done. rewrite C89_authors_follow_requests in Ha.
  assert (forall b, b ∈ v_list v \/ (exists tx k, v_pending v = Some (tx, Adding b k)) -> v_registered v !! b = v_keys v !! b) as H.
  { clear Ha s. unfold v. clear v. induction l as [|o l0 IH] using rev_ind; [done|]. apply tame_run_snoc in Ht as [Ht _]. rewrite replay_snoc. set (s0 := run c (genesis g e next) l0).
    specialize (IH (fun who b old new H => Hr who b old new (proj2 (elem_of_app _ _ _) (or_introl H))) Ht). set (v0 := replay c g e next l0) in *. pose proof (reachable_inv c g e next l0 Hg) as I. fold s0 v0 in I.
    destruct (accepted c s0 o) eqn:E; [|done]. destruct o as [who b k0|who b|who b old new|tx b|active disabled order|en nx]; cbn.
    - apply step_accepted in E as (s' & Hb & _). apply add_iff in Hb as (_ & _ & Hn & _ & _ & _ & Hac & _). apply (pending_iff _ _ _ I) in Hac. intros b' [Hb'|(? & ? & [= _ <- _])]; [|by rewrite !lookup_insert].
      destruct (decide (b = b')) as [->|]; [by rewrite !lookup_insert|]. rewrite !lookup_insert_ne by done. auto.
    - intros b' [Hb'|(? & ? & ?)]; [|done]. auto.
    - exfalso. apply (Hr who b old new). set_solver.
    - destruct (v_pending v0) as [[t r]|] eqn:Hp; [|rewrite Hp; exact IH]. destruct (tx =? t); [|rewrite Hp; exact IH]. pose proof (i_pending _ _ _ I) as I6. rewrite Hp in I6. unfold settle. destruct r as [b0 k0|b0], b; cbn.
      + intros b' [[Hb'| ->%elem_of_list_singleton]%elem_of_app|(? & ? & ?)]; [auto| |done]. apply IH. right. rewrite ?Hp. eauto.
      + intros b' [Hb'|(? & ? & ?)]; [|done]. rewrite !lookup_delete_ne; [auto|..]; intros ->; destruct I6 as [I6 _]; by rewrite (i_list _ _ _ I) in I6.
      + intros b' [[Hne Hb']%elem_of_list_filter|(? & ? & ?)]; [|done]. rewrite lookup_delete_ne by (by intros ->). auto.
      + intros b' [Hb'|(? & ? & ?)]; [auto|done].
    - done.
    - done. }
  rewrite H by (by left). done.
Qed.

(** ** C92: what Ethereum refuses is undone. *)
(** Operations that neither rotate a key nor report the request [tx], nor begin a session without the account whose removal is being decided. *)
Definition bystander (tx : N) (r : request) (o : op) : Prop :=
  match o with
  | RotateKey _ _ _ _ => False | Result t _ => t <> tx
  | NewSession active disabled _ => match r with Removing a => a ∈ active \/ a ∈ disabled | _ => True end
  | _ => True end.
Lemma bystander_run tx r l' : forall s0 v0, inv c s0 v0 -> v_pending v0 = Some (tx, r) -> Forall (bystander tx r) l' ->
  inv c (run c s0 l') v0 /\ s_list (run c s0 l') = s_list s0 /\ s_owner (run c s0 l') = s_owner s0.
Proof.
  induction l' as [|o l' IH]; intros s0 v0 I Hp Hf; [done|]. apply Forall_cons in Hf as [Ho Hf]. cbn [run fold_left]. fold (run c (step c s0 o) l').
  assert (inv c (step c s0 o) v0 /\ s_list (step c s0 o) = s_list s0 /\ s_owner (step c s0 o) = s_owner s0) as (I' & H1 & H2).
  { destruct (accepted c s0 o) eqn:E; [|by rewrite step_rejected]. pose proof (inv_step c o s0 v0 I) as I'. rewrite E in I'. apply step_accepted in E as (s' & Hb & Hst). rewrite Hst in *.
    destruct o as [who a k|who a|who a old new|t b|active disabled order|en nx]; [| |done|..].
    - exfalso. apply add_iff in Hb as (_ & _ & _ & _ & _ & _ & Ha & _). apply (pending_iff _ _ _ I) in Ha. congruence.
    - exfalso. apply remove_iff in Hb as (_ & _ & _ & Ha & _). apply (pending_iff _ _ _ I) in Ha. congruence.
    - cbn in Ho. rewrite (result_other c s0 v0) in Hb; [by injection Hb as <-|done|]. intros r'. congruence.
    - cbn in I', Ho. split; [done|]. unfold body in Hb. minv Hb. case_bool_decide; [|done]. pose proof (visits_frame c active disabled order s0) as F. cbv zeta in F. destruct F as (-> & _). split; [done|]. apply (visits_owner c active disabled v0); [|done]. rewrite Hp. by destruct r.
    - unfold body in Hb. minv Hb. done. }
  destruct (IH _ _ I' Hp Hf) as (J & K1 & K2). by rewrite K1, K2.
Qed.
Theorem C92_refused_request_undone o r l' : (exists who a k, o = Add who a k /\ r = Adding a k) \/ (exists who a, o = Remove who a /\ r = Removing a) ->
  accepted c s o = true -> Forall (bystander (s_next s) r) l' ->
  let s' := step c (run c (step c s o) l') (Result (s_next s) false) in
  s_list s' = s_list s /\ s_owner s' = s_owner s /\ (forall a, a ∈ s_list s -> s_key s' !! a = s_key s !! a) /\
  s_txs s' = ∅ /\ forall p x, s_actions s' !! p = Some x -> a_status x = Actioned.
Proof.
  intros Ho Hacc Hby s'. pose proof (reachable_inv c g e next l Hg) as I. fold s v in I. pose proof (inv_step c o s v I) as I1. rewrite Hacc in I1.
  apply step_accepted in Hacc as (s1 & Hb & Hst). unfold s'. rewrite Hst in I1 |- *.
  set (v1 := advance v (s_next s, o)) in *. assert (v_pending v1 = Some (s_next s, r)) as Hp1 by (destruct Ho as [(who & a & k & -> & ->)|(who & a & -> & ->)]; done).
  destruct (bystander_run _ _ l' _ _ I1 Hp1 Hby) as (I2 & L2 & O2). destruct (result_pending c _ v1 _ _ false I2 Hp1) as (p & x & Ht & Hx & Hsub & Hk & Hoth & Hb3).
  assert (step c (run c s1 l') (Result (s_next s) false) = outcome c p r false (run c s1 l')) as ->. { unfold step. by rewrite Hb3. }
  pose proof (i_reg _ _ _ I) as R0. pose proof (i_reg _ _ _ I2) as R2.
  unfold outcome. destruct Ho as [(who & a & k & -> & ->)|(who & a & -> & ->)].
  - apply add_iff in Hb as (_ & _ & Hn & Hok & _ & _ & _ & _ & _ & ->). cbn in v1. cbn. rewrite L2, O2, R2. cbn. rewrite lookup_insert, delete_insert by done. split_and!; try done.
    + intros b Hin. assert (a <> b) by (by intros ->). rewrite lookup_delete_ne, lookup_insert_ne by done. by rewrite R0.
    + by apply actioned_delete.
  - apply remove_iff in Hb as (_ & _ & _ & _ & _ & k & _ & _ & ->). cbn in v1. cbn. rewrite L2, O2, R2. cbn. split_and!; try done.
    + intros. by rewrite R0.
    + by apply actioned_delete.
Qed.
End props.

(** ** Where the conditions matter *)
(** The hypotheses are met by a run that registers, rotates and removes. *)
#[local] Instance tame_dec v o : Decision (tame v o).
Proof. unfold tame. destruct o; try (right; by intros []); try apply _; destruct (v_pending v) as [[? []]|]; apply _. Defined.
Lemma tame_check c g e next l : forallb (fun n => match l !! n with Some o => bool_decide (tame (replay c g e next (take n l)) o) | None => true end) (seq 0 (length l)) = true ->
  tame_run c g e next l.
Proof.
  intros H l1 o l2 ->. rewrite forallb_forall in H. specialize (H (length l1)). rewrite list_lookup_middle in H by done. rewrite take_app in H.
  assert (In (length l1) (seq 0 (length (l1 ++ o :: l2)))) as Hin by (apply in_seq; rewrite app_length; cbn; lia). by apply H, bool_decide_eq_true_1 in Hin.
Qed.
Definition ex_l2 : list op := ex_l ++ [Result 8 true; Add None 4 12; Result 9 false].
Example C90_met : tame_run ex_c ex_g ex_env 7 ex_l2 /\ s_owner (run ex_c ex_s ex_l2) !! 33 = Some 3 /\ s_owner (run ex_c ex_s ex_l2) !! 13 = None /\ s_owner (run ex_c ex_s ex_l2) !! 12 = None /\ s_list (run ex_c ex_s ex_l2) = [1; 3].
Proof. split; [apply tame_check; vm_compute; done|vm_compute; done]. Qed.
Example C91_met : let l := [Add None 3 13; Result 7 true] in tame_run ex_c ex_g ex_env 7 l /\ (forall who b old new, RotateKey who b old new ∉ l) /\ 3 ∈ s_list (run ex_c ex_s l) /\
  s_calls (step ex_c (run ex_c ex_s l) (Remove None 3)) = [(8, RemoveAuthor, 3, 13); (7, AddAuthor, 3, 13)].
Proof. cbv zeta. split; [apply tame_check; vm_compute; done|]. split; [intros; set_solver|]. split; [|vm_compute; done]. replace (s_list _) with [1; 2; 3] by (vm_compute; done). set_solver. Qed.
Example C92_met : accepted ex_c ex_s (Remove None 2) = true /\ Forall (bystander (s_next ex_s) (Removing 2)) [NewSession [1; 2] [] [(2, 1)]; Add None 3 13; Elsewhere ex_env 8; Result 3 true] /\
  s_list (step ex_c (run ex_c (step ex_c ex_s (Remove None 2)) [NewSession [1; 2] [] [(2, 1)]; Add None 3 13; Elsewhere ex_env 8; Result 3 true]) (Result 7 false)) = [1; 2].
Proof. split; [vm_compute; done|]. split; [repeat constructor; cbn; set_solver|vm_compute; done]. Qed.
Lemma no_key_check (m : gmap N N) a : forallb (fun x => negb (x.2 =? a)) (map_to_list m) = true -> forall k, m !! k <> Some a.
Proof. intros H k Hk. rewrite forallb_forall in H. specialize (H (k, a)). cbn in H. rewrite N.eqb_refl in H. assert (In (k, a) (map_to_list m)) as Hin by (by apply elem_of_list_In, elem_of_map_to_list). by apply H in Hin. Qed.

(** Rotating the key of an account while its registration is being decided, which Ethereum then refuses, leaves the account with a key ... *)
Theorem C90_holders_refuted : exists c g e next l a k, good_genesis c g /\ let s := run c (genesis g e next) l in
  s_owner s !! k = Some a /\ a ∉ s_list s /\ v_pending (replay c g e next l) = None.
Proof.
  exists ex_c, ex_g, ex_env, 7, [Add None 3 13; RotateKey None 3 13 33; Result 7 false], 3, 33. split; [exact ex_good|]. cbv zeta. split; [vm_compute; done|]. split; [|vm_compute; done].
  replace (s_list _) with [1; 2] by (vm_compute; done). set_solver.
Qed.
(** ... so that, registered again, it is an author with two keys; ... *)
Theorem C90_one_key_refuted : exists c g e next l a k k', good_genesis c g /\ let s := run c (genesis g e next) l in
  a ∈ s_list s /\ s_owner s !! k = Some a /\ s_owner s !! k' = Some a /\ k <> k'.
Proof.
  exists ex_c, ex_g, ex_env, 7, [Add None 3 13; RotateKey None 3 13 33; Result 7 false; Add None 3 13; Result 8 true], 3, 13, 33. split; [exact ex_good|]. cbv zeta.
  split; [replace (s_list _) with [1; 2; 3] by (vm_compute; done); set_solver|]. split; [vm_compute; done|]. split; [vm_compute; done|done].
Qed.
(** ... and if another author has meanwhile taken the key it gave up, that author loses it and is left without a key. *)
Theorem C90_author_loses_key_refuted : exists c g e next l a, good_genesis c g /\ let s := run c (genesis g e next) l in
  a ∈ s_list s /\ (forall k, s_owner s !! k <> Some a) /\ forall o, o ∈ l -> o <> Remove None a.
Proof.
  exists ex_c, ex_g, ex_env, 7, [Add None 3 13; RotateKey None 3 13 33; RotateKey None 1 11 13; Result 7 false], 1. split; [exact ex_good|]. cbv zeta.
  split; [replace (s_list _) with [1; 2] by (vm_compute; done); set_solver|]. split; [apply no_key_check; vm_compute; done|]. intros o Ho. set_solver.
Qed.
(** A session that begins without an author whose removal is being decided takes away its key at once; if Ethereum then refuses the removal, an author without a key remains. *)
Theorem C90_session_takes_key_refuted : exists c g e next l a, good_genesis c g /\ (forall who b old new, RotateKey who b old new ∉ l) /\ let s := run c (genesis g e next) l in
  a ∈ s_list s /\ v_pending (replay c g e next l) = None /\ forall k, s_owner s !! k <> Some a.
Proof.
  exists ex_c, ex_g, ex_env, 7, [Add None 3 13; Result 7 true; Remove None 3; NewSession [1; 2] [] [(3, 1); (3, 2)]; Result 8 false], 3. split; [exact ex_good|]. split; [intros; set_solver|]. cbv zeta.
  split; [replace (s_list _) with [1; 2; 3] by (vm_compute; done); set_solver|]. split; [vm_compute; done|]. apply no_key_check. vm_compute. done.
Qed.
(** After rotations, also well-timed ones, the removal sent to Ethereum names a key that may by then be another author's. *)
Theorem C91_current_key_refuted : exists c g e next l a b k tx, good_genesis c g /\ tame_run c g e next l /\ a <> b /\ let s := run c (genesis g e next) l in
  a ∈ s_list s /\ b ∈ s_list s /\ s_owner s !! k = Some b /\ head (s_calls (step c s (Remove None a))) = Some (tx, RemoveAuthor, a, k).
Proof.
  exists ex_c, ex_g, ex_env, 7, [RotateKey None 1 11 21; RotateKey None 2 12 11], 1, 2, 11, 7. split; [exact ex_good|]. split; [apply tame_check; vm_compute; done|]. split; [done|]. cbv zeta.
  replace (s_list _) with [1; 2] by (vm_compute; done). split; [set_solver|]. split; [set_solver|]. vm_compute. done.
Qed.

(** ** C93: the upgrade. *)
Lemma fold_none (l : list (N * N)) m a : (forall k, ~ In (k, a) l) -> fold_left (fun (m : gmap N N) x => <[x.2 := x.1]> m) l m !! a = m !! a.
Proof.
  revert m. induction l as [|[k b] l IH]; intros m H; cbn; [done|]. rewrite IH by (intros k' Hk; by apply (H k'); right). apply lookup_insert_ne. intros ->. by apply (H k); left.
Qed.
Lemma fold_last (l : list (N * N)) m a k : In (k, a) l -> exists k', In (k', a) l /\ fold_left (fun (m : gmap N N) x => <[x.2 := x.1]> m) l m !! a = Some k'.
Proof.
  induction l as [|[k1 b] l IH] using rev_ind; [done|]. intros H. rewrite fold_left_app. cbn. destruct (decide (b = a)) as [->|Hne].
  - exists k1. rewrite lookup_insert. split; [|done]. apply in_or_app. right. by left.
  - rewrite lookup_insert_ne by done. apply in_app_or in H as [H|[[= _ ->]|[]]]; [|done]. destruct (IH H) as (k' & Hk & ?). exists k'. split; [|done]. apply in_or_app. by left.
Qed.
(** In whatever order storage is read: if no account has two keys, the table becomes the inverse of the table of keys, and says nothing new of other accounts. *)
Theorem C93_table_built c s version : fair c -> version = 0 -> (forall a k k', s_owner s !! k = Some a -> s_owner s !! k' = Some a -> k = k') ->
  forall a, s_key (upgrade c version s).2 !! a = Some (default 0 (s_key (upgrade c version s).2 !! a)) /\ s_owner s !! default 0 (s_key (upgrade c version s).2 !! a) = Some a \/
            (forall k, s_owner s !! k <> Some a) /\ s_key (upgrade c version s).2 !! a = s_key s !! a.
Proof.
  intros Hf -> Hu a. change (s_key (upgrade c 0 s).2) with (fold_left (fun (m : gmap N N) x => <[x.2 := x.1]> m) (c_iter c (s_owner s)) (s_key s)). destruct (first_key c a s) as [k|] eqn:E.
  - left. apply (first_key_some c) in E; [|done]. destruct (fold_last (c_iter c (s_owner s)) (s_key s) a k) as (k' & Hin & ->); [by apply (iter_in c)|]. split; [done|]. by apply (iter_in c) in Hin.
  - right. split; [intros k; by apply (first_key_none c)|]. apply fold_none. intros k Hin. apply (iter_in c) in Hin; [|done]. by apply (first_key_none c a s k) in E.
Qed.
Theorem C93_inverse c s : fair c -> (forall a k k', s_owner s !! k = Some a -> s_owner s !! k' = Some a -> k = k') ->
  forall a k, s_owner s !! k = Some a -> s_key (upgrade c 0 s).2 !! a = Some k.
Proof.
  intros Hf Hu a k Hk. destruct (C93_table_built c s 0 Hf eq_refl Hu a) as [[-> Ho]|[Hn _]]; [|by apply Hn in Hk]. f_equal. by eapply Hu.
Qed.
(** The upgrade's own check passes exactly if no account has two keys. *)
Theorem C93_check_passes c s : fair c -> post_upgrade c (upgrade c 0 s) = true <-> (forall a k k', s_owner s !! k = Some a -> s_owner s !! k' = Some a -> k = k').
Proof.
  intros Hf. unfold post_upgrade. rewrite andb_true_iff, forallb_forall. cbn [upgrade fst snd]. split.
  - intros [_ H] a k k' Hk Hk'. pose proof (H (k, a) (proj2 (iter_in c _ (k, a) Hf) Hk)) as E. pose proof (H (k', a) (proj2 (iter_in c _ (k', a) Hf) Hk')) as E'.
    apply bool_decide_eq_true_1 in E, E'. cbn in E, E'. congruence.
  - intros Hu. split; [done|]. intros [k a] Hin. apply (iter_in c) in Hin; [|done]. apply bool_decide_eq_true_2. by apply C93_inverse.
Qed.
(** Nothing else changes; a second run, or any other version, changes nothing. *)
Theorem C93_nothing_else c version s : let '(v', s') := upgrade c version s in
  1 <= v' /\ upgrade c v' s' = (v', s') /\ (1 <= version -> v' = version /\ s' = s) /\ s_owner s' = s_owner s /\ s_list s' = s_list s /\ s_actions s' = s_actions s /\ s_txs s' = s_txs s /\ s_ingress s' = s_ingress s.
Proof.
  unfold upgrade. destruct (N.ltb_spec version 1).
  - split; [lia|]. split; [done|]. split; [lia|]. done.
  - split; [lia|]. rewrite (proj2 (N.ltb_ge version 1)) by lia. done.
Qed.
Example C93_met : fair ex_c /\ s_key (upgrade ex_c 0 (run ex_c ex_s [RotateKey None 1 11 21])).2 !! 1 = Some 21 /\ s_key (run ex_c ex_s [RotateKey None 1 11 21]) !! 1 = Some 11.
Proof. split; [by intros m|]. vm_compute. done. Qed.
