(** Lemmas and tactics about the vocabulary of Base.v. *)
From Verif Require Import Base.

Ltac Zify.zify_post_hook ::= Z.div_mod_to_equations.

Lemma mbind_ok {S A B} (m : M S A) (k : A -> M S B) s s' b :
  mbind_ m k s = (s', Ok b) ->
  exists s1 a, m s = (s1, Ok a) /\ k a s1 = (s', Ok b).
Proof. unfold mbind_. destruct (m s) as [s1 [a|e]]; intros H; [eauto | discriminate]. Qed.

Lemma mbind_inv {S A B} (m : M S A) (k : A -> M S B) s s' r :
  mbind_ m k s = (s', r) ->
  (exists s1 a, m s = (s1, Ok a) /\ k a s1 = (s', r)) \/ (exists e, m s = (s', Err e) /\ r = Err e).
Proof. unfold mbind_. destruct (m s) as [s1 [a|e]]; intros H; [left; eauto | right; injection H as <- <-; eauto]. Qed.

Lemma ensure_ok {S} b e (s s' : S) u : ensure b e s = (s', Ok u) -> b = true /\ s' = s.
Proof. unfold ensure. destruct b; intros H; [injection H as <- <-; auto | discriminate]. Qed.
Lemma ensure_inv {S} b e (s s' : S) r : ensure b e s = (s', r) -> s' = s.
Proof. unfold ensure. destruct b; intros H; injection H as <- <-; auto. Qed.
Lemma gets_ok {S A} (f : S -> A) s s' a : gets f s = (s', Ok a) -> a = f s /\ s' = s.
Proof. unfold gets. intros H; injection H as <- <-; auto. Qed.
Lemma gets_inv {S A} (f : S -> A) s s' r : gets f s = (s', r) -> r = Ok (f s) /\ s' = s.
Proof. unfold gets. intros H; injection H as <- <-; auto. Qed.
Lemma get_st_ok {S} (s s' a : S) : get_st s = (s', Ok a) -> a = s /\ s' = s.
Proof. unfold get_st. intros H; injection H as <- <-; auto. Qed.
Lemma get_st_inv {S} (s s' : S) r : get_st s = (s', r) -> r = Ok s /\ s' = s.
Proof. unfold get_st. intros H; injection H as <- <-; auto. Qed.
Lemma modify_ok {S} (f : S -> S) s s' u : modify f s = (s', Ok u) -> s' = f s.
Proof. unfold modify. intros H; injection H as <-; auto. Qed.
Lemma modify_inv {S} (f : S -> S) s s' r : modify f s = (s', r) -> s' = f s /\ r = Ok tt.
Proof. unfold modify. intros H; injection H as <- <-; auto. Qed.
Lemma some_or_ok {S A} (o : option A) e (s s' : S) a : some_or o e s = (s', Ok a) -> o = Some a /\ s' = s.
Proof. destruct o; cbv [some_or mret_ fail]; intros H; [injection H as <- <-; auto | discriminate]. Qed.
Lemma some_or_inv {S A} (o : option A) e (s s' : S) r : some_or o e s = (s', r) -> s' = s.
Proof. destruct o; cbv [some_or mret_ fail]; intros H; injection H as <- <-; auto. Qed.
Lemma lift_res_ok {S A} (o : res A) (s s' : S) a : lift_res o s = (s', Ok a) -> o = Ok a /\ s' = s.
Proof. destruct o; cbv [lift_res mret_ fail]; intros H; [injection H as <- <-; auto | discriminate]. Qed.
Lemma lift_res_inv {S A} (o : res A) (s s' : S) r : lift_res o s = (s', r) -> s' = s /\ r = o.
Proof. destruct o; cbv [lift_res mret_ fail]; intros H; injection H as <- <-; auto. Qed.
Lemma mret_ok {S A} (a : A) (s s' : S) b : mret_ a s = (s', Ok b) -> b = a /\ s' = s.
Proof. cbv [mret_]; intros H; injection H as <- <-; auto. Qed.
Lemma mret_inv {S A} (a : A) (s s' : S) r : mret_ a s = (s', r) -> r = Ok a /\ s' = s.
Proof. cbv [mret_]; intros H; injection H as <- <-; auto. Qed.
Lemma fail_ok {S A} e (s s' : S) (b : A) : fail e s = (s', Ok b) -> False.
Proof. cbv [fail]; discriminate. Qed.
Lemma fail_inv {S A} e (s s' : S) (r : res A) : fail e s = (s', r) -> r = Err e /\ s' = s.
Proof. cbv [fail]; intros H; injection H as <- <-; auto. Qed.

Lemma dispatch_ok {S A} (m : M S A) s s' a : dispatch m s = (s', Ok a) -> m s = (s', Ok a).
Proof. unfold dispatch. destruct (m s) as [s1 [b|e]]; intros H; congruence. Qed.
Lemma dispatch_err {S A} (m : M S A) s s' e : dispatch m s = (s', Err e) -> s' = s.
Proof. unfold dispatch. destruct (m s) as [s1 [b|e']]; intros H; congruence. Qed.
Lemma dispatch_inv {S A} (m : M S A) s s' r :
  dispatch m s = (s', r) -> (exists a, m s = (s', Ok a) /\ r = Ok a) \/ s' = s.
Proof.
  unfold dispatch. destruct (m s) as [s1 [b|e']]; intros H; injection H as <- <-; eauto.
Qed.

(** Inversion of a successful run, one construct at a time. *)
Ltac minv H :=
  lazymatch type of H with
  | mbind_ _ _ _ = (_, Ok _) =>
      let s1 := fresh "s" in let a := fresh "a" in let H1 := fresh "Hm" in
      apply mbind_ok in H; destruct H as (s1 & a & H1 & H); minv H1; minv H
  | ensure _ _ _ = (_, Ok _) => let E := fresh "Hens" in apply ensure_ok in H; destruct H as [E H]; subst
  | gets _ _ = (_, Ok _) => apply gets_ok in H; destruct H as [? H]; subst
  | get_st _ = (_, Ok _) => apply get_st_ok in H; destruct H as [? H]; subst
  | modify _ _ = (_, Ok _) => apply modify_ok in H; subst
  | some_or _ _ _ = (_, Ok _) => let E := fresh "Hsome" in apply some_or_ok in H; destruct H as [E H]; subst
  | lift_res _ _ = (_, Ok _) => let E := fresh "Hres" in apply lift_res_ok in H; destruct H as [E H]; subst
  | mret_ _ _ = (_, Ok _) => apply mret_ok in H; destruct H as [? H]; subst
  | fail _ _ = (_, Ok _) => apply fail_ok in H; destruct H
  | (if ?b then _ else _) _ = (_, Ok _) => let E := fresh "Hif" in destruct b eqn:E; minv H
  | (match ?o with Some _ => _ | None => _ end) _ = (_, Ok _) =>
      let E := fresh "Hopt" in destruct o eqn:E; minv H
  | (let _ := _ in _) _ = (_, Ok _) => cbv zeta in H; minv H
  | _ => idtac
  end.

(** A property preserved by a computation whether it succeeds or not. *)
Definition preserves {S A} (P : S -> Prop) (m : M S A) : Prop :=
  forall s s' r, P s -> m s = (s', r) -> P s'.

Lemma preserves_bind {S A B} P (m : M S A) (k : A -> M S B) :
  preserves P m -> (forall a, preserves P (k a)) -> preserves P (mbind_ m k).
Proof.
  intros Hm Hk s s' r HP H. apply mbind_inv in H as [(s1 & a & H1 & H2)|(e & H1 & ->)].
  - eapply Hk; [|exact H2]. eapply Hm; eauto.
  - eapply Hm; eauto.
Qed.
Lemma preserves_ensure {S} (P : S -> Prop) b e : preserves P (ensure b e).
Proof. intros s s' r HP H. apply ensure_inv in H. subst; auto. Qed.
Lemma preserves_gets {S A} (P : S -> Prop) (f : S -> A) : preserves P (gets f).
Proof. intros s s' r HP H. apply gets_inv in H as [_ ->]; auto. Qed.
Lemma preserves_get_st {S} (P : S -> Prop) : preserves P (@get_st S).
Proof. intros s s' r HP H. apply get_st_inv in H as [_ ->]; auto. Qed.
Lemma preserves_some_or {S A} (P : S -> Prop) (o : option A) e : preserves P (some_or o e).
Proof. intros s s' r HP H. apply some_or_inv in H; subst; auto. Qed.
Lemma preserves_lift_res {S A} (P : S -> Prop) (o : res A) : preserves P (lift_res o).
Proof. intros s s' r HP H. apply lift_res_inv in H as [-> _]; auto. Qed.
Lemma preserves_ret {S A} (P : S -> Prop) (a : A) : preserves P (mret_ a).
Proof. intros s s' r HP H. apply mret_inv in H as [_ ->]; auto. Qed.
Lemma preserves_fail {S A} (P : S -> Prop) e : preserves P (@fail S A e).
Proof. intros s s' r HP H. apply fail_inv in H as [_ ->]; auto. Qed.
Lemma preserves_modify {S} (P : S -> Prop) f : (forall s, P s -> P (f s)) -> preserves P (modify f).
Proof. intros Hf s s' r HP H. apply modify_inv in H as [-> _]; auto. Qed.
Lemma preserves_dispatch {S A} P (m : M S A) : preserves P m -> preserves P (dispatch m).
Proof. intros Hm s s' r HP H. apply dispatch_inv in H as [(a & H & ->)| ->]; [eapply Hm; eauto | auto]. Qed.
(** For [dispatch] only the successful runs matter. *)
Lemma preserves_dispatch_ok {S A} (P : S -> Prop) (m : M S A) :
  (forall s s' a, P s -> m s = (s', Ok a) -> P s') -> preserves P (dispatch m).
Proof. intros Hm s s' r HP H. apply dispatch_inv in H as [(a & H & ->)| ->]; [eapply Hm; eauto | auto]. Qed.

Lemma memN_spec x l : memN x l = true <-> In x l.
Proof.
  unfold memN. rewrite existsb_exists. split.
  - intros (y & Hy & E). apply N.eqb_eq in E. subst. exact Hy.
  - intros H. exists x. split; [exact H | apply N.eqb_refl].
Qed.
Lemma memN_false x l : memN x l = false <-> ~ In x l.
Proof. rewrite <- memN_spec. destruct (memN x l); split; congruence. Qed.

(** Sum of a measure over a finite map. *)
Definition msum {K V} `{Countable K} (f : K -> V -> N) (m : gmap K V) : N :=
  map_fold (fun k v acc => f k v + acc) 0 m.

Section msum.
  Context {K V : Type} `{Countable K}.
  Implicit Types (f : K -> V -> N) (m : gmap K V).
  Lemma msum_empty f : msum f ∅ = 0.
  Proof. unfold msum. apply map_fold_empty. Qed.
  Lemma msum_insert_new f m k v : m !! k = None -> msum f (<[k:=v]> m) = f k v + msum f m.
  Proof.
    intros Hk. unfold msum. refine (map_fold_insert_L (fun k v acc => f k v + acc) 0 k v m _ Hk). intros; lia.
  Qed.
  Lemma msum_delete f m k v : m !! k = Some v -> msum f m = f k v + msum f (delete k m).
  Proof.
    intros Hk. rewrite <- (insert_delete m k v Hk) at 1.
    apply msum_insert_new. apply lookup_delete.
  Qed.
  Lemma msum_insert f m k v : msum f (<[k:=v]> m) + default 0 (f k <$> m !! k) = msum f m + f k v.
  Proof.
    destruct (m !! k) as [w|] eqn:E; cbn.
    - rewrite <- insert_delete_insert, msum_insert_new by apply lookup_delete.
      rewrite (msum_delete f m k w E). lia.
    - rewrite msum_insert_new by exact E. lia.
  Qed.
  Lemma msum_lookup_le f m k v : m !! k = Some v -> f k v <= msum f m.
  Proof. intros E. rewrite (msum_delete f m k v E). lia. Qed.
  Lemma msum_ext f g m : (forall k v, m !! k = Some v -> f k v = g k v) -> msum f m = msum g m.
  Proof.
    induction m as [|k v m Hk IH] using map_ind; intros Hfg; [now rewrite !msum_empty|].
    rewrite !msum_insert_new by exact Hk. rewrite IH.
    - rewrite (Hfg k v); [reflexivity | apply lookup_insert].
    - intros k' v' E. apply Hfg. rewrite lookup_insert_ne; [exact E|]. intros ->. congruence.
  Qed.
End msum.

Lemma nth_error_is_lookup {A} (l : list A) (i : nat) : nth_error l i = l !! i.
Proof. revert i; induction l as [|x l IH]; intros [|i]; cbn; auto. Qed.
