(** Where requests and leaving candidates come from: what each call can add to them. *)
From Verif Require Import Base BaseLemmas CodecModel SigModel StakeModel StakeSpec StakeBook StakeCross StakeInv StakeOps StakeNom StakeLeave StakeExit StakeCand StakeRun.

(** ** Successful runs *)
Definition post {S A} (m : M S A) (Q : A -> S -> Prop) (s : S) : Prop := match m s with (s', Ok a) => Q a s' | _ => True end.
Lemma post_bind {S A B} (m : M S A) (k : A -> M S B) Q s : post m (fun a s' => post (k a) Q s') s -> post (mbind_ m k) Q s.
Proof. unfold post, mbind_. destruct (m s) as [s1 [a|e]]; auto. Qed.
Lemma post_ensure {S} b e (Q : unit -> S -> Prop) (s : S) : (b = true -> Q tt s) -> post (ensure b e) Q s.
Proof. unfold post, ensure. destruct b; auto. Qed.
Lemma post_get {S} (Q : S -> S -> Prop) (s : S) : Q s s -> post get_st Q s.
Proof. auto. Qed.
Lemma post_gets {S A} (f : S -> A) (Q : A -> S -> Prop) (s : S) : Q (f s) s -> post (gets f) Q s.
Proof. auto. Qed.
Lemma post_modify {S} f (Q : unit -> S -> Prop) (s : S) : Q tt (f s) -> post (modify f) Q s.
Proof. auto. Qed.
Lemma post_ret {S A} (a : A) (Q : A -> S -> Prop) (s : S) : Q a s -> post (mret_ a) Q s.
Proof. auto. Qed.
Lemma post_fail {S A} e (Q : A -> S -> Prop) (s : S) : post (@fail S A e) Q s.
Proof. exact I. Qed.
Lemma post_some_or {S A} (o : option A) e (Q : A -> S -> Prop) (s : S) : (forall a, o = Some a -> Q a s) -> post (some_or o e) Q s.
Proof. destruct o; unfold post; cbn; auto. Qed.
Lemma post_lift {S A} (r : res A) (Q : A -> S -> Prop) (s : S) : (forall a, r = Ok a -> Q a s) -> post (lift_res r) Q s.
Proof. destruct r; unfold post; cbn; auto. Qed.
Lemma post_mono {S A} (m : M S A) (Q Q' : A -> S -> Prop) s : post m Q s -> (forall a s', Q a s' -> Q' a s') -> post m Q' s.
Proof. unfold post. destruct (m s) as [s1 [a|e]]; auto. Qed.
Lemma post_and {S A} (m : M S A) (Q Q' : A -> S -> Prop) s : post m Q s -> post m Q' s -> post m (fun a s' => Q a s' /\ Q' a s') s.
Proof. unfold post. destruct (m s) as [s1 [a|e]]; auto. Qed.
Lemma wp_post {S A} (m : M S A) (Q : A -> S -> Prop) s : wp m Q s -> post m Q s.
Proof. unfold wp, post. by destruct (m s) as [s1 [a|e]]. Qed.
Lemma post_store s k old new (Q : unit -> st -> Prop) : Q tt (stored k old new s) -> post (store k old new) Q s.
Proof. intros H. apply wp_post. apply wp_store. exact H. Qed.
Ltac p1 :=
  lazymatch goal with
  | |- post (mbind_ _ _) _ _ => apply post_bind
  | |- post get_st _ _ => apply post_get
  | |- post (gets _) _ _ => apply post_gets
  | |- post (modify _) _ _ => apply post_modify
  | |- post (mret_ _) _ _ => apply post_ret
  | |- post (fail _) _ _ => apply post_fail
  | |- post (ensure _ _) _ _ => apply post_ensure; let H := fresh "Hens" in intros H
  | |- post (some_or _ _) _ _ => apply post_some_or; let a := fresh "a" in let H := fresh "Hsome" in intros a H
  | |- post (lift_res _) _ _ => apply post_lift; let a := fresh "a" in let H := fresh "Hres" in intros a H
  | |- post (store _ _ _) _ _ => apply post_store
  end.
Ltac ps := repeat (p1; cbv beta).

(** ** Book operations keep the status and the request of the candidate *)
Definition kept (x x' : cand) : Prop := k_status x' = k_status x /\ k_req x' = k_req x /\ k_bond x' = k_bond x.
Lemma add_bottom_kept c f x k k' y : add_bottom c f x k = Ok (k', y) -> kept (bk k) (bk k').
Proof.
  unfold add_bottom. destruct (_ =? _).
  - destruct (pop _) as [[l z]|]; [|discriminate]. intros [= <- <-]. repeat split.
  - intros [= <- <-]. destruct (negb f); repeat split.
Qed.
Lemma add_top_kept c x k k' l y : add_top c x k = Ok (k', l, y) -> kept (bk k) (bk k').
Proof.
  unfold add_top. destruct (_ =? _).
  - destruct (pop _) as [[r z]|]; [|discriminate]. destruct (add_bottom c true z k) as [[k1 kk]|e] eqn:E; [|discriminate].
    apply add_bottom_kept in E as (E1 & E2 & E3). intros [= <- <- <-]. destruct (is_full (k_bot_cap (bk k))); cbn; repeat split; cbn; congruence.
  - intros [= <- <- <-]. repeat split.
Qed.
Lemma add_kept c x k k' l y : add_nomination c x k = Ok (k', l, y) -> kept (bk k) (bk k').
Proof.
  unfold add_nomination. destruct (is_full _).
  - destruct (_ <? _); [apply add_top_kept|]. destruct (_ && _); [discriminate|].
    destruct (add_bottom _ _ _ _) as [[k1 kk]|e] eqn:E; [|discriminate]. intros [= <- <- <-]. by eapply add_bottom_kept.
  - destruct (add_top _ _ _) as [[[k1 l1] kk]|e] eqn:E; [|discriminate]. intros [= <- <- <-]. by eapply add_top_kept.
Qed.
Lemma rm_top_kept c w k k' : rm_top c w k = Ok k' -> kept (bk k) (bk k').
Proof.
  unfold rm_top. destruct (amount_in _ _); [|discriminate]. destruct (is_empty _).
  - intros [= <-]. repeat split.
  - destruct (n_list (bb k)); [discriminate|]. intros [= <-]. repeat split.
Qed.
Lemma rm_bottom_kept c w k k' : rm_bottom c w k = Ok k' -> kept (bk k) (bk k').
Proof. unfold rm_bottom. destruct (amount_in _ _); [|discriminate]. intros [= <-]. repeat split. Qed.
Lemma or_else_cases r1 r2 k' : or_else r1 r2 = Ok k' -> r1 = Ok k' \/ r2 = Ok k'.
Proof. unfold or_else. destruct r1; [by left|]. destruct (_ =? _)%string; [by right|discriminate]. Qed.
Lemma rm_kept c w a k k' : rm_nomination_if_exists c w a k = Ok k' -> kept (bk k) (bk k').
Proof.
  unfold rm_nomination_if_exists. destruct (_ || _); [apply rm_top_kept|]. destruct (_ && _); [|apply rm_bottom_kept].
  intros [E|E]%or_else_cases; [by eapply rm_top_kept | by eapply rm_bottom_kept].
Qed.
Lemma increase_kept c w a x k k' : increase c w a x k = Ok k' -> kept (bk k) (bk k').
Proof.
  assert (H1 : increase_top c w x k = Ok k' -> kept (bk k) (bk k')).
  { unfold increase_top. destruct (amount_in _ _); [|discriminate]. intros [= <-]. repeat split. }
  assert (H2 : increase_bottom c w a x k = Ok k' -> kept (bk k) (bk k')).
  { unfold increase_bottom. destruct (amount_in _ _); [|discriminate]. destruct (_ <? _).
    - destruct (is_full _); [destruct (pop _) as [[l y]|]; [|discriminate]|]; intros [= <-]; repeat split.
    - intros [= <-]. repeat split. }
  unfold increase. destruct (_ && _); [done|]. destruct (_ && _); [|done]. intros [E|E]%or_else_cases; auto.
Qed.
Lemma decrease_kept c w a x k k' : decrease c w a x k = Ok k' -> kept (bk k) (bk k').
Proof.
  assert (H1 : decrease_top c w a x k = Ok k' -> kept (bk k) (bk k')).
  { unfold decrease_top. destruct (amount_in _ _); [|discriminate]. destruct (_ && _).
    - destruct (n_list (bb k)); [discriminate|]. intros [= <-]. repeat split.
    - intros [= <-]. repeat split. }
  assert (H2 : decrease_bottom c w x k = Ok k' -> kept (bk k) (bk k')).
  { unfold decrease_bottom. destruct (amount_in _ _); [|discriminate]. intros [= <-]. repeat split. }
  unfold decrease. destruct (_ && _); [done|]. destruct (_ && _); [|done]. intros [E|E]%or_else_cases; auto.
Qed.

(** ** What calls add *)
Section frame.
Variables (PR : N -> req -> Prop) (PS : N -> N -> Prop) (PQ : N -> N * N -> Prop).
Definition from_cand (k : N) (x' : cand) (o : option cand) : Prop :=
  (forall e, k_status x' = Leaving e -> PS k e \/ exists x, o = Some x /\ k_status x = Leaving e) /\
  (forall q, k_req x' = Some q -> PQ k q \/ exists x, o = Some x /\ k_req x = Some q).
Definition from_cands (C' C : gmap N cand) : Prop := forall k x', C' !! k = Some x' -> from_cand k x' (C !! k).
Definition from_reqs (R' R : gmap N (list req)) : Prop := forall k r, r ∈ mget [] k R' -> PR k r \/ r ∈ mget [] k R.
Record frame (s s' : st) : Prop := mkFrame {
  f_era : s_era s' = s_era s; f_delay : s_delay s' = s_delay s;
  f_reqs : from_reqs (s_reqs s') (s_reqs s); f_cands : from_cands (s_cands s') (s_cands s) }.
Lemma from_cands_refl C : from_cands C C.
Proof. intros k x Hx. split; intros e He; right; exists x; done. Qed.
Lemma from_reqs_refl R : from_reqs R R.
Proof. intros k r Hr. by right. Qed.
Lemma frame_refl s : frame s s.
Proof. constructor; try done; [apply from_reqs_refl | apply from_cands_refl]. Qed.
Lemma frame_trans s1 s2 s3 : frame s1 s2 -> frame s2 s3 -> frame s1 s3.
Proof.
  intros [A1 A2 A3 A4] [B1 B2 B3 B4]. constructor; try congruence.
  - intros k r Hr. destruct (B3 k r Hr) as [H|H]; [by left | by apply A3].
  - intros k x Hx. destruct (B4 k x Hx) as [H1 H2]. split.
    + intros e He. destruct (H1 e He) as [H|(y & Hy & Hs)]; [by left|]. by apply (A4 k y Hy).
    + intros q Hq. destruct (H2 q Hq) as [H|(y & Hy & Hs)]; [by left|]. by apply (A4 k y Hy).
Qed.
Lemma frame_same s s' : s_era s' = s_era s -> s_delay s' = s_delay s -> s_reqs s' = s_reqs s -> s_cands s' = s_cands s -> frame s s'.
Proof. intros A B C D. constructor; try done; [rewrite C; apply from_reqs_refl | rewrite D; apply from_cands_refl]. Qed.
Lemma from_reqs_insert R k l : (forall r, r ∈ l -> PR k r \/ r ∈ mget [] k R) -> from_reqs (<[k := l]> R) R.
Proof.
  intros H k' r. rewrite mget_insert_reqs. destruct (decide (k' = k)) as [->|]; [apply H | by right].
Qed.
Lemma from_cands_insert C k x' : from_cand k x' (C !! k) -> from_cands (<[k := x']> C) C.
Proof.
  intros H k' y. destruct (N.eq_dec k' k) as [->|Hne]; [rewrite lookup_insert; by intros [= <-]|].
  rewrite lookup_insert_ne by done. apply from_cands_refl.
Qed.
Lemma from_cand_kept k x x' : kept x x' -> from_cand k x' (Some x).
Proof. intros (H1 & H2 & _). split; [intros e; rewrite H1|intros q; rewrite H2]; intros He; right; by exists x. Qed.
Lemma from_cand_self k x (C : gmap N cand) : C !! k = Some x -> forall x', kept x x' -> from_cand k x' (C !! k).
Proof. intros ->. apply from_cand_kept. Qed.
Lemma from_cands_delete C k : from_cands (delete k C) C.
Proof. intros k' y [_ H]%lookup_delete_Some. by apply from_cands_refl. Qed.
Lemma from_reqs_delete R k : from_reqs (delete k R) R.
Proof.
  intros k' r. unfold mget. destruct (N.eq_dec k' k) as [->|Hne]; [rewrite lookup_delete; intros H; by apply elem_of_nil in H|].
  rewrite lookup_delete_ne by done. by right.
Qed.
Lemma take_req_sub p l r l' : take_req p l = Some (r, l') -> r ∈ l /\ forall q, q ∈ l' -> q ∈ l.
Proof.
  revert l'. induction l as [|x l IH]; intros l'; cbn; [done|]. destruct (p x); [intros [= -> ->]; split; [left | intros; by right]|].
  destruct (take_req p l) as [[y l2]|]; [|done]. intros [= -> <-]. destruct (IH l2 eq_refl) as [H1 H2]. split; [by right|].
  intros q [->|Hq]%elem_of_cons; [left | right; auto].
Qed.
Definition pres {A} (m : M st A) : Prop := forall s, post m (fun _ s' => frame s s') s.
Lemma pres_bind {A B} (m : M st A) (f : A -> M st B) : pres m -> (forall a, pres (f a)) -> pres (mbind_ m f).
Proof.
  intros Hm Hf s. apply post_bind. eapply post_mono; [apply Hm|]. intros a s1 H1. cbv beta. eapply post_mono; [apply Hf|]. intros b s2 H2.
  exact (frame_trans _ _ _ H1 H2).
Qed.
Lemma pres_same {A} (m : M st A) : (forall s, post m (fun _ s' => s_era s' = s_era s /\ s_delay s' = s_delay s /\ s_reqs s' = s_reqs s /\ s_cands s' = s_cands s) s) -> pres m.
Proof. intros H s. eapply post_mono; [apply H|]. intros a s' (H1 & H2 & H3 & H4). by apply frame_same. Qed.
(** From here on a step from [s0], with what happened before. *)
Lemma reads_then {A} (m : M st A) s0 s : frame s0 s -> pres m -> post m (fun _ s' => frame s0 s') s.
Proof. intros H Hm. eapply post_mono; [apply Hm|]. intros a s' H'. by eapply frame_trans. Qed.

Lemma set_nom_lock_pres w x : pres (set_nom_lock w x). Proof. apply pres_same. intros s. unfold set_nom_lock. by ps. Qed.
Lemma rm_nomination_pres w k m : pres (rm_nomination w k m).
Proof. apply pres_same. intros s. unfold rm_nomination. destruct (m_noms m !! k); [unfold set_nom_lock|]; by ps. Qed.
Lemma remove_request_pres k w m : pres (remove_request k w m).
Proof.
  intros s. unfold remove_request. ps. destruct (take_req _ _) as [[r l]|] eqn:E; [|ps; apply frame_refl].
  unfold set_reqs. ps. constructor; try done; [|apply from_cands_refl]. cbn. apply from_reqs_insert. intros q Hq. right. apply take_req_sub in E as [_ E]. by apply E.
Qed.
Ltac step_pres := apply pres_bind; [|intros ?].
Lemma get_pres : pres get_st. Proof. intros s. ps. apply frame_refl. Qed.
Lemma ret_pres {A} (a : A) : pres (mret_ a). Proof. intros s. ps. apply frame_refl. Qed.
Lemma some_or_pres {A} (o : option A) e : pres (some_or o e). Proof. intros s. ps. apply frame_refl. Qed.
Lemma ensure_pres b e : pres (ensure b e). Proof. intros s. ps. apply frame_refl. Qed.
Lemma set_nominator_pres w m : pres (set_nominator w m). Proof. apply pres_same. intros s. unfold set_nominator. by ps. Qed.
Lemma del_nominator_pres w : pres (del_nominator w). Proof. apply pres_same. intros s. unfold del_nominator. by ps. Qed.
Lemma kick_pres k x : pres (kick k x).
Proof.
  unfold kick. step_pres; [apply get_pres|]. step_pres; [apply some_or_pres|]. step_pres; [apply rm_nomination_pres|]. destruct a1.
  step_pres; [apply remove_request_pres|]. destruct (_ =? 1); [apply del_nominator_pres | apply set_nominator_pres].
Qed.
Lemma return_stake_pres k x : pres (return_stake k x).
Proof.
  unfold return_stake. step_pres; [apply get_pres|]. step_pres; [apply some_or_pres|]. step_pres; [apply rm_nomination_pres|]. destruct a1 as [m [rest|]].
  - step_pres; [apply remove_request_pres|]. destruct (_ =? 0); [|apply set_nominator_pres]. step_pres; [apply del_nominator_pres | apply set_nom_lock_pres].
  - apply set_nom_lock_pres.
Qed.
Lemma return_all_pres k l : pres (return_all k l).
Proof. induction l as [|x l IH]; cbn [return_all]; [apply ret_pres|]. step_pres; [apply return_stake_pres | apply IH]. Qed.
Lemma post_load s k (Q : book -> st -> Prop) : (forall x t b, s_cands s !! k = Some x -> s_top s !! k = Some t -> s_bot s !! k = Some b -> Q (mkBook x t b) s) ->
  post (load k) Q s.
Proof. intros H. unfold load. ps. by apply H. Qed.
Lemma frame_put s s1 s' k x x' : frame s s1 -> s_cands s !! k = Some x -> kept x x' -> s_cands s1 = s_cands s ->
  s_era s' = s_era s1 -> s_delay s' = s_delay s1 -> s_reqs s' = s_reqs s1 -> s_cands s' = <[k := x']> (s_cands s1) -> frame s s'.
Proof.
  intros [A1 A2 A3 A4] Hx Hk E B1 B2 B3 B4. constructor; try congruence; [by rewrite B3|]. rewrite B4, E. apply from_cands_insert. by eapply from_cand_self.
Qed.
Lemma call_nominate_pres c w k x h1 h2 : pres (call_nominate c w k x h1 h2).
Proof.
  intros s. unfold call_nominate. p1. p1. p1. p1. p1.
  assert (Hm : forall m0 : M st nominator, (forall s, post m0 (fun _ s' => s' = s) s) -> forall (Q : nominator -> st -> Prop), (forall a, Q a s) -> post m0 Q s).
  { intros m0 H0 Q HQ. eapply post_mono; [apply H0|]. intros a s' ->. apply HQ. }
  apply Hm.
  { intros s1. destruct (s_nominators s !! w) as [m|]; [|by ps]. ps. destruct (m_noms m !! k); by ps. }
  intros m. p1. apply post_load. intros y t b Hy Ht Hb. p1. p1. p1. p1. destruct a as [[new less] kicked]. p1.
  apply (post_mono _ (fun _ s' => frame s s' /\ s_cands s' = s_cands s)).
  { destruct kicked as [z|]; [|ps; split; [apply frame_refl|done]]. apply post_and; [apply kick_pres|].
    unfold kick, rm_nomination, remove_request, set_nom_lock, set_reqs, del_nominator, set_nominator. ps. destruct (m_noms a !! k); ps; destruct (take_req _ _) as [[? ?]|]; ps; destruct (_ =? 1); by ps. }
  intros _ s1 [F E]. cbv beta. unfold lock_more, set_nom_lock, add_total, set_nominator. ps. apply add_kept in Hres.
  eapply (frame_put s s1 _ k y); try done.
Qed.
Lemma call_bond_extra_pres c w k x : pres (call_bond_extra c w k x).
Proof.
  intros s. unfold call_bond_extra. p1. p1. p1. p1. p1. p1. p1. p1. p1. unfold lock_more, set_nom_lock. ps.
  apply post_load. cbn [s_cands s_top s_bot set]. intros y t b Hy Ht Hb. ps. unfold add_total, set_nominator. ps. apply increase_kept in Hres.
  eapply (frame_put s s _ k y); try done. apply frame_refl.
Qed.
Lemma leaves_pres c k w a : pres (nominator_leaves_candidate c k w a).
Proof.
  intros s. unfold nominator_leaves_candidate. p1. apply post_load. intros y t b Hy Ht Hb. unfold sub_total. ps. apply rm_kept in Hres.
  eapply (frame_put s s _ k y); try done. apply frame_refl.
Qed.
Lemma cancel_request_pres w k : pres (cancel_request w k).
Proof.
  intros s. unfold cancel_request. ps. destruct a0 as [r l]. unfold set_reqs, set_nominator. ps. constructor; try done; [|apply from_cands_refl]. cbn.
  apply from_reqs_insert. intros q Hq. right. apply take_req_sub in Hsome0 as [_ E]. by apply E.
Qed.
Lemma execute_request_pres c w k : pres (execute_request c w k).
Proof.
  intros s. unfold execute_request. p1. p1. p1. p1. p1. p1. destruct a0 as [r l]. apply take_req_sub in Hsome0 as [Hr Hl].
  assert (Hsub : forall s1, s_era s1 = s_era s -> s_delay s1 = s_delay s -> s_reqs s1 = <[k := l]> (s_reqs s) -> from_cands (s_cands s1) (s_cands s) -> frame s s1).
  { intros s1 E1 E2 E3 E4. constructor; try done. rewrite E3. apply from_reqs_insert. intros q Hq. right. by apply Hl. }
  ps. destruct (r_action r) as [amount|amount]; ps.
  - eapply (post_mono _ (fun _ s1 => s_era s1 = s_era s /\ s_delay s1 = s_delay s /\ s_reqs s1 = s_reqs s /\ s_cands s1 = s_cands s)).
    { unfold rm_nomination, set_nom_lock. destruct (m_noms _ !! k); by ps. }
    intros [m2 o] s1 (A1 & A2 & A3 & A4). p1. unfold nominator_leaves_candidate. p1. apply post_load. intros y t b Hy Ht Hb. unfold sub_total. ps.
    apply rm_kept in Hres. unfold set_reqs, del_nominator, set_nominator. ps.
    destruct (_ =? 1); ps; (apply Hsub; cbn; try done; [by rewrite A3|]; rewrite A4 in *; apply from_cands_insert; by eapply from_cand_self).
  - apply post_load. intros y t b Hy Ht Hb. unfold set_nom_lock. ps. apply decrease_kept in Hres. unfold sub_total, set_reqs, set_nominator. ps.
    apply Hsub; cbn; try done. apply from_cands_insert. by eapply from_cand_self.
Qed.
Lemma leave_loop_pres c w l : pres (leave_loop c w l).
Proof.
  induction l as [|[k a] l IH]; cbn [leave_loop]; [apply ret_pres|]. step_pres; [|apply IH]. intros s. unfold post.
  pose proof (leaves_pres c k w a s) as H. unfold post in H. destruct (nominator_leaves_candidate c k w a s) as [s1 [u|e]]; [done|apply frame_refl].
Qed.
Lemma fold_writes (out : list (N * list req)) R : (forall x, x ∈ out -> forall r, r ∈ x.2 -> PR x.1 r \/ r ∈ mget [] x.1 R) ->
  from_reqs (fold_left (fun acc x => <[x.1 := x.2]> acc) out R) R.
Proof.
  intros H. cut (forall R', from_reqs R' R -> from_reqs (fold_left (fun acc x => <[x.1 := x.2]> acc) out R') R). { intros Hx. apply Hx. apply from_reqs_refl. }
  induction out as [|x out IH]; intros R' H'; cbn; [done|]. apply IH; [intros y Hy; apply H; by right|].
  intros k r. rewrite mget_insert_reqs. destruct (decide (k = x.1)) as [->|]; [|apply H']. apply H. left.
Qed.
Lemma execute_revoke_all_pres c w h : pres (execute_revoke_all c w h).
Proof.
  intros s. unfold execute_revoke_all. p1. p1. p1. p1. p1. p1. p1. p1. p1.
  apply (post_mono _ (fun _ s' => frame s s' /\ s_reqs s' = s_reqs s)).
  { apply post_and; [apply leave_loop_pres|]. clear Hens Hens0. generalize (nom_list a). intros l. clear a Hsome.
    remember (s_reqs s) as R. assert (E : s_reqs s = R) by done. clear HeqR. revert s E. induction l as [|[k x] l IH]; intros s E; cbn [leave_loop]; [by ps|]. p1.
    unfold post at 1. destruct (nominator_leaves_candidate c k w x s) as [s1 [u|e]] eqn:El; [|by apply IH].
    apply IH. unfold nominator_leaves_candidate in El.
    pose proof (post_load s k (fun o s0 => s0 = s)) as Hl. unfold post in Hl. unfold mbind_ in El.
    destruct (load k s) as [s0 [o|e]]; [|done]. rewrite Hl in El by done. clear Hl.
    unfold lift_res in El. destruct (rm_nomination_if_exists c w x o) as [new|e]; [|done]. cbn in El. unfold store, modify, mbind_, mret_, update_active, modify in El.
    destruct (_ && _); injection El as <- _; done. }
  intros _ s1 [F E]. cbv beta. unfold set_nom_lock, write_reqs, del_nominator. ps. destruct F as [F1 F2 F3 F4]. constructor; try done. cbn. rewrite E.
  apply fold_writes. intros x Hx r. apply elem_of_list_fmap in Hx as (k & -> & Hk). cbn. intros Hr. right.
  destruct (take_req (revoke_of w) (reqs_of s k)) as [[q l]|] eqn:Eq; [|done]. apply take_req_sub in Eq as [_ Eq]. by apply Eq.
Qed.
Lemma schedule_revoke_pres c w k s0 : (forall r, r_who r = w -> r_when r = sat32 (s_era s0) (s_delay s0) -> PR k r) ->
  post (schedule_revoke c w k) (fun _ s' => frame s0 s') s0.
Proof.
  intros HP. unfold schedule_revoke. ps. destruct (can_push _ _); [|ps; apply frame_refl]. unfold set_reqs, set_nominator. ps. constructor; try done; [|apply from_cands_refl].
  cbn. apply from_reqs_insert. intros r [Hr|Hr]%elem_of_app; [by right|]. apply elem_of_list_singleton in Hr as ->. left. by apply HP.
Qed.
Lemma schedule_decrease_pres c w k x s0 : (forall r, r_who r = w -> r_when r = sat32 (s_era s0) (s_delay s0) -> PR k r) ->
  post (schedule_decrease c w k x) (fun _ s' => frame s0 s') s0.
Proof.
  intros HP. unfold schedule_decrease. ps. destruct (can_push _ _); [|ps; apply frame_refl]. unfold set_reqs, set_nominator. ps. constructor; try done; [|apply from_cands_refl].
  cbn. apply from_reqs_insert. intros r [Hr|Hr]%elem_of_app; [by right|]. apply elem_of_list_singleton in Hr as ->. left. by apply HP.
Qed.
Lemma schedule_revoke_all_pres c w s0 : (forall k r, r_who r = w -> r_when r = sat32 (s_era s0) (s_delay s0) -> PR k r) ->
  post (schedule_revoke_all c w) (fun _ s' => frame s0 s') s0.
Proof.
  intros HP. unfold schedule_revoke_all. p1. p1. p1. p1.
  assert (Hg : forall l acc, (forall x, x ∈ acc.2 -> forall r, r ∈ x.2 -> PR x.1 r \/ r ∈ mget [] x.1 (s_reqs s0)) ->
    forall x, x ∈ (fold_left (revoke_all_step c s0 w (sat32 (s_era s0) (s_delay s0))) l acc).2 -> forall r, r ∈ x.2 -> PR x.1 r \/ r ∈ mget [] x.1 (s_reqs s0)).
  { induction l as [|[k a0] l IH]; intros acc Ha; cbn [fold_left]; [done|]. apply IH. destruct acc as [[m n] out]. cbn [snd] in Ha. unfold revoke_all_step.
    set (ff := take_req (of_nominator w) (reqs_of s0 k)).
    assert (Hl : forall l r, (match ff with Some (_, l) => l | None => reqs_of s0 k end) = l -> r ∈ l -> r ∈ mget [] k (s_reqs s0)).
    { intros l' r <-. destruct ff as [[q l2]|] eqn:E; [|done]. subst ff. apply take_req_sub in E as [_ E]. apply E. }
    destruct (can_push c _); cbn [snd]; [|done].
    intros x [Hx|Hx]%elem_of_app; [by apply Ha|]. apply elem_of_list_singleton in Hx as ->. cbn. intros r [Hr|Hr]%elem_of_app; [right; by eapply Hl|].
    apply elem_of_list_singleton in Hr as ->. destruct ff as [[q l2]|] eqn:E; [|left; by apply HP]. destruct (is_revoke (r_action q)); [|left; by apply HP].
    subst ff. apply take_req_sub in E as [E _]. by right. }
  specialize (Hg (nom_list a) (a, 0, [])). destruct (fold_left _ _ _) as [[m' n] out]. cbn [snd] in Hg. unfold write_reqs, set_nominator. ps.
  constructor; try done; [|apply from_cands_refl]. cbn. apply fold_writes. apply Hg. intros x Hx. by apply elem_of_nil in Hx.
Qed.
Lemma cancel_revoke_all_pres w : pres (cancel_revoke_all w).
Proof.
  intros s. unfold cancel_revoke_all. p1. p1. p1. p1. p1. p1.
  assert (Hg : forall l acc, (forall x, x ∈ acc.2 -> forall r, r ∈ x.2 -> r ∈ mget [] x.1 (s_reqs s)) ->
    forall x, x ∈ (fold_left (cancel_all_step s w) l acc).2 -> forall r, r ∈ x.2 -> r ∈ mget [] x.1 (s_reqs s)).
  { induction l as [|k l IH]; intros acc Ha; cbn [fold_left]; [done|]. apply IH. destruct acc as [m out]. cbn [snd] in Ha. unfold cancel_all_step.
    destruct (take_req _ _) as [[q l2]|] eqn:E; cbn [snd]; (intros x [Hx|Hx]%elem_of_app; [by apply Ha|]; apply elem_of_list_singleton in Hx as ->; cbn; intros r Hr); [|done].
    apply take_req_sub in E as [_ E]. by apply E. }
  specialize (Hg (keys (m_noms a)) (a, [])). destruct (fold_left _ _ _) as [m' out]. cbn [snd] in Hg. unfold write_reqs, set_nominator. ps.
  constructor; try done; [|apply from_cands_refl]. cbn. apply fold_writes. intros x Hx r Hr. right. eapply Hg; try done. intros y Hy. by apply elem_of_nil in Hy.
Qed.
(** Candidates *)
Lemma put_pres s s' k x x' : s_cands s !! k = Some x -> s_era s' = s_era s -> s_delay s' = s_delay s -> s_reqs s' = s_reqs s ->
  s_cands s' = <[k := x']> (s_cands s) -> from_cand k x' (Some x) -> frame s s'.
Proof. intros Hx A B C D E. constructor; try done; [rewrite C; apply from_reqs_refl|]. rewrite D. apply from_cands_insert. by rewrite Hx. Qed.
Lemma join_pres c k b h : pres (join_candidates c k b h).
Proof.
  intros s. unfold join_candidates, pool_insert, update_active, set_col_lock, put_cand, add_total. ps. constructor; try done; [apply from_reqs_refl|]. cbn.
  apply from_cands_insert. split; by cbn.
Qed.
Lemma schedule_leave_pres k h s : PS k ((s_era s + s_delay s) mod 2 ^ 32) -> post (schedule_leave_candidates k h) (fun _ s' => frame s s') s.
Proof.
  intros HP. unfold schedule_leave_candidates, pool_remove, put_cand. ps. eapply (put_pres s _ k a); try done. split.
  - intros e [= <-]. by left.
  - intros q Hq. right. exists a. done.
Qed.
Lemma cancel_leave_pres c k h : pres (cancel_leave_candidates c k h).
Proof.
  intros s. unfold cancel_leave_candidates, pool_insert, update_active, put_cand. ps. eapply (put_pres s _ k a); try done. split; [by intros e|].
  intros q Hq. right. by exists a.
Qed.
Lemma go_offline_pres k : pres (go_offline k).
Proof. intros s. unfold go_offline, pool_remove, put_cand. ps. eapply (put_pres s _ k a); try done. split; [by intros e|]. intros q Hq. right. by exists a. Qed.
Lemma go_online_pres c k : pres (go_online c k).
Proof.
  intros s. unfold go_online, pool_insert, update_active, put_cand. ps. eapply (put_pres s _ k a); try done. split; [by intros e|].
  intros q Hq. right. by exists a.
Qed.
Lemma candidate_bond_extra_pres k x : pres (candidate_bond_extra k x).
Proof.
  intros s. unfold candidate_bond_extra, add_total, set_col_lock, put_cand, update_active. ps. destruct (is_active a); ps; (eapply (put_pres s _ k a); try done; split; intros ? He; right; by exists a).
Qed.
Lemma schedule_candidate_unbond_pres k x s : PQ k (x, (s_era s + s_delay s) mod 2 ^ 32) -> post (schedule_candidate_unbond k x) (fun _ s' => frame s s') s.
Proof.
  intros HP. unfold schedule_candidate_unbond, put_cand. ps. eapply (put_pres s _ k a); try done. split.
  - intros e He. right. by exists a.
  - intros q [= <-]. by left.
Qed.
Lemma execute_candidate_unbond_pres k : pres (execute_candidate_unbond k).
Proof.
  intros s. unfold execute_candidate_unbond, sub_total, set_col_lock, put_cand, update_active. ps. destruct a0 as [l e]. ps.
  destruct (is_active a); ps; (eapply (put_pres s _ k a); try done; split; [intros e' He; right; by exists a | by intros q]).
Qed.
Lemma cancel_candidate_unbond_pres k : pres (cancel_candidate_unbond k).
Proof. intros s. unfold cancel_candidate_unbond, put_cand. ps. eapply (put_pres s _ k a); try done. split; [intros e' He; right; by exists a | by intros q]. Qed.
Lemma execute_leave_pres k h : pres (execute_leave_candidates k h).
Proof.
  unfold execute_leave_candidates. step_pres; [apply get_pres|]. step_pres; [intros s; apply post_load; intros; apply frame_refl|].
  step_pres; [apply ensure_pres|]. step_pres; [apply ensure_pres|]. step_pres; [apply ensure_pres|]. step_pres; [apply return_all_pres|]. step_pres; [apply return_all_pres|].
  intros s. unfold sub_total. ps. constructor; try done; cbn; [apply from_reqs_delete | apply from_cands_delete].
Qed.
Lemma hotfix_pres l : pres (hotfix l).
Proof.
  intros s. unfold hotfix. ps. constructor; try done; [|apply from_cands_refl]. cbn. clear. 
  cut (forall R', from_reqs R' (s_reqs s) -> from_reqs (fold_left (fun acc k => delete k acc) l R') (s_reqs s)). { intros H. apply H. apply from_reqs_refl. }
  induction l as [|k l IH]; intros R' H; cbn; [done|]. apply IH. intros k' r Hr. apply from_reqs_delete in Hr as [Hr|Hr]; [by left|]. by apply H.
Qed.
End frame.

(** ** Steps *)
Section steps.
Variables (c : config) (cr : crypto) (o : op) (s0 : st).
Definition due : N := N.min U32_MAX (s_era s0 + s_delay s0).
Definition PR (k : N) (r : req) : Prop := schedules_withdrawal o (r_who r) k /\ r_when r = due.
Definition PS (k e : N) : Prop := schedules_leaving o k /\ e = (s_era s0 + s_delay s0) mod 2 ^ 32.
Definition PQ (k : N) (q : N * N) : Prop := schedules_unbond o k q.1 /\ q.2 = (s_era s0 + s_delay s0) mod 2 ^ 32.
Notation fr := (frame PR PS PQ).
Notation prs := (pres PR PS PQ).
Lemma nominate_each_pres w per dust n l : forall i remaining count, prs (nominate_each c w per dust n i remaining count l).
Proof.
  induction l as [|k l IH]; intros i remaining count; cbn [nominate_each]; [apply ret_pres|].
  apply pres_bind; [apply get_pres|]. intros s. apply pres_bind; [apply some_or_pres|]. intros x. apply pres_bind; [apply call_nominate_pres|]. intros _. apply IH.
Qed.
Lemma bond_extra_each_pres w per dust n l : forall i remaining, prs (bond_extra_each c w per dust n i remaining l).
Proof.
  induction l as [|k l IH]; intros i remaining; cbn [bond_extra_each]; [apply ret_pres|].
  apply pres_bind; [apply get_pres|]. intros s. apply pres_bind; [apply call_bond_extra_pres|]. intros _. apply IH.
Qed.
Lemma execute_each_pres w l : prs (execute_each c w l).
Proof.
  induction l as [|k l IH]; cbn [execute_each]; [apply ret_pres|].
  apply pres_bind; [apply get_pres|]. intros s. apply pres_bind; [apply some_or_pres|]. intros r. apply pres_bind; [|intros _; apply IH].
  destruct (_ <=? _); [apply execute_request_pres | apply ret_pres].
Qed.
Lemma decrease_each_pres w l : (forall k, schedules_withdrawal o w k) -> forall out s, fr s0 s -> post (decrease_each c w l out) (fun _ s' => fr s0 s') s.
Proof.
  intros Ho. induction l as [|[[k sp] x] l IH]; intros out s F; cbn [decrease_each]; [by ps|].
  apply post_bind. eapply post_mono; [apply (schedule_decrease_pres PR PS PQ)|].
  - intros r Hw Hr. split; [by rewrite Hw|]. rewrite Hr. unfold due, sat32, saturating_add. destruct F as [Ea Eb _ _]. by rewrite Ea, Eb.
  - intros ? s1 F1. apply IH. exact (frame_trans _ _ _ _ _ _ F F1).
Qed.
Lemma get_then {A} (f : st -> M st A) (Q : A -> st -> Prop) s : post (f s) Q s -> post (mbind_ get_st f) Q s.
Proof. intros H. apply post_bind. apply post_get. exact H. Qed.
Lemma call_body_pres w p x : o = Signed w p x -> post (call_body c w x) (fun _ s' => fr s0 s') s0.
Proof.
  intros Ho. destruct x; cbn [call_body].
  - unfold split_and_nominate. ps. apply nominate_each_pres.
  - unfold bond_extra_all. ps. apply bond_extra_each_pres.
  - apply candidate_bond_extra_pres.
  - apply schedule_candidate_unbond_pres. unfold PQ. by rewrite Ho.
  - unfold unbond_spread. ps. destruct (withdraw_from _ _ _ _). apply decrease_each_pres; [by rewrite Ho | apply frame_refl].
  - apply schedule_revoke_pres. intros r <- Hr. unfold PR. by rewrite Ho.
  - apply schedule_revoke_all_pres. intros k r <- Hr. unfold PR. by rewrite Ho.
  - ps. apply execute_revoke_all_pres.
  - unfold execute_all. ps. apply execute_each_pres.
  - apply execute_candidate_unbond_pres.
Qed.
Lemma body_origin : post (body c cr o) (fun _ s' => from_reqs PR (s_reqs s') (s_reqs s0) /\ from_cands PS PQ (s_cands s') (s_cands s0)) s0.
Proof.
  assert (HF : forall m : M st unit, post m (fun _ s' => fr s0 s') s0 -> post m (fun _ s' => from_reqs PR (s_reqs s') (s_reqs s0) /\ from_cands PS PQ (s_cands s') (s_cands s0)) s0).
  { intros m Hm. eapply post_mono; [exact Hm|]. intros a s' [_ _ H1 H2]. done. }
  assert (HS : forall s', s_reqs s' = s_reqs s0 -> s_cands s' = s_cands s0 -> from_reqs PR (s_reqs s') (s_reqs s0) /\ from_cands PS PQ (s_cands s') (s_cands s0)).
  { intros s' -> ->. split; [apply from_reqs_refl | apply from_cands_refl]. }
  destruct o eqn:Eo; cbn [body]; lazymatch goal with |- context[set_admin_setting] => idtac | |- context[on_initialize] => idtac | |- post (modify _) _ _ => idtac | |- context[balances_ok] => idtac | _ => apply HF end.
  - apply join_pres.
  - apply schedule_leave_pres. unfold PS. by rewrite Eo.
  - apply execute_leave_pres.
  - apply cancel_leave_pres.
  - apply go_offline_pres.
  - apply go_online_pres.
  - apply candidate_bond_extra_pres.
  - apply schedule_candidate_unbond_pres. unfold PQ. by rewrite Eo.
  - apply execute_candidate_unbond_pres.
  - apply cancel_candidate_unbond_pres.
  - ps. apply call_nominate_pres.
  - ps. apply call_bond_extra_pres.
  - apply schedule_revoke_all_pres. intros k r <- Hr. unfold PR. by rewrite Eo.
  - apply execute_revoke_all_pres.
  - apply cancel_revoke_all_pres.
  - apply schedule_revoke_pres. intros r <- Hr. unfold PR. by rewrite Eo.
  - apply schedule_decrease_pres. intros r <- Hr. unfold PR. by rewrite Eo.
  - apply execute_request_pres.
  - apply cancel_request_pres.
  - apply hotfix_pres.
  - unfold signed_call. ps. eapply post_mono; [by apply (call_body_pres who p x)|]. intros ? s1 [F1 F2 F3 F4]. ps. constructor; done.
  - unfold set_total_selected. ps. by constructor; [..|apply from_reqs_refl|apply from_cands_refl].
  - unfold set_blocks_per_era. ps. by constructor; [..|apply from_reqs_refl|apply from_cands_refl].
  - unfold set_admin_setting. ps. destruct v; by apply HS.
  - unfold on_initialize. ps. destruct (_ <=? _); [|ps; by apply HS]. unfold select_top_candidates. ps. destruct (compute_top_candidates _); ps; by apply HS.
  - ps. by apply HS.
  - ps. by apply HS.
Qed.
Lemma step_origin : from_reqs PR (s_reqs (step c cr s0 o)) (s_reqs s0) /\ from_cands PS PQ (s_cands (step c cr s0 o)) (s_cands s0).
Proof.
  unfold step, exec, dispatch. pose proof body_origin as H. unfold post in H. destruct (body c cr o s0) as [s1 [[]|e]]; [done|].
  split; [apply from_reqs_refl | apply from_cands_refl].
Qed.
End steps.
