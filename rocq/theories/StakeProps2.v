(** C40: stake is released only by a request that has waited, and bonds and nominations change for no other reason
    than the calls that say so. *)
From Verif Require Import Base BaseLemmas CodecModel SigModel StakeModel StakeSpec StakeBook StakeCross StakeInv StakeOps StakeNom StakeLeave StakeExit StakeCand StakeRun StakeFrame StakeMoves StakeSteps StakeProps.

Lemma run_app c cr s a b : run c cr s (a ++ b) = run c cr (run c cr s a) b.
Proof. apply fold_left_app. Qed.
Lemma run_snoc c cr s l o : run c cr s (l ++ [o]) = step c cr (run c cr s l) o.
Proof. by rewrite run_app. Qed.
(** [o] was accepted in [s]. *)
Definition accepted (c : config) (cr : crypto) (s : st) (o : op) : Prop := snd (exec c cr o s) = Ok tt.
Lemma not_accepted c cr s o : accepted c cr s o \/ step c cr s o = s.
Proof. unfold accepted, step, exec, dispatch. destruct (body c cr o s) as [s1 [[]|e]]; [by left | by right]. Qed.

Section origin.
Variables (c : config) (cr : crypto) (g : st).
Hypothesis Hr : s_reqs g = ∅.
Hypothesis Hk : s_cands g = ∅.
Lemma origin_gen (X : st -> Prop) (P : op -> st -> Prop) : ~ X g ->
  (forall s o, X (step c cr s o) -> X s \/ P o s) -> forall l, X (run c cr g l) ->
  exists l1 o l2, l = l1 ++ o :: l2 /\ accepted c cr (run c cr g l1) o /\ P o (run c cr g l1).
Proof.
  intros H0 Hs l. induction l as [|o l IH] using rev_ind; [done|]. rewrite run_snoc. intros HX.
  destruct (not_accepted c cr (run c cr g l) o) as [Ha|E].
  - destruct (Hs _ _ HX) as [HX'|HP].
    + destruct (IH HX') as (l1 & o1 & l2 & -> & H1 & H2). exists l1, o1, (l2 ++ [o]). by rewrite <- app_assoc.
    + by exists l, o, [].
  - rewrite E in HX. destruct (IH HX) as (l1 & o1 & l2 & -> & H1 & H2). exists l1, o1, (l2 ++ [o]). by rewrite <- app_assoc.
Qed.
End origin.

(** Every pending request was made by its owner, by a call accepted earlier in the history, and its time is the era of
    that call plus the delay that was set then (eras end at 2^32 - 1). *)
Theorem C40_requests_were_scheduled c cr delay min_col min_nom l k r : let g := genesis c delay min_col min_nom in
  r ∈ reqs_of (run c cr g l) k ->
  exists l1 o l2, l = l1 ++ o :: l2 /\ accepted c cr (run c cr g l1) o /\ schedules_withdrawal o (r_who r) k /\
    r_when r = N.min U32_MAX (s_era (run c cr g l1) + s_delay (run c cr g l1)).
Proof.
  intros g Hr. destruct (origin_gen c cr g (fun s => r ∈ reqs_of s k) (fun o s => PR o s k r)) with (l := l) as (l1 & o & l2 & E & Ha & HP1 & HP2); try done.
  - unfold reqs_of, mget. cbn. rewrite lookup_empty. apply not_elem_of_nil.
  - intros s o Hin. destruct (step_origin c cr o s) as [H1 _]. destruct (H1 k r Hin) as [?|?]; [by right | by left].
  - by exists l1, o, l2.
Qed.
(** The same for a candidate that is leaving and for one whose bond becomes smaller; these times are u32 sums. *)
Theorem C40_leaving_was_scheduled c cr delay min_col min_nom l k x e : let g := genesis c delay min_col min_nom in
  s_cands (run c cr g l) !! k = Some x -> k_status x = Leaving e ->
  exists l1 o l2, l = l1 ++ o :: l2 /\ accepted c cr (run c cr g l1) o /\ schedules_leaving o k /\
    e = (s_era (run c cr g l1) + s_delay (run c cr g l1)) mod 2 ^ 32.
Proof.
  intros g Hx He. destruct (origin_gen c cr g (fun s => exists x, s_cands s !! k = Some x /\ k_status x = Leaving e) (fun o s => PS o s k e)) with (l := l) as (l1 & o & l2 & E & Ha & HP1 & HP2); [| |by eauto|].
  - intros (y & Hy & _). cbn in Hy. by rewrite lookup_empty in Hy.
  - intros s o (y & Hy & Hl). destruct (step_origin c cr o s) as [_ H2]. destruct (H2 k y Hy) as [H3 _]. destruct (H3 e Hl) as [?|?]; [by right | by left].
  - by exists l1, o, l2.
Qed.
Theorem C40_unbond_was_scheduled c cr delay min_col min_nom l k x less e : let g := genesis c delay min_col min_nom in
  s_cands (run c cr g l) !! k = Some x -> k_req x = Some (less, e) ->
  exists l1 o l2, l = l1 ++ o :: l2 /\ accepted c cr (run c cr g l1) o /\ schedules_unbond o k less /\
    e = (s_era (run c cr g l1) + s_delay (run c cr g l1)) mod 2 ^ 32.
Proof.
  intros g Hx He. destruct (origin_gen c cr g (fun s => exists x, s_cands s !! k = Some x /\ k_req x = Some (less, e)) (fun o s => PQ o s k (less, e))) with (l := l) as (l1 & o & l2 & E & Ha & HP1 & HP2); [| |by eauto|].
  - intros (y & Hy & _). cbn in Hy. by rewrite lookup_empty in Hy.
  - intros s o (y & Hy & Hl). destruct (step_origin c cr o s) as [_ H2]. destruct (H2 k y Hy) as [_ H3]. destruct (H3 _ Hl) as [?|?]; [by right | by left].
  - by exists l1, o, l2.
Qed.

(** What anybody nominates a candidate with changes only for the listed reasons. *)
Theorem C40_nominations_change_only_so c cr s o w k : reachable c cr s -> let s' := step c cr s o in
  nomination s' w k = nomination s w k \/ nomination_change s s' o w k (nomination s w k) (nomination s' w k).
Proof. intros H. pose proof (proj1 H) as Hc. apply reachable_inv in H. by apply step_moves. Qed.
(** So do bonds. *)
Theorem C40_bonds_change_only_so c cr s o k : reachable c cr s -> let s' := step c cr s o in
  bond_of s' k = bond_of s k \/ bond_change s o k (bond_of s k) (bond_of s' k).
Proof. intros H. pose proof (proj1 H) as Hc. apply reachable_inv in H. by apply step_bonds. Qed.

(** Together: whenever a nomination becomes smaller or ends, either somebody else outbid it in that very step, or the
    candidate asked to leave the delay before, or the owner asked for the withdrawal the delay before. *)
Definition less_than (b a : option N) : Prop := match a, b with Some x, Some y => y < x | Some _, None => True | None, _ => False end.
Theorem C40_no_early_release c cr delay min_col min_nom l o w k : config_ok c -> c_min_per_collator c <= min_nom ->
  let g := genesis c delay min_col min_nom in let s := run c cr g l in let s' := step c cr s o in
  less_than (nomination s' w k) (nomination s w k) ->
  (exists w' a a', w' <> w /\ nomination s w k = Some a /\ nomination s w' k = None /\ nomination s' w' k = Some a' /\ a < a' /\ nomination s' w k = None) \/
  (exists l1 o1 l2, l = l1 ++ o1 :: l2 /\ accepted c cr (run c cr g l1) o1 /\
     (schedules_withdrawal o1 w k /\ N.min U32_MAX (s_era (run c cr g l1) + s_delay (run c cr g l1)) <= s_era s \/
      schedules_leaving o1 k /\ (s_era (run c cr g l1) + s_delay (run c cr g l1)) mod 2 ^ 32 <= s_era s)).
Proof.
  intros Hc Hm g s s' Hlt.
  assert (Hre : reachable c cr s) by (split; [done|]; by exists delay, min_col, min_nom, l).
  assert (Hreq : forall r, r ∈ reqs_of s k -> r_who r = w -> r_when r <= s_era s -> (exists l1 o1 l2, l = l1 ++ o1 :: l2 /\ accepted c cr (run c cr g l1) o1 /\
     (schedules_withdrawal o1 w k /\ N.min U32_MAX (s_era (run c cr g l1) + s_delay (run c cr g l1)) <= s_era s \/
      schedules_leaving o1 k /\ (s_era (run c cr g l1) + s_delay (run c cr g l1)) mod 2 ^ 32 <= s_era s))).
  { intros r H1 H2 H3. destruct (C40_requests_were_scheduled c cr delay min_col min_nom l k r H1) as (l1 & o1 & l2 & E & Ha & Hs & Hw).
    exists l1, o1, l2. split; [done|]. split; [done|]. left. rewrite H2 in Hs. split; [done|]. fold g in Hw. lia. }
  destruct (C40_nominations_change_only_so c cr s o w k Hre) as [E|Hn]; [fold s' in E; rewrite E in Hlt; destruct (nomination s w k); cbn in Hlt; [lia|done]|].
  fold s' in Hn. revert Hlt. inversion Hn as [a h1 h2 Ho Eb Ea|p l0 x a Ho Hk Ha Eb Ea|a x Ho Eb Ea|p y a x Ho Hx Eb Ea|caller r a Ho Hr Hw He Eb Ea|caller h r a Ho Hr Hw He Hact Eb Ea|caller h x e a Ho Hx Hs He Eb Ea|w' a a' Hne Ho Hnew Hnom Hgt Eb Ea]; intros Hlt; cbn in Hlt; try lia.
  - right. by eapply Hreq.
  - right. by eapply Hreq.
  - right. destruct (C40_leaving_was_scheduled c cr delay min_col min_nom l k x e Hx Hs) as (l1 & o1 & l2 & E & Hacc & Hsc & Hw).
    exists l1, o1, l2. split; [done|]. split; [done|]. right. split; [done|]. fold g in Hw. lia.
  - left. exists w', a, a'. done.
Qed.

(** ** Nothing is stuck: what is due is released when anyone asks for it *)

Definition tot {S A} (m : M S A) (Q : A -> S -> Prop) (s : S) : Prop := match m s with (s', Ok a) => Q a s' | _ => False end.
Lemma tot_bind {S A B} (m : M S A) (k : A -> M S B) Q s : tot m (fun a s' => tot (k a) Q s') s -> tot (mbind_ m k) Q s.
Proof. unfold tot, mbind_. by destruct (m s) as [s1 [a|e]]. Qed.
Lemma tot_get {S} (Q : S -> S -> Prop) (s : S) : Q s s -> tot get_st Q s. Proof. done. Qed.
Lemma tot_modify {S} f (Q : unit -> S -> Prop) (s : S) : Q tt (f s) -> tot (modify f) Q s. Proof. done. Qed.
Lemma tot_ret {S A} (a : A) (Q : A -> S -> Prop) (s : S) : Q a s -> tot (mret_ a) Q s. Proof. done. Qed.
Lemma tot_ensure {S} b e (Q : unit -> S -> Prop) (s : S) : b = true -> Q tt s -> tot (ensure b e) Q s. Proof. by intros ->. Qed.
Lemma tot_some {S A} (o : option A) a e (Q : A -> S -> Prop) (s : S) : o = Some a -> Q a s -> tot (some_or o e) Q s. Proof. by intros ->. Qed.
Lemma tot_lift {S A} (r : res A) a (Q : A -> S -> Prop) (s : S) : r = Ok a -> Q a s -> tot (lift_res r) Q s. Proof. by intros ->. Qed.
Lemma tot_load s k x t b (Q : book -> st -> Prop) : s_cands s !! k = Some x -> s_top s !! k = Some t -> s_bot s !! k = Some b -> Q (mkBook x t b) s -> tot (load k) Q s.
Proof. intros H1 H2 H3 HQ. unfold load, tot, mbind_, get_st, some_or, mret_. by rewrite H1, H2, H3. Qed.
Lemma tot_store s k old new (Q : unit -> st -> Prop) : (forall s', Q tt s') -> tot (store k old new) Q s.
Proof. intros HQ. unfold store, tot, mbind_, modify, update_active, mret_. destruct (_ && _); apply HQ. Qed.
Lemma tot_accepted c cr s o : tot (body c cr o) (fun _ _ => True) s -> accepted c cr s o.
Proof. unfold tot, accepted, exec, dispatch. by destruct (body c cr o s) as [s1 [[]|e]]. Qed.
Ltac t1 := lazymatch goal with
  | |- tot (mbind_ _ _) _ _ => apply tot_bind | |- tot get_st _ _ => apply tot_get | |- tot (modify _) _ _ => apply tot_modify
  | |- tot (mret_ _) _ _ => apply tot_ret end.
Ltac ts := repeat (t1; cbv beta).

(** A due request is executed by whoever asks, as long as its owner keeps the minimum stake or leaves altogether. *)
Theorem C40_due_request_executes c cr s k r caller m : reachable c cr s -> r ∈ reqs_of s k -> r_when r <= s_era s ->
  s_nominators s !! r_who r = Some m ->
  match r_action r with
  | Revoke a => size (m_noms m) = 1%nat \/ a + s_min_nom s <= m_total m
  | Decrease d => d + s_min_nom s <= m_total m
  end ->
  accepted c cr s (ExecuteRequest caller (r_who r) k).
Proof.
  intros Hre Hr Hdue Hm Hmin. destruct (C32_requests_fit c cr s k r Hre Hr) as [(m' & a & Hm' & Ha & Hact) Hone].
  rewrite Hm in Hm'. injection Hm' as <-. pose proof (proj1 Hre) as Hc. apply reachable_inv in Hre as H. pose proof (i_cross _ _ H) as Hcr.
  set (w := r_who r) in *.
  destruct (cr_reqs _ _ _ _ _ Hcr k) as [Hnd _]. pose proof (find_who w r _ Hr Hnd eq_refl) as Hf.
  destruct (nom_cand c s w m k a H Hm Ha) as (x & t & b & Hx & Ht & Hb & Hok & Hin & _ & HE & _ & Hfit & _).
  apply tot_accepted. cbn [body]. unfold execute_request. ts. eapply tot_some; [exact Hm|]. cbv beta. t1.
  assert (Htk : exists l, take_req (of_nominator w) (reqs_of s k) = Some (r, l)).
  { clear -Hf. induction (reqs_of s k) as [|q l IH]; [done|]. cbn in *. destruct (of_nominator w q); [injection Hf as ->; eauto|]. destruct (IH Hf) as [l' ->]. eauto. }
  destruct Htk as [l Htk]. eapply tot_some; [exact Htk|]. cbv beta iota. t1. apply tot_ensure; [lia|]. destruct (r_action r) as [y|d] eqn:Er.
  - subst y. t1. apply tot_ensure.
    { destruct Hmin as [E|E]; [by rewrite E|]. apply orb_true_iff. right. unfold saturating_sub. lia. }
    unfold rm_nomination. change (m_noms (m <| m_less := _ |>)) with (m_noms m). rewrite Ha. unfold set_nom_lock. ts.
    unfold nominator_leaves_candidate. t1. eapply tot_load; [exact Hx|exact Ht|exact Hb|]. t1.
    destruct (rm_nomination_ok c Hc w a (mkBook x t b) Hok Hfit Hin) as (new & En & _). eapply tot_lift; [exact En|]. unfold sub_total. ts. apply tot_store. intros s'.
    unfold set_reqs, del_nominator, set_nominator. ts. destruct (_ =? 1); by ts.
  - t1. eapply tot_some; [exact Ha|]. t1. pose proof (i_min _ _ H) as Hmn. destruct Hc as (C1 & C2 & C3 & C4). apply tot_ensure; [lia|]. t1.
    eapply tot_load; [exact Hx|exact Ht|exact Hb|]. cbv beta. t1. apply tot_ensure; [unfold saturating_sub; lia|]. t1. apply tot_ensure; [unfold saturating_sub; lia|].
    unfold set_nom_lock. ts. destruct (decrease_ok c (conj C1 (conj C2 (conj C3 C4))) w a d (mkBook x t b) Hok Hin Hfit ltac:(lia)) as (new & En & _). eapply tot_lift; [exact En|]. t1.
    apply tot_store. intros s'. unfold sub_total, set_reqs, set_nominator. by ts.
Qed.
Lemma leave_loop_total c w l s : exists s', leave_loop c w l s = (s', Ok tt).
Proof.
  revert s. induction l as [|[k a] l IH]; intros s; cbn [leave_loop]; [by eexists|]. unfold mbind_ at 1. destruct (nominator_leaves_candidate c k w a s) as [s1 [u|e]]; apply IH.
Qed.
(** A nominator all of whose nominations have due revocations leaves. *)
Theorem C40_due_nominator_leaves c cr s w m caller hint : s_nominators s !! w = Some m -> N.of_nat (size (m_noms m)) <= hint ->
  (forall k a, m_noms m !! k = Some a -> exists r, r ∈ reqs_of s k /\ r_who r = w /\ is_revoke (r_action r) = true) ->
  (forall k r, r ∈ reqs_of s k -> r_who r = w -> r_when r <= s_era s) ->
  accepted c cr s (ExecuteLeaveNominators caller w hint).
Proof.
  intros Hm Hh Hall Hdue. apply tot_accepted. cbn [body]. unfold execute_revoke_all. ts. eapply tot_some; [exact Hm|]. cbv beta. t1. apply tot_ensure; [lia|]. t1.
  apply tot_ensure.
  { apply forallb_forall. intros k Hk. apply elem_of_list_In, keys_elem in Hk as [a Ha]. destruct (Hall k a Ha) as (r & Hr & Hw & Hv).
    destruct (take_req (revoke_of w) (reqs_of s k)) as [[q l]|] eqn:E.
    - apply take_req_sub in E as E2. apply take_req_eq in E as (l1 & l2 & El & _ & Hp & _). unfold revoke_of in Hp. apply andb_prop in Hp as [Hp _]. apply N.eqb_eq in Hp.
      destruct E2 as [Hq _]. specialize (Hdue k q Hq Hp). lia.
    - exfalso. clear -E Hr Hw Hv. induction (reqs_of s k) as [|q l IH]; [by apply elem_of_nil in Hr|]. cbn in E. destruct (revoke_of w q) eqn:Eq; [done|].
      destruct (take_req _ l) as [[? ?]|]; [done|]. apply elem_of_cons in Hr as [->|Hr]; [|by apply IH]. unfold revoke_of in Eq. rewrite Hw, N.eqb_refl in Eq. by rewrite Hv in Eq. }
  t1. unfold tot at 1. destruct (leave_loop_total c w (nom_list m) s) as [s1 ->]. unfold set_nom_lock, write_reqs, del_nominator. by ts.
Qed.
(** A candidate whose leave is due leaves; one whose request for a smaller bond is due gets it. *)
Theorem C40_due_candidate_unbonds c cr s k x less e caller : s_cands s !! k = Some x -> k_req x = Some (less, e) -> e <= s_era s ->
  accepted c cr s (ExecuteCandidateUnbond caller k).
Proof.
  intros Hx Hq He. apply tot_accepted. cbn [body]. unfold execute_candidate_unbond. ts. eapply tot_some; [exact Hx|]. cbv beta. t1. eapply tot_some; [exact Hq|]. cbv beta iota. t1.
  apply tot_ensure; [lia|]. unfold sub_total, set_col_lock, update_active, put_cand. ts. destruct (is_active x); by ts.
Qed.
Definition only_panics {A} (m : M st A) : Prop := forall s s' e, m s = (s', Err e) -> e = "panic"%string.
Lemma only_bind {A B} (m : M st A) (k : A -> M st B) : only_panics m -> (forall a, only_panics (k a)) -> only_panics (mbind_ m k).
Proof. intros Hm Hk s s' e. unfold mbind_. destruct (m s) as [s1 [a|e1]] eqn:E; [apply Hk|]. intros [= _ <-]. by eapply Hm. Qed.
Lemma only_some {A} (o : option A) : only_panics (some_or o "panic").
Proof. intros s s' e. destruct o; [done|]. by intros [= _ <-]. Qed.
Lemma return_all_only k l : only_panics (return_all k l).
Proof.
  induction l as [|x l IH]; cbn [return_all]; [done|]. apply only_bind; [|intros _; exact IH].
  unfold return_stake, rm_nomination, remove_request, set_reqs, set_nominator, del_nominator, set_nom_lock.
  repeat lazymatch goal with
  | |- only_panics (mbind_ _ _) => apply only_bind; [|intros ?]
  | |- only_panics (some_or _ _) => apply only_some
  | |- only_panics (match ?x with _ => _ end) => destruct x
  | |- only_panics _ => intros ? ? ?; done
  end.
Qed.
Theorem C40_due_candidate_leaves c cr s k x e caller hint : reachable c cr s -> s_cands s !! k = Some x -> k_status x = Leaving e -> e <= s_era s ->
  k_count x <= hint -> accepted c cr s (ExecuteLeave caller k hint).
Proof.
  intros Hre Hx Hs He Hh. pose proof (proj1 Hre) as Hc. apply reachable_inv in Hre as H.
  destruct (inv_book c s k x H Hx) as (t & b & Ht & Hb & _).
  pose proof (execute_leave_ok c Hc s k hint H) as Hw. apply tot_accepted. cbn [body]. unfold wp in Hw. unfold tot.
  destruct (execute_leave_candidates k hint s) as [s' [[]|er]] eqn:E; [done|]. exfalso. apply Hw.
  unfold execute_leave_candidates, mbind_ at 1, get_st in E. cbv beta iota in E. unfold mbind_ at 1 in E.
  assert (El : load k s = (s, Ok (mkBook x t b))) by (unfold load, mbind_, get_st, some_or, mret_; by rewrite Hx, Ht, Hb).
  rewrite El in E. cbn [bk bt bb] in E. unfold mbind_ at 1, ensure at 1 in E. rewrite (proj2 (N.leb_le _ _) Hh) in E. cbv beta iota in E.
  unfold mbind_ at 1, ensure at 1 in E. unfold is_leaving in E. rewrite Hs in E. cbv beta iota in E. unfold mbind_ at 1, ensure at 1 in E. rewrite (proj2 (N.leb_le _ _) He) in E. cbv beta iota in E.
  revert E. apply only_bind; [apply return_all_only|]. intros _. apply only_bind; [apply return_all_only|]. intros _. intros ? ? ?. done.
Qed.
