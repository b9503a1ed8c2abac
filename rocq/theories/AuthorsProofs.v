(** Refinement of author management to its specification. *)
From Verif Require Import Base BaseLemmas AuthorsModel AuthorsSpec.

Definition subject (r : request) : N := match r with Adding a _ => a | Removing a => a end.
Definition kind_of (r : request) : kind := match r with Adding _ _ => Registration | Removing _ => Resignation end.
Record inv (c : config) (s : st) (v : view) : Prop := mkInv {
  i_list : s_list s = v_list v;
  i_reg : s_key s = v_registered v;
  i_nodup : NoDup (s_list s);
  i_bounds : c_min c <= N.of_nat (length (s_list s)) <= MAX_AUTHORS;
  i_actions : match v_pending v with
    | None => s_txs s = ∅ /\ forall p x, s_actions s !! p = Some x -> a_status x = Actioned
    | Some (tx, r) => tx < s_next s /\ exists p x, s_txs s = {[tx := p]} /\ s_actions s !! p = Some x /\ a_status x <> Actioned /\ p.1 = subject r /\ a_kind x = kind_of r /\
        forall q y, s_actions s !! q = Some y -> q <> p -> a_status y = Actioned
    end;
  i_pending : match v_pending v with
    | Some (_, Adding a k) => a ∉ s_list s /\ N.of_nat (length (s_list s)) < MAX_AUTHORS
    | Some (_, Removing a) => a ∈ s_list s /\ c_min c < N.of_nat (length (s_list s))
    | None => True end;
  i_addkey : forall tx a k, v_pending v = Some (tx, Adding a k) -> s_key s !! a = Some k;
  i_held : forall a, a ∈ s_list s -> is_Some (s_key s !! a) }.
Record kinv (s : st) (v : view) : Prop := mkKinv {
  k_owner : forall a k, s_owner s !! k = Some a <-> v_keys v !! a = Some k;
  k_holders : forall a, is_Some (v_keys v !! a) <-> a ∈ v_list v \/ exists tx k, v_pending v = Some (tx, Adding a k);
  k_adding : forall tx a k, v_pending v = Some (tx, Adding a k) -> v_keys v !! a = Some k }.

Lemma active_iff s : any_active s = false <-> forall p x, s_actions s !! p = Some x -> a_status x = Actioned.
Proof.
  unfold any_active. rewrite <-not_true_iff_false, existsb_exists. split.
  - intros H p x Hp. destruct (a_status x) eqn:E; [exfalso..|done]; apply H; exists (p, x); (split; [by apply elem_of_list_In, elem_of_map_to_list|]); unfold is_active; cbn; by rewrite E.
  - intros H ([p x] & Hin & Ha). apply elem_of_list_In, elem_of_map_to_list in Hin. apply H in Hin. unfold is_active in Ha. cbn in Ha. by rewrite Hin in Ha.
Qed.
Lemma pending_iff c s v : inv c s v -> any_active s = false <-> v_pending v = None.
Proof.
  intros I. rewrite active_iff. pose proof (i_actions _ _ _ I) as H. destruct (v_pending v) as [[tx r]|].
  - destruct H as (_ & p & x & _ & Hx & Hs & _). split; [|done]. intros G. by apply G in Hx.
  - split; [done|]. intros _. apply H.
Qed.
Lemma step_accepted c s o : accepted c s o = true -> exists s', body c o s = (s', Ok tt) /\ step c s o = s'.
Proof. unfold accepted, step. destruct (body c o s) as [s' [[]|e]]; [|done]. eauto. Qed.
Lemma step_rejected c s o : accepted c s o = false -> step c s o = s.
Proof. unfold accepted, step. by destruct (body c o s) as [s' [[]|e]]. Qed.

(** What accepted calls do. *)
Lemma add_iff c who a k s s' : body c (Add who a k) s = (s', Ok tt) <->
  let i := s_ingress s + 1 in
  who = None /\ s_list s <> [] /\ a ∉ s_list s /\ s_owner s !! k = None /\ N.of_nat (length (s_list s)) < MAX_AUTHORS /\ a ∈ e_session (s_env s) /\ any_active s = false /\
  c_valid_key c k = true /\ e_bridge (s_env s) = true /\
  s' = s <| s_owner := <[k := a]> (s_owner s) |> <| s_key := <[a := k]> (s_key s) |>
         <| s_next := s_next s + 1 |> <| s_calls := (s_next s, AddAuthor, a, k) :: s_calls s |>
         <| s_ingress := i |> <| s_actions := <[(a, i) := mkAction Awaiting (s_next s) Registration]> (s_actions s) |> <| s_txs := <[s_next s := (a, i)]> (s_txs s) |>.
Proof.
  cbv zeta. split.
  - unfold body, ensure_root, add_author, validate_registration, send_registration, publish, record_action. intros H. minv H.
    repeat match goal with X : negb _ = true |- _ => apply negb_true_iff in X | X : bool_decide _ = false |- _ => apply bool_decide_eq_false_1 in X | X : bool_decide _ = true |- _ => apply bool_decide_eq_true_1 in X
      | X : (_ <=? _) = true |- _ => apply N.leb_le in X | X : (_ <? _) = true |- _ => apply N.ltb_lt in X end. repeat split; auto.
  - intros (-> & H1 & H2 & H3 & H4 & H5 & H6 & H7 & H8 & ->). unfold body, ensure_root, add_author, validate_registration, send_registration, publish, record_action, mbind_, get_st, ensure, modify, mret_.
    repeat (case_bool_decide; try done). apply N.ltb_lt in H4. rewrite H4, H6, H7. cbn. rewrite H8. done.
Qed.
Lemma remove_iff c who a s s' : body c (Remove who a) s = (s', Ok tt) <->
  let i := s_ingress s + 1 in
  who = None /\ c_min c < N.of_nat (length (s_list s)) /\ a ∈ s_list s /\ any_active s = false /\ e_bridge (s_env s) = true /\ exists k, s_key s !! a = Some k /\ c_valid_key c k = true /\
  s' = s <| s_next := s_next s + 1 |> <| s_calls := (s_next s, RemoveAuthor, a, k) :: s_calls s |>
         <| s_ingress := i |> <| s_actions := <[(a, i) := mkAction Awaiting (s_next s) Resignation]> (s_actions s) |> <| s_txs := <[s_next s := (a, i)]> (s_txs s) |>.
Proof.
  cbv zeta. split.
  - unfold body, ensure_root, remove_author, validate_deregistration, send_deregistration, publish, record_action. intros H. minv H.
    repeat match goal with X : negb _ = true |- _ => apply negb_true_iff in X | X : bool_decide _ = false |- _ => apply bool_decide_eq_false_1 in X | X : bool_decide _ = true |- _ => apply bool_decide_eq_true_1 in X
      | X : (_ <=? _) = true |- _ => apply N.leb_le in X | X : (_ <? _) = true |- _ => apply N.ltb_lt in X end. repeat split; eauto.
  - intros (-> & H1 & H2 & H6 & H8 & k & H4 & H7 & ->). unfold body, ensure_root, remove_author, validate_deregistration, send_deregistration, publish, record_action, mbind_, get_st, ensure, modify, mret_.
    repeat (case_bool_decide; try done). apply N.ltb_lt in H1. rewrite H1, H6. cbn. rewrite H4, H7, H8. done.
Qed.
Lemma rotate_iff c who a old new s s' : body c (RotateKey who a old new) s = (s', Ok tt) <->
  who = None /\ s_owner s !! new = None /\ old <> new /\ s_owner s !! old = Some a /\ s' = s <| s_owner := <[new := a]> (delete old (s_owner s)) |>.
Proof.
  split.
  - unfold body, ensure_root, rotate_key. intros H. minv H.
    repeat match goal with X : negb _ = true |- _ => apply negb_true_iff in X | X : bool_decide _ = false |- _ => apply bool_decide_eq_false_1 in X | X : bool_decide _ = true |- _ => apply bool_decide_eq_true_1 in X
      | X : (_ =? _) = false |- _ => apply N.eqb_neq in X | X : (_ =? _) = true |- _ => apply N.eqb_eq in X end. subst. repeat split; auto.
  - intros (-> & H1 & H2 & H3 & ->). unfold body, ensure_root, rotate_key, mbind_, get_st, ensure, modify, mret_.
    repeat (case_bool_decide; try done). apply N.eqb_neq in H2. rewrite H2. cbn. rewrite H3, N.eqb_refl. done.
Qed.
(** A result for the request being decided, and for anything else. *)
Definition actioned (k : kind) (x : action) : action := mkAction Actioned (a_tx x) k.
Definition outcome (c : config) (p : N * N) (r : request) (b : bool) (s : st) : st :=
  let s := s <| s_txs := ∅ |> in
  match r, b with
  | Adding a _, true => set_action p (actioned Activation) (s <| s_list := s_list s ++ [a] |>)
  | Adding a _, false => s <| s_owner := match s_key s !! a with Some k => delete k (s_owner s) | None => s_owner s end |> <| s_key := delete a (s_key s) |> <| s_actions := delete p (s_actions s) |>
  | Removing a, true => set_action p (actioned Resignation) (drop_key c a (s <| s_list := filter (fun v => v <> a) (s_list s) |>))
  | Removing _, false => s <| s_actions := delete p (s_actions s) |>
  end.
Lemma drop_key_frame c a s : let s' := drop_key c a s in
  s_list s' = s_list s /\ s_key s' = s_key s /\ s_actions s' = s_actions s /\ s_ingress s' = s_ingress s /\ s_txs s' = s_txs s /\ s_env s' = s_env s /\ s_next s' = s_next s /\ s_calls s' = s_calls s.
Proof. cbv zeta. unfold drop_key. by case_match. Qed.
Lemma result_pending c s v tx r b : inv c s v -> v_pending v = Some (tx, r) ->
  exists p x, s_txs s = {[tx := p]} /\ s_actions s !! p = Some x /\ p.1 = subject r /\ a_kind x = kind_of r /\
    (forall q y, s_actions s !! q = Some y -> q <> p -> a_status y = Actioned) /\ body c (Result tx b) s = (outcome c p r b s, Ok tt).
Proof.
  intros I Hp. pose proof (i_actions _ _ _ I) as H. pose proof (i_pending _ _ _ I) as Hq. rewrite Hp in H, Hq. destruct H as (_ & p & x & Ht & Hx & Hs & Hsub & Hk & Hoth).
  exists p, x. split_and!; try done. unfold body, process_result, mbind_, get_st. rewrite Ht, lookup_singleton. unfold modify at 1. rewrite Hx, Ht, delete_singleton, Hk.
  destruct r as [a k|a], b; cbn [negb kind_of subject] in *; rewrite <-?Hsub.
  - unfold complete_registration, mbind_, get_st, ensure, modify. destruct Hq as [_ Hq]. apply N.ltb_lt in Hq. cbn [s_list]. cbn. rewrite Hq. unfold outcome, set_action, actioned. cbn. rewrite Hsub.
    done.
  - unfold modify, outcome, rollback, cleanup_registration. cbn. rewrite Hsub. f_equal. destruct (s_key s !! a) as [k'|] eqn:E; cbn; [done|]. rewrite (delete_notin (s_key s) a) by done. by destruct s.
  - unfold complete_deregistration, modify, outcome, set_action. cbn. rewrite Hsub. f_equal. unfold drop_key, first_key. cbn.
    destruct (fst <$> List.find _ _); cbn; match goal with |- ?l <| s_actions := ?m |> = ?l' <| s_actions := ?m' |> => assert (m = m') as ->; [|done] end;
      apply map_eq; intros q; (destruct (decide (p = q)) as [->|Hne]; [rewrite !lookup_alter, Hx; cbn; unfold actioned; by rewrite <-Hk; destruct x|by rewrite !lookup_alter_ne]).
  - done.
Qed.
Lemma result_other c s v tx b : inv c s v -> (forall r, v_pending v <> Some (tx, r)) -> body c (Result tx b) s = (s, Ok tt).
Proof.
  intros I Hp. pose proof (i_actions _ _ _ I) as H. unfold body, process_result, mbind_, get_st. destruct (v_pending v) as [[t r]|].
  - destruct H as (_ & p & x & -> & _). rewrite lookup_singleton_ne; [done|]. intros ->. by apply (Hp r).
  - destruct H as [-> _]. by rewrite lookup_empty.
Qed.

(** Sessions: only the status of the removal being decided, and the table of keys. *)
Lemma visit_frame c active disabled s p : let s' := visit c active disabled s p in
  s_list s' = s_list s /\ s_key s' = s_key s /\ s_ingress s' = s_ingress s /\ s_txs s' = s_txs s /\ s_env s' = s_env s /\ s_next s' = s_next s /\ s_calls s' = s_calls s.
Proof.
  cbv zeta. unfold visit. destruct (s_actions s !! p) as [x|]; [|done]. destruct (a_status x), (a_kind x); try done. case_match; [done|].
  pose proof (drop_key_frame c p.1 (set_action p (fun x => x <| a_status := Confirmed |>) s)) as F. cbv zeta in F. by destruct F as (-> & -> & _ & -> & -> & -> & -> & ->).
Qed.
Lemma visit_inv c active disabled s v p : inv c s v -> inv c (visit c active disabled s p) v.
Proof.
  intros I. pose proof (visit_frame c active disabled s p) as F. cbv zeta in F. destruct F as (F1 & F2 & _ & F4 & _ & F6 & _).
  assert (s_actions (visit c active disabled s p) = s_actions s \/ exists x, s_actions s !! p = Some x /\ a_status x = Awaiting /\ s_actions (visit c active disabled s p) = <[p := mkAction Confirmed (a_tx x) (a_kind x)]> (s_actions s)) as Ha.
  { unfold visit. destruct (s_actions s !! p) as [x|] eqn:E; [|by left].
    assert (s_actions (set_action p (fun x => x <| a_status := Confirmed |>) s) = <[p := mkAction Confirmed (a_tx x) (a_kind x)]> (s_actions s)) as Hs.
    { unfold set_action. cbn. apply map_eq. intros q. destruct (decide (p = q)) as [->|]; [by rewrite lookup_alter, lookup_insert, E|by rewrite lookup_alter_ne, lookup_insert_ne]. }
    destruct (a_status x) eqn:Es, (a_kind x) eqn:Ek; try (by left).
    - case_match; [by left|]. right. exists x. rewrite Ek in *. split_and!; [done..|]. by rewrite (proj1 (proj2 (proj2 (drop_key_frame c p.1 _)))).
    - right. exists x. rewrite Ek in *. done. }
  destruct I as [I1 I2 I3 I4 I5 I6 I7 I8]. constructor; rewrite ?F1, ?F2; try done. rewrite F4, F6. destruct (v_pending v) as [[tx r]|].
  - destruct I5 as (Hlt & q & y & Ht & Hy & Hs & Hq & Hk & Ho). split; [done|]. destruct Ha as [->|(x & Hx & Hst & ->)]; [by exists q, y; split_and!|].
    assert (p = q) as ->. { destruct (decide (p = q)); [done|]. rewrite (Ho p x) in Hst; done. }
    exists q, (mkAction Confirmed (a_tx x) (a_kind x)). assert (y = x) as -> by congruence. rewrite lookup_insert. split_and!; try done. intros q' y' Hy' Hne. rewrite lookup_insert_ne in Hy' by done. eauto.
  - destruct I5 as [Ht Ho]. split; [done|]. destruct Ha as [->|(x & Hx & Hst & ->)]; [done|]. apply Ho in Hx. congruence.
Qed.
Lemma visits_inv c active disabled v l : forall s, inv c s v -> inv c (fold_left (visit c active disabled) l s) v.
Proof. induction l as [|p l IH]; intros s I; cbn; [done|]. by apply IH, visit_inv. Qed.
Lemma visits_frame c active disabled l : forall s, let s' := fold_left (visit c active disabled) l s in
  s_list s' = s_list s /\ s_key s' = s_key s /\ s_ingress s' = s_ingress s /\ s_txs s' = s_txs s /\ s_env s' = s_env s /\ s_next s' = s_next s /\ s_calls s' = s_calls s.
Proof.
  induction l as [|p l IH]; intros s; cbn; [done|]. cbv zeta in IH. destruct (IH (visit c active disabled s p)) as (-> & -> & -> & -> & -> & -> & ->). apply visit_frame.
Qed.

Lemma filter_length_NoDup (a : N) (l : list N) : NoDup l -> a ∈ l -> S (length (filter (fun x => x <> a) l)) = length l.
Proof.
  induction 1 as [|b l Hb Hn IH]; [by intros ?%elem_of_nil|]. intros [->|Hin]%elem_of_cons.
  - rewrite filter_cons_False; [|by intros ?]. cbn. f_equal. clear -Hb. induction l as [|x l IH]; [done|]. apply not_elem_of_cons in Hb as [? ?]. rewrite filter_cons_True; [|done]. cbn. by rewrite IH.
  - rewrite filter_cons_True; [|by intros ->]. cbn. by rewrite IH.
Qed.
Lemma actioned_after (k : kind) (p : N * N) (m : gmap (N * N) action) : (forall (q : N * N) y, m !! q = Some y -> q <> p -> a_status y = Actioned) ->
  forall (q : N * N) y, alter (actioned k) p m !! q = Some y -> a_status y = Actioned.
Proof. intros H q y. destruct (decide (p = q)) as [->|Hne]; [rewrite lookup_alter|rewrite lookup_alter_ne by done; eauto]. intros Hy. apply fmap_Some in Hy as (x & _ & ->). done. Qed.
Lemma actioned_delete (p : N * N) (m : gmap (N * N) action) : (forall (q : N * N) y, m !! q = Some y -> q <> p -> a_status y = Actioned) ->
  forall (q : N * N) y, delete p m !! q = Some y -> a_status y = Actioned.
Proof. intros H q y [? ?]%lookup_delete_Some. eauto. Qed.

Lemma inv_step c o s v : inv c s v -> inv c (step c s o) (if accepted c s o then advance v (s_next s, o) else v).
Proof.
  intros I. destruct (accepted c s o) eqn:E; [|by rewrite step_rejected]. apply step_accepted in E as (s' & Hb & ->). destruct o as [who a k|who a|who a old new|tx b|active disabled order|e nx].
  - apply add_iff in Hb as (_ & _ & Hn & _ & Hlen & _ & Ha & _ & _ & ->). pose proof (proj1 (pending_iff _ _ _ I) Ha) as Hp. destruct I as [I1 I2 I3 I4 I5 I6 I7 I8]. rewrite Hp in *. destruct I5 as [Ht Ho].
    constructor; cbn; try done.
    + by rewrite I2.
    + split; [lia|]. exists (a, s_ingress s + 1), (mkAction Awaiting (s_next s) Registration). rewrite Ht, lookup_insert. split_and!; try done. intros q y Hy Hne. rewrite lookup_insert_ne in Hy by done. eauto.
    + intros ? ? ? [= <- <- <-]. by rewrite lookup_insert.
    + intros b Hb. apply I8 in Hb. apply lookup_insert_is_Some. destruct (decide (a = b)); eauto.
  - apply remove_iff in Hb as (_ & Hlen & Hn & Ha & _ & k & Hk & _ & ->). pose proof (proj1 (pending_iff _ _ _ I) Ha) as Hp. destruct I as [I1 I2 I3 I4 I5 I6 I7 I8]. rewrite Hp in *. destruct I5 as [Ht Ho].
    constructor; cbn; try done.
    split; [lia|]. exists (a, s_ingress s + 1), (mkAction Awaiting (s_next s) Resignation). rewrite Ht, lookup_insert. split_and!; try done. intros q y Hy Hne. rewrite lookup_insert_ne in Hy by done. eauto.
  - apply rotate_iff in Hb as (_ & _ & _ & _ & ->). destruct I. by constructor.
  - cbn. destruct (v_pending v) as [[t r]|] eqn:Hp; [destruct (N.eqb_spec tx t) as [->|Hne]|].
    + destruct (result_pending c s v t r b I Hp) as (p & x & Ht & Hx & Hs & Hk & Ho & Hb'). rewrite Hb in Hb'. injection Hb' as ->. destruct I as [I1 I2 I3 I4 I5 I6 I7 I8]. rewrite Hp in *. unfold settle, outcome.
      destruct r as [a k|a], b; cbn [subject kind_of] in *.
      * destruct I6 as [Hn Hlen]. constructor; cbn; try done.
        -- by rewrite I1.
        -- apply NoDup_app. split; [done|]. split; [|apply NoDup_singleton]. intros y Hy Hy'. apply elem_of_list_singleton in Hy' as ->. done.
        -- rewrite app_length. cbn. lia.
        -- split; [done|]. by apply actioned_after.
        -- intros b Hb'. apply elem_of_app in Hb' as [Hb'|Hb']; [by apply I8|]. apply elem_of_list_singleton in Hb' as ->. rewrite (I7 t a k) by done. eauto.
      * destruct I6 as [Hn Hlen]. constructor; cbn; try done.
        -- by rewrite I2.
        -- split; [done|]. by apply actioned_delete.
        -- intros b Hb'. rewrite lookup_delete_ne by (by intros ->). by apply I8.
      * destruct I6 as [Hn Hlen]. set (s1 := s <| s_txs := ∅ |> <| s_list := _ |>). pose proof (drop_key_frame c a s1) as F. cbv zeta in F. destruct F as (F1 & F2 & F3 & F4 & F5 & F6 & F7 & F8).
        pose proof (filter_length_NoDup a _ I3 Hn) as Hfl.
        constructor; cbn; rewrite ?F1, ?F2, ?F3, ?F5, ?F7; unfold s1; cbn; try done.
        -- by rewrite I1.
        -- by apply NoDup_filter.
        -- lia.
        -- split; [done|]. by apply actioned_after.
        -- intros b Hb'. apply elem_of_list_filter in Hb' as [_ Hb']. by apply I8.
      * constructor; cbn; try done. split; [done|]. by apply actioned_delete.
    + rewrite (result_other c s v) in Hb; [injection Hb as <-; done|done|]. intros r'. congruence.
    + rewrite (result_other c s v) in Hb; [injection Hb as <-; done|done|]. intros r'. congruence.
  - unfold body in Hb. minv Hb. case_bool_decide; [|done]. by apply visits_inv.
  - unfold body in Hb. minv Hb. destruct I as [I1 I2 I3 I4 I5 I6 I7 I8]. constructor; cbn; try done. destruct (v_pending v) as [[t r]|]; [|done]. destruct I5 as [? ?]. split; [lia|done].
Qed.
Lemma replay_snoc c g e next l o : replay c g e next (l ++ [o]) =
  if accepted c (run c (genesis g e next) l) o then advance (replay c g e next l) (s_next (run c (genesis g e next) l), o) else replay c g e next l.
Proof.
  unfold replay. generalize (genesis g e next) as s0. generalize (view0 g) as v0. induction l as [|x l IH]; intros v0 s0; cbn.
  - by destruct (accepted c s0 o).
  - rewrite !fold_left_app. apply IH.
Qed.
Lemma run_snoc c s l o : run c s (l ++ [o]) = step c (run c s l) o.
Proof. unfold run. by rewrite fold_left_app. Qed.
Lemma inv_genesis c g e next : good_genesis c g -> inv c (genesis g e next) (view0 g).
Proof.
  intros (N1 & N2 & Hb & _). constructor; cbn; try done.
  - by rewrite map_length.
  - intros a H. apply elem_of_list_fmap in H as ([x k] & -> & H). exists k. by apply elem_of_list_to_map_1.
Qed.
Lemma reachable_inv c g e next l : good_genesis c g -> inv c (run c (genesis g e next) l) (replay c g e next l).
Proof.
  intros H. induction l as [|o l IH] using rev_ind; [by apply inv_genesis|]. rewrite replay_snoc, run_snoc. by apply inv_step.
Qed.

(** ** The table of keys *)
Definition fair (c : config) : Prop := forall m, c_iter c m ≡ₚ map_to_list m.
Lemma iter_in c (m : gmap N N) x : fair c -> In x (c_iter c m) <-> m !! x.1 = Some x.2.
Proof. intros Hf. rewrite <-elem_of_list_In, (Hf m). destruct x. by rewrite elem_of_map_to_list. Qed.
Lemma first_key_some c a s k : fair c -> first_key c a s = Some k -> s_owner s !! k = Some a.
Proof.
  intros Hf H. unfold first_key in H. apply fmap_Some in H as ([k' a'] & H & ->). apply find_some in H as [Hin Ha]. apply (iter_in c) in Hin; [|done]. cbn in *. apply N.eqb_eq in Ha as ->. done.
Qed.
Lemma first_key_none c a s k : fair c -> first_key c a s = None -> s_owner s !! k <> Some a.
Proof.
  intros Hf H Hk. unfold first_key in H. apply fmap_None in H. assert (In (k, a) (c_iter c (s_owner s))) as Hin by (by apply (iter_in c)). apply (find_none _ _ H) in Hin. cbn in Hin. by rewrite N.eqb_refl in Hin.
Qed.
Lemma drop_owner c a s (ks : gmap N N) : fair c -> (forall b k, s_owner s !! k = Some b <-> ks !! b = Some k) ->
  forall b k, s_owner (drop_key c a s) !! k = Some b <-> delete a ks !! b = Some k.
Proof.
  intros Hf H b k. unfold drop_key. destruct (first_key c a s) as [k0|] eqn:E; cbn.
  - apply (first_key_some _ _ _ _ Hf) in E. rewrite !lookup_delete_Some, H. split; intros [Hne Hb]; (split; [|done]).
    + intros ->. apply H in E. congruence.
    + intros ->. apply H in Hb. congruence.
  - rewrite H, lookup_delete_Some. split; [|by intros [_ ?]]. intros Hb. split; [|done]. intros ->. apply H in Hb. by apply (first_key_none c b s k) in E.
Qed.
Lemma visit_owner c active disabled s p r : (forall x, s_actions s !! p = Some x -> a_status x <> Actioned -> p.1 = subject r /\ a_kind x = kind_of r) ->
  (match r with Removing a => a ∈ active \/ a ∈ disabled | _ => True end) -> s_owner (visit c active disabled s p) = s_owner s.
Proof.
  intros H Ht. unfold visit. destruct (s_actions s !! p) as [x|]; [|done]. specialize (H x eq_refl). destruct (a_status x) eqn:Es; try done. destruct H as [Hp Hk]; [done|]. rewrite Hk.
  destruct r as [a k|a]; cbn in *; [done|]. destruct (bool_decide (p.1 ∈ active) || bool_decide (p.1 ∈ disabled)) eqn:E; [done|]. apply orb_false_iff in E as [E1 E2].
  apply bool_decide_eq_false_1 in E1, E2. rewrite Hp in *. by destruct Ht.
Qed.
Lemma active_pending c s v p x : inv c s v -> s_actions s !! p = Some x -> a_status x <> Actioned -> exists tx r, v_pending v = Some (tx, r) /\ p.1 = subject r /\ a_kind x = kind_of r.
Proof.
  intros I Hx Hs. pose proof (i_actions _ _ _ I) as H. destruct (v_pending v) as [[tx r]|].
  - exists tx, r. split; [done|]. destruct H as (_ & q & y & _ & Hy & _ & Hq & Hk & Ho). destruct (decide (p = q)) as [->|Hne]; [|by destruct Hs; eapply Ho]. assert (x = y) as -> by congruence. done.
  - by apply H in Hx.
Qed.
Lemma visits_owner c active disabled v l : (match v_pending v with Some (_, Removing a) => a ∈ active \/ a ∈ disabled | _ => True end) ->
  forall s, inv c s v -> s_owner (fold_left (visit c active disabled) l s) = s_owner s.
Proof.
  intros Ht. induction l as [|p l IH]; intros s I; cbn; [done|]. rewrite IH by (by apply visit_inv). destruct (v_pending v) as [[tx r]|] eqn:Hp.
  - apply (visit_owner _ _ _ _ _ r).
    + intros x Hx Hs. destruct (active_pending _ _ _ _ _ I Hx Hs) as (? & ? & Hv & ? & ?). rewrite Hp in Hv. injection Hv as <- <-. done.
    + by destruct r.
  - unfold visit. destruct (s_actions s !! p) as [x|] eqn:Hx; [|done]. destruct (a_status x) eqn:Es; try done. assert (a_status x <> Actioned) as Hs by congruence.
    destruct (active_pending _ _ _ _ _ I Hx Hs) as (? & ? & Hv & _). congruence.
Qed.
Lemma kinv_step c o s v : fair c -> inv c s v -> kinv s v -> tame v o -> kinv (step c s o) (if accepted c s o then advance v (s_next s, o) else v).
Proof.
  intros Hf I K Ht. destruct (accepted c s o) eqn:E; [|by rewrite step_rejected]. apply step_accepted in E as (s' & Hb & ->). destruct K as [K1 K2 K3]. destruct o as [who a k|who a|who a old new|tx b|active disabled order|e nx].
  - apply add_iff in Hb as (_ & _ & Hn & Ho & Hlen & _ & Ha & _ & _ & ->). pose proof (proj1 (pending_iff _ _ _ I) Ha) as Hp.
    assert (v_keys v !! a = None) as Hka. { destruct (v_keys v !! a) eqn:E; [|done]. destruct (proj1 (K2 a) (mk_is_Some _ _ E)) as [Hin|(? & ? & ?)]; [|congruence]. by rewrite <-(i_list _ _ _ I) in Hin. }
    constructor; cbn.
    + intros b k'. rewrite !lookup_insert_Some, K1. split; intros [[-> ->]|[Hne Hb]]; [by left| |by left|]; right; (split; [|done]); intros ->; [congruence|]. apply K1 in Hb. congruence.
    + intros b. rewrite lookup_insert_is_Some, K2, Hp. split; [intros [->|[? [?|(? & ? & ?)]]]; eauto; done|]. intros [Hb|(t & k' & [= _ <- _])]; [|by left]. right. split; [|by left]. intros ->. by rewrite <-(i_list _ _ _ I) in Hb.
    + intros ? ? ? [= <- <- <-]. by rewrite lookup_insert.
  - apply remove_iff in Hb as (_ & Hlen & Hn & Ha & _ & k & Hk & _ & ->). pose proof (proj1 (pending_iff _ _ _ I) Ha) as Hp. constructor; cbn; [done| |done].
    intros b. rewrite K2, Hp. split; (intros [?|(? & ? & ?)]; [by left|done]).
  - apply rotate_iff in Hb as (_ & Hnew & Hne & Hold & ->). apply K1 in Hold as Hka. constructor; cbn.
    + intros b k'. rewrite !lookup_insert_Some, lookup_delete_Some, K1. split; intros [[-> ->]|[Hne' Hb]].
      * by left.
      * right. destruct Hb as [Hne2 Hb]. split; [|done]. intros <-. congruence.
      * by left.
      * right. split_and!; [|intros <-; apply K1 in Hb; congruence|done]. intros <-. apply K1 in Hb. congruence.
    + intros b. rewrite lookup_insert_is_Some, K2. rewrite <-K2. split; [intros [->|[_ ?]]; eauto|]. destruct (decide (a = b)); eauto.
    + intros t a' k' Hp. cbn in Ht. by rewrite Hp in Ht.
  - cbn. destruct (v_pending v) as [[t r]|] eqn:Hp; [destruct (N.eqb_spec tx t) as [->|Hne]|].
    + destruct (result_pending c s v t r b I Hp) as (p & x & Ht' & Hx & Hs & Hk & Ho & Hb'). rewrite Hb in Hb'. injection Hb' as ->. pose proof (i_pending _ _ _ I) as I6. pose proof (i_addkey _ _ _ I) as I7. rewrite Hp in I6, I7. unfold settle, outcome.
      destruct r as [a k|a], b; cbn [subject kind_of] in *.
      * constructor; cbn; [done| |done]. intros b. rewrite K2, elem_of_app, elem_of_list_singleton. split; [intros [?|(? & ? & [= _ <- _])]; eauto|]. intros [[?| ->]|(? & ? & ?)]; eauto. done.
      * constructor; cbn; [| |done].
        -- rewrite (I7 t a k) by done. intros b k'. rewrite !lookup_delete_Some, K1. split; intros [Hne Hb']; (split; [|done]); intros ->; [|apply K1 in Hb'; pose proof (K3 t a k' eq_refl) as E'; rewrite (proj2 (K1 a k')) in Hb' by done; congruence].
           rewrite (K3 t b k) in Hb' by done. congruence.
        -- intros b. rewrite lookup_delete_is_Some, K2. split; [intros [Hne [?|(? & ? & [= _ <- _])]]; [by left|done]|]. intros [Hb'|(? & ? & ?)]; [|done]. split; [|by left]. intros ->. destruct I6 as [I6 _]. by rewrite (i_list _ _ _ I) in I6.
      * constructor; cbn; [| |done].
        -- apply (drop_owner c a (s <| s_txs := ∅ |> <| s_list := filter (fun v => v <> a) (s_list s) |>)); done.
        -- intros b. rewrite lookup_delete_is_Some, K2, elem_of_list_filter. split; [intros [Hne [?|(? & ? & ?)]]; [left; split; [by intros ->|done]|done]|]. intros [[Hne Hb']|(? & ? & ?)]; [|done]. split; [by intros ->|by left].
      * constructor; cbn; [done| |done]. intros b. rewrite K2. split; (intros [?|(? & ? & ?)]; [by left|done]).
    + rewrite (result_other c s v) in Hb; [injection Hb as <-; by constructor; rewrite ?Hp|done|]. intros r'. congruence.
    + rewrite (result_other c s v) in Hb; [injection Hb as <-; by constructor; rewrite ?Hp|done|]. intros r'. congruence.
  - unfold body in Hb. minv Hb. case_bool_decide; [|by constructor]. constructor; [|done..]. rewrite (visits_owner c active disabled v); [done| |done]. cbn in Ht. by destruct (v_pending v) as [[? []]|].
  - unfold body in Hb. minv Hb. by constructor.
Qed.
Lemma kinv_genesis c g e next : good_genesis c g -> kinv (genesis g e next) (view0 g).
Proof.
  intros (N1 & N2 & _). assert (NoDup (map fst (map (fun x : N * N => (x.2, x.1)) g))) as Hnd by (rewrite map_map; done). constructor; cbn; [| |done].
  - intros a k. rewrite <-!elem_of_list_to_map by done. split.
    + intros H. apply elem_of_list_fmap in H as ([x y] & [= -> ->] & H). done.
    + intros H. apply elem_of_list_fmap. by exists (a, k).
  - intros a. split.
    + intros [k H]. apply elem_of_list_to_map_2 in H. left. apply elem_of_list_fmap. by exists (a, k).
    + intros [H|(? & ? & ?)]; [|done]. apply elem_of_list_fmap in H as ([x k] & -> & H). exists k. by apply elem_of_list_to_map_1.
Qed.
Lemma tame_run_snoc c g e next l o : tame_run c g e next (l ++ [o]) -> tame_run c g e next l /\ tame (replay c g e next l) o.
Proof.
  intros H. split; [|by apply (H l o [])]. intros l1 x l2 ->. apply (H l1 x (l2 ++ [o])). by rewrite <-app_assoc.
Qed.
Lemma reachable_kinv c g e next l : good_genesis c g -> tame_run c g e next l -> kinv (run c (genesis g e next) l) (replay c g e next l).
Proof.
  intros Hg. induction l as [|o l IH] using rev_ind; intros Ht; [by eapply kinv_genesis|]. apply tame_run_snoc in Ht as [Ht Ho]. rewrite replay_snoc, run_snoc.
  apply kinv_step; [by destruct Hg as (_ & _ & _ & ?)|by apply reachable_inv|by apply IH|done].
Qed.
