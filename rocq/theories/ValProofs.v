(** Refinement of collator management to its specification. *)
From Verif Require Import Base BaseLemmas ValModel ValSpec.

Definition awaits (v : view) (p : N * N) (x : action) : Prop :=
  match v_pending v with
  | Some (tx, r) => a_tx x = tx /\ match r with Adding a _ => a_kind x = Registration /\ p.1 = a | Removing a => a_kind x = Resignation /\ p.1 = a end
  | None => False
  end.
Record inv (c : config) (s : st) (v : view) : Prop := mkInv {
  i_list : s_list s = v_list v;
  i_keys : s_key s = v_keys v;
  i_staking : joins_and_leaves (s_staking s) = v_staking v;
  i_await : forall p x, s_actions s !! p = Some x -> a_status x = Awaiting -> awaits v p x /\ s_txs s !! (a_tx x) = Some p;
  i_txs : match v_pending v with
    | Some (tx, r) => tx < s_next s /\ exists p x, s_txs s = {[tx := p]} /\ s_actions s !! p = Some x /\ a_status x = Awaiting
    | None => s_txs s = ∅ end;
  i_ingress : forall p x, s_actions s !! p = Some x -> p.2 <= s_ingress s;
  i_pending : match v_pending v with
    | Some (_, Adding a d) => a ∉ s_list s /\ is_Some (s_key s !! a) /\ N.of_nat (length (s_list s)) < MAX_VALIDATORS
    | Some (_, Removing a) => a ∈ s_list s /\ c_min c < N.of_nat (length (s_list s))
    | None => True end;
  i_deposits : s_deposits s = match v_pending v with Some (_, Adding a d) => {[a := d]} | _ => ∅ end;
  i_nodup : NoDup (s_list s);
  i_bounds : c_min c <= N.of_nat (length (s_list s)) <= MAX_VALIDATORS;
  i_owner : forall a k, s_owner s !! k = Some a <-> s_key s !! a = Some k;
  i_holders : forall a, is_Some (s_key s !! a) <-> a ∈ s_list s \/ exists tx d, v_pending v = Some (tx, Adding a d) }.

#[global] Arguments joins_and_leaves : simpl never.
Lemma jl_keep x l : is_exit x = false -> joins_and_leaves (x :: l) = x :: joins_and_leaves l.
Proof. intros H. unfold joins_and_leaves. by rewrite filter_cons_True. Qed.
Lemma jl_skip x l : is_exit x = true -> joins_and_leaves (x :: l) = joins_and_leaves l.
Proof. intros H. unfold joins_and_leaves. rewrite filter_cons_False; [done|]. by rewrite H. Qed.
Lemma no_active s : any_active s = false -> forall p x, s_actions s !! p = Some x -> is_active x = false.
Proof.
  intros H p x Hp. unfold any_active in H. destruct (is_active x) eqn:E; [|done]. assert (existsb (λ x0, is_active x0.2) (map_to_list (s_actions s)) = true); [|congruence].
  apply existsb_exists. exists (p, x). split; [|done]. apply elem_of_list_In. by apply elem_of_map_to_list.
Qed.
Lemma no_pending c s v : inv c s v -> any_active s = false -> v_pending v = None.
Proof.
  intros I Ha. destruct (v_pending v) as [[tx r]|] eqn:E; [|done]. pose proof (i_txs _ _ _ I) as Ht. rewrite E in Ht. destruct Ht as (_ & p & x & _ & Hx & Hs).
  apply (no_active s Ha) in Hx. unfold is_active in Hx. by rewrite Hs in Hx.
Qed.
Lemma step_accepted c s o : accepted c s o = true -> exists s', body c o s = (s', Ok tt) /\ step c s o = s'.
Proof. unfold accepted, step. destruct (body c o s) as [s' [[]|e]]; [|done]. eauto. Qed.
Lemma step_rejected c s o : accepted c s o = false -> step c s o = s.
Proof. unfold accepted, step. by destruct (body c o s) as [s' [[]|e]]. Qed.

(** What accepted root calls do. *)
Lemma add_ok c who a k d s s' : body c (AddCollator who a k d) s = (s', Ok tt) ->
  let i := s_ingress s + 1 in let bond := default (e_min_stake (s_env s)) d in
  who = None /\ a ∉ s_list s /\ s_list s <> [] /\ s_owner s !! k = None /\ N.of_nat (length (s_list s)) < MAX_VALIDATORS /\ any_active s = false /\ e_bridge (s_env s) = true /\
  c_valid_key c k = true /\ a ∈ e_session (s_env s) /\ a ∉ e_candidates (s_env s) /\ e_min_stake (s_env s) <= bond <= mget 0 a (e_free (s_env s)) /\
  s' = s <| s_deposits := <[a := bond]> (s_deposits s) |> <| s_owner := <[k := a]> (s_owner s) |> <| s_key := <[a := k]> (s_key s) |>
         <| s_next := s_next s + 1 |> <| s_calls := (s_next s, AddAuthor, a, k) :: s_calls s |>
         <| s_ingress := i |> <| s_actions := <[(a, i) := mkAction Awaiting (s_next s) Registration]> (s_actions s) |> <| s_txs := <[s_next s := (a, i)]> (s_txs s) |>.
Proof.
  cbv zeta. unfold body, ensure_root, add_collator, validate_registration, validate_staking, send_registration, publish, record_action. intros H. minv H.
  repeat match goal with X : negb _ = true |- _ => apply negb_true_iff in X | X : bool_decide _ = false |- _ => apply bool_decide_eq_false_1 in X | X : bool_decide _ = true |- _ => apply bool_decide_eq_true_1 in X
    | X : (_ <=? _) = true |- _ => apply N.leb_le in X | X : (_ <? _) = true |- _ => apply N.ltb_lt in X end.
  destruct d; cbn [default]; repeat split; auto.
Qed.
Lemma remove_ok c who a s s' : body c (RemoveValidator who a) s = (s', Ok tt) ->
  let i := s_ingress s + 1 in
  who = None /\ a ∈ s_list s /\ c_min c < N.of_nat (length (s_list s)) /\ any_active s = false /\ e_bridge (s_env s) = true /\ exists k, s_key s !! a = Some k /\ c_valid_key c k = true /\
  s' = s <| s_next := s_next s + 1 |> <| s_calls := (s_next s, RemoveAuthor, a, k) :: s_calls s |>
         <| s_ingress := i |> <| s_actions := <[(a, i) := mkAction Awaiting (s_next s) Resignation]> (s_actions s) |> <| s_txs := <[s_next s := (a, i)]> (s_txs s) |>.
Proof.
  cbv zeta. unfold body, ensure_root, remove_validator, validate_deregistration, send_deregistration, publish, record_action. intros H. minv H.
  repeat match goal with X : negb _ = true |- _ => apply negb_true_iff in X | X : bool_decide _ = false |- _ => apply bool_decide_eq_false_1 in X | X : bool_decide _ = true |- _ => apply bool_decide_eq_true_1 in X
    | X : (_ <=? _) = true |- _ => apply N.leb_le in X | X : (_ <? _) = true |- _ => apply N.ltb_lt in X end.
  do 5 (split; [done|]). eexists. split; [done|]. split; [done|]. done.
Qed.
Lemma rotate_ok c who a old new s s' : body c (RotateKey who a old new) s = (s', Ok tt) ->
  who = None /\ s_owner s !! new = None /\ old <> new /\ s_owner s !! old = Some a /\
  s' = s <| s_owner := <[new := a]> (delete old (s_owner s)) |> <| s_key := <[a := new]> (s_key s) |>.
Proof.
  unfold body, ensure_root, rotate_key. intros H. minv H.
  repeat match goal with X : negb _ = true |- _ => apply negb_true_iff in X | X : bool_decide _ = false |- _ => apply bool_decide_eq_false_1 in X | X : bool_decide _ = true |- _ => apply bool_decide_eq_true_1 in X
    | X : (_ =? _) = false |- _ => apply N.eqb_neq in X | X : (_ =? _) = true |- _ => apply N.eqb_eq in X end. subst. by repeat split.
Qed.

Lemma inv_add c who a k d s s' v : inv c s v -> body c (AddCollator who a k d) s = (s', Ok tt) -> inv c s' (advance v (s_next s, e_min_stake (s_env s), AddCollator who a k d)).
Proof.
  intros I H. apply add_ok in H. cbv zeta in H. destruct H as (_ & Hn & _ & Ho & Hl & Ha & _ & _ & _ & _ & _ & ->). pose proof (no_pending _ _ _ I Ha) as Hp.
  assert (s_key s !! a = None) as Hka.
  { destruct (s_key s !! a) eqn:E; [|done]. destruct (proj1 (i_holders _ _ _ I a) (mk_is_Some _ _ E)) as [?|(? & ? & X)]; [done|]. congruence. }
  assert (s_txs s = ∅) as Htx by (pose proof (i_txs _ _ _ I) as X; by rewrite Hp in X).
  assert (s_deposits s = ∅) as Hdp by (pose proof (i_deposits _ _ _ I) as X; by rewrite Hp in X).
  constructor; cbn.
  - apply I. - by rewrite (i_keys _ _ _ I). - apply I.
  - intros p x. rewrite lookup_insert_Some. intros [[<- <-]|[Hne Hx]] Hs; cbn; [unfold awaits; cbn; by rewrite lookup_insert|].
    exfalso. apply (no_active s Ha) in Hx. unfold is_active in Hx. by rewrite Hs in Hx.
  - split; [lia|]. exists (a, s_ingress s + 1). eexists. rewrite Htx, insert_empty. split; [done|]. by rewrite lookup_insert.
  - intros p x. rewrite lookup_insert_Some. intros [[<- _]|[_ Hx]]; cbn; [lia|]. apply (i_ingress _ _ _ I) in Hx. lia.
  - rewrite lookup_insert. eauto.
  - by rewrite Hdp, insert_empty.
  - apply I. - apply I.
  - intros b j. rewrite !lookup_insert_Some. rewrite (i_owner _ _ _ I). split.
    + intros [[<- <-]|[Hne Hj]]; [by left|]. right. split; [|done]. intros <-. congruence.
    + intros [[<- <-]|[Hne Hj]]; [by left|]. right. split; [|done]. intros <-. apply (i_owner _ _ _ I) in Hj. congruence.
  - intros b. rewrite lookup_insert_is_Some. rewrite (i_holders _ _ _ I). rewrite Hp. split.
    + intros [<-|[_ [?|(? & ? & ?)]]]; [|by left|done]. right. eauto.
    + intros [Hb|(t & e & X)].
      * right. split; [by intros <-|by left].
      * injection X as _ <- _. by left.
Qed.
Lemma inv_remove c who a s s' v : inv c s v -> body c (RemoveValidator who a) s = (s', Ok tt) -> inv c s' (advance v (s_next s, e_min_stake (s_env s), RemoveValidator who a)).
Proof.
  intros I H. apply remove_ok in H. cbv zeta in H. destruct H as (_ & Hn & Hl & Ha & _ & k & Hk & _ & ->). pose proof (no_pending _ _ _ I Ha) as Hp.
  assert (s_txs s = ∅) as Htx by (pose proof (i_txs _ _ _ I) as X; by rewrite Hp in X).
  assert (s_deposits s = ∅) as Hdp by (pose proof (i_deposits _ _ _ I) as X; by rewrite Hp in X).
  constructor; cbn.
  - apply I. - apply I. - apply I.
  - intros p x. rewrite lookup_insert_Some. intros [[<- <-]|[Hne Hx]] Hs; cbn; [unfold awaits; cbn; by rewrite lookup_insert|].
    exfalso. apply (no_active s Ha) in Hx. unfold is_active in Hx. by rewrite Hs in Hx.
  - split; [lia|]. exists (a, s_ingress s + 1). eexists. rewrite Htx, insert_empty. split; [done|]. by rewrite lookup_insert.
  - intros p x. rewrite lookup_insert_Some. intros [[<- _]|[_ Hx]]; cbn; [lia|]. apply (i_ingress _ _ _ I) in Hx. lia.
  - done.
  - done.
  - apply I. - apply I. - apply I.
  - intros b. rewrite (i_holders _ _ _ I). rewrite Hp. split; intros [?|(? & ? & ?)]; auto; done.
Qed.
Lemma inv_rotate c who a old new n m s s' v : inv c s v -> body c (RotateKey who a old new) s = (s', Ok tt) -> inv c s' (advance v (n, m, RotateKey who a old new)).
Proof.
  intros I H. apply rotate_ok in H. destruct H as (_ & Hn & Hne & Ho & ->).
  pose proof (proj1 (i_owner _ _ _ I _ _) Ho) as Hk.
  assert (forall b, is_Some (<[a := new]> (s_key s) !! b) <-> is_Some (s_key s !! b)) as Hsame.
  { intros b. rewrite lookup_insert_is_Some. destruct (decide (a = b)) as [<-|]; [rewrite Hk; naive_solver|naive_solver]. }
  constructor; cbn; try apply I.
  - by rewrite (i_keys _ _ _ I).
  - pose proof (i_pending _ _ _ I) as X. destruct (v_pending v) as [[t [b d|b]]|]; try done. destruct X as (? & ? & ?). split; [done|]. split; [|done]. by apply Hsame.
  - intros b j. destruct (decide (b = a)) as [->|Hb].
    + rewrite lookup_insert. rewrite lookup_insert_Some, lookup_delete_Some. rewrite (i_owner _ _ _ I). split.
      * intros [[<- _]|(Hne1 & Hne2 & Hj)]; [done|]. congruence.
      * intros [= <-]. by left.
    + rewrite (lookup_insert_ne (s_key s)); [|done]. rewrite <-(i_owner _ _ _ I). rewrite lookup_insert_Some, lookup_delete_Some. split.
      * intros [[<- ?]|(? & ? & ?)]; congruence.
      * intros Hj. right. split; [intros <-; congruence|]. split; [intros <-; congruence|done].
  - intros b. rewrite Hsame. apply I.
Qed.

(** An action awaiting Ethereum, seen from its transaction. *)
Lemma pending_of c s v tx p : inv c s v -> s_txs s !! tx = Some p ->
  exists r x, v_pending v = Some (tx, r) /\ s_txs s = {[tx := p]} /\ s_actions s !! p = Some x /\ a_status x = Awaiting /\ awaits v p x.
Proof.
  intros I Ht. pose proof (i_txs _ _ _ I) as X. destruct (v_pending v) as [[t r]|] eqn:E; [|rewrite X in Ht; done].
  destruct X as (Hlt & q & x & Hq & Hx & Hs). rewrite Hq in Ht. apply lookup_singleton_Some in Ht as [<- <-]. exists r, x. do 4 (split; [done|]). apply (i_await _ _ _ I); done.
Qed.
Lemma not_awaiting c s v p q x : inv c s v -> v_pending v <> None -> s_actions s !! p = Some x -> a_status x = Awaiting -> forall y, s_actions s !! q = Some y -> a_status y = Awaiting -> q = p.
Proof.
  intros I Hv Hx Hs y Hy Hys. destruct (i_await _ _ _ I _ _ Hx Hs) as [A1 B1]. destruct (i_await _ _ _ I _ _ Hy Hys) as [A2 B2].
  unfold awaits in A1, A2. destruct (v_pending v) as [[t r]|]; [|done]. destruct A1 as [E1 _], A2 as [E2 _]. congruence.
Qed.
Lemma filter_length_NoDup (a : N) (l : list N) : NoDup l -> a ∈ l -> S (length (filter (fun x => x <> a) l)) = length l.
Proof.
  induction 1 as [|b l Hb Hl IH]; [by intros ?%elem_of_nil|]. intros [->|Hin]%elem_of_cons.
  - rewrite filter_cons_False; [|by intros ?]. cbn. f_equal. clear -Hb. induction l as [|x l IH]; [done|]. apply not_elem_of_cons in Hb as [? ?]. rewrite filter_cons_True; [|done]. cbn. by rewrite IH.
  - rewrite filter_cons_True; [|by intros ->]. cbn. by rewrite IH.
Qed.
Lemma st_ext s t : s_list s = s_list t -> s_actions s = s_actions t -> s_owner s = s_owner t -> s_key s = s_key t -> s_ingress s = s_ingress t -> s_deposits s = s_deposits t ->
  s_txs s = s_txs t -> s_env s = s_env t -> s_next s = s_next t -> s_calls s = s_calls t -> s_staking s = s_staking t -> s = t.
Proof. destruct s, t. cbn. intros. by subst. Qed.
Lemma drop_key_eq a s : drop_key a s = s <| s_owner := match s_key s !! a with Some k => delete k (s_owner s) | None => s_owner s end |> <| s_key := delete a (s_key s) |>.
Proof. unfold drop_key. destruct (s_key s !! a) eqn:E; apply st_ext; cbn; try done. by rewrite delete_notin. Qed.
(** What a reported result does: only to the request it belongs to. *)
Lemma result_ok c tx b s s' v : inv c s v -> body c (Result tx b) s = (s', Ok tt) ->
  (s_txs s !! tx = None /\ s' = s) \/
  exists p x, s_txs s = {[tx := p]} /\ s_actions s !! p = Some x /\ a_status x = Awaiting /\
    match v_pending v with
    | Some (t, Adding a d) => t = tx /\ p.1 = a /\
        s' = (if b then s <| s_txs := ∅ |> <| s_list := s_list s ++ [a] |> <| s_deposits := ∅ |> <| s_staking := Joined a d :: s_staking s |>
                          <| s_actions := alter (fun x => x <| a_kind := Activation |> <| a_status := Actioned |>) p (s_actions s) |>
              else s <| s_txs := ∅ |> <| s_owner := (match s_key s !! a with Some k => delete k (s_owner s) | None => s_owner s end) |> <| s_key := delete a (s_key s) |> <| s_deposits := ∅ |> <| s_actions := delete p (s_actions s) |>)
        /\ (b = true -> e_join (s_env s) a d = true)
    | Some (t, Removing a) => t = tx /\ p.1 = a /\
        s' = (if b then s <| s_txs := ∅ |> <| s_list := filter (fun v => v <> a) (s_list s) |> <| s_staking := Leaving a :: s_staking s |>
                          <| s_owner := (match s_key s !! a with Some k => delete k (s_owner s) | None => s_owner s end) |> <| s_key := delete a (s_key s) |>
                          <| s_actions := alter (fun x => x <| a_status := Actioned |>) p (s_actions s) |>
              else s <| s_txs := ∅ |> <| s_actions := delete p (s_actions s) |>)
        /\ (b = true -> e_leave (s_env s) a = true)
    | None => False
    end.
Proof.
  intros I H. unfold body, process_result in H. apply mbind_ok in H as (s1 & a1 & Hg & H). apply get_st_ok in Hg as [-> ->].
  destruct (s_txs s !! tx) as [p|] eqn:Ht; [|left; apply mret_ok in H as [_ ->]; done].
  right. destruct (pending_of _ _ _ _ _ I Ht) as (r & x & Hv & Htx & Hx & Hs & Haw). exists p, x. do 3 (split; [done|]).
  apply mbind_ok in H as (s1 & a1 & Hg & H). apply modify_ok in Hg as ->. rewrite Hx in H. cbn [s_actions] in H.
  assert (delete tx (s_txs s) = ∅) as Hdel by (rewrite Htx; by rewrite delete_singleton).
  rewrite Hv. unfold awaits in Haw. rewrite Hv in Haw. destruct Haw as [_ Haw]. pose proof (i_deposits _ _ _ I) as Hdp. rewrite Hv in Hdp.
  destruct r as [a d|a]; destruct Haw as [Hk <-]; (split; [done|]; split; [done|]); rewrite Hk in H; destruct b; cbn [negb] in H.
  - unfold complete_registration in H. minv H. match goal with X : e_join _ _ _ = true |- _ => rename X into Hj end. cbn [s_deposits s_env s_list set] in Hj. cbn in Hj. rewrite Hdp, lookup_singleton in Hj.
    split; [|done]. apply st_ext; cbn; rewrite ?Hdel, ?Hdp, ?lookup_singleton, ?delete_singleton; done.
  - apply modify_ok in H as ->. split; [|done]. unfold rollback, cleanup_registration. rewrite drop_key_eq. apply st_ext; cbn; rewrite ?Hdel, ?Hdp, ?delete_singleton; done.
  - unfold complete_deregistration in H. minv H. match goal with X : e_leave _ _ = true |- _ => rename X into Hj end. cbn in Hj. split; [|done].
    rewrite drop_key_eq. apply st_ext; cbn; rewrite ?Hdel; done.
  - apply modify_ok in H as ->. split; [|done]. unfold rollback. apply st_ext; cbn; rewrite ?Hdel; done.
Qed.

Lemma await_delete (l : gmap (N * N) action) p q x : delete p l !! q = Some x -> q <> p /\ l !! q = Some x.
Proof. intros H. apply lookup_delete_Some in H as [? ?]. done. Qed.
Lemma alter_status (f : action -> action) (l : gmap (N * N) action) p q x : (forall y, a_status (f y) = Actioned) -> alter f p l !! q = Some x -> a_status x = Awaiting -> q <> p /\ l !! q = Some x.
Proof.
  intros Hf H Hs. destruct (decide (q = p)) as [->|Hne].
  - rewrite lookup_alter in H. destruct (l !! p); [|done]. injection H as <-. by rewrite Hf in Hs.
  - by rewrite lookup_alter_ne in H.
Qed.
Lemma inv_drop_owner c s v a : inv c s v -> forall b k, (match s_key s !! a with Some k => delete k (s_owner s) | None => s_owner s end) !! k = Some b <-> delete a (s_key s) !! b = Some k.
Proof.
  intros I b k. destruct (s_key s !! a) as [k0|] eqn:E.
  - rewrite !lookup_delete_Some. rewrite (i_owner _ _ _ I). split; intros [Hne H]; (split; [|done]); intros ->; [apply Hne; congruence|].
    apply (i_owner _ _ _ I) in E. apply (i_owner _ _ _ I) in H. congruence.
  - rewrite lookup_delete_Some, (i_owner _ _ _ I). split; [|by intros [_ ?]]. intros H. split; [|done]. intros ->. congruence.
Qed.
Lemma inv_result c tx b n m s s' v : inv c s v -> body c (Result tx b) s = (s', Ok tt) -> inv c s' (advance v (n, m, Result tx b)).
Proof.
  intros I H. destruct (result_ok _ _ _ _ _ _ I H) as [[Hn ->]|(p & x & Htx & Hx & Hs & Hr)].
  { unfold advance. destruct (v_pending v) as [[t r]|] eqn:E; [|done]. destruct (N.eqb_spec tx t) as [->|]; [|done].
    pose proof (i_txs _ _ _ I) as X. rewrite E in X. destruct X as (_ & p & x & X & _). rewrite X, lookup_singleton in Hn. done. }
  unfold advance. destruct (v_pending v) as [[t r]|] eqn:E; [|done].
  assert (forall q y, s_actions s !! q = Some y -> a_status y = Awaiting -> q = p) as Honly by (intros q y Hy Hys; eapply not_awaiting; [exact I|by rewrite E|exact Hx|exact Hs|exact Hy|exact Hys]).
  pose proof (i_pending _ _ _ I) as Hp. rewrite E in Hp. pose proof (i_deposits _ _ _ I) as Hd. rewrite E in Hd. pose proof (i_holders _ _ _ I) as Hh. rewrite E in Hh.
  pose proof (i_bounds _ _ _ I) as Hb.
  destruct r as [a d|a]; destruct Hr as (-> & Hpa & -> & _); rewrite N.eqb_refl; unfold settle; destruct b.
  - destruct Hp as (Hnot & Hkey & Hlen). constructor; cbn.
    + by rewrite (i_list _ _ _ I). + apply I. + rewrite jl_keep by done. f_equal. apply I.
    + intros q y Hy Hys. apply alter_status in Hy as [Hne Hy]; [|done|done]. exfalso. eauto.
    + done.
    + intros q y Hy. destruct (decide (q = p)) as [->|Hne]; [rewrite lookup_alter in Hy|rewrite lookup_alter_ne in Hy by done]; [by apply (i_ingress _ _ _ I p x)|by apply (i_ingress _ _ _ I q y)].
    + done. + done.
    + apply NoDup_app. split; [apply I|]. split; [|by apply NoDup_singleton]. intros y Hy ->%elem_of_list_singleton. done.
    + rewrite app_length. cbn. lia.
    + apply I.
    + intros b. rewrite Hh, elem_of_app, elem_of_list_singleton. split.
      * intros [?|(? & ? & [= _ -> _])]; auto.
      * intros [[?| ->]|(? & ? & ?)]; [by left| |done]. right. eauto.
  - destruct Hp as (Hnot & Hkey & Hlen). constructor; cbn.
    + apply I. + by rewrite (i_keys _ _ _ I). + apply I.
    + intros q y [Hne Hy]%await_delete Hys. exfalso. eauto.
    + done.
    + intros q y [Hne Hy]%await_delete. by apply (i_ingress _ _ _ I q y).
    + done. + done. + apply I. + apply I.
    + by eapply inv_drop_owner.
    + intros b. rewrite lookup_delete_is_Some, Hh. split.
      * intros [Hne [?|(? & ? & [= _ -> _]) ] ]; [by left|done].
      * intros [Hin|(? & ? & ?)]; [|done]. split; [by intros ->|by left].
  - destruct Hp as (Hin & Hlen). pose proof (filter_length_NoDup a _ (i_nodup _ _ _ I) Hin) as Hfl. constructor; cbn.
    + by rewrite (i_list _ _ _ I). + by rewrite (i_keys _ _ _ I). + rewrite jl_keep by done. f_equal. apply I.
    + intros q y Hy Hys. apply alter_status in Hy as [Hne Hy]; [|done|done]. exfalso. eauto.
    + done.
    + intros q y Hy. destruct (decide (q = p)) as [->|Hne]; [rewrite lookup_alter in Hy|rewrite lookup_alter_ne in Hy by done]; [by apply (i_ingress _ _ _ I p x)|by apply (i_ingress _ _ _ I q y)].
    + done. + done.
    + apply NoDup_filter, I.
    + lia.
    + by eapply inv_drop_owner.
    + intros b. rewrite lookup_delete_is_Some, Hh, elem_of_list_filter. split.
      * intros [Hne [?|(? & ? & ?)] ]; [by left|done].
      * intros [[Hne Hin']|(? & ? & ?)]; [|done]. split; [done|by left].
  - constructor; cbn; try apply I; try done.
    + intros q y [Hne Hy]%await_delete Hys. exfalso. eauto.
    + intros q y [Hne Hy]%await_delete. by apply (i_ingress _ _ _ I q y).
    + intros b. rewrite Hh. split; intros [?|(? & ? & ?)]; auto; done.
Qed.

(** Sessions touch only finished actions. *)
Lemma alter_finished (f : action -> action) (l : gmap (N * N) action) p q x y : l !! p = Some y -> a_status y <> Awaiting -> (forall z, a_status (f z) <> Awaiting) ->
  a_status x = Awaiting -> alter f p l !! q = Some x <-> l !! q = Some x.
Proof.
  intros Hp Hy Hf Hx. destruct (decide (q = p)) as [->|Hne]; [|by rewrite lookup_alter_ne]. rewrite lookup_alter, Hp. cbn. split; intros [= <-]; [|done]. by apply Hf in Hx.
Qed.
Lemma inv_actions c s v acts sk : inv c s v -> (forall q x, a_status x = Awaiting -> acts !! q = Some x <-> s_actions s !! q = Some x) ->
  (forall q x, acts !! q = Some x -> exists y, s_actions s !! q = Some y) -> joins_and_leaves sk = joins_and_leaves (s_staking s) ->
  inv c (s <| s_actions := acts |> <| s_staking := sk |>) v.
Proof.
  intros I Ha Hd Hj. constructor; cbn; try apply I.
  - rewrite Hj. apply I.
  - intros p x Hx Hs. apply Ha in Hx; [|done]. by apply (i_await _ _ _ I).
  - pose proof (i_txs _ _ _ I) as X. destruct (v_pending v) as [[t r]|]; [|done]. destruct X as (Hlt & p & x & X & Hx & Hs). split; [done|]. exists p, x. split; [done|]. split; [|done]. by apply Ha.
  - intros p x Hx. apply Hd in Hx as [y Hy]. by apply (i_ingress _ _ _ I p y).
Qed.
Lemma st_eta2 s acts : s <| s_actions := acts |> = s <| s_actions := acts |> <| s_staking := s_staking s |>.
Proof. by destruct s. Qed.
Lemma inv_visit c s v active disabled p : inv c s v -> inv c (fst (visit active disabled p s)) v.
Proof.
  intros I. unfold visit. destruct (s_actions s !! p) as [x|] eqn:Hx; [|done].
  assert (forall (f : action -> action) sk, a_status x <> Awaiting -> (forall z, a_status (f z) <> Awaiting) -> joins_and_leaves sk = joins_and_leaves (s_staking s) ->
     inv c (s <| s_actions := alter f p (s_actions s) |> <| s_staking := sk |>) v) as Hal.
  { intros f sk Hs Hf Hsk. apply inv_actions; [done|..|done].
    - intros q y Hy. by eapply alter_finished.
    - intros q y Hy. destruct (decide (q = p)) as [->|Hne]; [eauto|]. rewrite lookup_alter_ne in Hy by done. eauto. }
  destruct (a_status x) eqn:Es; [done|..]; (destruct (a_kind x)); cbn [fst]; try done; try (case_match; cbn [fst]; [|done]); try (case_match; cbn [fst]; try done).
  all: unfold set_action.
  1-3: rewrite st_eta2; apply inv_actions; [done|..|done]; [intros q y Hy; rewrite lookup_delete_Some; split; [by intros [_ ?]|intros Hq; split; [intros <-; congruence|done]]|intros q y [_ Hq]%lookup_delete_Some; eauto].
  - case_match; cbn [fst]; [|done]. erewrite (st_ext (_ <| s_actions := _ |>)); [apply (Hal (fun x => x <| a_status := Confirmed |>) (Left_ p.1 :: s_staking s)); [done|done|by rewrite jl_skip]|done..].
  - rewrite st_eta2. by apply Hal.
Qed.

Lemma inv_visit_all c s v active disabled l : inv c s v -> inv c (visit_all active disabled l s) v.
Proof.
  revert s. induction l as [|p l IH]; intros s I; cbn; [done|]. pose proof (inv_visit c s v active disabled p I) as I'.
  destruct (visit active disabled p s) as [s' go]. cbn in I'. destruct go; auto.
Qed.
Lemma inv_body c o s s' v : inv c s v -> body c o s = (s', Ok tt) -> inv c s' (advance v (s_next s, e_min_stake (s_env s), o)).
Proof.
  intros I H. destruct o as [who a k d|who a|who a old new|tx b|active disabled order|e next].
  - by eapply inv_add. - by eapply inv_remove. - by eapply inv_rotate. - by eapply inv_result.
  - unfold body in H. minv H. cbn. case_bool_decide; [|done]. by apply inv_visit_all.
  - unfold body in H. minv H. cbn. destruct I. constructor; cbn; try done. destruct (v_pending v) as [[t r]|]; [|done]. destruct i_txs0 as [? ?]. split; [lia|done].
Qed.
Lemma inv_step c o s v : inv c s v -> inv c (step c s o) (if accepted c s o then advance v (s_next s, e_min_stake (s_env s), o) else v).
Proof.
  intros I. destruct (accepted c s o) eqn:E.
  - apply step_accepted in E as (s' & Hb & ->). by apply inv_body.
  - by rewrite step_rejected.
Qed.
Lemma inv_run c l s v : inv c s v -> inv c (run c s l) (fold_left advance (history c s l) v).
Proof.
  revert s v. induction l as [|o l IH]; intros s v I; cbn [run fold_left history]; [done|]. apply (inv_step c o) in I. apply IH in I.
  unfold run in I. destruct (accepted c s o); exact I.
Qed.
Lemma inv_genesis c g e next : good_genesis c g -> inv c (genesis g e next) (view0 g).
Proof.
  intros (N1 & N2 & Hb). 
  assert (NoDup (map snd g) -> NoDup (map fst (map (fun x : N * N => (x.2, x.1)) g))) as Hnd by (rewrite map_map; cbn; done).
  constructor; cbn; try done.
  - by rewrite map_length.
  - intros a k. rewrite <-!elem_of_list_to_map; [|done|by apply Hnd]. split.
    + intros H. apply elem_of_list_fmap in H as ([x y] & [= -> ->] & H). done.
    + intros H. apply elem_of_list_fmap. by exists (a, k).
  - intros a. split.
    + intros [k H]. apply elem_of_list_to_map_2 in H. left. apply elem_of_list_fmap. by exists (a, k).
    + intros [H|(? & ? & ?)]; [|done]. apply elem_of_list_fmap in H as ([x k] & -> & H). exists k. by apply elem_of_list_to_map_1.
Qed.
Lemma reachable_inv c g e next l : good_genesis c g -> inv c (run c (genesis g e next) l) (replay c g e next l).
Proof. intros H. apply inv_run. by apply inv_genesis. Qed.

(** The bridge's ids only grow; what was published has smaller ids. *)
Definition ids (s : st) : Prop := (forall t f a k, (t, f, a, k) ∈ s_calls s -> t < s_next s) /\ forall t p, s_txs s !! t = Some p -> t < s_next s.
(** Everything but the parts a session may change. *)
Lemma visit_frame active disabled p s : let s' := fst (visit active disabled p s) in
  s_list s' = s_list s /\ s_owner s' = s_owner s /\ s_key s' = s_key s /\ s_ingress s' = s_ingress s /\ s_deposits s' = s_deposits s /\ s_txs s' = s_txs s /\ s_env s' = s_env s /\ s_next s' = s_next s /\ s_calls s' = s_calls s.
Proof. cbv zeta. unfold visit, set_action. repeat case_match; cbn; by repeat split. Qed.
Lemma visit_all_frame active disabled l s : let s' := visit_all active disabled l s in
  s_list s' = s_list s /\ s_owner s' = s_owner s /\ s_key s' = s_key s /\ s_ingress s' = s_ingress s /\ s_deposits s' = s_deposits s /\ s_txs s' = s_txs s /\ s_env s' = s_env s /\ s_next s' = s_next s /\ s_calls s' = s_calls s.
Proof.
  cbv zeta. revert s. induction l as [|p l IH]; intros s; cbn; [by repeat split|]. pose proof (visit_frame active disabled p s) as F. cbv zeta in F.
  destruct (visit active disabled p s) as [s' go]. cbn in F. destruct go; [|done]. specialize (IH s'). naive_solver congruence.
Qed.
Lemma result_frame c tx b s s' v : inv c s v -> body c (Result tx b) s = (s', Ok tt) ->
  s_ingress s' = s_ingress s /\ s_env s' = s_env s /\ s_next s' = s_next s /\ s_calls s' = s_calls s /\ s_txs s' = delete tx (s_txs s).
Proof.
  intros I H. destruct (result_ok _ _ _ _ _ _ I H) as [[Hn ->]|(p & x & Htx & Hx & Hs & Hr)]; [by rewrite delete_notin|].
  rewrite Htx, delete_singleton. destruct (v_pending v) as [[t [a d|a]]|]; [| |done]; destruct Hr as (_ & _ & -> & _); destruct b; by repeat split.
Qed.
Lemma next_mono c o s v : inv c s v -> s_next s <= s_next (step c s o).
Proof.
  intros I. destruct (accepted c s o) eqn:E; [|by rewrite step_rejected]. apply step_accepted in E as (s' & Hb & ->). destruct o as [who a k d|who a|who a old new|tx b|active disabled order|en next].
  - apply add_ok in Hb as (_ & _ & _ & _ & _ & _ & _ & _ & _ & _ & _ & ->). cbn. lia.
  - apply remove_ok in Hb as (_ & _ & _ & _ & _ & k & _ & _ & ->). cbn. lia.
  - apply rotate_ok in Hb as (_ & _ & _ & _ & ->). cbn. lia.
  - apply (result_frame _ _ _ _ _ _ I) in Hb as (_ & _ & -> & _). lia.
  - unfold body in Hb. minv Hb. case_bool_decide; [|lia]. pose proof (visit_all_frame active disabled order s) as F. cbv zeta in F. destruct F as (_ & _ & _ & _ & _ & _ & _ & -> & _). lia.
  - unfold body in Hb. minv Hb. cbn. lia.
Qed.
Lemma txs_fresh c o s v t : inv c s v -> t < s_next s -> s_txs s !! t = None -> s_txs (step c s o) !! t = None.
Proof.
  intros I Ht Hn. destruct (accepted c s o) eqn:E; [|by rewrite step_rejected]. apply step_accepted in E as (s' & Hb & ->). destruct o as [who a k d|who a|who a old new|tx b|active disabled order|en next].
  - apply add_ok in Hb as (_ & _ & _ & _ & _ & _ & _ & _ & _ & _ & _ & ->). cbn. rewrite lookup_insert_ne; [done|lia].
  - apply remove_ok in Hb as (_ & _ & _ & _ & _ & k & _ & _ & ->). cbn. rewrite lookup_insert_ne; [done|lia].
  - apply rotate_ok in Hb as (_ & _ & _ & _ & ->). done.
  - apply (result_frame _ _ _ _ _ _ I) in Hb as (_ & _ & _ & _ & ->). rewrite lookup_delete_None. auto.
  - unfold body in Hb. minv Hb. case_bool_decide; [|done]. pose proof (visit_all_frame active disabled order s) as F. cbv zeta in F. destruct F as (_ & _ & _ & _ & _ & -> & _ & _ & _). done.
  - unfold body in Hb. by minv Hb.
Qed.
Lemma txs_fresh_run c l s v t : inv c s v -> t < s_next s -> s_txs s !! t = None -> s_txs (run c s l) !! t = None.
Proof.
  revert s v. induction l as [|o l IH]; intros s v I Ht Hn; cbn; [done|]. eapply IH; [by apply inv_step|..].
  - pose proof (next_mono c o s v I). lia.
  - by eapply txs_fresh.
Qed.

(** Withdrawals: each begun withdrawal of [a] is either still to be completed or was completed once. *)
Definition to_exit (a : N) (x : (N * N) * action) : Prop := x.1.1 = a /\ a_status x.2 = Actioned /\ a_kind x.2 = Resignation.
#[export] Instance to_exit_dec a x : Decision (to_exit a x). Proof. unfold to_exit. apply _. Defined.
Definition due (a : N) (m : gmap (N * N) action) : nat := size (filter (to_exit a) m).
Definition exits_due (a : N) (s : st) : nat := due a (s_actions s).
#[export] Instance staking_eq : EqDecision staking. Proof. solve_decision. Defined.
Definition times (x : staking) (l : list staking) : nat := length (filter (eq x) l).
#[global] Arguments times : simpl never.
#[global] Arguments due : simpl never.
Definition balanced (s : st) : Prop := forall a, times (Leaving a) (s_staking s) = (times (Left_ a) (s_staking s) + exits_due a s)%nat.

Definition ind (a : N) (p : N * N) (o : option action) : nat := match o with Some y => if decide (to_exit a (p, y)) then 1%nat else 0%nat | None => 0%nat end.
#[global] Arguments ind : simpl never.
Lemma due_delete (a : N) (p : N * N) (m : gmap (N * N) action) : (due a (delete p m) + ind a p (m !! p))%nat = due a m.
Proof.
  unfold due. rewrite map_filter_delete. unfold ind. destruct (m !! p) as [y|] eqn:E.
  - destruct (decide (to_exit a (p, y))) as [Hy|Hy].
    + assert (filter (to_exit a) m !! p = Some y) as Hl by (apply map_filter_lookup_Some; done). rewrite map_size_delete, Hl. assert (size (filter (to_exit a) m) <> 0)%nat; [|lia].
      intros X. apply map_size_empty_inv in X. rewrite X in Hl. done.
    + rewrite delete_notin; [lia|]. apply map_filter_lookup_None. right. intros z Hz. assert (z = y) as -> by congruence. done.
  - rewrite delete_notin; [lia|]. apply map_filter_lookup_None. by left.
Qed.
Lemma due_insert (a : N) (p : N * N) (y : action) (m : gmap (N * N) action) : (due a (<[p := y]> m) + ind a p (m !! p))%nat = (due a m + ind a p (Some y))%nat.
Proof.
  rewrite <-(due_delete a p m). unfold due. rewrite <-(insert_delete_insert m). unfold ind at 3. destruct (decide (to_exit a (p, y))) as [Hy|Hy].
  - rewrite map_filter_insert_True by done. rewrite map_size_insert_None; [lia|]. apply map_filter_lookup_None. left. apply lookup_delete.
  - rewrite map_filter_insert_False by done. rewrite delete_notin; [lia|apply lookup_delete].
Qed.
Lemma alter_as_insert (f : action -> action) (p : N * N) (m : gmap (N * N) action) x : m !! p = Some x -> alter f p m = <[p := f x]> m.
Proof. intros H. apply map_eq. intros q. destruct (decide (p = q)) as [<-|Hne]; [by rewrite lookup_alter, lookup_insert, H|by rewrite lookup_alter_ne, lookup_insert_ne]. Qed.
Lemma times_cons x y l : times x (y :: l) = ((if decide (x = y) then 1 else 0) + times x l)%nat.
Proof. unfold times. rewrite filter_cons. by case_decide. Qed.
Lemma ind_Some a p y : ind a p (Some y) = if decide (p.1 = a /\ a_status y = Actioned /\ a_kind y = Resignation) then 1%nat else 0%nat.
Proof. done. Qed.
Ltac dues := unfold exits_due; cbn; rewrite ?times_cons;
  repeat match goal with |- context [due ?a (<[?p := ?y]> ?m)] => let D := fresh "D" in pose proof (due_insert a p y m) as D; rewrite ind_Some in D; cbn in D; generalize dependent (due a (<[p := y]> m)); intros
   | |- context [due ?a (delete ?p ?m)] => let D := fresh "D" in pose proof (due_delete a p m) as D; generalize dependent (due a (delete p m)); intros end.
Lemma balanced_visit s active disabled p : balanced s -> balanced (fst (visit active disabled p s)).
Proof.
  intros B a. specialize (B a). unfold visit. destruct (s_actions s !! p) as [x|] eqn:Hx; [|done]. unfold exits_due in B.
  destruct (a_status x) eqn:Es; [done|..]; (destruct (a_kind x) eqn:Ek); cbn [fst]; try done; try (case_match; cbn [fst]; [|done]); try (case_match; cbn [fst]; try done); try (case_match; cbn [fst]; try done).
  all: unfold set_action; cbn; rewrite ?(alter_as_insert _ p _ x Hx); dues; rewrite Hx in *; repeat match goal with D : context [ind _ _ (Some _)] |- _ => rewrite ind_Some in D end; rewrite ?Es, ?Ek in *; cbn in *;
    repeat case_decide; naive_solver lia.
Qed.
Lemma balanced_visit_all active disabled l s : balanced s -> balanced (visit_all active disabled l s).
Proof.
  revert s. induction l as [|p l IH]; intros s I; cbn; [done|]. pose proof (balanced_visit s active disabled p I) as I'.
  destruct (visit active disabled p s) as [s' go]. cbn in I'. destruct go; auto.
Qed.
Lemma balanced_body c o s s' v : inv c s v -> balanced s -> body c o s = (s', Ok tt) -> balanced s'.
Proof.
  intros I B H. destruct o as [who a k d|who a|who a old new|tx b|active disabled order|e next].
  - apply add_ok in H as (_ & _ & _ & _ & _ & _ & _ & _ & _ & _ & _ & ->). intros b. specialize (B b). unfold exits_due in *. cbn. dues.
    assert (s_actions s !! (a, s_ingress s + 1) = None) as Hn by (destruct (s_actions s !! _) eqn:E; [apply (i_ingress _ _ _ I) in E; cbn in E; lia|done]). rewrite Hn in *. unfold ind in *. repeat case_decide; [naive_solver|lia].
  - apply remove_ok in H as (_ & _ & _ & _ & _ & k & _ & _ & ->). intros b. specialize (B b). unfold exits_due in *. cbn. dues.
    assert (s_actions s !! (a, s_ingress s + 1) = None) as Hn by (destruct (s_actions s !! _) eqn:E; [apply (i_ingress _ _ _ I) in E; cbn in E; lia|done]). rewrite Hn in *. unfold ind in *. repeat case_decide; [naive_solver|lia].
  - by apply rotate_ok in H as (_ & _ & _ & _ & ->).
  - destruct (result_ok _ _ _ _ _ _ I H) as [[Hn ->]|(p & x & Htx & Hx & Hs & Hr)]; [done|]. intros a. specialize (B a). unfold exits_due in *.
    destruct (i_await _ _ _ I _ _ Hx Hs) as [Haw _]. unfold awaits in Haw.
    destruct (v_pending v) as [[t [a' d|a']]|]; [| |done]; destruct Hr as (_ & <- & -> & _); destruct Haw as (_ & Hk & _); destruct b; cbn; rewrite ?(alter_as_insert _ p _ x Hx); dues;
      rewrite Hx in *; repeat match goal with D : context [ind _ _ (Some _)] |- _ => rewrite ind_Some in D end; rewrite ?Hs, ?Hk in *; cbn in *; repeat case_decide; naive_solver lia.
  - unfold body in H. minv H. case_bool_decide; [|done]. by apply balanced_visit_all.
  - unfold body in H. by minv H.
Qed.
Lemma balanced_run c l s v : inv c s v -> balanced s -> balanced (run c s l).
Proof.
  revert s v. induction l as [|o l IH]; intros s v I B; cbn; [done|]. eapply IH; [by apply inv_step|].
  destruct (accepted c s o) eqn:E; [|by rewrite step_rejected]. apply step_accepted in E as (s' & Hb & ->). by eapply balanced_body.
Qed.
