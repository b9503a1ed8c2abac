(** Nominators, requests and locks agree with the books: one lemma for every change of a single nomination. *)
From Verif Require Import Base BaseLemmas CodecModel SigModel StakeModel StakeSpec StakeBook.

Definition noms_of (NN : gmap N nominator) (w k : N) : option N := m ← NN !! w; m_noms m !! k.
Definition pend (R : gmap N (list req)) (k w : N) : option req := find (of_nominator w) (mget [] k R).
Definition oamt (o : option req) : N := match o with Some r => action_amount (r_action r) | None => 0 end.
Definition oval (o : option N) : N := match o with Some a => a | None => 0 end.
Definition act_ok (c : config) (a : N) (x : action) : Prop :=
  match x with Revoke y => y = a | Decrease y => y + c_min_per_collator c <= a end.

Record cross (c : config) (E : N -> N -> option N) (NN : gmap N nominator) (R : gmap N (list req)) (L : gmap N N) : Prop := {
  cr_link : forall w k, noms_of NN w k = E k w;
  cr_nom : forall w m, NN !! w = Some m ->
     m_noms m <> ∅ /\ N.of_nat (size (m_noms m)) <= c_max_per_nominator c /\
     (forall k a, m_noms m !! k = Some a -> c_min_per_collator c <= a) /\
     m_total m = msum (fun _ a => a) (m_noms m) /\ m_less m = msum (fun k _ => oamt (pend R k w)) (m_noms m);
  cr_lock : forall w, L !! w = m_total <$> NN !! w;
  cr_req : forall k w r, pend R k w = Some r -> exists a, E k w = Some a /\ act_ok c a (r_action r);
  cr_reqs : forall k, NoDup (map r_who (mget [] k R)) /\ N.of_nat (length (mget [] k R)) <= c_max_per_nominator c }.

Lemma pend_who R k w r : pend R k w = Some r -> r_who r = w.
Proof. unfold pend. intros H. apply find_some in H as [_ H]. by apply N.eqb_eq in H. Qed.
Lemma act_le c a x : act_ok c a x -> action_amount x <= a.
Proof. destruct x; cbn; lia. Qed.

Lemma pend_le c E NN R L k w : cross c E NN R L -> oamt (pend R k w) <= oval (E k w).
Proof.
  intros H. destruct (pend R k w) as [r|] eqn:Er; [|cbn; lia].
  destruct (cr_req _ _ _ _ _ H k w r Er) as (a & -> & Ha). cbn. by eapply act_le.
Qed.
Lemma msum_le {K V} `{Countable K} (f g : K -> V -> N) (m : gmap K V) :
  (forall k v, m !! k = Some v -> f k v <= g k v) -> msum f m <= msum g m.
Proof.
  induction m as [|k v m Hk IH] using map_ind; intros Hfg; [rewrite !msum_empty; lia|].
  rewrite !msum_insert_new by exact Hk.
  assert (f k v <= g k v) by (apply Hfg; apply lookup_insert).
  enough (msum f m <= msum g m) by lia. apply IH.
  intros k' v' E. apply Hfg. rewrite lookup_insert_ne; [exact E|]. congruence.
Qed.
Lemma less_le_total c E NN R L w m : cross c E NN R L -> NN !! w = Some m -> m_less m <= m_total m.
Proof.
  intros H Hm. destruct (cr_nom _ _ _ _ _ H w m Hm) as (_ & _ & _ & -> & ->). apply msum_le.
  intros k a Hk. pose proof (pend_le _ _ _ _ _ k w H) as Hp. rewrite <- (cr_link _ _ _ _ _ H) in Hp. unfold noms_of in Hp.
  rewrite Hm in Hp. cbn in Hp. by rewrite Hk in Hp.
Qed.
Lemma msum_insert_o (f : N -> N -> N) (m : gmap N N) k v o : m !! k = o ->
  msum f (<[k:=v]> m) + match o with Some x => f k x | None => 0 end = msum f m + f k v.
Proof. intros <-. pose proof (msum_insert f m k v) as H. destruct (m !! k); exact H. Qed.
Lemma msum_delete_o (f : N -> N -> N) (m : gmap N N) k o : m !! k = o ->
  msum f (delete k m) + match o with Some x => f k x | None => 0 end = msum f m.
Proof.
  intros <-. destruct (m !! k) as [x|] eqn:E; [rewrite (msum_delete f m k x E); lia|]. rewrite delete_notin by done. lia.
Qed.
Lemma msum_pos (m : gmap N N) : (forall k a, m !! k = Some a -> 1 <= a) -> m <> ∅ -> 1 <= msum (fun _ a => a) m.
Proof.
  intros H Hne. apply map_choose in Hne as (k & a & E). pose proof (msum_lookup_le (fun _ a => a) m k a E). specialize (H k a E). cbn in *. lia.
Qed.
Lemma total_pos c E NN R L w m : config_ok c -> cross c E NN R L -> NN !! w = Some m -> 1 <= m_total m.
Proof.
  intros (_ & _ & _ & Hc) H Hm. destruct (cr_nom _ _ _ _ _ H w m Hm) as (Hne & _ & Hmin & -> & _). apply msum_pos; [|done].
  intros k a Hk. specialize (Hmin k a Hk). lia.
Qed.

(** The new state of a nominator whose nomination of [k] becomes [na]. *)
Definition new_noms (k : N) (na : option N) (m : gmap N N) : gmap N N :=
  match na with Some a => <[k := a]> m | None => delete k m end.

Lemma cross_pair c E NN R L E' NN' R' L' w k na :
  cross c E NN R L ->
  let noms := match NN !! w with Some m => m_noms m | None => ∅ end in
  let total := match NN !! w with Some m => m_total m | None => 0 end in
  let less := match NN !! w with Some m => m_less m | None => 0 end in
  let noms' := new_noms k na noms in
  (* the books *)
  E' k w = na -> (forall k' w', (k', w') <> (k, w) -> E' k' w' = E k' w') ->
  (* the nominators *)
  (noms' = ∅ -> NN' !! w = None) ->
  (noms' <> ∅ -> exists m', NN' !! w = Some m' /\ m_noms m' = noms' /\ m_total m' + oval (E k w) = total + oval na /\
                 m_less m' + oamt (pend R k w) = less + oamt (pend R' k w)) ->
  (forall w', w' <> w -> NN' !! w' = NN !! w') ->
  (* requests *)
  (forall k' w', (k', w') <> (k, w) -> pend R' k' w' = pend R k' w') ->
  (forall r, pend R' k w = Some r -> exists a, na = Some a /\ act_ok c a (r_action r)) ->
  (forall k', NoDup (map r_who (mget [] k' R')) /\ N.of_nat (length (mget [] k' R')) <= c_max_per_nominator c) ->
  (* locks *)
  L' !! w = m_total <$> NN' !! w -> (forall w', w' <> w -> L' !! w' = L !! w') ->
  (* the rules for amounts *)
  (forall a, na = Some a -> c_min_per_collator c <= a) -> N.of_nat (size noms') <= c_max_per_nominator c ->
  cross c E' NN' R' L'.
Proof.
  intros H noms total less noms' HE1 HE2 HN1 HN2 HN3 HR1 HR2 HR3 HL1 HL2 Hmin Hsize.
  assert (Hlk : forall k', noms !! k' = E k' w).
  { intros k'. rewrite <- (cr_link _ _ _ _ _ H w k'). subst noms. unfold noms_of. destruct (NN !! w); cbn; [done | apply lookup_empty]. }
  assert (Hn' : forall k', noms' !! k' = E' k' w).
  { intros k'. subst noms'. destruct (N.eq_dec k' k) as [->|Hne].
    - rewrite HE1. destruct na; cbn; [apply lookup_insert | apply lookup_delete].
    - rewrite HE2 by congruence. rewrite <- Hlk. destruct na; cbn; [apply lookup_insert_ne | apply lookup_delete_ne]; congruence. }
  assert (Htot : total = msum (fun _ a => a) noms /\ less = msum (fun k _ => oamt (pend R k w)) noms /\ (forall k a, noms !! k = Some a -> c_min_per_collator c <= a)).
  { subst noms total less. destruct (NN !! w) as [m|] eqn:Em.
    - destruct (cr_nom _ _ _ _ _ H w m Em) as (_ & _ & ? & ? & ?). done.
    - rewrite !msum_empty. split; [done|]. split; [done|]. intros k' a Ha. by rewrite lookup_empty in Ha. }
  destruct Htot as (Ht & Hl & Hm).
  constructor.
  - intros w' k'. destruct (N.eq_dec w' w) as [->|Hne].
    + rewrite <- Hn'. unfold noms_of. destruct (decide (noms' = ∅)) as [He|He].
      * rewrite (HN1 He), He. cbn. by rewrite lookup_empty.
      * destruct (HN2 He) as (m' & -> & <- & _). done.
    + unfold noms_of. rewrite HN3 by done. rewrite HE2 by congruence. apply (cr_link _ _ _ _ _ H).
  - intros w' m' Em'. destruct (N.eq_dec w' w) as [->|Hne].
    + destruct (decide (noms' = ∅)) as [He|He]; [rewrite (HN1 He) in Em'; done|].
      destruct (HN2 He) as (m2 & E2 & Hn2 & Ht2 & Hl2). rewrite Em' in E2. injection E2 as <-. rewrite Hn2.
      split; [done|]. split; [done|]. split; [|split].
      * intros k' a Ha. subst noms'. destruct na as [b|]; cbn in Ha.
        -- apply lookup_insert_Some in Ha as [[_ <-]|[_ Ha]]; [by apply Hmin | by eapply Hm].
        -- apply lookup_delete_Some in Ha as [_ Ha]. by eapply Hm.
      * rewrite Ht in Ht2. subst noms'. pose proof (msum_delete_o (fun _ a => a) noms k _ (Hlk k)) as H1.
        destruct na as [b|]; cbn [new_noms oval] in *.
        -- pose proof (msum_insert_o (fun _ a => a) noms k b _ (Hlk k)) as H2. cbn in H1, H2. destruct (E k w); cbn in *; lia.
        -- destruct (E k w); cbn in *; lia.
      * assert (Hext : forall k' (a : N), k' <> k -> oamt (pend R' k' w) = oamt (pend R k' w)).
        { intros k' _ Hk'. rewrite HR1; [done | congruence]. }
        assert (Hx : msum (fun k _ => oamt (pend R' k w)) (delete k noms) = msum (fun k _ => oamt (pend R k w)) (delete k noms)).
        { apply msum_ext. intros k' v Hk'. apply lookup_delete_Some in Hk' as [Hk' _]. apply (Hext k' v). congruence. }
        pose proof (msum_delete_o (fun k _ => oamt (pend R k w)) noms k _ (Hlk k)) as H1. cbn in H1.
        rewrite Hl in Hl2. subst noms'. destruct na as [b|]; cbn [new_noms].
        -- rewrite <- insert_delete_insert, msum_insert_new by apply lookup_delete. rewrite Hx.
           destruct (E k w) as [a|] eqn:EE; [lia|].
           destruct (pend R k w) as [r|] eqn:Er; [|cbn in *; lia].
           destruct (cr_req _ _ _ _ _ H k w r Er) as (a & Ea & _). congruence.
        -- rewrite Hx. assert (pend R' k w = None) as HP.
           { destruct (pend R' k w) as [r|] eqn:Er; [|done]. destruct (HR2 r eq_refl) as (a & ? & _). done. }
           rewrite HP in Hl2. cbn in Hl2.
           destruct (E k w) as [a|] eqn:EE; [lia|].
           destruct (pend R k w) as [r|] eqn:Er; [|cbn in *; lia].
           destruct (cr_req _ _ _ _ _ H k w r Er) as (a & Ea & _). congruence.
    + rewrite HN3 in Em' by done. destruct (cr_nom _ _ _ _ _ H w' m' Em') as (H1 & H2 & H3 & H4 & H5).
      split; [done|]. split; [done|]. split; [done|]. split; [done|]. rewrite H5. apply msum_ext. intros k' v _.
      rewrite HR1; [done | congruence].
  - intros w'. destruct (N.eq_dec w' w) as [->|Hne]; [done|]. rewrite HL2, HN3 by done. apply (cr_lock _ _ _ _ _ H).
  - intros k' w' r Hr. destruct (decide ((k', w') = (k, w))) as [[= -> ->]|Hne].
    + destruct (HR2 r Hr) as (a & Ea & Ha). exists a. by rewrite HE1.
    + rewrite HR1 in Hr by done. rewrite HE2 by done. by apply (cr_req _ _ _ _ _ H).
  - exact HR3.
Qed.

(** The invariant depends on books and requests only through their contents. *)
Lemma cross_ext c E E' NN R L : cross c E NN R L -> (forall k w, E' k w = E k w) -> cross c E' NN R L.
Proof.
  intros [H1 H2 H3 H4 H5] HE. constructor; try done.
  - intros w k. by rewrite HE.
  - intros k w r Hr. rewrite HE. by apply H4.
Qed.

(** Lists of requests. *)
Lemma take_req_eq p l r l' : take_req p l = Some (r, l') -> exists l1 l2, l = l1 ++ r :: l2 /\ l' = l1 ++ l2 /\ p r = true /\ forallb (fun x => negb (p x)) l1 = true.
Proof.
  revert r l'. induction l as [|x l IH]; intros r l'; cbn; [done|]. destruct (p x) eqn:E.
  - intros [= <- <-]. by exists [], l.
  - destruct (take_req p l) as [[y l2]|] eqn:E2; [|done]. intros [= <- <-].
    destruct (IH _ _ eq_refl) as (l1 & l3 & -> & -> & Hp & Hf). exists (x :: l1), l3. cbn. rewrite E. done.
Qed.
Lemma take_req_none p l : take_req p l = None <-> find p l = None.
Proof.
  induction l as [|x l IH]; cbn; [done|]. destruct (p x); [done|]. destruct (take_req p l) as [[y l2]|]; [|by rewrite <- IH].
  split; [done|]. intros H. apply IH in H. done.
Qed.
Lemma take_req_find p l r l' : take_req p l = Some (r, l') -> find p l = Some r.
Proof.
  revert r l'. induction l as [|x l IH]; intros r l'; cbn; [done|]. destruct (p x); [by intros [= <- <-]|].
  destruct (take_req p l) as [[y l2]|] eqn:E; [|done]. intros [= <- <-]. by eapply IH.
Qed.
Lemma find_none_who w l : find (of_nominator w) l = None <-> w ∉ map r_who l.
Proof.
  induction l as [|x l IH]; cbn; [split; [intros _; apply not_elem_of_nil | done]|]. rewrite not_elem_of_cons. unfold of_nominator at 1.
  destruct (N.eqb_spec (r_who x) w); [naive_solver|]. rewrite IH. naive_solver.
Qed.
Lemma find_app {A} (p : A -> bool) l1 l2 : find p (l1 ++ l2) = match find p l1 with Some x => Some x | None => find p l2 end.
Proof. induction l1 as [|x l IH]; cbn; [done|]. by destruct (p x). Qed.
Lemma find_other w w' l1 r l2 : r_who r = w -> w' <> w -> find (of_nominator w') (l1 ++ r :: l2) = find (of_nominator w') (l1 ++ l2).
Proof.
  intros Hr Hne. rewrite !find_app. destruct (find _ l1); [done|]. cbn. unfold of_nominator at 1. by rewrite (proj2 (N.eqb_neq _ _)) by congruence.
Qed.
(** Removing the request of [w]. *)
Lemma take_req_spec w l r l' : NoDup (map r_who l) -> take_req (of_nominator w) l = Some (r, l') ->
  r_who r = w /\ find (of_nominator w) l = Some r /\ find (of_nominator w) l' = None /\
  (forall w', w' <> w -> find (of_nominator w') l' = find (of_nominator w') l) /\ NoDup (map r_who l') /\ length l = S (length l').
Proof.
  intros Hnd H. pose proof (take_req_find _ _ _ _ H) as Hf. destruct (take_req_eq _ _ _ _ H) as (l1 & l2 & -> & -> & Hp & _).
  unfold of_nominator in Hp. apply N.eqb_eq in Hp. split; [done|]. split; [done|].
  rewrite map_app in Hnd. cbn in Hnd. rewrite Hp in Hnd.
  assert (P : map r_who l1 ++ w :: map r_who l2 ≡ₚ w :: (map r_who l1 ++ map r_who l2)) by solve_Permutation.
  rewrite P in Hnd. apply NoDup_cons in Hnd as [Hw Hnd]. rewrite <- map_app in Hw, Hnd.
  split; [by apply find_none_who|]. split; [|split; [done|]].
  - intros w' Hne. symmetry. by apply (find_other w).
  - rewrite !app_length. cbn. lia.
Qed.
Lemma revoke_take w l : NoDup (map r_who l) ->
  take_req (revoke_of w) l = match take_req (of_nominator w) l with Some (r, l') => if is_revoke (r_action r) then Some (r, l') else None | None => None end.
Proof.
  induction l as [|x l IH]; cbn; [done|]. intros [Hx Hl]%NoDup_cons. unfold of_nominator at 1. unfold revoke_of at 1.
  destruct (N.eqb_spec (r_who x) w) as [E|E]; cbn.
  - destruct (is_revoke (r_action x)) eqn:Er; [done|].
    assert (take_req (revoke_of w) l = None) as ->; [|done]. rewrite IH by done.
    destruct (take_req (of_nominator w) l) as [[r l']|] eqn:Et; [|done].
    apply take_req_find in Et. subst w. apply find_none_who in Hx. congruence.
  - rewrite IH by done. destruct (take_req (of_nominator w) l) as [[r l']|]; [|done]. by destruct (is_revoke (r_action r)).
Qed.
Lemma exists_find (p : req -> bool) l : existsb p l = match find p l with Some _ => true | None => false end.
Proof. induction l as [|x l IH]; cbn; [done|]. by destruct (p x). Qed.

(** Replacing the list of [k]. *)
Lemma pend_insert R k l k' w : pend (<[k := l]> R) k' w = if decide (k' = k) then find (of_nominator w) l else pend R k' w.
Proof. unfold pend, mget. destruct (decide (k' = k)) as [->|]; [by rewrite lookup_insert | by rewrite lookup_insert_ne]. Qed.
Lemma mget_insert_reqs (R : gmap N (list req)) k l k' : mget [] k' (<[k := l]> R) = if decide (k' = k) then l else mget [] k' R.
Proof. unfold mget. destruct (decide (k' = k)) as [->|]; [by rewrite lookup_insert | by rewrite lookup_insert_ne]. Qed.

(** Replacing the request of [w] for [k] (if any) by [l']'s. *)
Lemma cross_req c E NN R L w k m l' m' : cross c E NN R L -> NN !! w = Some m ->
  m_noms m' = m_noms m -> m_total m' = m_total m -> m_less m' + oamt (pend R k w) = m_less m + oamt (find (of_nominator w) l') ->
  (forall w', w' <> w -> find (of_nominator w') l' = find (of_nominator w') (mget [] k R)) ->
  NoDup (map r_who l') -> N.of_nat (length l') <= c_max_per_nominator c ->
  (forall r, find (of_nominator w) l' = Some r -> exists a, E k w = Some a /\ act_ok c a (r_action r)) ->
  cross c E (<[w := m']> NN) (<[k := l']> R) L.
Proof.
  intros H Hm Hn Ht Hl Ho Hnd Hlen Hr.
  pose proof (cr_link _ _ _ _ _ H w k) as Hlk. unfold noms_of in Hlk. rewrite Hm in Hlk. cbn in Hlk.
  destruct (cr_nom _ _ _ _ _ H w m Hm) as (Hne & Hsz & Hmin & _).
  assert (Hnn : new_noms k (E k w) (m_noms m) = m_noms m).
  { unfold new_noms. destruct (E k w) as [a|]; [by apply insert_id | by apply delete_notin]. }
  eapply (cross_pair c E NN R L _ _ _ _ w k (E k w) H); rewrite ?Hm, ?Hnn; try done.
  - intros _. exists m'. rewrite lookup_insert, pend_insert, decide_True by done. split; [done|]. split; [done|]. split; lia.
  - intros w' Hw'. by rewrite lookup_insert_ne.
  - intros k' w' Hkw. rewrite pend_insert. destruct (decide (k' = k)) as [->|]; [|done]. apply Ho. congruence.
  - intros r. rewrite pend_insert, decide_True by done. apply Hr.
  - intros k'. rewrite mget_insert_reqs. destruct (decide (k' = k)); [done|]. apply (cr_reqs _ _ _ _ _ H).
  - rewrite lookup_insert. cbn. rewrite Ht. rewrite (cr_lock _ _ _ _ _ H), Hm. done.
  - intros a Ea. rewrite Ea in Hlk. by eapply Hmin.
Qed.
