(** Every call keeps the invariant and does not panic. *)
From Verif Require Import Base BaseLemmas CodecModel SigModel StakeModel StakeSpec StakeBook StakeCross StakeInv.

Section ops.
Variable c : config.
Hypothesis Hc : config_ok c.

(** ** Amounts in rearranged lists *)
Section amounts.
Implicit Types l : list (N * N).
Lemma amounts_ext w l l' : NoDup (map fst l) -> NoDup (map fst l') -> (forall a, (w, a) ∈ l <-> (w, a) ∈ l') -> amount_in w l = amount_in w l'.
Proof.
  intros H1 H2 H. apply option_eq. intros a. rewrite (amount_in_elem _ _ _ H1), (amount_in_elem _ _ _ H2). apply H.
Qed.
Lemma amount_not_in w l : NoDup (map fst l) -> (forall a, ~ (w, a) ∈ l) -> amount_in w l = None.
Proof. intros H1 H. destruct (amount_in w l) as [a|] eqn:E; [|done]. apply (amount_in_elem _ _ _ H1) in E. by apply H in E. Qed.
Lemma nodup_owner w a b l : NoDup (map fst l) -> (w, a) ∈ l -> (w, b) ∈ l -> a = b.
Proof. intros H H1 H2. apply (amount_in_elem _ _ _ H) in H1, H2. congruence. Qed.
Lemma removed_amounts w a l l' : (w, a) :: l' ≡ₚ l -> NoDup (map fst l) ->
  NoDup (map fst l') /\ amount_in w l' = None /\ amount_in w l = Some a /\ (forall w', w' <> w -> amount_in w' l' = amount_in w' l).
Proof.
  intros HP Hnd. assert (Hnd2 : NoDup (map fst ((w, a) :: l'))) by (by eapply nodup_perm; [symmetry; exact HP|]).
  cbn in Hnd2. apply NoDup_cons in Hnd2 as [Hw Hnd2]. split; [done|]. split; [by apply amount_in_none|]. split.
  - apply (amount_in_elem _ _ _ Hnd). rewrite <- HP. left.
  - intros w' Hne. apply amounts_ext; try done. intros b. rewrite <- HP, elem_of_cons. naive_solver.
Qed.
Lemma changed_amounts w a a' l l' : (w, a) :: l' ≡ₚ (w, a') :: l -> NoDup (map fst l) -> NoDup (map fst l') -> (w, a) ∈ l ->
  amount_in w l' = Some a' /\ (forall w', w' <> w -> amount_in w' l' = amount_in w' l).
Proof.
  intros HP H1 H2 Hin. split.
  - apply (amount_in_elem _ _ _ H2). assert (H : (w, a') ∈ (w, a) :: l') by (rewrite HP; left).
    apply elem_of_cons in H as [H|H]; [|done]. injection H as ->. apply Permutation_cons_inv in HP. by rewrite HP.
  - intros w' Hne. apply amounts_ext; try done. intros b.
    assert ((w', b) ∈ (w, a) :: l' <-> (w', b) ∈ (w, a') :: l) as HE by (by rewrite HP). rewrite !elem_of_cons in HE. naive_solver.
Qed.
Lemma added_amounts w x l l' : l' ≡ₚ (w, x) :: l -> NoDup (map fst l') -> NoDup (map fst l) -> amount_in w l = None ->
  amount_in w l' = Some x /\ (forall w', w' <> w -> amount_in w' l' = amount_in w' l).
Proof.
  intros HP H1 H2 Hw. split.
  - apply (amount_in_elem _ _ _ H1). rewrite HP. left.
  - intros w' Hne. apply amounts_ext; try done. intros b. rewrite HP, elem_of_cons. naive_solver.
Qed.
Lemma kicked_amounts w x y b l l' : (y, b) :: l' ≡ₚ (w, x) :: l -> NoDup (map fst l') -> NoDup (map fst l) -> amount_in w l = None -> (y, b) ∈ l ->
  y <> w /\ amount_in w l' = Some x /\ amount_in y l' = None /\ amount_in y l = Some b /\ (forall w', w' <> w -> w' <> y -> amount_in w' l' = amount_in w' l).
Proof.
  intros HP H1 H2 Hw Hy. pose proof (proj2 (amount_in_elem _ _ _ H2) Hy) as Ey.
  assert (Hyw : y <> w) by (intros ->; congruence).
  assert (Hel : forall v a, (v, a) ∈ (y, b) :: l' <-> (v, a) ∈ (w, x) :: l) by (intros; by rewrite HP).
  split; [done|]. split; [|split; [|split; [done|]]].
  - apply (amount_in_elem _ _ _ H1). specialize (Hel w x). rewrite !elem_of_cons in Hel. naive_solver.
  - assert (Hn : NoDup (map fst ((w, x) :: l))). { cbn. constructor; [by apply amount_in_none | done]. }
    apply (nodup_perm _ _ (symmetry HP)) in Hn. cbn in Hn. apply NoDup_cons in Hn as [Hn _]. by apply amount_in_none.
  - intros w' Hn1 Hn2. apply amounts_ext; try done. intros a. specialize (Hel w' a). rewrite !elem_of_cons in Hel. naive_solver.
Qed.

End amounts.

(** ** Storing a book *)
Lemma pool_store (P : gmap N N) k (old new : book) : same_meta old new ->
  P !! k = (if is_active (bk old) then Some (k_counted (bk old)) else None) ->
  let P' := if negb (k_counted (bk old) =? k_counted (bk new)) && is_active (bk new) then <[k := k_counted (bk new)]> P else P in
  P' !! k = (if is_active (bk new) then Some (k_counted (bk new)) else None) /\ (forall k', k' <> k -> P' !! k' = P !! k') /\ size P' = size P.
Proof.
  intros (_ & _ & Hs) HP P'. assert (Ha : is_active (bk new) = is_active (bk old)) by (unfold is_active; by rewrite Hs).
  subst P'. rewrite Ha. destruct (is_active (bk old)); [|rewrite andb_false_r; done].
  rewrite andb_true_r. destruct (N.eqb_spec (k_counted (bk old)) (k_counted (bk new))) as [E|E]; cbn [negb].
  - rewrite HP, E. done.
  - rewrite lookup_insert. split; [done|]. split; [intros; by rewrite lookup_insert_ne|].
    rewrite map_size_insert, HP. done.
Qed.

Lemma inv_store s s' k old new :
  Inv c s -> s_cands s !! k = Some (bk old) -> s_top s !! k = Some (bt old) -> s_bot s !! k = Some (bb old) ->
  book_ok c new -> same_meta old new ->
  s_cands s' = <[k := bk new]> (s_cands s) -> s_top s' = <[k := bt new]> (s_top s) -> s_bot s' = <[k := bb new]> (s_bot s) ->
  s_pool s' = (if negb (k_counted (bk old) =? k_counted (bk new)) && is_active (bk new) then <[k := k_counted (bk new)]> (s_pool s) else s_pool s) ->
  s_col_lock s' = s_col_lock s -> s_free s' = s_free s -> s_held s' = s_held s -> s_min_nom s' = s_min_nom s -> era_part s' = era_part s ->
  cross c (fun k' w' => if k' =? k then amount_in w' (all_noms new) else E_of s k' w') (s_nominators s') (s_reqs s') (s_nom_lock s') ->
  (forall w m, s_nominators s' !! w = Some m -> s_cands s !! w = None /\ m_total m <= bal s w) ->
  s_total s' <= msum (fun _ x => k_bond x) (s_cands s) + msum (fun _ m => m_total m) (s_nominators s') ->
  Inv c s'.
Proof.
  intros H Hk Ht Hb Hok Hmeta E1 E2 E3 E4 E5 E6 E7 E8 E9 Hcr Hnn Htot.
  destruct (inv_book c s k _ H Hk) as (t0 & b0 & Ht0 & Hb0 & Hok0 & Hl & Hp & _).
  destruct (pool_store (s_pool s) k old new Hmeta Hp) as (Hp1 & Hp2 & Hp3). rewrite <- E4 in Hp1, Hp2, Hp3.
  assert (Hbal : forall a, bal s' a = bal s a) by (intros; unfold bal, free_of, held_of; by rewrite E6, E7).
  constructor.
  - intros k'. unfold cand_ok. rewrite E1, E2, E3, E5. destruct (N.eq_dec k' k) as [->|Hne].
    + rewrite !lookup_insert. exists (bt new), (bb new). split; [done|]. split; [done|]. split; [by destruct new|].
      pose proof (i_cand _ _ H k) as Hck. unfold cand_ok in Hck. rewrite Hk in Hck. destruct Hck as (_ & _ & _ & _ & _ & _ & _ & Hq).
      destruct Hmeta as (Hm1 & Hm2 & _). unfold req_ok in *. rewrite Hm1, Hm2. done.
    + rewrite !lookup_insert_ne, Hp2 by done. apply (i_cand _ _ H k').
  - rewrite Hp3. apply (i_size _ _ H).
  - eapply cross_ext; [exact Hcr|]. intros k' w'. unfold E_of at 1. rewrite E2, E3. destruct (N.eqb_spec k' k) as [->|Hne].
    + by rewrite !lookup_insert.
    + by rewrite !lookup_insert_ne.
  - intros w m Hm. destruct (Hnn w m Hm) as [Hw _]. rewrite E1. rewrite lookup_insert_ne; [done|]. intros ->. congruence.
  - intros w l0 Hl0. rewrite (cr_lock _ _ _ _ _ Hcr) in Hl0. destruct (s_nominators s' !! w) as [m|] eqn:Em; [|done].
    cbn in Hl0. injection Hl0 as <-. rewrite Hbal. by apply Hnn.
  - intros w l0. rewrite E5, Hbal. apply (i_clock _ _ H).
  - rewrite E6, E7. apply (i_bal _ _ H).
  - unfold staked. rewrite E1. pose proof (msum_insert (fun _ x => k_bond x) (s_cands s) k (bk new)) as Hi. rewrite Hk in Hi. cbn in Hi.
    destruct Hmeta as (Hbd & _). rewrite Hbd in Hi. lia.
  - rewrite E8. apply (i_min _ _ H).
  - apply (era_ext s); [done | apply (i_era _ _ H)].
  - apply (sel_ext s); [done | apply (i_sel _ _ H)].
Qed.

(** Changes of nominators and requests only. *)
Lemma inv_noms s s' :
  Inv c s -> s_cands s' = s_cands s -> s_top s' = s_top s -> s_bot s' = s_bot s -> s_pool s' = s_pool s ->
  s_col_lock s' = s_col_lock s -> s_free s' = s_free s -> s_held s' = s_held s -> c_min_per_collator c <= s_min_nom s' -> era_part s' = era_part s ->
  cross c (E_of s) (s_nominators s') (s_reqs s') (s_nom_lock s') ->
  (forall w m, s_nominators s' !! w = Some m -> s_cands s !! w = None /\ m_total m <= bal s w) ->
  s_total s' <= msum (fun _ x => k_bond x) (s_cands s) + msum (fun _ m => m_total m) (s_nominators s') ->
  Inv c s'.
Proof.
  intros H E1 E2 E3 E4 E5 E6 E7 E8 E9 Hcr Hnn Htot.
  assert (Hbal : forall a, bal s' a = bal s a) by (intros; unfold bal, free_of, held_of; by rewrite E6, E7).
  constructor; unfold staked; rewrite ?E1, ?E4, ?E5, ?E6, ?E7.
  - intros k'. unfold cand_ok. rewrite E1, E2, E3, E4, E5. apply (i_cand _ _ H k').
  - apply (i_size _ _ H).
  - eapply cross_ext; [exact Hcr|]. intros k' w'. unfold E_of. by rewrite E2, E3.
  - intros w m Hm. by apply (Hnn w m).
  - intros w l0 Hl0. rewrite (cr_lock _ _ _ _ _ Hcr) in Hl0. destruct (s_nominators s' !! w) as [m|] eqn:Em; [|done].
    cbn in Hl0. injection Hl0 as <-. rewrite Hbal. by apply Hnn.
  - intros w l0. rewrite Hbal. apply (i_clock _ _ H).
  - apply (i_bal _ _ H).
  - exact Htot.
  - exact E8.
  - apply (era_ext s); [done | apply (i_era _ _ H)].
  - apply (sel_ext s); [done | apply (i_sel _ _ H)].
Qed.

Lemma wp_load s k (Q : book -> st -> Prop) : Inv c s ->
  (forall x t b, s_cands s !! k = Some x -> s_top s !! k = Some t -> s_bot s !! k = Some b -> book_ok c (mkBook x t b) -> Q (mkBook x t b) s) ->
  wp (load k) Q s.
Proof.
  intros H HQ. unfold load. wp1. wp1. wp1. wp1. destruct (inv_book c s k a H Hsome) as (t & b & Ht & Hb & Hok & _).
  apply wp_bind. eapply wp_some; [exact Ht|]. apply wp_bind. eapply wp_some; [exact Hb|]. wp1. by apply HQ.
Qed.
Lemma wp_store s k old new (Q : unit -> st -> Prop) :
  Q tt (s <| s_cands := <[k := bk new]> (s_cands s) |> <| s_top := <[k := bt new]> (s_top s) |> <| s_bot := <[k := bb new]> (s_bot s) |>
          <| s_pool := if negb (k_counted (bk old) =? k_counted (bk new)) && is_active (bk new) then <[k := k_counted (bk new)]> (s_pool s) else s_pool s |>) ->
  wp (store k old new) Q s.
Proof. intros H. unfold store. wp1. wp1. destruct (_ && _); wps; exact H. Qed.

(** ** Requests *)
Lemma nom_facts s w m : Inv c s -> s_nominators s !! w = Some m -> s_cands s !! w = None /\ m_total m <= bal s w.
Proof. intros H Hm. split; [by eapply i_excl | by eapply nom_bal]. Qed.
Lemma msum_same_total (NN : gmap N nominator) w m m' : NN !! w = Some m -> m_total m' = m_total m ->
  msum (fun _ m => m_total m) (<[w := m']> NN) = msum (fun _ m => m_total m) NN.
Proof. intros Hm Ht. pose proof (msum_insert (fun _ m => m_total m) NN w m') as Hi. rewrite Hm in Hi. cbn in Hi. lia. Qed.
(** One request replaced. *)
Lemma inv_req s s' w k m l' m' :
  Inv c s -> s_nominators s !! w = Some m ->
  m_noms m' = m_noms m -> m_total m' = m_total m -> m_less m' + oamt (pend (s_reqs s) k w) = m_less m + oamt (find (of_nominator w) l') ->
  (forall w', w' <> w -> find (of_nominator w') l' = find (of_nominator w') (reqs_of s k)) ->
  NoDup (map r_who l') -> N.of_nat (length l') <= c_max_per_nominator c ->
  (forall r, find (of_nominator w) l' = Some r -> exists a, m_noms m !! k = Some a /\ act_ok c a (r_action r)) ->
  s' = s <| s_reqs := <[k := l']> (s_reqs s) |> <| s_nominators := <[w := m']> (s_nominators s) |> ->
  Inv c s'.
Proof.
  intros H Hm Hn Ht Hl Ho Hnd Hlen Hr ->. eapply (inv_noms s); try done; cbn.
  - apply (i_min _ _ H).
  - eapply cross_req; try done; [apply (i_cross _ _ H)|]. intros r Hr'. destruct (Hr r Hr') as (a & Ha & Hact). exists a. split; [|done].
    rewrite <- (cr_link _ _ _ _ _ (i_cross _ _ H)). unfold noms_of. rewrite Hm. done.
  - intros w' m2. destruct (N.eq_dec w' w) as [->|Hne].
    + rewrite lookup_insert. intros [= <-]. rewrite Ht. by apply nom_facts.
    + rewrite lookup_insert_ne by done. by apply nom_facts.
  - rewrite (msum_same_total _ w m m' Hm Ht). apply (i_total _ _ H).
Qed.
Lemma reqs_facts s k : Inv c s -> NoDup (map r_who (reqs_of s k)) /\ N.of_nat (length (reqs_of s k)) <= c_max_per_nominator c.
Proof. intros H. apply (cr_reqs _ _ _ _ _ (i_cross _ _ H)). Qed.
Lemma find_snoc_other w w' r l : r_who r = w -> w' <> w -> find (of_nominator w') (l ++ [r]) = find (of_nominator w') l.
Proof. intros. rewrite (find_other w) by done. by rewrite app_nil_r. Qed.
Lemma find_snoc w r (l : list req) : r_who r = w -> find (of_nominator w) l = None -> find (of_nominator w) (l ++ [r]) = Some r.
Proof. intros Hr Hn. rewrite find_app, Hn. cbn. unfold of_nominator. by rewrite (proj2 (N.eqb_eq _ _)). Qed.
Lemma nodup_snoc w r (l : list req) : r_who r = w -> NoDup (map r_who l) -> find (of_nominator w) l = None -> NoDup (map r_who (l ++ [r])).
Proof.
  intros Hr Hnd Hn. apply find_none_who in Hn. rewrite map_app. cbn. rewrite Hr. apply NoDup_app. split; [done|]. split; [|apply NoDup_singleton].
  intros x Hx. rewrite elem_of_list_singleton. intros ->. done.
Qed.
Lemma can_push_len l : can_push c l = true -> N.of_nat (length l) < c_max_per_nominator c.
Proof. unfold can_push. lia. Qed.
Lemma less_room s w m k a x : Inv c s -> s_nominators s !! w = Some m -> m_noms m !! k = Some a -> pend (s_reqs s) k w = None -> x <= a ->
  m_less m + x <= U128_MAX.
Proof.
  intros H Hm Ha Hp Hx. pose proof (i_cross _ _ H) as Hcr. destruct (cr_nom _ _ _ _ _ Hcr w m Hm) as (_ & _ & _ & Ht & Hl).
  assert (Hb : m_total m <= U128_MAX).
  { pose proof (staked_le c s H) as Hs. unfold staked in Hs. pose proof (msum_lookup_le (fun _ m => m_total m) _ _ _ Hm). cbn in *. lia. }
  enough (m_less m + a <= m_total m) by lia. rewrite Hl, Ht.
  rewrite (msum_delete (fun k _ => oamt (pend (s_reqs s) k w)) _ _ _ Ha), (msum_delete (fun _ a => a) _ _ _ Ha). rewrite Hp. cbn [oamt].
  enough (msum (fun k _ => oamt (pend (s_reqs s) k w)) (delete k (m_noms m)) <= msum (fun _ a => a) (delete k (m_noms m))) by lia.
  apply msum_le. intros k' a' Ha'. apply lookup_delete_Some in Ha' as [_ Ha'].
  pose proof (pend_le _ _ _ _ _ k' w Hcr) as Hq. rewrite <- (cr_link _ _ _ _ _ Hcr) in Hq. unfold noms_of in Hq. rewrite Hm in Hq. cbn in Hq.
  rewrite Ha' in Hq. exact Hq.
Qed.

Lemma schedule_revoke_ok s w k : Inv c s -> wp (schedule_revoke c w k) (fun _ s' => Inv c s') s.
Proof.
  intros H. unfold schedule_revoke. wps. destruct (reqs_facts s k H) as [Hnd Hlen].
  unfold request_exists in Hens. rewrite exists_find in Hens.
  destruct (find (of_nominator w) (reqs_of s k)) as [r|] eqn:Ef; [done|].
  destruct (can_push c (reqs_of s k)) eqn:Ep; wps; [|done]. unfold set_reqs, set_nominator. wps.
  apply can_push_len in Ep.
  pose proof (less_room s w a k a0 a0 H Hsome Hsome0 Ef ltac:(lia)) as Hroom.
  eapply (inv_req s _ w k a (reqs_of s k ++ [mkReq w (sat32 (s_era s) (s_delay s)) (Revoke a0)]) (a <| m_less := sat (m_less a) a0 |>)); try done.
  - unfold pend. fold (reqs_of s k). rewrite Ef, (find_snoc w) by done. cbn. unfold sat, saturating_add. lia.
  - intros w' Hw'. by apply (find_snoc_other w).
  - by apply (nodup_snoc w).
  - rewrite app_length. cbn. lia.
  - rewrite (find_snoc w) by done. intros r [= <-]. by exists a0.
Qed.
Lemma schedule_decrease_ok s w k less : Inv c s -> wp (schedule_decrease c w k less) (fun _ s' => Inv c s') s.
Proof.
  intros H. unfold schedule_decrease. wps. destruct (reqs_facts s k H) as [Hnd Hlen].
  unfold request_exists in Hens. rewrite exists_find in Hens.
  destruct (find (of_nominator w) (reqs_of s k)) as [r|] eqn:Ef; [done|].
  destruct (can_push c (reqs_of s k)) eqn:Ep; wps; [|done]. unfold set_reqs, set_nominator. wps.
  apply can_push_len in Ep.
  pose proof (less_room s w a k a0 less H Hsome Hsome0 Ef ltac:(lia)) as Hroom.
  eapply (inv_req s _ w k a (reqs_of s k ++ [mkReq w (sat32 (s_era s) (s_delay s)) (Decrease less)]) (a <| m_less := sat (m_less a) less |>)); try done.
  - unfold pend. fold (reqs_of s k). rewrite Ef, (find_snoc w) by done. cbn. unfold sat, saturating_add. lia.
  - intros w' Hw'. by apply (find_snoc_other w).
  - by apply (nodup_snoc w).
  - rewrite app_length. cbn. lia.
  - rewrite (find_snoc w) by done. intros r [= <-]. exists a0. split; [done|]. cbn. lia.
Qed.
Lemma less_ge s w m k : Inv c s -> s_nominators s !! w = Some m -> oamt (pend (s_reqs s) k w) <= m_less m.
Proof.
  intros H Hm. pose proof (i_cross _ _ H) as Hcr. destruct (cr_nom _ _ _ _ _ Hcr w m Hm) as (_ & _ & _ & _ & ->).
  destruct (pend (s_reqs s) k w) as [r|] eqn:Er; [|cbn; lia]. destruct (cr_req _ _ _ _ _ Hcr k w r Er) as (a & Ha & _).
  rewrite <- (cr_link _ _ _ _ _ Hcr) in Ha. unfold noms_of in Ha. rewrite Hm in Ha. cbn in Ha.
  pose proof (msum_lookup_le (fun k _ => oamt (pend (s_reqs s) k w)) _ _ _ Ha) as Hx. cbn in Hx. by rewrite Er in Hx.
Qed.
Lemma cancel_request_ok s w k : Inv c s -> wp (cancel_request w k) (fun _ s' => Inv c s') s.
Proof.
  intros H. unfold cancel_request. wp1. wp1. wp1. wp1. wp1. wp1. destruct a0 as [r l]. unfold set_reqs, set_nominator. wps.
  destruct (reqs_facts s k H) as [Hnd Hlen]. destruct (take_req_spec w _ r l Hnd Hsome0) as (Hr & Hf & Hn & Ho & Hnd' & Hl).
  pose proof (less_ge s w a k H Hsome) as Hg. unfold pend in Hg. fold (reqs_of s k) in Hg. rewrite Hf in Hg. cbn in Hg.
  eapply (inv_req s _ w k a l (a <| m_less := saturating_sub (m_less a) (action_amount (r_action r)) |>)); try done.
  - unfold pend. fold (reqs_of s k). rewrite Hf, Hn. cbn. unfold saturating_sub. lia.
  - lia.
  - rewrite Hn. done.
Qed.

End ops.
