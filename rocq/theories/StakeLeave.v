(** Executing requests, and leaving: the invariant is kept and nothing panics. *)
From Verif Require Import Base BaseLemmas CodecModel SigModel StakeModel StakeSpec StakeBook StakeCross StakeInv StakeOps StakeNom.

Section leave.
Variable c : config.
Hypothesis Hc : config_ok c.

(** The nomination of [w] for [k] disappears from the whole state. *)
Lemma inv_remove s s' k w a m x t b new :
  Inv c s -> s_nominators s !! w = Some m -> m_noms m !! k = Some a ->
  s_cands s !! k = Some x -> s_top s !! k = Some t -> s_bot s !! k = Some b ->
  book_ok c new -> same_meta (mkBook x t b) new -> (w, a) :: all_noms new ≡ₚ all_noms (mkBook x t b) ->
  s_cands s' = <[k := bk new]> (s_cands s) -> s_top s' = <[k := bt new]> (s_top s) -> s_bot s' = <[k := bb new]> (s_bot s) ->
  s_pool s' = (if negb (k_counted x =? k_counted (bk new)) && is_active (bk new) then <[k := k_counted (bk new)]> (s_pool s) else s_pool s) ->
  s_col_lock s' = s_col_lock s -> s_free s' = s_free s -> s_held s' = s_held s -> s_min_nom s' = s_min_nom s -> era_part s' = era_part s ->
  s_nominators s' = drop_nom k w a (pend (s_reqs s) k w) (s_nominators s) -> s_reqs s' = drop_req k w (s_reqs s) ->
  s_nom_lock s' = drop_lock w (m_total m - a) (s_nom_lock s) ->
  s_total s' = saturating_sub (s_total s) a -> Inv c s'.
Proof.
  intros H Hm Ha Hx Ht Hb Hok Hmeta HP E1 E2 E3 E4 E5 E6 E7 E8 E9 E10 E11 E12 Htot.
  destruct (nom_cand c s w m k a H Hm Ha) as (x' & t' & b' & Hx' & Ht' & Hb' & Hok0 & Hin & Hnd & HE & Hea & _).
  rewrite Hx in Hx'. rewrite Ht in Ht'. rewrite Hb in Hb'. injection Hx' as <-. injection Ht' as <-. injection Hb' as <-.
  destruct (removed_amounts w a _ _ HP Hnd) as (Hnd' & Ha1 & Ha0 & Ha2).
  destruct (cross_remove c Hc _ _ _ _ k w a m (i_cross _ _ H) Hm Hea) as (Hcr & Hsum & Hoth & Hle & _).
  eapply (inv_store c s s' k (mkBook x t b) new H); try done; rewrite ?E10, ?E11, ?E12.
  - eapply cross_ext; [exact Hcr|]. intros k' w'. unfold E_rm. destruct (N.eqb_spec k' k) as [->|Hk']; cbn; [|done].
    destruct (N.eqb_spec w' w) as [->|Hw']; [done|]. rewrite HE. by apply Ha2.
  - intros w' m2 Em2. destruct (Hle _ _ Em2) as (m0 & Em0 & Hle0). destruct (nom_facts c s w' m0 H Em0) as [F1 F2]. split; [done|lia].
  - pose proof (i_total _ _ H) as Hto2. unfold staked in Hto2. rewrite Htot. unfold saturating_sub. lia.
Qed.

Lemma drop_req_take k w R r l : take_req (of_nominator w) (mget [] k R) = Some (r, l) -> drop_req k w R = <[k := l]> R /\ pend R k w = Some r.
Proof. intros E. unfold drop_req, pend. rewrite E. split; [done|]. by eapply take_req_find. Qed.

Lemma execute_request_ok s w k : Inv c s -> wp (execute_request c w k) (fun _ s' => Inv c s') s.
Proof.
  intros H. pose proof (i_cross _ _ H) as Hcr. unfold execute_request. wp1. wp1. wp1. wp1. wp1. wp1. destruct a0 as [r l]. wp1. wp1.
  rename a into m, Hsome into Hm, Hsome0 into Htk.
  destruct (drop_req_take k w _ r l Htk) as [Hdr Hpe].
  destruct (cr_req _ _ _ _ _ Hcr k w r Hpe) as (a & Hea & Hact).
  assert (Ha : m_noms m !! k = Some a). { rewrite <- (cr_link _ _ _ _ _ Hcr) in Hea. unfold noms_of in Hea. by rewrite Hm in Hea. }
  destruct (nom_cand c s w m k a H Hm Ha) as (x & t & b & Hx & Ht & Hb & Hok & Hin & Hnd & HE & _ & Hfit & Hmin & Hat & Hw & Hkw).
  destruct (cross_remove c Hc _ _ _ _ k w a m Hcr Hm Hea) as (_ & _ & _ & _ & _ & _ & Hgl & Hz & Hsz). rewrite Hpe in Hgl. cbn in Hgl.
  destruct (cr_reqs _ _ _ _ _ Hcr k) as [Hrnd Hrlen]. destruct (take_req_spec w _ r l Hrnd Htk) as (Hrw & _ & Hn & Ho & Hnd' & Hlen).
  destruct (r_action r) as [amount|amount] eqn:Er; cbn in Hact.
  - subst amount. wps. unfold rm_nomination. cbn [m_noms m_total]. change (m_noms (m <| m_less := saturating_sub (m_less m) (action_amount (Revoke a)) |>)) with (m_noms m).
    rewrite Ha. unfold set_nom_lock. wps. unfold nominator_leaves_candidate. wp1. apply (wp_load_eq _ k x t b); [done..|]. wps.
    destruct (rm_nomination_ok c Hc w a (mkBook x t b) Hok Hfit Hin) as (new & -> & Hok' & Hmeta & HP).
    unfold sub_total. wps. apply wp_store. unfold set_reqs, del_nominator, set_nominator. wps.
    assert (HNN : drop_nom k w a (pend (s_reqs s) k w) (s_nominators s) =
       if N.of_nat (size (m_noms m)) =? 1 then delete w (s_nominators s)
       else <[w := mkNominator (delete k (m_noms m)) (m_total m - a) (m_less m - a)]> (s_nominators s)).
    { unfold drop_nom. rewrite Hm, Hpe. cbn. rewrite Er. cbn. destruct (decide _) as [Hd|Hd].
      - by rewrite (proj2 (N.eqb_eq _ _)) by (by apply Hsz).
      - rewrite (proj2 (N.eqb_neq _ _)); [done|]. intros Hq. apply Hd. by apply Hsz. }
    assert (HL : (if saturating_sub (m_total m) a =? 0 then delete w (s_nom_lock s) else <[w:=saturating_sub (m_total m) a]> (s_nom_lock s)) =
        drop_lock w (m_total m - a) (s_nom_lock s)) by done.
    destruct (N.of_nat (size (m_noms m)) =? 1) eqn:E1; wps.
    + eapply (inv_remove s _ k w a m x t b new H); try done.
    + eapply (inv_remove s _ k w a m x t b new H); try done.
  - wp1. eapply wp_some; [exact Ha|]. wp1. wp1. wp1. apply (wp_load_eq _ k x t b); [done..|]. wps. unfold set_nom_lock. wps.
    destruct (decrease_ok c Hc w a amount (mkBook x t b) Hok Hin Hfit ltac:(lia)) as (new & -> & Hok' & Hmeta & HP).
    wp1. apply wp_store. unfold sub_total, set_reqs, set_nominator. wps. cbn.
    unfold saturating_sub in *. destruct Hc as (_ & _ & _ & Hc4).
    assert (Hz2 : m_total m - amount =? 0 = false) by lia. rewrite Hz2.
    eapply (inv_change c s _ k w a (a - amount) m (m <| m_less := m_less m - amount |> <| m_noms := <[k := a - amount]> (m_noms m) |> <| m_total := m_total m - amount |>)); try done.
    + lia.
    + cbn. lia.
    + cbn. destruct (nom_facts c s w m H Hm). lia.
    + cbn. rewrite pend_insert, decide_True, Hn, Hpe by done. cbn. rewrite Er in *. cbn in *. lia.
    + cbn. intros k' w' Hne. rewrite pend_insert. destruct (decide (k' = k)) as [->|]; [|done]. apply Ho. congruence.
    + cbn. rewrite pend_insert, decide_True, Hn by done. done.
    + cbn. intros k'. rewrite mget_insert_reqs. destruct (decide (k' = k)) as [->|]; [|apply (cr_reqs _ _ _ _ _ Hcr)].
      split; [done|]. lia.
    + cbn. destruct (N.le_gt_cases amount (s_total s)); [left; lia | right; lia].
Qed.


(** ** Keys of ordered sets *)
Lemma keys_elem {V} (m : gmap N V) k : k ∈ keys m <-> is_Some (m !! k).
Proof.
  unfold keys. rewrite (merge_sort_Permutation N.le). rewrite elem_of_list_fmap. split.
  - intros ([k' v] & -> & Hin). apply elem_of_map_to_list in Hin. eauto.
  - intros [v Hv]. exists (k, v). split; [done|]. by apply elem_of_map_to_list.
Qed.
Lemma keys_nodup {V} (m : gmap N V) : NoDup (keys m).
Proof. unfold keys. rewrite (merge_sort_Permutation N.le). apply NoDup_fst_map_to_list. Qed.
Lemma keys_length {V} (m : gmap N V) : length (keys m) = size m.
Proof. unfold keys. rewrite (merge_sort_Permutation N.le). by rewrite map_length. Qed.
Lemma nom_list_fst m : map fst (nom_list m) = keys (m_noms m).
Proof. unfold nom_list. rewrite map_map. cbn. apply map_id. Qed.
Lemma nom_list_elem m k a : (k, a) ∈ nom_list m <-> m_noms m !! k = Some a.
Proof.
  unfold nom_list. rewrite elem_of_list_fmap. split.
  - intros (k' & [= -> ->] & Hk). apply keys_elem in Hk as [v Hv]. unfold mget. by rewrite Hv.
  - intros Ha. exists k. split; [unfold mget; by rewrite Ha|]. apply keys_elem. eauto.
Qed.

(** ** Revoking everything *)
Definition wr (out : list (N * list req)) (R : gmap N (list req)) : gmap N (list req) := fold_left (fun acc x => <[x.1 := x.2]> acc) out R.
Lemma wr_other out R k : k ∉ map fst out -> mget [] k (wr out R) = mget [] k R.
Proof.
  revert R. induction out as [|[k' l] out IH]; intros R Hk; cbn in *; [done|]. apply not_elem_of_cons in Hk as [H1 H2].
  rewrite IH by done. by rewrite mget_insert_reqs, decide_False.
Qed.
Lemma wr_snoc out R k l : wr (out ++ [(k, l)]) R = <[k := l]> (wr out R).
Proof. unfold wr. by rewrite fold_left_app. Qed.
Lemma cross_less_room E NN R L w m k a : cross c E NN R L -> NN !! w = Some m -> E k w = Some a ->
  oamt (pend R k w) <= m_less m /\ m_less m - oamt (pend R k w) + a <= m_total m.
Proof.
  intros Hcr Hm He. destruct (cr_nom _ _ _ _ _ Hcr w m Hm) as (_ & _ & _ & Ht & Hl).
  assert (Ha : m_noms m !! k = Some a). { rewrite <- (cr_link _ _ _ _ _ Hcr) in He. unfold noms_of in He. by rewrite Hm in He. }
  rewrite Hl, Ht.
  rewrite (msum_delete (fun k _ => oamt (pend R k w)) _ _ _ Ha), (msum_delete (fun _ a => a) _ _ _ Ha).
  enough (msum (fun k _ => oamt (pend R k w)) (delete k (m_noms m)) <= msum (fun _ a => a) (delete k (m_noms m))) by lia.
  apply msum_le. intros k' a' Ha'. apply lookup_delete_Some in Ha' as [_ Ha'].
  pose proof (pend_le _ _ _ _ _ k' w Hcr) as Hq. rewrite <- (cr_link _ _ _ _ _ Hcr) in Hq. unfold noms_of in Hq. rewrite Hm in Hq. cbn in Hq.
  rewrite Ha' in Hq. exact Hq.
Qed.

Lemma revoke_all_fold s w when E NN L l m0 e out :
  cross c E (<[w := m0]> NN) (wr out (s_reqs s)) L -> m_total m0 <= U128_MAX -> NoDup (map fst l) -> (forall k, k ∈ map fst l -> k ∉ map fst out) ->
  (forall k a, (k, a) ∈ l -> E k w = Some a) ->
  let '(m', _, out') := fold_left (revoke_all_step c s w when) l (m0, e, out) in
  cross c E (<[w := m']> NN) (wr out' (s_reqs s)) L /\ m_total m' = m_total m0 /\ m_noms m' = m_noms m0.
Proof.
  revert m0 e out. induction l as [|[k a] l IH]; intros m0 e out Hcr Hto Hnd Hout HE; [done|].
  cbn [fold_left]. cbn [map fst] in Hnd. apply NoDup_cons in Hnd as [Hk Hnd].
  pose proof (HE k a ltac:(left)) as Hea. pose proof (wr_other out (s_reqs s) k (Hout k ltac:(left))) as Hwr.
  destruct (cross_less_room _ _ _ _ w m0 k a Hcr (lookup_insert _ _ _) Hea) as [Hg Hroom].
  destruct (cr_reqs _ _ _ _ _ Hcr k) as [Hrnd Hrlen]. rewrite Hwr in Hrnd, Hrlen.
  assert (Hnext : forall (l' : list req) m1, m_noms m1 = m_noms m0 -> m_total m1 = m_total m0 ->
     m_less m1 + oamt (pend (wr out (s_reqs s)) k w) = m_less m0 + oamt (find (of_nominator w) l') ->
     (forall w', w' <> w -> find (of_nominator w') l' = find (of_nominator w') (mget [] k (s_reqs s))) ->
     NoDup (map r_who l') -> N.of_nat (length l') <= c_max_per_nominator c ->
     (forall r, find (of_nominator w) l' = Some r -> act_ok c a (r_action r)) ->
     cross c E (<[w := m1]> NN) (wr (out ++ [(k, l')]) (s_reqs s)) L).
  { intros l' m1 H1 H2 H3 H4 H5 H6 H7. rewrite wr_snoc.
    rewrite <- (insert_insert NN w m1 m0).
    eapply (cross_req c E (<[w := m0]> NN) (wr out (s_reqs s)) L w k m0 l' m1 Hcr); try done.
    - apply lookup_insert.
    - intros w' Hw'. rewrite Hwr. by apply H4.
    - intros r Hr. exists a. split; [done|]. by apply H7. }
  assert (Hpd : pend (wr out (s_reqs s)) k w = find (of_nominator w) (reqs_of s k)) by (unfold pend; by rewrite Hwr).
  assert (Hstep : exists m1 e1 out1, revoke_all_step c s w when (m0, e, out) (k, a) = (m1, e1, out1) /\
     cross c E (<[w := m1]> NN) (wr out1 (s_reqs s)) L /\ m_total m1 = m_total m0 /\ m_noms m1 = m_noms m0 /\ (forall k', k' ∈ map fst out1 -> k' ∈ map fst out \/ k' = k)).
  { assert (Hin1 : forall (l' : list req) k', k' ∈ map fst (out ++ [(k, l')]) -> k' ∈ map fst out \/ k' = k).
    { intros l' k'. rewrite map_app, elem_of_app. cbn. rewrite elem_of_list_singleton. done. }
    unfold revoke_all_step. fold (reqs_of s k) in Hrnd, Hrlen.
    destruct (take_req (of_nominator w) (reqs_of s k)) as [[r l']|] eqn:Et.
    - destruct (take_req_spec w _ r l' Hrnd Et) as (Hrw & Hf & Hn & Ho & Hnd' & Hlen).
      rewrite Hf in Hpd. rewrite Hpd in Hg, Hroom. cbn in Hg, Hroom.
      assert (Hpush : can_push c l' = true) by (unfold can_push; lia). rewrite Hpush.
      destruct (is_revoke (r_action r)) eqn:Erv.
      + assert (Hpw : pend (wr out (s_reqs s)) k w = Some r) by exact Hpd.
        destruct (cr_req _ _ _ _ _ Hcr k w r Hpw) as (a2 & Ea2 & Hact). rewrite Hea in Ea2. injection Ea2 as <-.
        destruct (r_action r) as [y|y] eqn:Er; [|done]. cbn in Hact. subst y. cbn in *.
        eexists _, _, _. split; [done|]. split; [|split; [done|split; [done|apply Hin1]]].
        apply Hnext; try done.
        * rewrite Hpd, (find_snoc w) by done. cbn. rewrite Er. cbn. unfold saturating_sub, sat, saturating_add. lia.
        * intros w' Hw'. rewrite (find_snoc_other w) by done. by apply Ho.
        * by apply (nodup_snoc w).
        * rewrite app_length. cbn. lia.
        * rewrite (find_snoc w) by done. intros r' [= <-]. by rewrite Er.
      + eexists _, _, _. split; [done|]. split; [|split; [done|split; [done|apply Hin1]]].
        apply Hnext; try done.
        * rewrite Hpd, (find_snoc w) by done. cbn. unfold saturating_sub, sat, saturating_add. lia.
        * intros w' Hw'. rewrite (find_snoc_other w) by done. by apply Ho.
        * by apply (nodup_snoc w).
        * rewrite app_length. cbn. lia.
        * rewrite (find_snoc w) by done. by intros r' [= <-].
    - apply take_req_none in Et. rewrite Et in Hpd. rewrite Hpd in Hg, Hroom. cbn in Hg, Hroom.
      destruct (can_push c (reqs_of s k)) eqn:Ep.
      + eexists _, _, _. split; [done|]. split; [|split; [done|split; [done|apply Hin1]]]. apply (can_push_len c) in Ep.
        apply Hnext; try done.
        * rewrite Hpd, (find_snoc w) by done. cbn. unfold saturating_sub, sat, saturating_add. lia.
        * intros w' Hw'. by rewrite (find_snoc_other w) by done.
        * by apply (nodup_snoc w).
        * rewrite app_length. cbn. lia.
        * rewrite (find_snoc w) by done. by intros r' [= <-].
      + eexists _, _, _. split; [done|]. split; [done|split; [done|split; [done|by left]]]. }
  destruct Hstep as (m1 & e1 & out1 & -> & Hcr1 & Ht1 & Hn1 & Hout1).
  specialize (IH m1 e1 out1 Hcr1 ltac:(lia) Hnd).
  destruct (fold_left (revoke_all_step c s w when) l (m1, e1, out1)) as [[m2 e2] out2].
  destruct IH as (H1 & H2 & H3).
  - intros k' Hk' Hin. apply Hout1 in Hin as [Hin|Hin]; [|by subst]. apply (Hout k'); [by right | done].
  - intros k' a' Hin. apply HE. by right.
  - split; [done|]. split; congruence.
Qed.

Lemma total_u128 s w m : Inv c s -> s_nominators s !! w = Some m -> m_total m <= U128_MAX.
Proof.
  intros H Hm. pose proof (staked_le c s H) as Hs. unfold staked in Hs. pose proof (msum_lookup_le (fun _ m => m_total m) _ _ _ Hm). cbn in *. lia.
Qed.
(** Only the requests and the pending amount of a nominator changed. *)
Lemma inv_reqs s w m m' R' : Inv c s -> s_nominators s !! w = Some m -> m_total m' = m_total m ->
  cross c (E_of s) (<[w := m']> (s_nominators s)) R' (s_nom_lock s) ->
  Inv c (s <| s_reqs := R' |> <| s_nominators := <[w := m']> (s_nominators s) |>).
Proof.
  intros H Hm Ht Hcr. eapply (inv_noms c s); try done; cbn.
  - apply (i_min _ _ H).
  - intros w' m2. destruct (N.eq_dec w' w) as [->|Hne].
    + rewrite lookup_insert. intros [= <-]. rewrite Ht. by apply (nom_facts c).
    + rewrite lookup_insert_ne by done. intros. by apply (nom_facts c).
  - rewrite (msum_same_total _ w m m' Hm Ht). apply (i_total _ _ H).
Qed.
Lemma noms_E s w m k a : Inv c s -> s_nominators s !! w = Some m -> m_noms m !! k = Some a -> E_of s k w = Some a.
Proof. intros H Hm Ha. rewrite <- (cr_link _ _ _ _ _ (i_cross _ _ H)). unfold noms_of. by rewrite Hm. Qed.
Lemma schedule_revoke_all_ok s w : Inv c s -> wp (schedule_revoke_all c w) (fun _ s' => Inv c s') s.
Proof.
  intros H. pose proof (i_cross _ _ H) as Hcr. unfold schedule_revoke_all. wps. rename a into m, Hsome into Hm.
  pose proof (revoke_all_fold s w (sat32 (s_era s) (s_delay s)) (E_of s) (s_nominators s) (s_nom_lock s) (nom_list m) m 0 []) as Hf.
  destruct (fold_left _ _ _) as [[m' e] out]. destruct Hf as (H1 & H2 & H3).
  - cbn. by rewrite insert_id.
  - by eapply total_u128.
  - rewrite nom_list_fst. apply keys_nodup.
  - intros k _. apply not_elem_of_nil.
  - intros k a Hin. apply nom_list_elem in Hin. by eapply noms_E.
  - wps. unfold write_reqs, set_nominator. wps. cbn. by eapply (inv_reqs s w m m').
Qed.

Lemma cancel_all_fold s w E NN L l m0 out :
  cross c E (<[w := m0]> NN) (wr out (s_reqs s)) L -> NoDup l -> (forall k, k ∈ l -> k ∉ map fst out) ->
  let '(m', out') := fold_left (cancel_all_step s w) l (m0, out) in
  cross c E (<[w := m']> NN) (wr out' (s_reqs s)) L /\ m_total m' = m_total m0 /\ m_noms m' = m_noms m0.
Proof.
  revert m0 out. induction l as [|k l IH]; intros m0 out Hcr Hnd Hout; [done|].
  cbn [fold_left]. apply NoDup_cons in Hnd as [Hk Hnd].
  pose proof (wr_other out (s_reqs s) k (Hout k ltac:(left))) as Hwr.
  destruct (cr_reqs _ _ _ _ _ Hcr k) as [Hrnd Hrlen]. rewrite Hwr in Hrnd, Hrlen. fold (reqs_of s k) in Hrnd, Hrlen.
  assert (Hpd : pend (wr out (s_reqs s)) k w = find (of_nominator w) (reqs_of s k)) by (unfold pend; by rewrite Hwr).
  assert (Hstep : exists m1 l', cancel_all_step s w (m0, out) k = (m1, out ++ [(k, l')]) /\
     cross c E (<[w := m1]> NN) (wr (out ++ [(k, l')]) (s_reqs s)) L /\ m_total m1 = m_total m0 /\ m_noms m1 = m_noms m0).
  { unfold cancel_all_step. destruct (take_req (of_nominator w) (reqs_of s k)) as [[r l']|] eqn:Et.
    - destruct (take_req_spec w _ r l' Hrnd Et) as (Hrw & Hf & Hn & Ho & Hnd' & Hlen). rewrite Hf in Hpd.
      assert (Hg : oamt (pend (wr out (s_reqs s)) k w) <= m_less m0).
      { destruct (cr_req _ _ _ _ _ Hcr k w r Hpd) as (a & Ha & _).
        by destruct (cross_less_room _ _ _ _ w m0 k a Hcr (lookup_insert _ _ _) Ha). }
      rewrite Hpd in Hg. cbn in Hg.
      eexists _, l'. split; [done|]. split; [|done]. rewrite wr_snoc. rewrite <- (insert_insert NN w _ m0).
      eapply (cross_req c E _ _ L w k m0 l' _ Hcr); try done.
      + apply lookup_insert.
      + rewrite Hpd, Hn. cbn. unfold saturating_sub. lia.
      + intros w' Hw'. rewrite Hwr. by apply Ho.
      + lia.
      + rewrite Hn. done.
    - apply take_req_none in Et. rewrite Et in Hpd.
      eexists _, _. split; [done|]. split; [|done]. rewrite wr_snoc. rewrite <- (insert_insert NN w _ m0).
      eapply (cross_req c E _ _ L w k m0 _ _ Hcr); try done.
      + apply lookup_insert.
      + rewrite Hpd, Et. done.
      + intros w' Hw'. by rewrite Hwr.
      + rewrite Et. done. }
  destruct Hstep as (m1 & l' & -> & Hcr1 & Ht1 & Hn1).
  specialize (IH m1 (out ++ [(k, l')]) Hcr1 Hnd).
  destruct (fold_left (cancel_all_step s w) l (m1, out ++ [(k, l')])) as [m2 out2]. destruct IH as (H1 & H2 & H3).
  - intros k' Hk'. rewrite map_app, elem_of_app. cbn. rewrite elem_of_list_singleton. intros [Hin|Hin]; [|by subst].
    apply (Hout k'); [by right | done].
  - split; [done|]. split; congruence.
Qed.
Lemma cancel_revoke_all_ok s w : Inv c s -> wp (cancel_revoke_all w) (fun _ s' => Inv c s') s.
Proof.
  intros H. pose proof (i_cross _ _ H) as Hcr. unfold cancel_revoke_all. wps. rename a into m, Hsome into Hm.
  pose proof (cancel_all_fold s w (E_of s) (s_nominators s) (s_nom_lock s) (keys (m_noms m)) m []) as Hf.
  destruct (fold_left _ _ _) as [m' out]. destruct Hf as (H1 & H2 & H3).
  - cbn. by rewrite insert_id.
  - apply keys_nodup.
  - intros k _. apply not_elem_of_nil.
  - wps. unfold write_reqs, set_nominator. wps. cbn. by eapply (inv_reqs s w m m').
Qed.

End leave.
