(** Calls of candidates, selection and administration: the invariant is kept and nothing panics. *)
From Verif Require Import Base BaseLemmas CodecModel SigModel StakeModel StakeSpec StakeBook StakeCross StakeInv StakeOps StakeNom StakeLeave StakeExit.

Section cand.
Variable c : config.
Hypothesis Hc : config_ok c.

Lemma book_same x x' t b : book_ok c (mkBook x t b) -> k_count x' = k_count x -> k_counted x' = k_bond x' + lsum (n_list t) ->
  k_low_top x' = k_low_top x -> k_high_bot x' = k_high_bot x -> k_low_bot x' = k_low_bot x -> k_top_cap x' = k_top_cap x -> k_bot_cap x' = k_bot_cap x ->
  book_ok c (mkBook x' t b).
Proof. intros [] ? ? ? ? ? ? ?. constructor; unfold all_noms in *; cbn [bk bt bb] in *; try congruence; try done. Qed.

(** Only one existing candidate changed. *)
Lemma inv_cand s s' k x x' :
  Inv c s -> s_cands s !! k = Some x -> s_cands s' = <[k := x']> (s_cands s) -> s_top s' = s_top s -> s_bot s' = s_bot s ->
  k_count x' = k_count x -> k_counted x' + k_bond x = k_counted x + k_bond x' ->
  k_low_top x' = k_low_top x -> k_high_bot x' = k_high_bot x -> k_low_bot x' = k_low_bot x -> k_top_cap x' = k_top_cap x -> k_bot_cap x' = k_bot_cap x ->
  s_pool s' !! k = (if is_active x' then Some (k_counted x') else None) -> (forall k', k' <> k -> s_pool s' !! k' = s_pool s !! k') ->
  N.of_nat (size (s_pool s')) <= c_max_cands c ->
  s_col_lock s' !! k = Some (k_bond x') -> (forall k', k' <> k -> s_col_lock s' !! k' = s_col_lock s !! k') -> k_bond x' <= bal s k -> req_ok x' ->
  s_nominators s' = s_nominators s -> s_reqs s' = s_reqs s -> s_nom_lock s' = s_nom_lock s -> s_free s' = s_free s -> s_held s' = s_held s ->
  s_min_nom s' = s_min_nom s -> era_part s' = era_part s ->
  s_total s' + k_bond x <= s_total s + k_bond x' \/ s_total s' = 0 -> Inv c s'.
Proof.
  intros H Hx E1 E2 E3 B1 B2 B3 B4 B5 B6 B7 P1 P2 P3 L1 L2 L3 L4 E4 E5 E6 E7 E8 E9 E10 Ht.
  assert (Hbal : forall a, bal s' a = bal s a) by (intros; unfold bal, free_of, held_of; by rewrite E7, E8).
  constructor.
  - intros k'. unfold cand_ok. rewrite E1, E2, E3. destruct (N.eq_dec k' k) as [->|Hne].
    + rewrite lookup_insert. destruct (inv_book c s k x H Hx) as (t & b & Htt & Hbb & Hok & _). exists t, b.
      split; [done|]. split; [done|]. split; [|done]. eapply (book_same x); try done.
      pose proof (bo_counted _ _ Hok) as Hct. cbn in Hct. lia.
    + rewrite lookup_insert_ne, P2, L2 by done. apply (i_cand _ _ H k').
  - exact P3.
  - rewrite E4, E5, E6. eapply cross_ext; [apply (i_cross _ _ H)|]. intros k' w'. unfold E_of. by rewrite E2, E3.
  - intros w m. rewrite E4, E1. intros Hm. pose proof (i_excl _ _ H w m Hm) as Hw. rewrite lookup_insert_ne; [done|]. congruence.
  - intros w l. rewrite E6, Hbal. apply (i_nlock _ _ H).
  - intros w l. rewrite Hbal. destruct (N.eq_dec w k) as [->|Hne]; [rewrite L1; by intros [= <-]|]. rewrite L2 by done. apply (i_clock _ _ H).
  - rewrite E7, E8. apply (i_bal _ _ H).
  - unfold staked. rewrite E1, E4. pose proof (msum_insert (fun _ x => k_bond x) (s_cands s) k x') as Hi. rewrite Hx in Hi. cbn in Hi.
    pose proof (i_total _ _ H) as Hto. unfold staked in Hto. lia.
  - rewrite E9. apply (i_min _ _ H).
  - apply (era_ext s); [done | apply (i_era _ _ H)].
  - apply (sel_ext s); [done | apply (i_sel _ _ H)].
Qed.

Lemma inv_pool s k x : Inv c s -> s_cands s !! k = Some x -> s_pool s !! k = (if is_active x then Some (k_counted x) else None) /\
  s_col_lock s !! k = Some (k_bond x) /\ k_bond x <= bal s k.
Proof.
  intros H Hx. destruct (inv_book c s k x H Hx) as (t & b & _ & _ & _ & Hl & Hp & _). split; [done|]. split; [done|]. by eapply cand_bal.
Qed.
Lemma inv_req_ok s k x : Inv c s -> s_cands s !! k = Some x -> req_ok x.
Proof. intros H Hx. pose proof (i_cand _ _ H k) as Hck. unfold cand_ok in Hck. rewrite Hx in Hck. by destruct Hck as (_ & _ & _ & _ & _ & _ & _ & Hq). Qed.
Lemma size_insert_le (m : gmap N N) k v n : N.of_nat (size m) < n -> N.of_nat (size (<[k := v]> m)) <= n.
Proof. intros H. rewrite map_size_insert. destruct (m !! k); cbn; lia. Qed.
Lemma size_delete_le (m : gmap N N) k n : N.of_nat (size m) <= n -> N.of_nat (size (delete k m)) <= n.
Proof. intros H. rewrite map_size_delete. destruct (m !! k); cbn; lia. Qed.
Lemma size_replace (m : gmap N N) k v v' : m !! k = Some v -> size (<[k := v']> m) = size m.
Proof. intros H. rewrite map_size_insert, H. done. Qed.

Lemma schedule_leave_ok s k hint : Inv c s -> wp (schedule_leave_candidates k hint) (fun _ s' => Inv c s') s.
Proof.
  intros H. unfold schedule_leave_candidates, pool_remove, put_cand. wps. destruct (inv_pool s k a H Hsome) as (Hp & Hl & Hb). pose proof (inv_req_ok s k a H Hsome) as Hq.
  eapply (inv_cand s _ k a); try done; cbn.
  - by rewrite lookup_delete.
  - intros k' Hne. by rewrite lookup_delete_ne.
  - apply size_delete_le. apply (i_size _ _ H).
  - left. lia.
Qed.
Lemma go_offline_ok s k : Inv c s -> wp (go_offline k) (fun _ s' => Inv c s') s.
Proof.
  intros H. unfold go_offline, pool_remove, put_cand. wps. destruct (inv_pool s k a H Hsome) as (Hp & Hl & Hb). pose proof (inv_req_ok s k a H Hsome) as Hq.
  eapply (inv_cand s _ k a); try done; cbn.
  - by rewrite lookup_delete.
  - intros k' Hne. by rewrite lookup_delete_ne.
  - apply size_delete_le. apply (i_size _ _ H).
  - left. lia.
Qed.
Lemma back_ok s k x : Inv c s -> s_cands s !! k = Some x -> N.of_nat (size (s_pool s)) < c_max_cands c ->
  Inv c (s <| s_pool := <[k := k_counted x]> (s_pool s) |> <| s_cands := <[k := x <| k_status := Active |>]> (s_cands s) |>).
Proof.
  intros H Hx Hs. destruct (inv_pool s k x H Hx) as (Hp & Hl & Hb). pose proof (inv_req_ok s k x H Hx) as Hq.
  eapply (inv_cand s _ k x); try done; cbn.
  - by rewrite lookup_insert.
  - intros k' Hne. by rewrite lookup_insert_ne.
  - by apply size_insert_le.
  - left. lia.
Qed.
Lemma cancel_leave_ok s k hint : Inv c s -> wp (cancel_leave_candidates c k hint) (fun _ s' => Inv c s') s.
Proof.
  intros H. unfold cancel_leave_candidates, pool_insert, update_active, put_cand. wps. apply (back_ok s k a H Hsome). lia.
Qed.
Lemma go_online_ok s k : Inv c s -> wp (go_online c k) (fun _ s' => Inv c s') s.
Proof.
  intros H. unfold go_online, pool_insert, update_active, put_cand. wps. apply (back_ok s k a H Hsome). lia.
Qed.
Lemma counted_room s k x : Inv c s -> s_cands s !! k = Some x -> k_bond x <= k_counted x /\ k_counted x <= staked s.
Proof.
  intros H Hx. destruct (inv_book c s k x H Hx) as (t & b & Ht & Hb & Hok & _). pose proof (bo_counted _ _ Hok) as Hct. cbn in Hct.
  pose proof (lsum_book c s k x t b H Hx Ht Hb) as Hls. pose proof (bond_le s k x Hx) as Hbl. unfold all_noms in Hls. cbn in Hls. rewrite lsum_app in Hls.
  unfold staked. split; lia.
Qed.
Lemma candidate_bond_extra_ok s k more : Inv c s -> wp (candidate_bond_extra k more) (fun _ s' => Inv c s') s.
Proof.
  intros H. unfold candidate_bond_extra, add_total, set_col_lock, put_cand, update_active. wps.
  apply N.leb_le in Hens. destruct (inv_pool s k a H Hsome) as (Hp & Hl & Hb). pose proof (inv_req_ok s k a H Hsome) as Hq.
  destruct (collator_room0 c s k a more H Hsome Hens) as (R1 & R2). destruct (counted_room s k a H Hsome) as [C1 C2].
  assert (S1 : sat (k_bond a) more = k_bond a + more) by (unfold sat, saturating_add; lia).
  assert (S2 : sat (k_counted a) more = k_counted a + more) by (unfold sat, saturating_add; lia).
  destruct (is_active a) eqn:Ea; wps; eapply (inv_cand s _ k a (a <| k_bond := sat (k_bond a) more |> <| k_counted := sat (k_counted a) more |>)); try done; cbn; rewrite ?S1, ?S2; try lia; try (unfold req_ok in *; cbn; destruct (k_req a) as [[? ?]|]; [lia|done]).
  all: first [ by rewrite lookup_insert | by (intros k' Hne; rewrite lookup_insert_ne) | by apply (i_size _ _ H)
             | by (rewrite (size_replace _ _ _ _ Hp); apply (i_size _ _ H))
             | by (rewrite ?lookup_insert; unfold is_active in *; cbn; repeat match goal with E : sat _ _ = _ |- _ => rewrite E end; destruct (k_status a))
             | by (left; unfold sat, saturating_add; lia) ].
Qed.
Lemma put_req_ok s k x r : Inv c s -> s_cands s !! k = Some x -> req_ok (x <| k_req := r |>) -> Inv c (s <| s_cands := <[k := x <| k_req := r |>]> (s_cands s) |>).
Proof.
  intros H Hx Hq. destruct (inv_pool s k x H Hx) as (Hp & Hl & Hb). eapply (inv_cand s _ k x); try done; cbn.
  - apply (i_size _ _ H).
  - left. lia.
Qed.
Lemma schedule_candidate_unbond_ok s k less : Inv c s -> wp (schedule_candidate_unbond k less) (fun _ s' => Inv c s') s.
Proof. intros H. unfold schedule_candidate_unbond, put_cand. wps. apply put_req_ok; try done. unfold req_ok. cbn. lia. Qed.
Lemma cancel_candidate_unbond_ok s k : Inv c s -> wp (cancel_candidate_unbond k) (fun _ s' => Inv c s') s.
Proof. intros H. unfold cancel_candidate_unbond, put_cand. wps. by apply put_req_ok. Qed.
Lemma execute_candidate_unbond_ok s k : Inv c s -> wp (execute_candidate_unbond k) (fun _ s' => Inv c s') s.
Proof.
  intros H. unfold execute_candidate_unbond, sub_total, set_col_lock, put_cand, update_active. wps. destruct a0 as [less when]. wps.
  destruct (inv_pool s k a H Hsome) as (Hp & Hl & Hb). pose proof (inv_req_ok s k a H Hsome) as Hq. destruct (counted_room s k a H Hsome) as [C1 C2].
  unfold req_ok in Hq. rewrite Hsome0 in Hq. unfold saturating_sub.
  destruct (is_active a) eqn:Ea; wps; eapply (inv_cand s _ k a (a <| k_bond := k_bond a - less |> <| k_counted := k_counted a - less |> <| k_req := None |>)); try done; cbn; try lia.
  all: first [ by rewrite lookup_insert | by (intros k' Hne; rewrite lookup_insert_ne) | by apply (i_size _ _ H)
             | by (rewrite (size_replace _ _ _ _ Hp); apply (i_size _ _ H))
             | by (rewrite ?lookup_insert; unfold is_active in *; cbn; repeat match goal with E : sat _ _ = _ |- _ => rewrite E end; destruct (k_status a))
             | by (left; unfold sat, saturating_add; lia) ].
Qed.

(** ** Joining and leaving *)
Lemma join_ok s k b hint : Inv c s -> wp (join_candidates c k b hint) (fun _ s' => Inv c s') s.
Proof.
  intros H. unfold join_candidates, pool_insert, update_active, set_col_lock, put_cand, add_total. wps.
  destruct (s_cands s !! k) eqn:Hk; [done|]. destruct (s_nominators s !! k) eqn:Hn; [done|]. destruct (s_pool s !! k) eqn:Hp; [done|].
  apply N.leb_le in Hens6.
  assert (Hroom : staked s + b <= U128_MAX /\ b <= bal s k).
  { destruct (N.eq_dec b 0) as [->|Hb]; [pose proof (staked_le c s H); lia|].
    pose proof (collator_room c s k b H Hn Hens6 ltac:(lia)) as Hr. cbn in Hr. rewrite Hk in Hr. unfold bal. lia. }
  destruct Hroom as [R1 R2].
  pose proof (i_cand _ _ H k) as Hck. unfold cand_ok in Hck. rewrite Hk in Hck. destruct Hck as (Ht & Hb & Hl & _).
  constructor; cbn.
  - intros k'. unfold cand_ok. cbn. destruct (N.eq_dec k' k) as [->|Hne].
    + rewrite !lookup_insert. exists (mkNoms [] 0), (mkNoms [] 0). do 2 (split; [done|]). split; [|done].
      destruct Hc as (Hc1 & Hc2 & _).
      constructor; cbn; try done; try lia.
      * constructor; cbn; try done; try lia; try apply NoDup_nil_2; try constructor. intros x y Hx. by apply elem_of_nil in Hx.
      * unfold cap_of. cbn. by rewrite (proj2 (N.leb_gt _ _)) by lia.
      * unfold cap_of. cbn. by rewrite (proj2 (N.leb_gt _ _)) by lia.
    + rewrite !lookup_insert_ne by done. apply (i_cand _ _ H k').
  - apply size_insert_le. lia.
  - eapply cross_ext; [apply (i_cross _ _ H)|]. intros k' w'. unfold E_of. cbn. destruct (N.eq_dec k' k) as [->|Hne].
    + rewrite !lookup_insert, Ht. done.
    + by rewrite !lookup_insert_ne by done.
  - intros w m Hm. rewrite lookup_insert_ne; [by eapply i_excl|]. congruence.
  - apply (i_nlock _ _ H).
  - intros w l. change (bal _ w) with (bal s w). destruct (N.eq_dec w k) as [->|Hne].
    + rewrite lookup_insert. intros [= <-]. done.
    + rewrite lookup_insert_ne by done. apply (i_clock _ _ H).
  - apply (i_bal _ _ H).
  - unfold staked. cbn. rewrite msum_insert_new by done. cbn. pose proof (i_total _ _ H) as Hto. unfold staked in Hto. unfold sat, saturating_add. lia.
  - apply (i_min _ _ H).
  - apply (i_era _ _ H).
  - apply (i_sel _ _ H).
Qed.

Definition only_noms (s s' : st) : Prop := s' = vs s (s_nominators s') (s_reqs s') (s_nom_lock s').
Lemma return_all_ok k l : forall E s, cross c E (s_nominators s) (s_reqs s) (s_nom_lock s) -> NoDup (map fst l) ->
  (forall w a, (w, a) ∈ l -> E k w = Some a) ->
  wp (return_all k l) (fun _ s' => only_noms s s' /\
     cross c (fun k' w' => if (k' =? k) && bool_decide (w' ∈ map fst l) then None else E k' w') (s_nominators s') (s_reqs s') (s_nom_lock s') /\
     msum (fun _ m => m_total m) (s_nominators s') + lsum l = msum (fun _ m => m_total m) (s_nominators s) /\
     (forall w' m', s_nominators s' !! w' = Some m' -> exists m0, s_nominators s !! w' = Some m0 /\ m_total m' <= m_total m0)) s.
Proof.
  induction l as [|[w a] l IH]; intros E s Hcr Hnd HE; cbn [return_all].
  - wps. split; [by destruct s|]. split.
    + eapply cross_ext; [exact Hcr|]. intros k' w'. cbn. by rewrite andb_false_r.
    + split; [cbn; lia|]. intros w' m' Hm. by exists m'.
  - cbn [map fst] in Hnd. apply NoDup_cons in Hnd as [Hw Hnd]. pose proof (HE w a ltac:(left)) as Hea. wp1.
    eapply wp_mono; [by apply (return_stake_ok c Hc E)|]. intros _ s1 (m & Hm & ->).
    destruct (cross_remove c Hc _ _ _ _ k w a m Hcr Hm Hea) as (Hcr1 & Hsum & _ & Hle & _).
    set (s1 := s <| s_nominators := _ |> <| s_reqs := _ |> <| s_nom_lock := _ |>) in *.
    eapply wp_mono; [apply (IH _ s1 Hcr1 Hnd)|].
    + intros w' a' Hin. unfold E_rm. rewrite N.eqb_refl. cbn. rewrite (proj2 (N.eqb_neq _ _)); [apply HE; by right|].
      intros ->. apply Hw. apply elem_of_list_fmap. by exists (w, a').
    + intros _ s2 (H1 & H2 & H3 & H4). split; [rewrite H1; done|]. split; [|split].
      * eapply cross_ext; [exact H2|]. intros k' w'. unfold E_rm. cbn [map fst]. destruct (N.eqb_spec k' k) as [->|]; cbn; [|done].
        destruct (N.eqb_spec w' w) as [->|Hne].
        -- rewrite bool_decide_true by left. by destruct (bool_decide (w ∈ map fst l)).
        -- rewrite (bool_decide_ext (w' ∈ w :: map fst l) (w' ∈ map fst l)); [done|]. rewrite elem_of_cons. naive_solver.
      * cbn [lsum snd]. cbn in H3, Hsum. lia.
      * intros w' m' Hm'. destruct (H4 _ _ Hm') as (m1 & Hm1 & Hle1). destruct (Hle _ _ Hm1) as (m0 & Hm0 & Hle0). exists m0. split; [done|lia].
Qed.

Lemma execute_leave_ok s k hint : Inv c s -> wp (execute_leave_candidates k hint) (fun _ s' => Inv c s') s.
Proof.
  intros H. pose proof (i_cross _ _ H) as Hcr. unfold execute_leave_candidates. wp1. wp1. wp1. apply (wp_load c s k); [done|].
  intros x t b Hx Ht Hb Hok. wp1. wp1. wp1. wp1. wp1. wp1. cbn [bk bt bb] in *.
  destruct (inv_book c s k x H Hx) as (t' & b' & Ht' & Hb' & _ & Hl & Hp & HE). rewrite Ht in Ht'. rewrite Hb in Hb'. injection Ht' as <-. injection Hb' as <-.
  pose proof (nodup_all c _ Hok) as Hnd. unfold all_noms in Hnd, HE. cbn in Hnd, HE. rewrite map_app in Hnd.
  pose proof Hnd as Hnd0. apply NoDup_app in Hnd as (Hndt & Hdis & Hndb). rewrite <- map_app in Hnd0.
  wp1. eapply wp_mono; [apply (return_all_ok k (n_list t) (E_of s) s Hcr Hndt)|].
  { intros w a Hin. rewrite HE. apply (amount_in_elem _ _ _ Hnd0). apply elem_of_app. by left. }
  intros _ s1 (O1 & C1 & S1 & M1). wp1. eapply wp_mono; [apply (return_all_ok k (n_list b) _ s1 C1 Hndb)|].
  { intros w a Hin. rewrite N.eqb_refl. cbn. rewrite bool_decide_false.
    - rewrite HE. apply (amount_in_elem _ _ _ Hnd0). apply elem_of_app. by right.
    - intros Hin2. apply (Hdis w Hin2). apply elem_of_list_fmap. by exists (w, a). }
  intros _ s2 (O2 & C2 & S2 & M2). unfold sub_total. wps.
  assert (C3 : cross c (fun k' w' => if k' =? k then None else E_of s k' w') (s_nominators s2) (s_reqs s2) (s_nom_lock s2)).
  { eapply cross_ext; [exact C2|]. intros k' w'. cbn. destruct (N.eqb_spec k' k) as [->|]; cbn; [|done].
    destruct (bool_decide (w' ∈ map fst (n_list b))) eqn:Eb; [done|]. destruct (bool_decide (w' ∈ map fst (n_list t))) eqn:Et; [done|].
    rewrite HE. symmetry. apply amount_in_none. apply bool_decide_eq_false in Eb, Et. rewrite map_app, elem_of_app. naive_solver. }
  assert (Hempty : mget [] k (s_reqs s2) = []).
  { destruct (mget [] k (s_reqs s2)) as [|r rs] eqn:Er; [done|]. exfalso.
    assert (Hpe : pend (s_reqs s2) k (r_who r) = Some r). { unfold pend. rewrite Er. cbn. unfold of_nominator. by rewrite N.eqb_refl. }
    destruct (cr_req _ _ _ _ _ C3 k (r_who r) r Hpe) as (a & Ha & _). by rewrite N.eqb_refl in Ha. }
  assert (M3 : forall w' m', s_nominators s2 !! w' = Some m' -> exists m0, s_nominators s !! w' = Some m0 /\ m_total m' <= m_total m0).
  { intros w' m' Hm'. destruct (M2 _ _ Hm') as (m1 & Hm1 & L1). destruct (M1 _ _ Hm1) as (m0 & Hm0 & L0). exists m0. split; [done|lia]. }
  assert (F : s_cands s2 = s_cands s /\ s_top s2 = s_top s /\ s_bot s2 = s_bot s /\ s_pool s2 = s_pool s /\ s_col_lock s2 = s_col_lock s /\
     s_free s2 = s_free s /\ s_held s2 = s_held s /\ s_min_nom s2 = s_min_nom s /\ era_part s2 = era_part s /\ s_total s2 = s_total s).
  { rewrite O2, O1. done. }
  destruct F as (F1 & F2 & F3 & F4 & F5 & F6 & F7 & F8 & F9 & F10).
  assert (Hbal : forall s', s_free s' = s_free s2 -> s_held s' = s_held s2 -> forall a, bal s' a = bal s a) by (intros s' G1 G2 a; unfold bal, free_of, held_of; by rewrite G1, G2, F6, F7).
  constructor; cbn; rewrite ?F1, ?F2, ?F3, ?F4, ?F5, ?F6, ?F7.
  - intros k'. unfold cand_ok. cbn. rewrite ?F1, ?F2, ?F3, ?F4, ?F5. destruct (N.eq_dec k' k) as [->|Hne].
    + rewrite !lookup_delete. split; [done|]. split; [done|]. split; [done|]. rewrite Hp. unfold is_leaving in Hens0. unfold is_active. by destruct (k_status x).
    + rewrite !lookup_delete_ne by done. apply (i_cand _ _ H k').
  - apply (i_size _ _ H).
  - eapply cross_ext; [eapply cross_reqs_ext; [exact C3|]|].
    + intros k'. unfold mget. destruct (N.eq_dec k' k) as [->|Hne]; [|by rewrite lookup_delete_ne].
      rewrite lookup_delete. unfold mget in Hempty. symmetry. exact Hempty.
    + intros k' w'. unfold E_of. cbn. rewrite ?F2, ?F3. destruct (N.eqb_spec k' k) as [->|Hne]; [by rewrite lookup_delete|]. by rewrite !lookup_delete_ne.
  - intros w m Hm. destruct (M3 _ _ Hm) as (m0 & Hm0 & _). apply lookup_delete_None. right. by eapply i_excl.
  - intros w l Hl'. rewrite Hbal by done. rewrite (cr_lock _ _ _ _ _ C3) in Hl'. destruct (s_nominators s2 !! w) as [m|] eqn:Em; [|done].
    cbn in Hl'. injection Hl' as <-. destruct (M3 _ _ Em) as (m0 & Hm0 & Hle). destruct (nom_facts c s w m0 H Hm0). lia.
  - intros w l Hl'. rewrite Hbal by done. apply lookup_delete_Some in Hl' as [_ Hl']. by apply (i_clock _ _ H).
  - apply (i_bal _ _ H).
  - unfold staked. cbn. rewrite ?F1, ?F10. pose proof (i_total _ _ H) as Hto. unfold staked in Hto.
    pose proof (msum_delete (fun _ x => k_bond x) _ _ _ Hx) as Hd. cbn in Hd.
    pose proof (bo_ttotal _ _ Hok) as T1. pose proof (bo_btotal _ _ Hok) as T2. cbn in T1, T2. pose proof (staked_le c s H) as Hs. unfold staked in Hs.
    unfold saturating_sub, sat, saturating_add. lia.
  - rewrite F8. apply (i_min _ _ H).
  - apply (era_ext s); [done | apply (i_era _ _ H)].
  - apply (sel_ext s); [done | apply (i_sel _ _ H)].
Qed.

(** ** Administration *)
Lemma hotfix_ok s l : Inv c s -> wp (hotfix l) (fun _ s' => Inv c s') s.
Proof.
  intros H. unfold hotfix. wps. apply inv_reqs_ext; [done|]. rewrite forallb_forall in Hens0.
  assert (Hl : forall k, k ∈ l -> reqs_of s k = []).
  { intros k Hk. apply elem_of_list_In in Hk. specialize (Hens0 k Hk). apply andb_prop in Hens0 as [_ Hr]. by destruct (reqs_of s k). }
  clear Hens Hens0. unfold reqs_of in Hl.
  assert (Hgen : forall l R, (forall k, k ∈ l -> mget [] k R = []) -> forall k, mget [] k (fold_left (fun acc k => delete k acc) l R) = mget (K:=N) (V:=list req) [] k R).
  { clear. induction l as [|x l IH]; intros R Hl k; cbn; [done|].
    assert (Hone : forall k, mget [] k (delete x R) = mget [] k R).
    { intros k'. unfold mget. destruct (N.eq_dec k' x) as [->|Hne]; [|by rewrite lookup_delete_ne].
      rewrite lookup_delete. specialize (Hl x ltac:(left)). unfold mget in Hl. by rewrite Hl. }
    rewrite IH; [apply Hone|]. intros k' Hk'. rewrite Hone. apply Hl. by right. }
  by apply Hgen.
Qed.
(** Nothing the invariant looks at changed, except the smallest nomination. *)
Lemma inv_same s s' : Inv c s -> s_cands s' = s_cands s -> s_top s' = s_top s -> s_bot s' = s_bot s -> s_pool s' = s_pool s ->
  s_col_lock s' = s_col_lock s -> s_free s' = s_free s -> s_held s' = s_held s -> c_min_per_collator c <= s_min_nom s' -> era_part s' = era_part s ->
  s_nominators s' = s_nominators s -> s_reqs s' = s_reqs s -> s_nom_lock s' = s_nom_lock s -> s_total s' = s_total s -> Inv c s'.
Proof.
  intros H E1 E2 E3 E4 E5 E6 E7 E8 E9 E10 E11 E12 E13. eapply (inv_noms c s); try done; rewrite ?E10, ?E11, ?E12, ?E13.
  - apply (i_cross _ _ H).
  - intros w m Hm. by eapply nom_facts.
  - apply (i_total _ _ H).
Qed.
Lemma set_total_selected_ok s x : Inv c s -> wp (set_total_selected c x) (fun _ s' => Inv c s') s.
Proof. intros H. unfold set_total_selected. wps. apply (inv_same s); try done. apply (i_min _ _ H). Qed.
Lemma set_blocks_per_era_ok s x : Inv c s -> wp (set_blocks_per_era c x) (fun _ s' => Inv c s') s.
Proof. intros H. unfold set_blocks_per_era. wps. apply (inv_same s); try done. apply (i_min _ _ H). Qed.
Lemma set_admin_ok s v : Inv c s -> wp (set_admin_setting c v) (fun _ s' => Inv c s') s.
Proof. intros H. unfold set_admin_setting. wps. destruct v; apply (inv_same s); try done; try apply (i_min _ _ H). cbn. lia. Qed.

(** ** Selection *)
Lemma ins_asc_perm x l : ins_asc x l ≡ₚ x :: l.
Proof. induction l as [|y l IH]; cbn; [done|]. destruct (_ <=? _); [|done]. rewrite IH. solve_Permutation. Qed.
Lemma sort_asc_perm l : sort_asc l ≡ₚ l.
Proof.
  unfold sort_asc. assert (G : forall l acc, fold_left (fun acc x => ins_asc x acc) l acc ≡ₚ l ++ acc).
  { clear. induction l as [|x l IH]; intros acc; cbn; [done|]. rewrite IH, ins_asc_perm. solve_Permutation. }
  rewrite G. by rewrite app_nil_r.
Qed.
Lemma pool_list_elem s k x : (k, x) ∈ pool_list s <-> s_pool s !! k = Some x.
Proof.
  unfold pool_list. rewrite elem_of_list_fmap. split.
  - intros (k' & [= -> ->] & Hk). apply keys_elem in Hk as [v Hv]. unfold mget. by rewrite Hv.
  - intros Ha. exists k. split; [unfold mget; by rewrite Ha|]. apply keys_elem. eauto.
Qed.
Lemma top_candidates_elem s k : k ∈ compute_top_candidates s -> exists x, s_pool s !! k = Some x /\ s_min_col s <= x.
Proof.
  unfold compute_top_candidates. rewrite (merge_sort_Permutation N.le), elem_of_list_fmap. intros ([k' x] & -> & Hin).
  apply elem_of_list_In, filter_In in Hin as [Hin Hmin]. apply elem_of_list_In in Hin. cbn in *. exists x. split; [|lia].
  apply pool_list_elem. rewrite <- (sort_asc_perm (pool_list s)). apply elem_of_take in Hin as (i & Hi & _).
  apply elem_of_reverse. by eapply elem_of_list_lookup_2.
Qed.
Lemma filter_len {A} (f : A -> bool) (l : list A) : (length (List.filter f l) <= length l)%nat.
Proof. induction l as [|x l IH]; cbn; [lia|]. destruct (f x); cbn; lia. Qed.
Lemma top_candidates_length s : (length (compute_top_candidates s) <= size (s_pool s))%nat.
Proof.
  unfold compute_top_candidates. rewrite (Permutation_length (merge_sort_Permutation N.le _)), map_length.
  etransitivity; [apply filter_len|]. rewrite take_length, reverse_length.
  rewrite (Permutation_length (sort_asc_perm _)). unfold pool_list. rewrite map_length, keys_length. lia.
Qed.

Lemma snapshot_some s k x : Inv c s -> s_pool s !! k = Some x -> is_Some (snapshot_of s k).
Proof.
  intros H Hp. pose proof (i_cand _ _ H k) as Hck. unfold cand_ok in Hck. unfold snapshot_of.
  destruct (s_cands s !! k) as [y|]; [|destruct Hck as (_ & _ & _ & Hn); congruence].
  destruct Hck as (t & b & -> & _). eauto.
Qed.
Lemma snaps_fold s sel (acc : gmap N snapshot) k : (k ∈ sel /\ is_Some (snapshot_of s k)) \/ is_Some (acc !! k) ->
  is_Some (fold_left (fun acc k => match snapshot_of s k with Some v => <[k := v]> acc | None => acc end) sel acc !! k).
Proof.
  revert acc. induction sel as [|y sel IH]; intros acc Hk; cbn.
  - destruct Hk as [[Hk _]|Hk]; [by apply elem_of_nil in Hk|done].
  - apply IH. destruct Hk as [[Hk Hs]|Hk].
    + apply elem_of_cons in Hk as [->|Hk]; [|by left]. right. destruct Hs as [v ->]. rewrite lookup_insert. eauto.
    + right. destruct (snapshot_of s y); [|done]. destruct (N.eq_dec k y) as [->|Hne]; [rewrite lookup_insert; eauto|]. by rewrite lookup_insert_ne.
Qed.
Lemma select_sel s now : Inv c s -> (s_era s < U32_MAX \/ now = s_era s) -> (now = s_era s + 1 \/ now = s_era s) ->
  match select_top_candidates c now s with
  | (s', Ok _) => s' = s <| s_snaps := s_snaps s' |> <| s_selected := s_selected s' |> /\
                  (forall k, k ∈ s_selected s' -> is_Some (mget ∅ now (s_snaps s') !! k))
  | (_, Err e) => e = "panic"%string /\ now = s_era s
  end.
Proof.
  intros H Hera Hnow. unfold select_top_candidates, mbind_, get_st. cbv beta iota zeta.
  pose proof (top_candidates_elem s) as Hel. pose proof (top_candidates_length s) as Hlen.
  destruct (compute_top_candidates s) as [|x sel].
  - cbn. unfold ensure. destruct (forallb _ _) eqn:Ef.
    + cbn. split; [by destruct s|]. intros k Hk. rewrite forallb_forall in Ef. specialize (Ef k (proj1 (elem_of_list_In _ _) Hk)).
      unfold mget at 1. rewrite lookup_insert. apply lookup_union_is_Some. left. destruct (_ !! k); [eauto|done].
    + cbn. split; [done|]. destruct Hnow as [->|]; [|done]. exfalso. unfold saturating_sub in Ef. replace (s_era s + 1 - 1) with (s_era s) in Ef by lia.
      apply not_true_iff_false in Ef. apply Ef. apply forallb_forall. intros k Hk. apply elem_of_list_In in Hk.
      destruct (i_sel _ _ H k Hk) as [v ->]. done.
  - assert (E1 : forallb (fun k => match snapshot_of s k with Some _ => true | None => false end) (x :: sel) = true).
    { apply forallb_forall. intros k Hk. apply elem_of_list_In in Hk. destruct (Hel k Hk) as (v & Hv & _). destruct (snapshot_some s k v H Hv) as [y ->]. done. }
    unfold ensure. rewrite E1. cbv beta iota.
    assert (E2 : N.of_nat (length (x :: sel)) <=? c_max_cands c = true). { pose proof (i_size _ _ H). lia. }
    rewrite E2. unfold modify. cbn [s_snaps s_selected]. split; [by destruct s|]. cbn -[fold_left].
    intros k Hk. unfold mget at 1. rewrite lookup_insert. apply snaps_fold. left. split; [done|].
    destruct (Hel k Hk) as (v & Hv & _). by eapply snapshot_some.
Qed.
Lemma inv_era s s' : Inv c s -> s' = s <| s_era := s_era s' |> <| s_era_first := s_era_first s' |> <| s_block := s_block s' |>
    <| s_snaps := s_snaps s' |> <| s_selected := s_selected s' |> ->
  s_era s' <= U32_MAX -> (forall k, k ∈ s_selected s' -> is_Some (mget ∅ (s_era s') (s_snaps s') !! k)) -> Inv c s'.
Proof. intros [] E He Hs. constructor; [rewrite E; assumption..|exact He|exact Hs]. Qed.
Lemma on_initialize_ok s : Inv c s -> match on_initialize c s with (s', Ok _) => Inv c s' | (_, Err e) => e = "panic"%string -> U32_MAX <= s_era s end.
Proof.
  intros H. unfold on_initialize, mbind_, modify, get_st, mret_. cbv beta iota zeta.
  set (s1 := s <| s_block := s_block s + 1 |>).
  assert (H1 : Inv c s1) by (by apply (inv_same s); try apply (i_min _ _ H)).
  change (s_era s1) with (s_era s). destruct (s_era_length s1 <=? s_block s1 - s_era_first s1); [|exact H1].
  pose proof (select_sel s1 (sat32 (s_era s) 1) H1) as Hs. change (s_era s1) with (s_era s) in *.
  pose proof (i_era _ _ H) as He.
  assert (Hn : (s_era s < U32_MAX /\ sat32 (s_era s) 1 = s_era s + 1) \/ (s_era s = U32_MAX /\ sat32 (s_era s) 1 = s_era s)).
  { unfold sat32, saturating_add. lia. }
  specialize (Hs ltac:(lia) ltac:(lia)). destruct (select_top_candidates c (sat32 (s_era s) 1) s1) as [s2 [[]|e]].
  - destruct Hs as [Hs1 Hs2]. cbn. apply (inv_era s1); [done| | |].
    + rewrite Hs1. by destruct s.
    + cbn. rewrite Hs1. cbn. lia.
    + cbn. replace (s_era s2) with (s_era s) by (by rewrite Hs1). exact Hs2.
  - intros _. lia.
Qed.

End cand.
