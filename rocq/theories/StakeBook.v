(** Books of nominations: each operation keeps them in order and changes exactly the nomination it should. *)
From Verif Require Import Base BaseLemmas CodecModel SigModel StakeModel StakeSpec.

Lemma lsum_app l l' : lsum (l ++ l') = lsum l + lsum l'.
Proof. induction l; cbn; lia. Qed.
Lemma lsum_perm l l' : l ≡ₚ l' -> lsum l = lsum l'.
Proof. induction 1; cbn; lia. Qed.
Lemma lsum_elem x l : x ∈ l -> x.2 <= lsum l.
Proof. induction 1; cbn; lia. Qed.

Section lists.
Implicit Types (x y : N * N) (l : list (N * N)).
Lemma ins_perm x l : ins x l ≡ₚ x :: l.
Proof. induction l as [|y l IH]; cbn; [done|]. destruct (N.leb_spec x.2 y.2); [|done]. rewrite IH. solve_Permutation. Qed.
Lemma ins_sorted x l : descending l -> descending (ins x l).
Proof.
  unfold descending. induction 1 as [|y l Hl IH Hy]; cbn; [repeat constructor|].
  destruct (N.leb_spec x.2 y.2) as [E|E].
  - constructor; [done|]. rewrite ins_perm. by constructor.
  - constructor; [by constructor|]. constructor; [lia|]. eapply Forall_impl; [exact Hy|]. cbn; intros; lia.
Qed.
Lemma fold_ins l acc : descending acc -> descending (fold_left (fun acc x => ins x acc) l acc) /\ fold_left (fun acc x => ins x acc) l acc ≡ₚ l ++ acc.
Proof.
  revert acc. induction l as [|x l IH]; intros acc H; cbn; [done|].
  destruct (IH (ins x acc) (ins_sorted x acc H)) as [H1 H2]. split; [done|]. rewrite H2, ins_perm. solve_Permutation.
Qed.
Lemma sort_sorted l : descending (sort_desc l).
Proof. apply fold_ins. constructor. Qed.
Lemma sort_perm l : sort_desc l ≡ₚ l.
Proof. unfold sort_desc. rewrite (proj2 (fold_ins l [] ltac:(constructor))). by rewrite app_nil_r. Qed.
Lemma pop_app {A} (l r : list A) (y : A) : pop l = Some (r, y) <-> l = r ++ [y].
Proof.
  revert r y. induction l as [|x l IH]; intros r y; cbn; [split; [done | by destruct r]|].
  destruct (pop l) as [[r' z]|] eqn:E.
  - assert (E' : l = r' ++ [z]) by (by apply IH). clear IH E. rename E' into E. split.
    + intros [= <- <-]. cbn. congruence.
    + intros H. destruct r as [|x' r]; cbn in H.
      * simplify_eq. by destruct r'.
      * injection H as -> H. rewrite E in H. apply app_inj_2 in H as [-> [= ->]]; done.
  - assert (l = []) as ->.
    { destruct l as [|a l _] using rev_ind; [done|]. destruct (IH l a) as [_ IH']. by specialize (IH' eq_refl). }
    split; [by intros [= <- <-]|]. destruct r as [|x' r]; cbn; [naive_solver|]. intros H. destruct r; done.
Qed.
Lemma pop_some {A} (l : list A) : l <> [] -> exists r (y : A), pop l = Some (r, y).
Proof. intros H. destruct l as [|y r _] using rev_ind; [done|]. exists r, y. by apply pop_app. Qed.

Lemma without_elem w l x : x ∈ without w l <-> x ∈ l /\ x.1 <> w.
Proof.
  unfold without. rewrite !elem_of_list_In, filter_In. split; intros [H1 H2]; split; try done.
  - by destruct (N.eqb_spec x.1 w).
  - by destruct (N.eqb_spec x.1 w).
Qed.
Lemma without_none w l : w ∉ map fst l -> without w l = l.
Proof.
  unfold without. induction l as [|x l IH]; cbn; [done|]. intros H. apply not_elem_of_cons in H as [H1 H2].
  rewrite (proj2 (N.eqb_neq x.1 w)) by congruence. cbn. by rewrite IH.
Qed.
Lemma update_none w f l : w ∉ map fst l -> update w f l = l.
Proof.
  unfold update. induction l as [|x l IH]; cbn; [done|]. intros H. apply not_elem_of_cons in H as [H1 H2].
  rewrite (proj2 (N.eqb_neq x.1 w)) by congruence. by rewrite IH.
Qed.
Lemma amount_in_none w l : amount_in w l = None <-> w ∉ map fst l.
Proof.
  unfold amount_in. induction l as [|x l IH]; cbn; [split; [intros _; apply not_elem_of_nil | done]|].
  rewrite not_elem_of_cons. destruct (N.eqb_spec x.1 w); [naive_solver|]. rewrite IH. naive_solver.
Qed.
(** The one occurrence of an owner. *)
Lemma amount_in_split w a l : NoDup (map fst l) -> amount_in w l = Some a ->
  exists l1 l2, l = l1 ++ (w, a) :: l2 /\ without w l = l1 ++ l2 /\ (forall f, update w f l = l1 ++ (w, f a) :: l2).
Proof.
  unfold amount_in. induction l as [|x l IH]; cbn; [done|]. intros [Hx Hl]%NoDup_cons.
  destruct (N.eqb_spec x.1 w) as [E|E].
  - intros [= <-]. exists [], l. destruct x as [x1 x2]. cbn in *. subst.
    split; [done|]. split; [unfold without; cbn; by apply without_none|].
    intros f. unfold update; cbn. try rewrite N.eqb_refl. f_equal. by apply update_none.
  - intros H. destruct (IH Hl H) as (l1 & l2 & -> & H2 & H3). exists (x :: l1), l2.
    split; [done|]. split; [|intros f]; unfold without, update; cbn; try rewrite (proj2 (N.eqb_neq x.1 w)) by done; cbn; f_equal; [apply H2 | apply H3].
Qed.
Lemma amount_in_elem w a l : NoDup (map fst l) -> amount_in w l = Some a <-> (w, a) ∈ l.
Proof.
  intros Hn. split.
  - intros H. destruct (amount_in_split w a l Hn H) as (l1 & l2 & -> & _). set_solver.
  - intros H. destruct (amount_in w l) as [b|] eqn:E.
    + destruct (amount_in_split w b l Hn E) as (l1 & l2 & -> & _). f_equal.
      rewrite map_app in Hn. cbn in Hn.
      apply elem_of_app in H as [H|H]; [|apply elem_of_cons in H as [H|H]]; [|congruence|].
      * exfalso. apply (NoDup_app (map fst l1)) in Hn as (_ & Hn & _). apply (Hn w); [|left].
        apply elem_of_list_fmap. by exists (w, a).
      * exfalso. apply NoDup_app in Hn as (_ & _ & Hn). apply NoDup_cons in Hn as [Hn _]. apply Hn.
        apply elem_of_list_fmap. by exists (w, a).
    + exfalso. apply amount_in_none in E. apply E. apply elem_of_list_fmap. by exists (w, a).
Qed.

Lemma desc_app l1 l2 : descending (l1 ++ l2) <-> descending l1 /\ descending l2 /\ (forall x y, x ∈ l1 -> y ∈ l2 -> y.2 <= x.2).
Proof.
  unfold descending. induction l1 as [|a l IH]; cbn.
  - split; [intros H; split; [constructor|]; split; [done|]; intros x y Hx; by apply elem_of_nil in Hx | by intros (_ & H & _)].
  - split.
    + inversion 1 as [|? ? H1 H2]; subst. apply IH in H1 as (H3 & H4 & H5). rewrite Forall_app in H2. destruct H2 as [H2 H2'].
      split; [by constructor|]. split; [done|]. intros x y Hx Hy. apply elem_of_cons in Hx as [->|Hx]; [|by apply H5].
      rewrite Forall_forall in H2'. by apply H2'.
    + intros (H1 & H2 & H3). inversion H1 as [|? ? H4 H5]; subst. constructor.
      * apply IH. split; [done|]. split; [done|]. intros; apply H3; [by right | done].
      * apply Forall_app. split; [done|]. apply Forall_forall. intros y Hy. apply H3; [left | done].
Qed.
Lemma lowest_le l x : descending l -> x ∈ l -> lowest l <= x.2.
Proof.
  destruct l as [|y l _] using rev_ind; [intros _ H; by apply elem_of_nil in H|].
  intros H Hx. unfold lowest. rewrite last_snoc. apply desc_app in H as (_ & _ & H).
  apply elem_of_app in Hx as [Hx|Hx]; [apply H; [done | left]|]. apply elem_of_list_singleton in Hx as ->. lia.
Qed.
Lemma highest_ge l x : descending l -> x ∈ l -> x.2 <= highest l.
Proof.
  destruct l as [|y l]; [intros _ H; by apply elem_of_nil in H|]. inversion 1 as [|? ? H1 H2]; subst. cbn.
  intros Hx. apply elem_of_cons in Hx as [->|Hx]; [lia|]. rewrite Forall_forall in H2. by apply H2.
Qed.
Lemma lowest_snoc l y : lowest (l ++ [y]) = y.2.
Proof. unfold lowest. by rewrite last_snoc. Qed.
End lists.

Lemma is_full_cap max l : is_full (cap_of max l) = (max <=? N.of_nat (length l)).
Proof. unfold cap_of. destruct (max <=? _); [done|]. by destruct l. Qed.
Lemma is_empty_cap max l : 1 <= max -> is_empty (cap_of max l) = true <-> l = [].
Proof.
  intros H. unfold cap_of. destruct (N.leb_spec max (N.of_nat (length l))); destruct l; cbn in *; split; try done; lia.
Qed.

Section book.
Variable c : config.
Hypothesis Hc : config_ok c.

Notation top k := (n_list (bt k)).
Notation bot k := (n_list (bb k)).
Definition all_noms (k : book) : list (N * N) := top k ++ bot k.

(** What the lists satisfy. *)
Record lists_ok (t b : list (N * N)) : Prop := {
  lo_top : descending t; lo_bot : descending b;
  lo_order : forall x y, x ∈ t -> y ∈ b -> y.2 <= x.2;
  lo_tlen : N.of_nat (length t) <= c_max_top c; lo_blen : N.of_nat (length b) <= c_max_bot c;
  lo_full : b <> [] -> N.of_nat (length t) = c_max_top c;
  lo_nodup : NoDup (map fst (t ++ b)) }.
(** What the records satisfy about the lists. *)
Record book_ok (k : book) : Prop := {
  bo_lists : lists_ok (top k) (bot k);
  bo_ttotal : n_total (bt k) = lsum (top k);
  bo_btotal : lsum (bot k) <= n_total (bb k);
  bo_count : k_count (bk k) = N.of_nat (length (all_noms k));
  bo_counted : k_counted (bk k) = k_bond (bk k) + lsum (top k);
  bo_low_top : k_low_top (bk k) = lowest (top k);
  bo_high_bot : k_high_bot (bk k) = highest (bot k);
  bo_low_bot : k_low_bot (bk k) = lowest (bot k);
  bo_tcap : k_top_cap (bk k) = cap_of (c_max_top c) (top k);
  bo_bcap : k_bot_cap (bk k) = cap_of (c_max_bot c) (bot k) }.
(** The fields of the candidate that book operations leave alone. *)
Definition same_meta (k k' : book) : Prop :=
  k_bond (bk k') = k_bond (bk k) /\ k_req (bk k') = k_req (bk k) /\ k_status (bk k') = k_status (bk k).

Lemma desc_perm_order (t b t' b' : list (N * N)) : t ≡ₚ t' -> b ≡ₚ b' ->
  (forall x y, x ∈ t -> y ∈ b -> y.2 <= x.2) -> forall x y, x ∈ t' -> y ∈ b' -> y.2 <= x.2.
Proof. intros Ht Hb H x y. rewrite <- Ht, <- Hb. apply H. Qed.

Lemma insert_sorted_list x n : N.of_nat (length (n_list n)) < 300 -> n_list (insert_sorted x n) = ins x (n_list n).
Proof. intros H. unfold insert_sorted, MAX_NOMINATIONS. cbn. by rewrite (proj2 (N.ltb_lt _ _)). Qed.
Lemma insert_sorted_total x n : n_total (insert_sorted x n) = N.min U128_MAX (n_total n + x.2).
Proof. done. Qed.
Lemma perm_fst (l l' : list (N * N)) : l ≡ₚ l' -> map fst l ≡ₚ map fst l'.
Proof. apply Permutation_map. Qed.
Lemma nodup_perm (l l' : list (N * N)) : l ≡ₚ l' -> NoDup (map fst l) -> NoDup (map fst l').
Proof. intros H. by rewrite (perm_fst _ _ H). Qed.

(** A rebuilt book. *)
Lemma rebuilt (k : book) t b (m : cand) :
  lists_ok (n_list t) (n_list b) -> n_total t = lsum (n_list t) -> lsum (n_list b) <= n_total b ->
  k_bond m + lsum (n_list t) <= U128_MAX -> k_count m = N.of_nat (length (n_list t ++ n_list b)) ->
  k_low_top m = lowest (n_list t) -> k_top_cap m = cap_of (c_max_top c) (n_list t) -> k_counted m = sat (k_bond m) (n_total t) ->
  k_low_bot m = lowest (n_list b) -> k_high_bot m = highest (n_list b) -> k_bot_cap m = cap_of (c_max_bot c) (n_list b) ->
  book_ok (mkBook m t b).
Proof.
  intros H1 H2 H3 H4 H5 H6 H7 H8 H9 H10 H11. constructor; cbn; try done.
  rewrite H8, H2. unfold sat, saturating_add. lia.
Qed.
(** Lists in a new arrangement. *)
Lemma relisted t b t' b' :
  descending t' -> descending b' -> t ≡ₚ t' -> b ≡ₚ b' -> (forall x y, x ∈ t -> y ∈ b -> y.2 <= x.2) ->
  N.of_nat (length t) <= c_max_top c -> N.of_nat (length b) <= c_max_bot c ->
  (b <> [] -> N.of_nat (length t) = c_max_top c) -> NoDup (map fst (t ++ b)) -> lists_ok t' b'.
Proof.
  intros H1 H2 Ht Hb H3 H4 H5 H6 H7. constructor; try done.
  - by eapply desc_perm_order.
  - by rewrite <- Ht.
  - by rewrite <- Hb.
  - intros H. rewrite <- Ht. apply H6. intros ->. apply Permutation_nil in Hb. done.
  - eapply nodup_perm; [|exact H7]. by rewrite Ht, Hb.
Qed.

Lemma add_bottom_eq from_top x k : descending (bot k) -> N.of_nat (length (bot k)) <= c_max_bot c ->
  exists b' kicked, add_bottom c from_top x k =
    Ok (k <| bk := reset_bot c b' (if is_full (cap_of (c_max_bot c) (bot k)) || from_top then bk k else bk k <| k_count := sat32 (k_count (bk k)) 1 |>) |> <| bb := b' |>, kicked)
  /\ match kicked with
     | None => N.of_nat (length (bot k)) < c_max_bot c /\ n_list b' = ins x (bot k) /\ n_total b' = N.min U128_MAX (n_total (bb k) + x.2)
     | Some y => N.of_nat (length (bot k)) = c_max_bot c /\ exists l, bot k = l ++ [y] /\ n_list b' = ins x l
                 /\ n_total b' = N.min U128_MAX (n_total (bb k) - y.2 + x.2)
     end.
Proof.
  destruct Hc as (_ & Hb & _). intros Hs Hl. unfold add_bottom. rewrite is_full_cap.
  destruct (N.eqb_spec (N.of_nat (length (bot k))) (c_max_bot c)) as [E|E].
  - destruct (pop_some (bot k)) as (r & y & Ep). { intros H. rewrite H in E. cbn in E. lia. }
    rewrite Ep. rewrite (proj2 (N.leb_le _ _)) by lia. cbn [orb]. eexists _, (Some y). split; [reflexivity|].
    apply pop_app in Ep. split; [done|]. exists r. split; [done|]. split; [|done].
    apply insert_sorted_list. cbn. rewrite Ep, app_length in Hl. cbn in Hl. lia.
  - rewrite (proj2 (N.leb_gt _ _)) by lia. cbn [orb]. eexists _, None. split; [by destruct from_top|].
    split; [lia|]. split; [|done]. apply insert_sorted_list. lia.
Qed.

Lemma elem_ins x y l : y ∈ ins x l <-> y = x \/ y ∈ l.
Proof. rewrite ins_perm, elem_of_cons. done. Qed.
Lemma len_ins x l : length (ins x l) = S (length l).
Proof. by rewrite ins_perm. Qed.

Ltac book_start Hk Hb :=
  destruct Hk as [[Ht Hbs Hord Htl Hbl Hfull Hnd] Htt Hbt Hcnt Hctd Hlt Hhb Hlb Htc Hbc].

Lemma add_nomination_ok x k : book_ok k -> x.1 ∉ map fst (all_noms k) -> k_bond (bk k) + lsum (all_noms k) + x.2 <= U128_MAX ->
  match add_nomination c x k with
  | Err e => e = "CannotNominateLessThanOrEqualToLowestBottomWhenFull"%string
  | Ok (k', less, kicked) => book_ok k' /\ same_meta k k' /\
      match kicked with
      | None => less = None /\ all_noms k' ≡ₚ x :: all_noms k
      | Some y => less = Some y.2 /\ y ∈ bot k /\ y.2 < x.2 /\ y :: all_noms k' ≡ₚ x :: all_noms k
      end
  end.
Proof.
  intros Hk Hx Hsum. book_start Hk Hb. destruct Hc as (Hct & Hcb & _).
  unfold all_noms in *. rewrite lsum_app in Hsum.
  assert (Hnd' : NoDup (map fst (x :: top k ++ bot k))). { cbn. by constructor. }
  unfold add_nomination. rewrite Htc, Hbc, Hlt, Hlb, !is_full_cap.
  destruct (N.leb_spec (c_max_top c) (N.of_nat (length (top k)))) as [Ef|Ef].
  - destruct (pop_some (top k)) as (r & y & Ep). { intros H. rewrite H in Ef. cbn in Ef. lia. }
    pose proof (proj1 (pop_app _ _ _) Ep) as Et.
    destruct (N.ltb_spec (lowest (top k)) x.2) as [El|El].
    + unfold add_top. rewrite (proj2 (N.eqb_eq _ _)) by lia. rewrite Ep, Hbc, Hlb.
      destruct (add_bottom_eq true y k Hbs Hbl) as (b' & kicked & -> & Hb'). rewrite orb_true_r.
      rewrite is_full_cap. rewrite Et, lowest_snoc in El.
      assert (Er : N.of_nat (length r) + 1 = N.of_nat (length (top k))) by (rewrite Et, app_length; cbn; lia).
      assert (Hy : forall z, z ∈ r -> y.2 <= z.2).
      { intros z Hz. rewrite Et in Ht. apply desc_app in Ht as (_ & _ & Ht). apply Ht; [done | left]. }
      assert (Hyb : forall z, z ∈ bot k -> z.2 <= y.2).
      { intros z Hz. apply Hord; [|done]. rewrite Et. set_solver. }
      assert (Hrs : descending r). { rewrite Et in Ht. by apply desc_app in Ht as (? & _). }
      assert (Hins : n_list (insert_sorted x (mkNoms r (saturating_sub (n_total (bt k)) y.2))) = ins x r).
      { apply insert_sorted_list. cbn. lia. }
      assert (Htot : n_total (insert_sorted x (mkNoms r (saturating_sub (n_total (bt k)) y.2))) = lsum (ins x r)).
      { rewrite insert_sorted_total, (lsum_perm _ _ (ins_perm x r)). cbn. rewrite Htt, Et, lsum_app. cbn. unfold saturating_sub.
        rewrite Et, lsum_app in Hsum. cbn in Hsum. lia. }
      destruct kicked as [z|].
      * destruct Hb' as (Hbf & l & Ebl & Hbl' & Hbt').
        rewrite (proj2 (N.leb_le _ _)) by lia. cbn.
        assert (Hlb2 : lowest (bot k) = z.2) by (rewrite Ebl; apply lowest_snoc).
        assert (Hzb : z ∈ bot k) by (rewrite Ebl; set_solver).
        assert (Hz : forall u, u ∈ l -> z.2 <= u.2).
        { intros u Hu. rewrite Ebl in Hbs. apply desc_app in Hbs as (_ & _ & Hbs). apply Hbs; [done | left]. }
        split; [|split; [done|]].
        { apply rebuilt; try done; cbn -[insert_sorted].
          - rewrite Hins, Hbl'. eapply (relisted (x :: r) (y :: l)); try (by rewrite ins_perm).
            + by apply ins_sorted.
            + apply ins_sorted. rewrite Ebl in Hbs. by apply desc_app in Hbs as (? & _).
            + intros u v Hu Hv. apply elem_of_cons in Hu as [->|Hu]; apply elem_of_cons in Hv as [->|Hv].
              * lia.
              * specialize (Hyb v). rewrite Ebl in Hyb. specialize (Hyb ltac:(set_solver)). lia.
              * by apply Hy.
              * specialize (Hyb v). rewrite Ebl in Hyb. specialize (Hyb ltac:(set_solver)). specialize (Hy u Hu). lia.
            + cbn. lia.
            + rewrite Ebl, app_length in Hbl. cbn in *. lia.
            + cbn. lia.
            + rewrite Et, Ebl in Hnd'. assert (P : x :: (r ++ [y]) ++ l ++ [z] ≡ₚ z :: ((x :: r) ++ (y :: l))) by solve_Permutation.
              apply (nodup_perm _ _ P) in Hnd'. by inversion Hnd'.
          - by rewrite Hins, Htot.
          - rewrite Hbl', Hbt', (lsum_perm _ _ (ins_perm y l)). cbn. rewrite Ebl, lsum_app in Hbt. cbn in Hbt.
            rewrite Et, Ebl, !lsum_app in Hsum. cbn in Hsum. lia.
          - rewrite Hins, (lsum_perm _ _ (ins_perm x r)). cbn. rewrite Et, lsum_app in Hsum. cbn in Hsum. lia.
          - rewrite Hins, Hbl', Hcnt. rewrite Et, Ebl. rewrite !app_length, !len_ins. cbn. lia. }
        split; [congruence|]. split; [done|]. split; [specialize (Hyb z Hzb); lia|].
        unfold insert_sorted in Hins. cbn in Hins. cbn -[N.ltb]. rewrite Hins, Hbl', Et, Ebl, !ins_perm. solve_Permutation.
      * destruct Hb' as (Hbf & Hbl' & Hbt'). rewrite (proj2 (N.leb_gt _ _)) by lia. cbn.
        assert (Hcnt32 : N.of_nat (length (top k ++ bot k)) + 1 <= U32_MAX). { rewrite app_length. unfold U32_MAX. lia. }
        split; [|split; [done|]].
        { apply rebuilt; try done; cbn -[insert_sorted].
          - rewrite Hins, Hbl'. eapply (relisted (x :: r) (y :: bot k)); try (by rewrite ins_perm).
            + by apply ins_sorted.
            + by apply ins_sorted.
            + intros u v Hu Hv. apply elem_of_cons in Hu as [->|Hu]; apply elem_of_cons in Hv as [->|Hv].
              * lia.
              * specialize (Hyb v Hv). lia.
              * by apply Hy.
              * specialize (Hyb v Hv). specialize (Hy u Hu). lia.
            + cbn. lia.
            + cbn in *. lia.
            + cbn. lia.
            + eapply nodup_perm; [|exact Hnd']. rewrite Et. solve_Permutation.
          - by rewrite Hins, Htot.
          - rewrite Hbl', Hbt', (lsum_perm _ _ (ins_perm y _)). cbn. rewrite Et, !lsum_app in Hsum. cbn in Hsum. lia.
          - rewrite Hins, (lsum_perm _ _ (ins_perm x r)). cbn. rewrite Et, lsum_app in Hsum. cbn in Hsum. lia.
          - rewrite Hins, Hbl', Hcnt. unfold sat32, saturating_add. rewrite N.min_r by lia.
            rewrite Et. rewrite !app_length, !len_ins. cbn. lia. }
        split; [done|]. unfold insert_sorted in Hins. cbn in Hins. cbn -[N.ltb]. rewrite Hins, Hbl', Et, !ins_perm. solve_Permutation.
    + cbn [andb]. destruct (N.leb_spec (c_max_bot c) (N.of_nat (length (bot k)))) as [Ebf|Ebf].
      * cbn [andb]. destruct (N.ltb_spec (lowest (bot k)) x.2) as [Elb|Elb]; cbn [negb]; [|done].
        destruct (add_bottom_eq false x k Hbs Hbl) as (b' & kicked & -> & Hb'). rewrite orb_false_r, is_full_cap.
        rewrite (proj2 (N.leb_le _ _)) by lia.
        destruct kicked as [z|]; [|lia]. destruct Hb' as (Hbf & l & Ebl & Hbl' & Hbt').
        assert (Hlb2 : lowest (bot k) = z.2) by (rewrite Ebl; apply lowest_snoc).
        assert (Hzb : z ∈ bot k) by (rewrite Ebl; set_solver).
        split; [|split; [done|]].
        { apply rebuilt; try done; cbn -[insert_sorted].
          - rewrite Hbl'. eapply (relisted (top k) (x :: l)); try (by rewrite ins_perm); try done.
            + apply ins_sorted. rewrite Ebl in Hbs. by apply desc_app in Hbs as (? & _).
            + intros u v Hu Hv. apply elem_of_cons in Hv as [->|Hv].
              * pose proof (lowest_le _ _ Ht Hu). lia.
              * apply Hord; [done|]. rewrite Ebl. set_solver.
            + rewrite Ebl, app_length in Hbl. cbn in *. lia.
            + lia.
            + rewrite Ebl in Hnd'. assert (P : x :: top k ++ l ++ [z] ≡ₚ z :: (top k ++ (x :: l))) by solve_Permutation.
              apply (nodup_perm _ _ P) in Hnd'. by inversion Hnd'.
          - rewrite Hbl', Hbt', (lsum_perm _ _ (ins_perm x l)). cbn. rewrite Ebl, lsum_app in Hbt. cbn in Hbt.
            rewrite Ebl, !lsum_app in Hsum. cbn in Hsum. lia.
          - lia.
          - rewrite Hbl', Hcnt, Ebl. rewrite !app_length, !len_ins. cbn. lia.
          - rewrite Hctd, Htt. unfold sat, saturating_add. lia. }
        split; [congruence|]. split; [done|]. split; [lia|].
        cbn. rewrite Hbl', Ebl, !ins_perm. solve_Permutation.
      * cbn [andb]. destruct (add_bottom_eq false x k Hbs Hbl) as (b' & kicked & -> & Hb'). rewrite orb_false_r, is_full_cap.
        rewrite (proj2 (N.leb_gt _ _)) by lia.
        destruct kicked as [z|]; [lia|]. destruct Hb' as (Hbf & Hbl' & Hbt').
        assert (Hcnt32 : N.of_nat (length (top k ++ bot k)) + 1 <= U32_MAX). { rewrite app_length. unfold U32_MAX. lia. }
        split; [|split; [done|]].
        { apply rebuilt; try done; cbn -[insert_sorted].
          - rewrite Hbl'. eapply (relisted (top k) (x :: bot k)); try (by rewrite ins_perm); try done.
            + by apply ins_sorted.
            + intros u v Hu Hv. apply elem_of_cons in Hv as [->|Hv].
              * pose proof (lowest_le _ _ Ht Hu). lia.
              * by apply Hord.
            + cbn. lia.
            + lia.
            + eapply nodup_perm; [|exact Hnd']. solve_Permutation.
          - rewrite Hbl', Hbt', (lsum_perm _ _ (ins_perm x _)). cbn. lia.
          - lia.
          - rewrite Hbl', Hcnt. unfold sat32, saturating_add. rewrite N.min_r by lia. rewrite !app_length, !len_ins. lia.
          - rewrite Hctd, Htt. unfold sat, saturating_add. lia. }
        split; [done|]. cbn. rewrite Hbl', !ins_perm. solve_Permutation.
  - assert (Ebn : bot k = []). { destruct (bot k) eqn:E; [done|]. rewrite Hfull in Ef by done. lia. }
    unfold add_top. rewrite (proj2 (N.eqb_neq _ _)) by lia. cbn.
    assert (Hins : n_list (insert_sorted x (bt k)) = ins x (top k)). { apply insert_sorted_list. lia. }
    assert (Hcnt32 : N.of_nat (length (top k ++ bot k)) + 1 <= U32_MAX). { rewrite app_length. unfold U32_MAX. lia. }
    split; [|split; [done|]].
    { apply rebuilt; try done; cbn -[insert_sorted].
      - rewrite Hins, Ebn. eapply (relisted (x :: top k) []); try (by rewrite ins_perm); try done.
        + by apply ins_sorted.
        + constructor.
        + intros u v _ Hv. by apply elem_of_nil in Hv.
        + cbn. lia.
        + cbn; lia.
        + eapply nodup_perm; [|exact Hnd']. rewrite Ebn. solve_Permutation.
      - rewrite Hins. rewrite insert_sorted_total, (lsum_perm _ _ (ins_perm x _)). cbn. rewrite Htt. lia.
      - rewrite Hins, (lsum_perm _ _ (ins_perm x _)). cbn. lia.
      - rewrite Hins, Hcnt. unfold sat32, saturating_add. rewrite N.min_r by lia. rewrite !app_length, !len_ins. lia. }
    split; [done|]. unfold insert_sorted in Hins. cbn in Hins. cbn -[N.ltb]. rewrite Hins, ins_perm. done.
Qed.

Lemma nodup_top k : book_ok k -> NoDup (map fst (top k)).
Proof. intros H. destruct H as [[_ _ _ _ _ _ H] _ _ _ _ _ _ _ _ _]. rewrite map_app in H. by apply NoDup_app in H as (? & _). Qed.
Lemma nodup_bot k : book_ok k -> NoDup (map fst (bot k)).
Proof. intros H. destruct H as [[_ _ _ _ _ _ H] _ _ _ _ _ _ _ _ _]. rewrite map_app in H. by apply NoDup_app in H as (_ & _ & ?). Qed.
Lemma not_both k w a b : book_ok k -> (w, a) ∈ top k -> (w, b) ∈ bot k -> False.
Proof.
  intros [[_ _ _ _ _ _ H] _ _ _ _ _ _ _ _ _] H1 H2. rewrite map_app in H. apply NoDup_app in H as (_ & H & _).
  apply (H w); apply elem_of_list_fmap; [by exists (w, a) | by exists (w, b)].
Qed.
Lemma top_none k w b : book_ok k -> (w, b) ∈ bot k -> amount_in w (top k) = None.
Proof.
  intros Hk H. apply amount_in_none. intros H1. apply elem_of_list_fmap in H1 as ([w' a] & E & H1). cbn in E. subst w'.
  by eapply not_both.
Qed.

Definition removed (w a : N) (k : book) (r : res book) : Prop :=
  exists k', r = Ok k' /\ book_ok k' /\ same_meta k k' /\ (w, a) :: all_noms k' ≡ₚ all_noms k.

Lemma rm_top_ok w a k : book_ok k -> k_bond (bk k) + lsum (all_noms k) <= U128_MAX -> (w, a) ∈ top k -> removed w a k (rm_top c w k).
Proof.
  intros Hk Hsum Hin. pose proof (nodup_top k Hk) as Hnt. book_start Hk Hb. destruct Hc as (Hct & Hcb & _).
  unfold all_noms in *. rewrite lsum_app in Hsum.
  pose proof (proj2 (amount_in_elem w a _ Hnt) Hin) as Ea. unfold rm_top. rewrite Ea.
  destruct (amount_in_split w a _ Hnt Ea) as (l1 & l2 & El & Ew & _). rewrite Ew.
  assert (Hs12 : descending (l1 ++ l2)).
  { rewrite El in Ht. apply desc_app in Ht as (H1 & H2 & H3). inversion H2; subst. apply desc_app. split; [done|]. split; [done|].
    intros; apply H3; [done | by right]. }
  assert (Hlen : length (top k) = S (length (l1 ++ l2))) by (rewrite El, !app_length; cbn; lia).
  assert (Htt' : lsum (top k) = a + lsum (l1 ++ l2)) by (rewrite El, !lsum_app; cbn; lia).
  assert (Hp : top k ≡ₚ (w, a) :: l1 ++ l2) by (rewrite El; solve_Permutation).
  destruct (is_empty (k_bot_cap (bk k))) eqn:Eb.
  - rewrite Hbc in Eb. apply is_empty_cap in Eb; [|lia].
    eexists. split; [reflexivity|]. split; [|split; [done|]].
    + apply rebuilt; try done; cbn.
      * rewrite Eb in *. constructor; try done.
        -- intros u v _ Hv. by apply elem_of_nil in Hv.
        -- lia.
        -- rewrite app_nil_r in *. eapply nodup_perm in Hnd; [|exact Hp]. by inversion Hnd.
      * rewrite Htt. unfold saturating_sub. lia.
      * lia.
      * rewrite Hcnt, !app_length in *. unfold saturating_sub. lia.
    + unfold all_noms; cbn. rewrite Hp. solve_Permutation.
  - destruct (bot k) as [|h r] eqn:Ebk; [exfalso; rewrite Hbc in Eb; unfold cap_of in Eb; cbn in Eb; destruct (N.leb_spec (c_max_bot c) (N.of_nat 0)); [lia | done]|].
    assert (Hh : forall z, z ∈ r -> z.2 <= h.2).
    { intros z Hz. inversion Hbs as [|? ? _ Hf]; subst. rewrite Forall_forall in Hf. by apply Hf. }
    assert (Hht : forall z, z ∈ l1 ++ l2 -> h.2 <= z.2).
    { intros z Hz. apply Hord; [rewrite Hp; by right | left]. }
    assert (Hins : n_list (insert_sorted h (mkNoms (l1 ++ l2) (saturating_sub (n_total (bt k)) a))) = ins h (l1 ++ l2)).
    { apply insert_sorted_list. cbn. lia. }
    cbn in Hbt, Hsum.
    eexists. split; [reflexivity|]. split; [|split; [done|]].
    + apply rebuilt; try done; cbn -[insert_sorted].
      * rewrite Hins. eapply (relisted (h :: l1 ++ l2) r); try (by rewrite ins_perm); try done.
        -- by apply ins_sorted.
        -- by inversion Hbs.
        -- intros u v Hu Hv. specialize (Hh v Hv). apply elem_of_cons in Hu as [->|Hu]; [done|]. specialize (Hht u Hu). lia.
        -- cbn. cbn in *. lia.
        -- cbn in *. lia.
        -- intros _. cbn. specialize (Hfull ltac:(done)). lia.
        -- assert (P : top k ++ h :: r ≡ₚ (w, a) :: ((h :: l1 ++ l2) ++ r)) by (rewrite Hp; solve_Permutation).
           apply (nodup_perm _ _ P) in Hnd. by inversion Hnd.
      * rewrite Hins, insert_sorted_total, (lsum_perm _ _ (ins_perm h _)). cbn. unfold saturating_sub. lia.
      * unfold saturating_sub. lia.
      * rewrite Hins, (lsum_perm _ _ (ins_perm h _)). cbn. lia.
      * rewrite Hins, Hcnt, !app_length, len_ins in *. cbn. unfold saturating_sub. rewrite !app_length in *. lia.
    + unfold insert_sorted in Hins. cbn in Hins. unfold all_noms; cbn -[N.ltb]. rewrite Hins, ins_perm, Hp, Ebk. solve_Permutation.
Qed.

Lemma rm_bottom_ok w a k : book_ok k -> k_bond (bk k) + lsum (all_noms k) <= U128_MAX -> (w, a) ∈ bot k -> removed w a k (rm_bottom c w k).
Proof.
  intros Hk Hsum Hin. pose proof (nodup_bot k Hk) as Hnt. book_start Hk Hb. destruct Hc as (Hct & Hcb & _).
  unfold all_noms in *. rewrite lsum_app in Hsum.
  pose proof (proj2 (amount_in_elem w a _ Hnt) Hin) as Ea. unfold rm_bottom. rewrite Ea.
  destruct (amount_in_split w a _ Hnt Ea) as (l1 & l2 & El & Ew & _). rewrite Ew.
  assert (Hs12 : descending (l1 ++ l2)).
  { rewrite El in Hbs. apply desc_app in Hbs as (H1 & H2 & H3). inversion H2; subst. apply desc_app. split; [done|]. split; [done|].
    intros; apply H3; [done | by right]. }
  assert (Hlen : length (bot k) = S (length (l1 ++ l2))) by (rewrite El, !app_length; cbn; lia).
  assert (Htt' : lsum (bot k) = a + lsum (l1 ++ l2)) by (rewrite El, !lsum_app; cbn; lia).
  assert (Hp : bot k ≡ₚ (w, a) :: l1 ++ l2) by (rewrite El; solve_Permutation).
  eexists. split; [reflexivity|]. split; [|split; [done|]].
  - apply rebuilt; try done; cbn.
    + constructor; try done.
      * intros x y Hx Hy. apply Hord; [done|]. rewrite Hp. by right.
      * lia.
      * intros _. apply Hfull. rewrite El. by destruct l1.
      * assert (P : top k ++ bot k ≡ₚ (w, a) :: (top k ++ l1 ++ l2)) by (rewrite Hp; solve_Permutation).
        apply (nodup_perm _ _ P) in Hnd. by inversion Hnd.
    + unfold saturating_sub. lia.
    + lia.
    + rewrite Hcnt, !app_length in *. unfold saturating_sub. lia.
    + rewrite Hctd, Htt. unfold sat, saturating_add. lia.
  - unfold all_noms; cbn. rewrite Hp. solve_Permutation.
Qed.

(** Where a nomination of a given amount is looked for. *)
Lemma located w a k : book_ok k -> (w, a) ∈ all_noms k ->
  (k_low_top (bk k) <= a -> k_low_top (bk k) <> k_high_bot (bk k) -> (w, a) ∈ top k) /\
  (a < k_low_top (bk k) -> (w, a) ∈ bot k) /\
  (is_full (k_top_cap (bk k)) = false -> (w, a) ∈ top k).
Proof.
  intros Hk Hin. book_start Hk Hb. destruct Hc as (Hct & Hcb & _). unfold all_noms in Hin. rewrite Hlt, Hhb.
  apply elem_of_app in Hin as [Hin|Hin].
  - split; [done|]. split; [|done]. intros H. pose proof (lowest_le _ _ Ht Hin). cbn in *. lia.
  - pose proof (highest_ge _ _ Hbs Hin) as H1. cbn in H1.
    assert (Hne : bot k <> []) by (intros E; rewrite E in Hin; by apply elem_of_nil in Hin). specialize (Hfull Hne).
    assert (Hl : highest (bot k) <= lowest (top k)).
    { destruct (bot k) as [|h r] eqn:E; [done|]. cbn.
      destruct (top k) as [|y l _] using rev_ind; [cbn in Hfull; lia|]. rewrite lowest_snoc. apply Hord; set_solver. }
    split; [intros; lia|]. split; [done|]. rewrite Htc, is_full_cap. intros E. apply N.leb_gt in E. lia.
Qed.

Lemma or_else_ok r1 r2 (P : res book -> Prop) k w a : book_ok k -> (w, a) ∈ all_noms k ->
  ((w, a) ∈ top k -> P r1 /\ exists k', r1 = Ok k') -> ((w, a) ∈ bot k -> r1 = Err "NominationDNE" /\ P r2) -> P (or_else r1 r2).
Proof.
  intros Hk Hin H1 H2. apply elem_of_app in Hin as [Hin|Hin].
  - destruct (H1 Hin) as (H & k' & E). rewrite E in *. done.
  - destruct (H2 Hin) as (E & H). rewrite E. done.
Qed.

Lemma rm_nomination_ok w a k : book_ok k -> k_bond (bk k) + lsum (all_noms k) <= U128_MAX -> (w, a) ∈ all_noms k ->
  removed w a k (rm_nomination_if_exists c w a k).
Proof.
  intros Hk Hsum Hin. destruct (located w a k Hk Hin) as (L1 & L2 & L3). unfold rm_nomination_if_exists.
  destruct (is_full (k_top_cap (bk k))) eqn:Ef; cbn; [|by apply rm_top_ok; auto].
  destruct (N.leb_spec (k_low_top (bk k)) a) as [E1|E1]; cbn; [|by apply rm_bottom_ok; auto].
  destruct (N.eqb_spec (k_low_top (bk k)) (k_high_bot (bk k))) as [E2|E2]; cbn; [|by apply rm_top_ok; auto].
  apply (or_else_ok _ _ (removed w a k) k w a Hk Hin).
  - intros H. pose proof (rm_top_ok w a k Hk Hsum H) as H3. split; [done|]. destruct H3 as (k' & E & _). by exists k'.
  - intros H. split; [|by apply rm_bottom_ok]. unfold rm_top. by rewrite (top_none k w a Hk H).
Qed.

(** A nomination replaced by another of the same owner. *)
Definition changed (w a a' : N) (k : book) (r : res book) : Prop :=
  exists k', r = Ok k' /\ book_ok k' /\ same_meta k k' /\ (w, a) :: all_noms k' ≡ₚ (w, a') :: all_noms k.

Lemma changed_top w a a' f k t : book_ok k -> (w, a) ∈ top k -> f a = a' ->
  k_bond (bk k) + lsum (all_noms k) + a' <= U128_MAX + a -> highest (bot k) <= a' ->
  n_list t = sort_desc (update w f (top k)) -> n_total t + a = n_total (bt k) + a' ->
  changed w a a' k (Ok (k <| bk := reset_top c t (bk k) |> <| bt := t |>)).
Proof.
  intros Hk Hin Hf Hsum Hhi Et Ett. pose proof (nodup_top k Hk) as Hnt. book_start Hk Hb. destruct Hc as (Hct & Hcb & _).
  unfold all_noms in *. rewrite lsum_app in Hsum.
  pose proof (proj2 (amount_in_elem w a _ Hnt) Hin) as Ea.
  destruct (amount_in_split w a _ Hnt Ea) as (l1 & l2 & El & _ & Eu). rewrite Eu, Hf in Et.
  assert (Hp : top k ≡ₚ (w, a) :: l1 ++ l2) by (rewrite El; solve_Permutation).
  assert (Hp' : n_list t ≡ₚ (w, a') :: l1 ++ l2) by (rewrite Et, sort_perm; solve_Permutation).
  assert (Htt' : lsum (top k) = a + lsum (l1 ++ l2)) by (rewrite (lsum_perm _ _ Hp); done).
  assert (Hlen : length (n_list t) = length (top k)) by (rewrite Hp, Hp'; done).
  eexists. split; [reflexivity|]. split; [|split; [done|]].
  - apply rebuilt; try done; cbn.
    + constructor; try done.
      * rewrite Et. apply sort_sorted.
      * intros x y Hx Hy. rewrite Hp' in Hx. apply elem_of_cons in Hx as [->|Hx].
        -- cbn. pose proof (highest_ge _ _ Hbs Hy). lia.
        -- apply Hord; [|done]. rewrite Hp. by right.
      * lia.
      * intros H. rewrite Hlen. by apply Hfull.
      * assert (P : map fst (top k ++ bot k) ≡ₚ map fst (n_list t ++ bot k)).
        { rewrite !map_app, (perm_fst _ _ Hp), (perm_fst _ _ Hp'). done. }
        by rewrite <- P.
    + rewrite (lsum_perm _ _ Hp'). cbn. lia.
    + rewrite (lsum_perm _ _ Hp'). cbn. lia.
    + rewrite Hcnt, !app_length. lia.
  - unfold all_noms; cbn. rewrite Hp, Hp'. solve_Permutation.
Qed.
Lemma changed_bot w a a' f k b : book_ok k -> (w, a) ∈ bot k -> f a = a' ->
  k_bond (bk k) + lsum (all_noms k) + a' <= U128_MAX + a -> a' <= lowest (top k) ->
  n_list b = sort_desc (update w f (bot k)) -> lsum (bot k) + a' <= n_total b + a ->
  changed w a a' k (Ok (k <| bk := reset_bot c b (bk k) |> <| bb := b |>)).
Proof.
  intros Hk Hin Hf Hsum Hhi Et Ett. pose proof (nodup_bot k Hk) as Hnt. book_start Hk Hb. destruct Hc as (Hct & Hcb & _).
  unfold all_noms in *. rewrite lsum_app in Hsum.
  pose proof (proj2 (amount_in_elem w a _ Hnt) Hin) as Ea.
  destruct (amount_in_split w a _ Hnt Ea) as (l1 & l2 & El & _ & Eu). rewrite Eu, Hf in Et.
  assert (Hp : bot k ≡ₚ (w, a) :: l1 ++ l2) by (rewrite El; solve_Permutation).
  assert (Hp' : n_list b ≡ₚ (w, a') :: l1 ++ l2) by (rewrite Et, sort_perm; solve_Permutation).
  assert (Htt' : lsum (bot k) = a + lsum (l1 ++ l2)) by (rewrite (lsum_perm _ _ Hp); done).
  assert (Hlen : length (n_list b) = length (bot k)) by (rewrite Hp, Hp'; done).
  eexists. split; [reflexivity|]. split; [|split; [done|]].
  - apply rebuilt; try done; cbn.
    + constructor; try done.
      * rewrite Et. apply sort_sorted.
      * intros x y Hx Hy. rewrite Hp' in Hy. apply elem_of_cons in Hy as [->|Hy].
        -- cbn. pose proof (lowest_le _ _ Ht Hx). lia.
        -- apply Hord; [done|]. rewrite Hp. by right.
      * lia.
      * intros H. apply Hfull. rewrite El. by destruct l1.
      * assert (P : map fst (top k ++ bot k) ≡ₚ map fst (top k ++ n_list b)).
        { rewrite !map_app, (perm_fst _ _ Hp), (perm_fst _ _ Hp'). done. }
        by rewrite <- P.
    + rewrite (lsum_perm _ _ Hp'). cbn. lia.
    + pose proof (lsum_elem _ _ Hin) as Hle. cbn in Hle. lia.
    + rewrite Hcnt, !app_length. lia.
    + pose proof (lsum_elem _ _ Hin) as Hle. cbn in Hle. rewrite Hctd, Htt. unfold sat, saturating_add. lia.
  - unfold all_noms; cbn. rewrite Hp, Hp'. solve_Permutation.
Qed.

(** A top nomination swapped with a bottom one. *)
Lemma swapped k w a w' t b l1 l2 y r a' :
  book_ok k -> k_bond (bk k) + lsum (all_noms k) + a' <= U128_MAX + a ->
  all_noms k ≡ₚ (w, a) :: y :: l1 ++ l2 ->
  n_list t ≡ₚ w' :: l1 -> n_list b ≡ₚ r :: l2 -> [w'; r] ≡ₚ [(w, a'); y] ->
  length (n_list t) = length (top k) -> length (n_list b) = length (bot k) -> bot k <> [] ->
  descending (n_list t) -> descending (n_list b) -> (forall u v, u ∈ w' :: l1 -> v ∈ r :: l2 -> v.2 <= u.2) ->
  n_total t = lsum (n_list t) -> lsum (n_list b) <= n_total b ->
  changed w a a' k (Ok (mkBook (reset_bot c b (reset_top c t (bk k))) t b)).
Proof.
  intros Hk Hsum Hall Htp Hbp Hsw Hlt' Hlb' Hbn Hts Hbs' Hord' Htt' Hbt'.
  book_start Hk Hb. destruct Hc as (Hct & Hcb & _).
  assert (Hp : n_list t ++ n_list b ≡ₚ (w, a') :: y :: l1 ++ l2).
  { rewrite Htp, Hbp. transitivity ([w'; r] ++ l1 ++ l2); [solve_Permutation|]. by rewrite Hsw. }
  unfold all_noms in *.
  eexists. split; [reflexivity|]. split; [|split; [done|]].
  - apply rebuilt; try done; cbn.
    + constructor; try done.
      * intros u v. rewrite Htp, Hbp. apply Hord'.
      * lia.
      * lia.
      * intros _. rewrite Hlt'. by apply Hfull.
      * assert (P : map fst (top k ++ bot k) ≡ₚ map fst (n_list t ++ n_list b)).
        { rewrite (perm_fst _ _ Hall), (perm_fst _ _ Hp). done. }
        by rewrite <- P.
    + rewrite (lsum_perm _ _ Hall) in Hsum. pose proof (lsum_perm _ _ Hp) as E. rewrite lsum_app in E. cbn in E, Hsum. lia.
    + rewrite Hcnt, !app_length. lia.
  - unfold all_noms; cbn. rewrite Hp, Hall. solve_Permutation.
Qed.

Lemma top_above_bot w a k : book_ok k -> (w, a) ∈ top k -> highest (bot k) <= a.
Proof.
  intros Hk Hin. book_start Hk Hb. destruct (bot k) as [|h r] eqn:E; cbn; [lia|]. specialize (Hord (w, a) h Hin ltac:(left)). done.
Qed.

Lemma increase_top_ok w a more k : book_ok k -> (w, a) ∈ top k -> k_bond (bk k) + lsum (all_noms k) + more <= U128_MAX ->
  changed w a (a + more) k (increase_top c w more k).
Proof.
  intros Hk Hin Hsum. pose proof (nodup_top k Hk) as Hnt. unfold increase_top.
  rewrite (proj2 (amount_in_elem w a _ Hnt) Hin).
  pose proof (lsum_elem _ _ Hin) as Hle. cbn in Hle. pose proof Hsum as Hs2. unfold all_noms in Hs2. rewrite lsum_app in Hs2.
  pose proof (top_above_bot w a k Hk Hin).
  eapply (changed_top w a _ (fun a => sat a more)); try done.
  - unfold sat, saturating_add. lia.
  - lia.
  - lia.
  - cbn. rewrite (bo_ttotal _ Hk). unfold sat, saturating_add. lia.
Qed.
Lemma increase_bottom_ok w a more k : book_ok k -> (w, a) ∈ bot k -> k_bond (bk k) + lsum (all_noms k) + more <= U128_MAX ->
  changed w a (a + more) k (increase_bottom c w a more k).
Proof.
  intros Hk Hin Hsum. pose proof (nodup_bot k Hk) as Hnt. unfold increase_bottom.
  pose proof (proj2 (amount_in_elem w a _ Hnt) Hin) as Ea. rewrite Ea.
  pose proof (lsum_elem _ _ Hin) as Hle. cbn in Hle. pose proof Hsum as Hs2. unfold all_noms in Hs2. rewrite lsum_app in Hs2.
  assert (Esat : sat a more = a + more) by (unfold sat, saturating_add; lia). rewrite Esat.
  pose proof Hk as Hk0. book_start Hk0 Hb. rewrite Hlt.
  assert (Hbn : bot k <> []) by (intros E; rewrite E in Hin; by apply elem_of_nil in Hin).
  pose proof (Hfull Hbn) as Hf. destruct Hc as (Hct & Hcb & _).
  destruct (N.ltb_spec (lowest (top k)) (a + more)) as [E|E].
  - rewrite is_full_cap, (proj2 (N.leb_le _ _)) by lia.
    destruct (pop_some (top k)) as (r & y & Ep). { intros H. rewrite H in Hf. cbn in Hf. lia. }
    rewrite Ep. apply pop_app in Ep.
    destruct (amount_in_split w a _ Hnt Ea) as (l1 & l2 & El & Ew & _). rewrite Ew.
    assert (Hp : bot k ≡ₚ (w, a) :: l1 ++ l2) by (rewrite El; solve_Permutation).
    assert (Hlr : length (top k) = S (length r)) by (rewrite Ep, app_length; cbn; lia).
    assert (Hlb' : length (bot k) = S (length (l1 ++ l2))) by (by rewrite Hp).
    assert (Hs12 : descending (l1 ++ l2)).
    { rewrite El in Hbs. apply desc_app in Hbs as (H1 & H2 & H3). inversion H2; subst. apply desc_app. split; [done|]. split; [done|].
      intros; apply H3; [done | by right]. }
    assert (Hsr : descending r). { rewrite Ep in Ht. by apply desc_app in Ht as (? & _). }
    assert (Hy : forall z, z ∈ r -> y.2 <= z.2).
    { intros z Hz. rewrite Ep in Ht. apply desc_app in Ht as (_ & _ & Ht). apply Ht; [done | left]. }
    assert (Hyb : forall z, z ∈ bot k -> z.2 <= y.2).
    { intros z Hz. apply Hord; [|done]. rewrite Ep. set_solver. }
    rewrite Ep, lowest_snoc in E.
    assert (Hins : n_list (insert_sorted (w, a + more) (mkNoms r (saturating_sub (n_total (bt k)) y.2))) = ins (w, a + more) r).
    { apply insert_sorted_list. cbn. lia. }
    assert (Hins2 : n_list (insert_sorted y (mkNoms (l1 ++ l2) (saturating_sub (n_total (bb k)) a))) = ins y (l1 ++ l2)).
    { apply insert_sorted_list. cbn. lia. }
    assert (Hst : lsum (top k) = lsum r + y.2) by (rewrite Ep, lsum_app; cbn; lia).
    assert (Hsb : lsum (bot k) = a + lsum (l1 ++ l2)) by (rewrite (lsum_perm _ _ Hp); done).
    eapply (swapped k w a (w, a + more) _ _ r (l1 ++ l2) y y (a + more) Hk); try done.
    + lia.
    + unfold all_noms. rewrite Hp, Ep. solve_Permutation.
    + by rewrite Hins, ins_perm.
    + by rewrite Hins2, ins_perm.
    + rewrite Hins, len_ins. lia.
    + rewrite Hins2, len_ins. lia.
    + rewrite Hins. by apply ins_sorted.
    + rewrite Hins2. by apply ins_sorted.
    + intros u v Hu Hv.
      assert (v.2 <= y.2). { apply elem_of_cons in Hv as [->|Hv]; [lia|]. apply Hyb. rewrite Hp. by right. }
      apply elem_of_cons in Hu as [->|Hu]; [cbn; lia|]. specialize (Hy u Hu). lia.
    + rewrite Hins, insert_sorted_total, (lsum_perm _ _ (ins_perm _ _)). cbn. unfold saturating_sub. lia.
    + rewrite Hins2, insert_sorted_total, (lsum_perm _ _ (ins_perm _ _)). cbn. unfold saturating_sub. lia.
  - eapply (changed_bot w a _ (fun a => sat a more)); try done.
    + lia.
    + cbn. unfold sat, saturating_add. lia.
Qed.
Lemma increase_ok w a more k : book_ok k -> (w, a) ∈ all_noms k -> k_bond (bk k) + lsum (all_noms k) + more <= U128_MAX ->
  changed w a (a + more) k (increase c w a more k).
Proof.
  intros Hk Hin Hsum. destruct (located w a k Hk Hin) as (L1 & L2 & L3). unfold increase.
  destruct (N.leb_spec (k_low_top (bk k)) a) as [E1|E1]; cbn; [|by apply increase_bottom_ok; auto].
  destruct (N.eqb_spec (k_low_top (bk k)) (k_high_bot (bk k))) as [E2|E2]; cbn; [|by apply increase_top_ok; auto].
  apply (or_else_ok _ _ (changed w a (a + more) k) k w a Hk Hin).
  - intros H. pose proof (increase_top_ok w a more k Hk H Hsum) as H3. split; [done|]. destruct H3 as (k' & E & _). by exists k'.
  - intros H. split; [|by apply increase_bottom_ok]. unfold increase_top. by rewrite (top_none k w a Hk H).
Qed.

Lemma decrease_top_ok w a less k : book_ok k -> (w, a) ∈ top k -> k_bond (bk k) + lsum (all_noms k) <= U128_MAX -> less <= a ->
  changed w a (a - less) k (decrease_top c w a less k).
Proof.
  intros Hk Hin Hsum Hless. pose proof (nodup_top k Hk) as Hnt. unfold decrease_top.
  pose proof (proj2 (amount_in_elem w a _ Hnt) Hin) as Ea. rewrite Ea.
  pose proof (lsum_elem _ _ Hin) as Hle. cbn in Hle. pose proof Hsum as Hs2. unfold all_noms in Hs2. rewrite lsum_app in Hs2.
  pose proof Hk as Hk0. book_start Hk0 Hb. unfold saturating_sub in *. rewrite Hhb.
  destruct ((a - less <? highest (bot k)) && (is_full (k_top_cap (bk k)) && negb (is_empty (k_bot_cap (bk k))))) eqn:E.
  - apply andb_true_iff in E as [E1 E2]. apply andb_true_iff in E2 as [E2 E3]. apply N.ltb_lt in E1.
    destruct (bot k) as [|h r] eqn:Ebk; [cbn in E1; lia|]. cbn in E1.
    destruct (amount_in_split w a _ Hnt Ea) as (l1 & l2 & El & Ew & _). rewrite Ew. destruct Hc as (Hct & Hcb & _).
    assert (Hp : top k ≡ₚ (w, a) :: l1 ++ l2) by (rewrite El; solve_Permutation).
    assert (Hlr : length (top k) = S (length (l1 ++ l2))) by (by rewrite Hp).
    assert (Hs12 : descending (l1 ++ l2)).
    { rewrite El in Ht. apply desc_app in Ht as (H1 & H2 & H3). inversion H2; subst. apply desc_app. split; [done|]. split; [done|].
      intros; apply H3; [done | by right]. }
    assert (Hh : forall z, z ∈ r -> z.2 <= h.2).
    { intros z Hz. inversion Hbs as [|? ? _ Hf]; subst. rewrite Forall_forall in Hf. by apply Hf. }
    assert (Hsr : descending r) by (by inversion Hbs).
    assert (Hht : forall z, z ∈ l1 ++ l2 -> h.2 <= z.2).
    { intros z Hz. apply Hord; [rewrite Hp; by right | left]. }
    cbn in Hbl, Hbt, Hs2.
    assert (Hins : n_list (insert_sorted h (mkNoms (l1 ++ l2) (n_total (bt k) - a))) = ins h (l1 ++ l2)).
    { apply insert_sorted_list. cbn. lia. }
    assert (Hins2 : n_list (insert_sorted (w, a - less) (mkNoms r (n_total (bb k) - h.2))) = ins (w, a - less) r).
    { apply insert_sorted_list. cbn. lia. }
    assert (Hst : lsum (top k) = a + lsum (l1 ++ l2)) by (rewrite (lsum_perm _ _ Hp); done).
    pose proof (swapped k w a h (insert_sorted h (mkNoms (l1 ++ l2) (n_total (bt k) - a)))
        (insert_sorted (w, a - less) (mkNoms r (n_total (bb k) - h.2))) (l1 ++ l2) r h (w, a - less) (a - less) Hk) as HS.
    assert (HC : changed w a (a - less) k (Ok (mkBook (reset_bot c (insert_sorted (w, a - less) (mkNoms r (n_total (bb k) - h.2)))
         (reset_top c (insert_sorted h (mkNoms (l1 ++ l2) (n_total (bt k) - a))) (bk k)))
         (insert_sorted h (mkNoms (l1 ++ l2) (n_total (bt k) - a))) (insert_sorted (w, a - less) (mkNoms r (n_total (bb k) - h.2)))))).
    { apply HS; clear HS.
      + lia.
      + unfold all_noms. rewrite Hp, Ebk. solve_Permutation.
      + by rewrite Hins, ins_perm.
      + by rewrite Hins2, ins_perm.
      + solve_Permutation.
      + rewrite Hins, len_ins. lia.
      + rewrite Hins2, len_ins, Ebk. done.
      + by rewrite Ebk.
      + rewrite Hins. by apply ins_sorted.
      + rewrite Hins2. by apply ins_sorted.
      + intros u v Hu Hv.
        assert (v.2 <= h.2). { apply elem_of_cons in Hv as [->|Hv]; [cbn; lia|]. by apply Hh. }
        apply elem_of_cons in Hu as [->|Hu]; [lia|]. specialize (Hht u Hu). lia.
      + rewrite Hins, insert_sorted_total, (lsum_perm _ _ (ins_perm _ _)). cbn. lia.
      + rewrite Hins2, insert_sorted_total, (lsum_perm _ _ (ins_perm _ _)). cbn. lia. }
    exact HC.
  - eapply (changed_top w a _ (fun a => a - less)); try done.
    + lia.
    + destruct (bot k) as [|h r] eqn:Ebk; [cbn; lia|].
      rewrite Hbc, Htc, is_full_cap, (Hfull ltac:(done)) in E. rewrite (proj2 (N.leb_le _ _)) in E by lia.
      assert (Ee : is_empty (cap_of (c_max_bot c) (h :: r)) = false).
      { destruct (is_empty _) eqn:E4; [|done]. apply is_empty_cap in E4; [done|]. destruct Hc as (_ & ? & _). lia. }
      rewrite Ee in E. cbn in E. rewrite andb_true_r in E. apply N.ltb_ge in E. done.
    + cbn. lia.
Qed.
Lemma decrease_bottom_ok w a less k : book_ok k -> (w, a) ∈ bot k -> k_bond (bk k) + lsum (all_noms k) <= U128_MAX -> less <= a ->
  changed w a (a - less) k (decrease_bottom c w less k).
Proof.
  intros Hk Hin Hsum Hless. pose proof (nodup_bot k Hk) as Hnt. unfold decrease_bottom.
  pose proof (proj2 (amount_in_elem w a _ Hnt) Hin) as Ea. rewrite Ea.
  pose proof Hk as Hk0. book_start Hk0 Hb.
  assert (Hbn : bot k <> []) by (intros E; rewrite E in Hin; by apply elem_of_nil in Hin). pose proof (Hfull Hbn) as Hf.
  eapply (changed_bot w a _ (fun a => a - less)); try done.
  - lia.
  - destruct Hc as (Hct & _). destruct (top k) as [|y l _] using rev_ind; [cbn in Hf; lia|].
    rewrite lowest_snoc. specialize (Hord y (w, a) ltac:(set_solver) Hin). cbn in Hord. lia.
  - cbn. lia.
Qed.
Lemma decrease_ok w a less k : book_ok k -> (w, a) ∈ all_noms k -> k_bond (bk k) + lsum (all_noms k) <= U128_MAX -> less <= a ->
  changed w a (a - less) k (decrease c w a less k).
Proof.
  intros Hk Hin Hsum Hless. destruct (located w a k Hk Hin) as (L1 & L2 & L3). unfold decrease.
  destruct (N.leb_spec (k_low_top (bk k)) a) as [E1|E1]; cbn; [|by apply decrease_bottom_ok; auto].
  destruct (N.eqb_spec (k_low_top (bk k)) (k_high_bot (bk k))) as [E2|E2]; cbn; [|by apply decrease_top_ok; auto].
  apply (or_else_ok _ _ (changed w a (a - less) k) k w a Hk Hin).
  - intros H. pose proof (decrease_top_ok w a less k Hk H Hsum Hless) as H3. split; [done|]. destruct H3 as (k' & E & _). by exists k'.
  - intros H. split; [|by apply decrease_bottom_ok]. unfold decrease_top. by rewrite (top_none k w a Hk H).
Qed.

End book.
