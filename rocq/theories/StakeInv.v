(** The invariant of the staking state, and what its parts give. *)
From Verif Require Import Base BaseLemmas CodecModel SigModel StakeModel StakeSpec StakeBook StakeCross.

(** ** Runs that do not panic and end well *)
Definition wp {S A} (m : M S A) (Q : A -> S -> Prop) (s : S) : Prop :=
  match m s with (s', Ok a) => Q a s' | (_, Err e) => e <> "panic"%string end.
Lemma wp_bind {S A B} (m : M S A) (k : A -> M S B) Q s : wp m (fun a s' => wp (k a) Q s') s -> wp (mbind_ m k) Q s.
Proof. unfold wp, mbind_. destruct (m s) as [s1 [a|e]]; auto. Qed.
Lemma wp_ensure {S} b e (Q : unit -> S -> Prop) (s : S) : e <> "panic"%string -> (b = true -> Q tt s) -> wp (ensure b e) Q s.
Proof. unfold wp, ensure. destruct b; auto. Qed.
Lemma wp_ensure_true {S} b e (Q : unit -> S -> Prop) (s : S) : b = true -> Q tt s -> wp (ensure b e) Q s.
Proof. intros -> H. exact H. Qed.
Lemma wp_get {S} (Q : S -> S -> Prop) (s : S) : Q s s -> wp get_st Q s.
Proof. auto. Qed.
Lemma wp_gets {S A} (f : S -> A) (Q : A -> S -> Prop) (s : S) : Q (f s) s -> wp (gets f) Q s.
Proof. auto. Qed.
Lemma wp_modify {S} f (Q : unit -> S -> Prop) (s : S) : Q tt (f s) -> wp (modify f) Q s.
Proof. auto. Qed.
Lemma wp_ret {S A} (a : A) (Q : A -> S -> Prop) (s : S) : Q a s -> wp (mret_ a) Q s.
Proof. auto. Qed.
Lemma wp_fail {S A} e (Q : A -> S -> Prop) (s : S) : e <> "panic"%string -> wp (@fail S A e) Q s.
Proof. auto. Qed.
Lemma wp_some_or {S A} (o : option A) e (Q : A -> S -> Prop) (s : S) : e <> "panic"%string -> (forall a, o = Some a -> Q a s) -> wp (some_or o e) Q s.
Proof. destruct o; unfold wp; cbn; auto. Qed.
Lemma wp_some {S A} (o : option A) a e (Q : A -> S -> Prop) (s : S) : o = Some a -> Q a s -> wp (some_or o e) Q s.
Proof. intros ->. unfold wp; cbn; auto. Qed.
Lemma wp_lift {S A} (r : res A) (Q : A -> S -> Prop) (s : S) : match r with Ok a => Q a s | Err e => e <> "panic"%string end -> wp (lift_res r) Q s.
Proof. destruct r; auto. Qed.
Lemma wp_mono {S A} (m : M S A) (Q Q' : A -> S -> Prop) s : wp m Q s -> (forall a s', Q a s' -> Q' a s') -> wp m Q' s.
Proof. unfold wp. destruct (m s) as [s1 [a|e]]; auto. Qed.
Lemma wp_ok {S A} (m : M S A) Q s s' a : wp m Q s -> m s = (s', Ok a) -> Q a s'.
Proof. unfold wp. intros H E. by rewrite E in H. Qed.
Ltac wp1 :=
  lazymatch goal with
  | |- wp (mbind_ _ _) _ _ => apply wp_bind
  | |- wp get_st _ _ => apply wp_get
  | |- wp (gets _) _ _ => apply wp_gets
  | |- wp (modify _) _ _ => apply wp_modify
  | |- wp (mret_ _) _ _ => apply wp_ret
  | |- wp (fail _) _ _ => apply wp_fail; discriminate
  | |- wp (ensure _ _) _ _ => apply wp_ensure; [discriminate | let H := fresh "Hens" in intros H]
  | |- wp (some_or _ _) _ _ => apply wp_some_or; [discriminate | let a := fresh "a" in let H := fresh "Hsome" in intros a H]
  | |- wp (lift_res _) _ _ => apply wp_lift
  end.
Ltac wps := repeat (wp1; cbv beta).

(** ** The invariant *)
Definition E_of (s : st) (k w : N) : option N :=
  match s_top s !! k, s_bot s !! k with Some t, Some b => amount_in w (n_list t ++ n_list b) | _, _ => None end.
Definition req_ok (x : cand) : Prop := match k_req x with Some (less, _) => less < k_bond x | None => True end.
Definition cand_ok (c : config) (s : st) (k : N) : Prop :=
  match s_cands s !! k with
  | Some x => exists t b, s_top s !! k = Some t /\ s_bot s !! k = Some b /\ book_ok c (mkBook x t b) /\
                s_col_lock s !! k = Some (k_bond x) /\ s_pool s !! k = (if is_active x then Some (k_counted x) else None) /\ req_ok x
  | None => s_top s !! k = None /\ s_bot s !! k = None /\ s_col_lock s !! k = None /\ s_pool s !! k = None
  end.
Definition bal (s : st) (a : N) : N := free_of s a + held_of s a.
Definition staked (s : st) : N := msum (fun _ x => k_bond x) (s_cands s) + msum (fun _ m => m_total m) (s_nominators s).
Record Inv (c : config) (s : st) : Prop := {
  i_cand : forall k, cand_ok c s k;
  i_size : N.of_nat (size (s_pool s)) <= c_max_cands c;
  i_cross : cross c (E_of s) (s_nominators s) (s_reqs s) (s_nom_lock s);
  i_excl : forall w m, s_nominators s !! w = Some m -> s_cands s !! w = None;
  i_nlock : forall w l, s_nom_lock s !! w = Some l -> l <= bal s w;
  i_clock : forall w l, s_col_lock s !! w = Some l -> l <= bal s w;
  i_bal : msum (fun _ x => x) (s_free s) + msum (fun _ x => x) (s_held s) <= U128_MAX;
  i_total : s_total s <= staked s;
  i_min : c_min_per_collator c <= s_min_nom s;
  i_era : s_era s <= U32_MAX;
  i_sel : forall k, k ∈ s_selected s -> is_Some (mget ∅ (s_era s) (s_snaps s) !! k) }.
(** The part of the state that only the start of an era changes. *)
Definition era_part (s : st) : N * list N * gmap N (gmap N snapshot) := (s_era s, s_selected s, s_snaps s).
Lemma era_ext s s' : era_part s' = era_part s -> s_era s <= U32_MAX -> s_era s' <= U32_MAX.
Proof. unfold era_part. intros [= -> _ _] H. exact H. Qed.
Lemma sel_ext s s' : era_part s' = era_part s -> (forall k, k ∈ s_selected s -> is_Some (mget ∅ (s_era s) (s_snaps s) !! k)) ->
  forall k, k ∈ s_selected s' -> is_Some (mget ∅ (s_era s') (s_snaps s') !! k).
Proof. unfold era_part. intros [= -> -> ->] H. exact H. Qed.

(** ** Sums *)
Lemma mget_le_msum (m : gmap N N) k : msum (fun _ x => x) m = mget 0 k m + msum (fun _ x => x) (delete k m).
Proof.
  unfold mget. destruct (m !! k) as [v|] eqn:E; [apply (msum_delete (fun _ x => x) m k v E)|]. rewrite delete_notin by done. lia.
Qed.
Lemma mget_delete_ne (m : gmap N N) k k' : k' <> k -> mget 0 k' (delete k m) = mget 0 k' m.
Proof. intros H. unfold mget. by rewrite lookup_delete_ne. Qed.
Lemma sums_le (NN : gmap N nominator) (C : gmap N cand) (free held : gmap N N) :
  (forall w m, NN !! w = Some m -> C !! w = None) ->
  (forall w m, NN !! w = Some m -> m_total m <= mget 0 w free + mget 0 w held) ->
  (forall k x, C !! k = Some x -> k_bond x <= mget 0 k free + mget 0 k held) ->
  msum (fun _ m => m_total m) NN + msum (fun _ x => k_bond x) C <= msum (fun _ x => x) free + msum (fun _ x => x) held.
Proof.
  revert free held. induction NN as [|w m NN Hw IH] using map_ind; intros free held Hex HN HC.
  - rewrite msum_empty. clear Hex HN. revert free held HC. induction C as [|k x C Hk IH] using map_ind; intros free held HC; [rewrite msum_empty; lia|].
    rewrite msum_insert_new by done. rewrite (mget_le_msum free k), (mget_le_msum held k).
    pose proof (HC k x (lookup_insert _ _ _)) as H1.
    specialize (IH (delete k free) (delete k held)). cbn in IH. enough (msum (λ _ x, k_bond x) C <= msum (fun _ x => x) (delete k free) + msum (fun _ x => x) (delete k held)) by lia.
    apply IH. intros k' x' E. assert (k' <> k) by congruence. rewrite !mget_delete_ne by done. apply HC. by rewrite lookup_insert_ne.
  - rewrite msum_insert_new by done. rewrite (mget_le_msum free w), (mget_le_msum held w).
    pose proof (HN w m (lookup_insert _ _ _)) as H1.
    enough (msum (fun _ m => m_total m) NN + msum (fun _ x => k_bond x) C <= msum (fun _ x => x) (delete w free) + msum (fun _ x => x) (delete w held)) by lia.
    apply IH.
    + intros w' m' E. apply (Hex w' m'). rewrite lookup_insert_ne; [done|congruence].
    + intros w' m' E. assert (w' <> w) by congruence. rewrite !mget_delete_ne by done. apply HN. by rewrite lookup_insert_ne.
    + intros k x E. assert (k <> w). { intros ->. rewrite (Hex w m (lookup_insert _ _ _)) in E. done. }
      rewrite !mget_delete_ne by done. by apply HC.
Qed.
Lemma lsum_le_totals (l : list (N * N)) (NN : gmap N nominator) : NoDup (map fst l) ->
  (forall w a, (w, a) ∈ l -> exists m, NN !! w = Some m /\ a <= m_total m) -> lsum l <= msum (fun _ m => m_total m) NN.
Proof.
  revert NN. induction l as [|[w a] l IH]; intros NN Hnd Hl; cbn; [lia|]. cbn in Hnd. apply NoDup_cons in Hnd as [Hw Hnd].
  destruct (Hl w a ltac:(left)) as (m & Em & Hm). rewrite (msum_delete _ NN w m Em).
  enough (lsum l <= msum (fun _ m => m_total m) (delete w NN)) by lia. apply IH; [done|].
  intros w' a' H'. destruct (Hl w' a' ltac:(by right)) as (m' & Em' & Hm'). exists m'. split; [|done].
  rewrite lookup_delete_ne; [done|]. intros ->. apply Hw. apply elem_of_list_fmap. by exists (w', a').
Qed.

Section inv.
Variable c : config.
Hypothesis Hc : config_ok c.

(** The book of a candidate. *)
Lemma inv_book s k x : Inv c s -> s_cands s !! k = Some x -> exists t b, s_top s !! k = Some t /\ s_bot s !! k = Some b /\
  book_ok c (mkBook x t b) /\ s_col_lock s !! k = Some (k_bond x) /\ s_pool s !! k = (if is_active x then Some (k_counted x) else None) /\
  (forall w, E_of s k w = amount_in w (all_noms (mkBook x t b))).
Proof.
  intros H Hk. pose proof (i_cand _ _ H k) as Hck. unfold cand_ok in Hck. rewrite Hk in Hck.
  destruct Hck as (t & b & Ht & Hb & Hok & Hl & Hp & Hq). exists t, b. do 5 (split; [done|]).
  intros w. unfold E_of. by rewrite Ht, Hb.
Qed.
Lemma nodup_all k : book_ok c k -> NoDup (map fst (all_noms k)).
Proof. intros H. apply (bo_lists _ _ H). Qed.
(** A nomination is in the book of an existing candidate. *)
Lemma inv_nomination s w m k a : Inv c s -> s_nominators s !! w = Some m -> m_noms m !! k = Some a ->
  exists x t b, s_cands s !! k = Some x /\ s_top s !! k = Some t /\ s_bot s !! k = Some b /\ book_ok c (mkBook x t b) /\
    (w, a) ∈ all_noms (mkBook x t b).
Proof.
  intros H Hm Ha. pose proof (cr_link _ _ _ _ _ (i_cross _ _ H) w k) as Hl. unfold noms_of in Hl. rewrite Hm in Hl. cbn in Hl. rewrite Ha in Hl.
  destruct (s_cands s !! k) as [x|] eqn:Hx.
  - destruct (inv_book s k x H Hx) as (t & b & Ht & Hb & Hok & _ & _ & He). rewrite He in Hl. symmetry in Hl.
    exists x, t, b. do 4 (split; [done|]). by apply (amount_in_elem _ _ _ (nodup_all _ Hok)).
  - pose proof (i_cand _ _ H k) as Hck. unfold cand_ok in Hck. rewrite Hx in Hck. destruct Hck as (Ht & _).
    unfold E_of in Hl. by rewrite Ht in Hl.
Qed.
Lemma inv_entry s k x t b w a : Inv c s -> s_cands s !! k = Some x -> s_top s !! k = Some t -> s_bot s !! k = Some b ->
  (w, a) ∈ all_noms (mkBook x t b) -> exists m, s_nominators s !! w = Some m /\ m_noms m !! k = Some a.
Proof.
  intros H Hx Ht Hb Hin. destruct (inv_book s k x H Hx) as (t' & b' & Ht' & Hb' & Hok & _ & _ & He).
  rewrite Ht in Ht'. rewrite Hb in Hb'. injection Ht' as <-. injection Hb' as <-.
  apply (amount_in_elem _ _ _ (nodup_all _ Hok)) in Hin. rewrite <- He in Hin.
  rewrite <- (cr_link _ _ _ _ _ (i_cross _ _ H) w k) in Hin. unfold noms_of in Hin. destruct (s_nominators s !! w) as [m|]; [|done].
  by exists m.
Qed.
Lemma nom_le_total s w m k a : Inv c s -> s_nominators s !! w = Some m -> m_noms m !! k = Some a -> a <= m_total m.
Proof.
  intros H Hm Ha. destruct (cr_nom _ _ _ _ _ (i_cross _ _ H) w m Hm) as (_ & _ & _ & -> & _).
  apply (msum_lookup_le (fun _ a => a) _ _ _ Ha).
Qed.
Lemma lsum_book s k x t b : Inv c s -> s_cands s !! k = Some x -> s_top s !! k = Some t -> s_bot s !! k = Some b ->
  lsum (all_noms (mkBook x t b)) <= msum (fun _ m => m_total m) (s_nominators s).
Proof.
  intros H Hx Ht Hb. destruct (inv_book s k x H Hx) as (t' & b' & Ht' & Hb' & Hok & _).
  rewrite Ht in Ht'. rewrite Hb in Hb'. injection Ht' as <-. injection Hb' as <-.
  apply lsum_le_totals; [by apply nodup_all|]. intros w a Hin. destruct (inv_entry s k x t b w a H Hx Ht Hb Hin) as (m & Hm & Ha).
  exists m. split; [done|]. by eapply nom_le_total.
Qed.
Lemma nom_bal s w m : Inv c s -> s_nominators s !! w = Some m -> m_total m <= bal s w.
Proof. intros H Hm. apply (i_nlock _ _ H). rewrite (cr_lock _ _ _ _ _ (i_cross _ _ H)), Hm. done. Qed.
Lemma cand_bal s k x : Inv c s -> s_cands s !! k = Some x -> k_bond x <= bal s k.
Proof. intros H Hx. destruct (inv_book s k x H Hx) as (t & b & _ & _ & _ & Hl & _). by apply (i_clock _ _ H). Qed.
Lemma staked_le s : Inv c s -> staked s <= U128_MAX.
Proof.
  intros H. unfold staked. pose proof (i_bal _ _ H) as Hb.
  pose proof (sums_le (s_nominators s) (s_cands s) (s_free s) (s_held s) (i_excl _ _ H)) as Hs.
  specialize (Hs (fun w m Hm => nom_bal s w m H Hm) (fun k x Hx => cand_bal s k x H Hx)). lia.
Qed.
Lemma bond_le s k x : s_cands s !! k = Some x -> k_bond x <= msum (fun _ x => k_bond x) (s_cands s).
Proof. intros Hx. apply (msum_lookup_le (fun _ x => k_bond x) _ _ _ Hx). Qed.
(** A book never overflows. *)
Lemma book_fits s k x t b : Inv c s -> s_cands s !! k = Some x -> s_top s !! k = Some t -> s_bot s !! k = Some b ->
  k_bond x + lsum (all_noms (mkBook x t b)) <= U128_MAX.
Proof.
  intros H Hx Ht Hb. pose proof (staked_le s H) as Hs. unfold staked in Hs.
  pose proof (lsum_book s k x t b H Hx Ht Hb). pose proof (bond_le s k x Hx). lia.
Qed.
(** There is room for stake that its owner can lock. *)
Definition ntotal (s : st) (w : N) : N := match s_nominators s !! w with Some m => m_total m | None => 0 end.
Lemma nominator_room s w x : Inv c s -> s_cands s !! w = None -> 0 < x -> x <= nominator_stakable s w ->
  staked s + x <= U128_MAX /\ ntotal s w + x <= free_of s w /\ ntotal s w + x <= U128_MAX.
Proof.
  intros H Hw Hx0 Hx. pose proof (i_bal _ _ H) as Hb. unfold nominator_stakable, saturating_sub in Hx.
  assert (Hf : ntotal s w + x <= free_of s w) by (unfold ntotal; destruct (s_nominators s !! w); lia).
  pose proof (sums_le (<[w := mkNominator ∅ (ntotal s w + x) 0]> (s_nominators s)) (s_cands s) (s_free s) (s_held s)) as Hs.
  assert (Hsum : msum (fun _ m => m_total m) (<[w := mkNominator ∅ (ntotal s w + x) 0]> (s_nominators s)) = msum (fun _ m => m_total m) (s_nominators s) + x).
  { pose proof (msum_insert (fun _ m => m_total m) (s_nominators s) w (mkNominator ∅ (ntotal s w + x) 0)) as Hi. cbn in Hi.
    unfold ntotal in *. destruct (s_nominators s !! w); cbn in Hi; lia. }
  rewrite Hsum in Hs. unfold staked. split; [|split; [done|]].
  - enough (msum (fun _ m => m_total m) (s_nominators s) + x + msum (fun _ x => k_bond x) (s_cands s) <= U128_MAX) by lia.
    etransitivity; [apply Hs|done].
    + intros w' m'. destruct (N.eq_dec w' w) as [->|Hne]; [done|]. rewrite lookup_insert_ne by done. apply (i_excl _ _ H).
    + intros w' m'. destruct (N.eq_dec w' w) as [->|Hne].
      * rewrite lookup_insert. intros [= <-]. cbn. unfold free_of in Hf. lia.
      * rewrite lookup_insert_ne by done. apply (nom_bal s w' m' H).
    + apply (fun k x => cand_bal s k x H).
  - pose proof (mget_le_msum (s_free s) w) as Hm. unfold free_of in Hf. lia.
Qed.
Lemma collator_room s k x : Inv c s -> s_nominators s !! k = None -> x <= collator_stakable s k -> 0 < x ->
  let b := match s_cands s !! k with Some y => k_bond y | None => 0 end in
  staked s + x <= U128_MAX /\ b + x <= free_of s k.
Proof.
  intros H Hw Hx Hx0 b. pose proof (i_bal _ _ H) as Hb. unfold collator_stakable, saturating_sub in Hx.
  assert (Hf : b + x <= free_of s k) by (subst b; destruct (s_cands s !! k); lia).
  pose proof (sums_le (s_nominators s) (<[k := new_cand (b + x)]> (s_cands s)) (s_free s) (s_held s)) as Hs.
  assert (Hsum : msum (fun _ x => k_bond x) (<[k := new_cand (b + x)]> (s_cands s)) = msum (fun _ x => k_bond x) (s_cands s) + x).
  { pose proof (msum_insert (fun _ x => k_bond x) (s_cands s) k (new_cand (b + x))) as Hi. cbn in Hi.
    subst b. destruct (s_cands s !! k); cbn in Hi; lia. }
  rewrite Hsum in Hs. unfold staked. split; [|done].
  enough (msum (fun _ m => m_total m) (s_nominators s) + (msum (fun _ x => k_bond x) (s_cands s) + x) <= U128_MAX) by lia.
  etransitivity; [apply Hs|done].
  - intros w' m' Hm'. rewrite lookup_insert_ne; [by eapply i_excl|]. intros ->. congruence.
  - apply (fun k x => nom_bal s k x H).
  - intros k' x'. destruct (N.eq_dec k' k) as [->|Hne].
    + rewrite lookup_insert. intros [= <-]. cbn. unfold free_of in Hf. lia.
    + rewrite lookup_insert_ne by done. apply (cand_bal s k' x' H).
Qed.

(** Also for no stake at all. *)
Lemma nominator_room0 s w m x : Inv c s -> s_nominators s !! w = Some m -> x <= nominator_stakable s w ->
  staked s + x <= U128_MAX /\ m_total m + x <= bal s w /\ m_total m + x <= U128_MAX.
Proof.
  intros H Hm Hx. destruct (N.eq_dec x 0) as [->|Hne].
  - pose proof (staked_le s H) as Hs. pose proof (nom_bal s w m H Hm) as Hb. rewrite !N.add_0_r. split; [done|]. split; [done|].
    unfold staked in Hs. pose proof (msum_lookup_le (fun _ m => m_total m) _ _ _ Hm). cbn in *. lia.
  - destruct (nominator_room s w x H (i_excl _ _ H _ _ Hm) ltac:(lia) Hx) as (H1 & H2 & H3). unfold ntotal in *. rewrite Hm in *.
    split; [done|]. split; [unfold bal; lia | done].
Qed.
Lemma collator_room0 s k y x : Inv c s -> s_cands s !! k = Some y -> x <= collator_stakable s k ->
  staked s + x <= U128_MAX /\ k_bond y + x <= bal s k.
Proof.
  intros H Hy Hx. destruct (N.eq_dec x 0) as [->|Hne].
  - pose proof (staked_le s H) as Hs. pose proof (cand_bal s k y H Hy) as Hb. rewrite !N.add_0_r. done.
  - assert (Hn : s_nominators s !! k = None).
    { destruct (s_nominators s !! k) as [m|] eqn:E; [|done]. apply (i_excl _ _ H) in E. congruence. }
    destruct (collator_room s k x H Hn Hx ltac:(lia)) as (H1 & H2). rewrite Hy in H2. split; [done|]. unfold bal. lia.
Qed.

End inv.
