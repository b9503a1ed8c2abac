(** Proofs about the choice of the first range (C16), its advance (C15) and the partitions (C17). *)
From Verif Require Import Base BaseLemmas AvnModel IncomingModel IncomingSpec IncomingProofs IncomingProofs2.

(** ** The selection loop *)
Fixpoint csum (f : N -> bool) (l : list (N * N)) : N :=
  match l with [] => 0 | e :: r => if f e.1 then e.2 + csum f r else csum f r end.
Lemma csum_perm f l l' : l ≡ₚ l' -> csum f l = csum f l'.
Proof.
  induction 1; cbn; [done| | |congruence].
  - by rewrite IHPermutation.
  - destruct (f x.1), (f y.1); lia.
Qed.
Lemma csum_zero f l : Forall (fun e => f e.1 = false) l -> csum f l = 0.
Proof. induction 1 as [|e l H _ IH]; cbn; [done|]. by rewrite H. Qed.
Lemma csum_total l : csum (fun _ => true) l = total_votes l.
Proof. unfold total_votes. induction l as [|e l IH]; cbn; [done|]. by rewrite IH. Qed.
Lemma csum_split f l : csum f l + csum (fun x => negb (f x)) l = total_votes l.
Proof. unfold total_votes. induction l as [|e l IH]; cbn; [done|]. destruct (f e.1); cbn; lia. Qed.

Lemma select_some q l : forall rem b, StronglySorted (fun x y => x.1 < y.1) l -> select rem q l = Some b ->
  (exists n, In (b, n) l) /\ rem - csum (fun x => x <=? b) l < q /\
  (csum (fun x => x <? b) l = 0 \/ q <= rem - csum (fun x => x <? b) l).
Proof.
  induction l as [|[b0 n] l IH]; intros rem b Hs H; cbn in H; [discriminate|].
  apply StronglySorted_inv in Hs as [Hs Hall].
  destruct (rem - n <? q) eqn:E.
  - injection H as <-. split; [exists n; by left|]. cbn. rewrite N.leb_refl, N.ltb_irrefl.
    assert (csum (fun x => x <? b0) l = 0) as H0.
    { apply csum_zero. eapply Forall_impl; [exact Hall|]. intros [x y]; cbn; lia. }
    rewrite H0. split; [lia|by left].
  - destruct (IH _ _ Hs H) as ((m & Hin) & H1 & H2).
    assert (b0 < b) as Hlt. { eapply Forall_forall in Hall; [|apply elem_of_list_In, Hin]. done. }
    split; [exists m; by right|]. cbn.
    destruct (b0 <=? b) eqn:E1; [|lia]. destruct (b0 <? b) eqn:E2; [|lia]. lia.
Qed.
Lemma select_none q l : forall rem, l <> [] -> select rem q l = None -> q <= rem - total_votes l.
Proof.
  unfold total_votes. induction l as [|[b0 n] l IH]; intros rem Hne H; [done|]. cbn in H.
  destruct (rem - n <? q) eqn:E; [discriminate|]. cbn.
  destruct l as [|e l]; [cbn; lia|]. specialize (IH (rem - n) ltac:(done) H). cbn in IH |- *. lia.
Qed.

(** ** Ballots: one entry (block, account) per vote on the latest block *)
Definition ballots_of (l : list (N * list N)) : list (N * N) := concat (map (fun e => map (fun a => (e.1, a)) e.2) l).
Definition ballots (m : gmap N (list N)) : list (N * N) := ballots_of (map_to_list m).
Lemma ballots_of_perm l l' : l ≡ₚ l' -> ballots_of l ≡ₚ ballots_of l'.
Proof.
  unfold ballots_of. induction 1; cbn; [done| | |etrans; done].
  - by rewrite IHPermutation.
  - rewrite !app_assoc. apply Permutation_app_tail, Permutation_app_comm.
Qed.

Lemma ballots_count f l : csum f (map (fun e => (e.1, len e.2)) l) = len (List.filter (fun e => f e.1) (ballots_of l)).
Proof.
  unfold ballots_of. induction l as [|[b v] l IH]; cbn; [done|].
  rewrite List.filter_app. unfold len in *. rewrite app_length, IH.
  assert (length (List.filter (fun e => f e.1) (map (fun a => (b, a)) v)) = if f b then length v else 0%nat) as ->.
  { clear. induction v as [|a v IHv]; cbn; [by destruct (f b)|]. destruct (f b); cbn; congruence. }
  destruct (f b); lia.
Qed.
Lemma vote_counts_perm m : vote_counts m ≡ₚ map (fun e => (e.1, len e.2)) (map_to_list m).
Proof. apply merge_sort_Permutation. Qed.
Lemma vote_counts_sorted m : StronglySorted (fun x y => x.1 < y.1) (vote_counts m).
Proof.
  assert (StronglySorted fst_le (vote_counts m)) as Hs.
  { apply StronglySorted_merge_sort.
    - unfold fst_le. intros ???; lia.
    - unfold fst_le. intros ??; lia. }
  assert (NoDup (map fst (vote_counts m))) as Hn.
  { rewrite vote_counts_perm, map_map. cbn. apply NoDup_fst_map_to_list. }
  induction Hs as [|e l Hs IH Hall]; [constructor|]. cbn in Hn. apply NoDup_cons in Hn as [Hn1 Hn2].
  constructor; [by apply IH|]. apply Forall_forall. intros x Hx. eapply Forall_forall in Hall; [|exact Hx].
  unfold fst_le in Hall. assert (e.1 <> x.1); [|lia]. intros Heq. apply Hn1. rewrite Heq. apply elem_of_list_In, in_map, elem_of_list_In, Hx.
Qed.
Lemma count_ballots f m : csum f (vote_counts m) = len (List.filter (fun e => f e.1) (ballots m)).
Proof. rewrite (csum_perm _ _ _ (vote_counts_perm m)). apply ballots_count. Qed.
Lemma total_ballots m : total_votes (vote_counts m) = len (ballots m).
Proof.
  rewrite <- csum_total, count_ballots. f_equal. unfold len. generalize (ballots m). intros l. induction l; cbn; congruence.
Qed.

Lemma ballots_insert m b a : ballots (<[b := a :: mget [] b m]> m) ≡ₚ (b, a) :: ballots m.
Proof.
  unfold ballots, mget. destruct (m !! b) as [v|] eqn:E.
  - rewrite <- insert_delete_insert. rewrite (ballots_of_perm _ _ (map_to_list_insert _ _ _ (lookup_delete m b))).
    rewrite <- (insert_delete m b v E) at 2. rewrite (ballots_of_perm _ _ (map_to_list_insert _ _ _ (lookup_delete m b))).
    unfold ballots_of. cbn. done.
  - rewrite (ballots_of_perm _ _ (map_to_list_insert _ _ _ E)). unfold ballots_of. cbn. done.
Qed.
Lemma submitted_false s a : has_submitted_block s a = false -> ~ In a (map snd (ballots (s_blocks s))).
Proof.
  intros H Hi. unfold has_submitted_block in H. unfold ballots, ballots_of in Hi.
  apply in_map_iff in Hi as ([b a'] & <- & Hi). apply in_concat in Hi as (x & Hx & Hi).
  apply in_map_iff in Hx as ([b' v] & <- & Hv). cbn in Hi. apply in_map_iff in Hi as (a & [= -> ->] & Ha).
  assert (existsb (fun e => memN a' e.2) (map_to_list (s_blocks s)) = true); [|cbn in *; congruence].
  apply existsb_exists. exists (b, v). split; [done|]. by apply memN_spec.
Qed.

Definition reported (c : config) (verify : N -> payload -> N -> bool) (s0 : st) (ops : list op) (b a : N) : Prop :=
  exists seen, happened c verify s0 ops (reports_block verify a seen) /\ compute_start seen (c_range_size c) = Ok b.
Definition ballots_ok (P : N -> N -> Prop) (l : list (N * N)) : Prop :=
  NoDup (map snd l) /\ forall b a, In (b, a) l -> P b a.

Lemma ballots_ok_insert P s b a : ballots_ok P (ballots (s_blocks s)) -> has_submitted_block s a = false -> P b a ->
  ballots_ok P (ballots (<[b := a :: mget [] b (s_blocks s)]> (s_blocks s))).
Proof.
  intros [H1 H2] Hn HP. pose proof (ballots_insert (s_blocks s) b a) as E. split.
  - rewrite E. cbn. apply NoDup_cons. split; [|done]. rewrite elem_of_list_In. by apply submitted_false.
  - intros b' a'. rewrite E. intros [[= -> ->]|Hi]; auto.
Qed.
Lemma ballots_run c verify i vs ops :
  ballots_ok (reported c verify (genesis i vs) ops) (ballots (s_blocks (run c verify (genesis i vs) ops))).
Proof.
  induction ops as [|o ops IH] using rev_ind; [split; cbn; [constructor|intros ?? []]|].
  rewrite run_snoc.
  assert (ballots_ok (reported c verify (genesis i vs) (ops ++ [o])) (ballots (s_blocks (run c verify (genesis i vs) ops)))) as IH'.
  { destruct IH as [H1 H2]. split; [done|]. intros b a Hi. destruct (H2 b a Hi) as (seen & Hh & Hc). exists seen. split; [|done]. by apply happened_app. }
  clear IH. set (s := run c verify (genesis i vs) ops) in *.
  destruct (step_effect c verify s o).
  - rewrite H1. done.
  - rewrite H5. done.
  - rewrite H7. done.
  - rewrite H5. cbn. apply ballots_ok_insert; try done. exists seen. split; [|done]. by apply happened_last.
  - rewrite H5. cbn. split; cbn; [constructor|intros ?? []].
Qed.

Lemma blocks_nonempty c verify i vs ops b : s_blocks (run c verify (genesis i vs) ops) !! b <> Some [].
Proof.
  induction ops as [|o ops IH] using rev_ind; [cbn; by rewrite lookup_empty|].
  rewrite run_snoc. set (s := run c verify (genesis i vs) ops) in *.
  destruct (step_effect c verify s o).
  - rewrite H1. done.
  - rewrite H5. done.
  - rewrite H7. done.
  - rewrite H5. cbn. subst m. destruct (decide (b = b0)) as [->|Hb]; [rewrite lookup_insert; done|]. rewrite lookup_insert_ne; done.
  - rewrite H5. cbn. by rewrite lookup_empty.
Qed.

Lemma validator_pos vs a : is_validator vs a = true -> 1 <= N.of_nat (length vs).
Proof. unfold is_validator. destruct vs; cbn; [discriminate|]. lia. Qed.

Lemma start_selection c verify i vs ops o r :
  let s := run c verify (genesis i vs) ops in
  s_active s = None -> s_active (step c verify s o) = Some r ->
  exists l, ballots_ok (reported c verify (genesis i vs) (ops ++ [o])) l /\
    avn_supermajority (s_vs s) <= len l /\ In (r_start (a_range r)) (map fst l) /\
    avn_quorum (s_vs s) <= len (List.filter (fun e => r_start (a_range r) <=? e.1) l) /\
    avn_supermajority (s_vs s) < avn_quorum (s_vs s) + len (List.filter (fun e => e.1 <=? r_start (a_range r)) l) /\
    r_len (a_range r) = c_range_size c /\ a_partition r = 0.
Proof.
  cbv zeta. intros Hnone Hsome. set (s := run c verify (genesis i vs) ops) in *.
  destruct (step_effect c verify s o) as [H|? ? ? ? ? ? ? H|? ? ? ? ? ? ? ? H|? ? ? ? ? ? ? ? ? ? ? ? H|a key seen sig b Ho Hr Hcs Ha Hsub m Hq rg Hs'].
  1: congruence. 1: congruence. 1: congruence. { rewrite H in Hsome. cbn in Hsome. congruence. }
  assert (ballots_ok (reported c verify (genesis i vs) (ops ++ [o])) (ballots m)) as Hok.
  { apply ballots_ok_insert; [|done|].
    - pose proof (ballots_run c verify i vs ops) as [H1 H2]. split; [done|]. intros b' a' Hi. destruct (H2 b' a' Hi) as (se & Hh & Hc). exists se. split; [|done]. by apply happened_app.
    - exists seen. split; [|done]. by apply happened_last. }
  assert (1 <= N.of_nat (length (s_vs s))) as Hpos. { destruct Hr as (? & ? & _ & Hv & _). by eapply validator_pos. }
  assert (1 <= len (ballots m)) as Hb1.
  { unfold len, m. rewrite (Permutation_length (ballots_insert (s_blocks s) b a)). cbn. lia. }
  assert (vote_counts m <> []) as Hne. { intros E. pose proof (total_ballots m) as T. rewrite E in T. cbn in T. lia. }
  set (n := N.of_nat (length (s_vs s))) in *.
  assert (n * 2 / 3 * 3 <= n * 2 /\ n * 2 < n * 2 / 3 * 3 + 3) as [D1 D2].
  { pose proof (N.div_mod (n * 2) 3 ltac:(lia)). pose proof (N.mod_lt (n * 2) 3 ltac:(lia)). lia. }
  assert (avn_supermajority (s_vs s) = n * 2 / 3) as ES by reflexivity.
  assert (avn_quorum (s_vs s) = n - n * 2 / 3) as EQ by reflexivity.
  rewrite total_ballots in Hq.
  destruct (select (avn_supermajority (s_vs s)) (avn_quorum (s_vs s)) (vote_counts m)) as [b'|] eqn:Esel.
  2:{ apply select_none in Esel; [|done]. rewrite total_ballots in Esel. lia. }
  rewrite Hs' in Hsome. cbn in Hsome. injection Hsome as <-. cbn [a_range a_partition]. subst rg. cbn [r_start r_len].
  apply select_some in Esel; [|apply vote_counts_sorted]. destruct Esel as ((k & Hin) & E1 & E2).
  exists (ballots m). split; [done|]. split; [done|]. split; [|split; [|split; [|done]]].
  - apply elem_of_list_In in Hin. rewrite vote_counts_perm in Hin. apply elem_of_list_In, in_map_iff in Hin as ([b2 v] & [= <- <-] & Hv).
    assert (v <> []) as Hvn.
    { intros ->. apply elem_of_list_In, elem_of_map_to_list in Hv. revert Hv. subst m.
      destruct (decide (b = b2)) as [->|Hnb]; [rewrite lookup_insert; congruence|]. rewrite lookup_insert_ne by done.
      apply blocks_nonempty. }
    destruct v as [|a2 v]; [done|]. apply in_map_iff. exists (b2, a2). split; [done|].
    unfold ballots, ballots_of. apply in_concat. exists (map (fun a => (b2, a)) (a2 :: v)). split; [|by left].
    apply in_map_iff. exists (b2, a2 :: v). done.
  - rewrite <- (count_ballots (fun x => b' <=? x)). pose proof (csum_split (fun x => x <? b') (vote_counts m)) as Hsp.
    assert (csum (fun x => negb (x <? b')) (vote_counts m) = csum (fun x => b' <=? x) (vote_counts m)) as Hx.
    { generalize (vote_counts m). intros l. induction l as [|[x y] l IH]; cbn; [done|]. rewrite IH. destruct (x <? b') eqn:A, (b' <=? x) eqn:B; cbn; try done; lia. }
    cbv beta in Hsp. rewrite Hx, total_ballots in Hsp. lia.
  - rewrite <- (count_ballots (fun x => x <=? b')). lia.
Qed.

(** ** Advance of the active range *)
Lemma active_step c verify i vs ops o a :
  let s := run c verify (genesis i vs) ops in
  s_active s = Some a ->
  exists a', s_active (step c verify s o) = Some a' /\
    (a' = a \/
     exists p, p_range p = a_range a /\ p_number p = a_partition a /\ quorum_voted c verify (genesis i vs) ops o p /\
       (exists v, votes_for verify p v s o) /\
       walk (a_range a) (a_partition a) [p] (a_range a') (a_partition a')).
Proof.
  cbv zeta. intros Ha. set (s := run c verify (genesis i vs) ops) in *.
  destruct (step_effect c verify s o).
  - exists a. rewrite H. auto.
  - exists a. rewrite H5. auto.
  - assert (r = a) as -> by congruence. exists (advanced c a p s). split; [done|]. right. exists p.
    apply matches_spec in H2 as [Hm1 Hm2]. split; [done|]. split; [done|]. split; [subst o; by apply accept_quorum|].
    split; [eauto|]. unfold advanced. destruct (p_last p) eqn:El; cbn.
    + apply walk_last; try done. apply walk_done.
    + apply walk_more; try done. apply walk_done.
  - congruence.
  - congruence.
Qed.
Lemma walk_app r n l r' n' l' r'' n'' : walk r n l r' n' -> walk r' n' l' r'' n'' -> walk r n (l ++ l') r'' n''.
Proof. induction 1; intros Hw; cbn; [done|apply walk_more|apply walk_last]; auto. Qed.
Lemma active_run c verify i vs ops1 ops2 a :
  s_active (run c verify (genesis i vs) ops1) = Some a ->
  exists b l, s_active (run c verify (genesis i vs) (ops1 ++ ops2)) = Some b /\
    walk (a_range a) (a_partition a) l (a_range b) (a_partition b) /\
    forall p, In p l -> exists q o r, ops1 ++ ops2 = q ++ o :: r /\ quorum_voted c verify (genesis i vs) q o p.
Proof.
  intros Ha. induction ops2 as [|o ops2 (b & l & Hb & Hw & Hl)] using rev_ind.
  - exists a, []. rewrite app_nil_r. split; [done|]. split; [constructor|]. intros ? [].
  - rewrite app_assoc, run_snoc. destruct (active_step c verify i vs (ops1 ++ ops2) o b Hb) as (b' & Hb' & Hcase).
    assert (forall p, In p l -> exists q o0 r, (ops1 ++ ops2) ++ [o] = q ++ o0 :: r /\ quorum_voted c verify (genesis i vs) q o0 p) as Hl'.
    { intros p Hp. destruct (Hl p Hp) as (q & o0 & r & E & Hq). exists q, o0, (r ++ [o]). rewrite E, <- app_assoc. done. }
    destruct Hcase as [->|(p & Hp1 & Hp2 & Hq & _ & Hw')].
    + exists b, l. done.
    + exists b', (l ++ [p]). split; [done|]. split; [by eapply walk_app|]. intros p' [Hp'|[<-|[]]]%in_app_iff; [auto|].
      exists (ops1 ++ ops2), o, []. done.
Qed.
Lemma walk_covers r n l r' n' : walk r n l r' n' -> r_len r' = r_len r /\ (r_start r <= U32_MAX -> r_start r <= r_start r' /\
  (r_start r' < U32_MAX -> (exists k, r_start r' = r_start r + k * r_len r)) /\
  forall x, r_start r <= x < r_start r' -> exists p, In p l /\ p_last p = true /\ r_start (p_range p) <= x < r_start (p_range p) + r_len (p_range p)).
Proof.
  induction 1 as [r n|p l r n r' n' E1 E2 E3 Hw (IH1 & IH2)|p l r n r' n' E1 E2 E3 Hw (IH1 & IH2)].
  - split; [done|]. intros _. split; [lia|]. split; [exists 0; lia|]. intros; lia.
  - split; [done|]. intros Hr. destruct (IH2 Hr) as (I1 & I2 & I3). split; [done|]. split; [done|].
    intros x Hx. destruct (I3 x Hx) as (p' & ? & ?). exists p'. split; [by right|done].
  - cbn [r_start r_len] in *. split; [done|]. intros Hr. destruct IH2 as (I1 & I2 & I3); [lia|]. split; [lia|]. split.
    + intros Hlt. destruct (I2 Hlt) as [k Hk]. exists (k + 1). lia.
    + intros x Hx. destruct (N.lt_ge_cases x (N.min U32_MAX (r_start r + r_len r))) as [Hlt|Hge].
      * exists p. split; [by left|]. split; [done|]. rewrite E1. lia.
      * destruct (I3 x ltac:(lia)) as (p' & ? & ?). exists p'. split; [by right|done].
Qed.

(** ** Partitions *)
Lemma chunks_fuel_concat {A} (k fuel : nat) : (0 < k)%nat -> forall l : list A, (length l <= fuel)%nat -> concat (chunks_fuel fuel k l) = l.
Proof.
  intros Hk. induction fuel as [|f IH]; intros l Hl; cbn.
  - destruct l; [done|cbn in Hl; lia].
  - destruct l as [|x l]; [done|]. cbn. rewrite IH; [apply (take_drop k (x :: l))|]. rewrite drop_length. cbn in *. lia.
Qed.
Lemma chunks_concat {A} (k : nat) (l : list A) : (0 < k)%nat -> concat (chunks k l) = l.
Proof. intros. by apply chunks_fuel_concat. Qed.
Lemma chunks_fuel_size {A} (k fuel : nat) : (0 < k)%nat -> forall l : list A, (length l <= fuel)%nat ->
  forall i ch, chunks_fuel fuel k l !! i = Some ch -> ch <> [] /\ (length ch <= k)%nat /\ (S i < length (chunks_fuel fuel k l) -> length ch = k)%nat.
Proof.
  intros Hk. induction fuel as [|f IH]; intros l Hl i ch H; cbn in H; [by destruct l|].
  destruct l as [|x l]; [done|]. destruct i as [|i]; cbn in H.
  - injection H as <-. assert (length (take k (x :: l)) = Nat.min k (length (x :: l))) as Hlen by apply take_length.
    split; [intros E; rewrite E in Hlen; cbn in Hlen; lia|]. split; [lia|].
    cbn [chunks_fuel length]. intros Hlt. rewrite Hlen.
    destruct (drop k (x :: l)) as [|y r] eqn:Ed.
    + destruct f; cbn in Hlt; lia.
    + assert (length (drop k (x :: l)) = S (length r)) as Hd by (rewrite Ed; done). rewrite drop_length in Hd. lia.
  - destruct (IH (drop k (x :: l))) with (i := i) (ch := ch) as (H1 & H2 & H3); [rewrite drop_length; cbn in *; lia|done|].
    split; [done|]. split; [done|]. intros Hlt. apply H3. cbn [chunks_fuel length] in Hlt. lia.
Qed.
Lemma chunks_size {A} (k : nat) (l : list A) i ch : (0 < k)%nat -> chunks k l !! i = Some ch ->
  ch <> [] /\ (length ch <= k)%nat /\ (S i < length (chunks k l) -> length ch = k)%nat.
Proof. intros Hk. by apply chunks_fuel_size. Qed.

#[global] Instance disc_le_trans : Transitive disc_le.
Proof. unfold disc_le. intros ???; lia. Qed.
#[global] Instance disc_le_total : Total disc_le.
Proof. unfold disc_le. intros ??; lia. Qed.
#[global] Instance disc_lt_anti : AntiSymm eq disc_lt.
Proof. unfold disc_lt, disc_le, same_key. intros a b [H1 H2] [H3 _]. lia. Qed.

Definition key (d : discovered) : N * N := (d_block d, ev_tx (d_event d)).
Lemma same_key_spec a b : same_key a b = true <-> key a = key b.
Proof.
  unfold same_key, key. rewrite andb_true_iff, !N.eqb_eq. split; [intros [-> ->]; done|by intros [= -> ->]].
Qed.
Lemma sorted_strict l : StronglySorted disc_le l -> NoDup (map key l) -> StronglySorted disc_lt l.
Proof.
  induction 1 as [|a l Hs IH Hall]; cbn; [constructor|]. intros [Hn1 Hn2]%NoDup_cons. constructor; [auto|].
  apply Forall_forall. intros b Hb. eapply Forall_forall in Hall; [|exact Hb]. split; [done|].
  destruct (same_key a b) eqn:E; [|done]. apply same_key_spec in E. exfalso. apply Hn1. rewrite E. by apply elem_of_list_In, in_map, elem_of_list_In.
Qed.
Lemma dedup_strict l : StronglySorted disc_lt l -> dedup l = l.
Proof.
  induction 1 as [|a l Hs IH Hall]; [done|]. cbn. destruct l as [|b l]; [done|].
  apply Forall_cons in Hall as [[_ ->] _]. by rewrite IH.
Qed.
Lemma to_set_strict l : StronglySorted disc_lt l -> to_set l = l.
Proof.
  intros Hs. unfold to_set.
  assert (NoDup (map key l)) as Hn.
  { induction Hs as [|a l Hs IH Hall]; cbn; [constructor|]. apply NoDup_cons. split; [|done].
    intros Hi%elem_of_list_In. apply in_map_iff in Hi as (b & Hb & Hi). eapply Forall_forall in Hall; [|by apply elem_of_list_In].
    destruct Hall as [_ Hk]. assert (same_key a b = true); [|congruence]. by apply same_key_spec. }
  assert (merge_sort disc_le l = l) as ->; [|by apply dedup_strict].
  apply StronglySorted_unique with disc_lt; [apply _| |done|apply merge_sort_Permutation].
  apply sorted_strict; [apply StronglySorted_merge_sort; apply _|]. by rewrite merge_sort_Permutation.
Qed.
Lemma dedup_in l d : In d (dedup l) -> In d l.
Proof.
  induction l as [|a l IH]; [done|]. cbn. destruct l as [|b l]; [done|]. destruct (same_key a b); cbn in *; tauto.
Qed.
Lemma dedup_covers l d : In d l -> exists d', In d' (dedup l) /\ key d' = key d.
Proof.
  revert d. induction l as [|a l IH]; [done|]. intros d. cbn. destruct l as [|b l].
  - intros [<-|[]]. exists a. split; [by left|done].
  - destruct (same_key a b) eqn:E.
    + intros [<-|Hi]; [|by apply IH]. destruct (IH b) as (d' & Hd' & Hk); [by left|]. exists d'. split; [done|]. apply same_key_spec in E. congruence.
    + intros [<-|Hi]; [exists a; split; [by left|done]|]. destruct (IH d Hi) as (d' & Hd' & Hk). exists d'. split; [by right|done].
Qed.
Lemma to_set_in l d : In d (to_set l) -> In d l.
Proof. intros H%dedup_in. apply elem_of_list_In in H. rewrite merge_sort_Permutation in H. by apply elem_of_list_In. Qed.
Lemma to_set_covers l d : In d l -> exists d', In d' (to_set l) /\ key d' = key d.
Proof. intros H. apply dedup_covers. apply elem_of_list_In. rewrite merge_sort_Permutation. by apply elem_of_list_In. Qed.
Lemma to_set_length l : (length (to_set l) <= length l)%nat.
Proof.
  unfold to_set. rewrite <- (Permutation_length (merge_sort_Permutation disc_le l)).
  generalize (merge_sort disc_le l). clear. intros l. induction l as [|a l IH]; cbn; [lia|].
  destruct l as [|b l]; [cbn; lia|]. destruct (same_key a b); cbn in *; lia.
Qed.

(** The partitions, one by one. *)
Definition sorted_chunks (events : list discovered) : list (list discovered) := chunks 32 (merge_sort disc_le events).
Lemma partitions_lookup r events i :
  events <> [] ->
  create_partitions r events !! i =
    (fun ch => mkPart r (N.of_nat i mod 65536) (Nat.eqb (length (sorted_chunks events)) (i + 1)) (to_set ch)) <$> (sorted_chunks events !! i).
Proof.
  intros Hne. unfold create_partitions. fold (sorted_chunks events).
  change (N.to_nat BATCH_LIMIT) with 32%nat. fold (sorted_chunks events).
  set (cs := sorted_chunks events).
  assert (cs <> []) as Hcs.
  { intros E. assert (concat cs = merge_sort disc_le events) as Hc by (apply chunks_concat; lia). rewrite E in Hc. cbn in Hc.
    apply Hne. apply Permutation_nil. rewrite <- (merge_sort_Permutation disc_le events), <- Hc. done. }
  match goal with |- match ?x with _ => _ end !! i = _ => destruct x as [|p0 l0] eqn:E; [destruct cs; [done|discriminate E]|rewrite <- E] end.
  by rewrite list_lookup_imap.
Qed.
Lemma partitions_events r events : events <> [] -> map p_events (create_partitions r events) = map to_set (sorted_chunks events).
Proof.
  intros Hne. apply list_eq. intros i. rewrite !list_lookup_fmap, (partitions_lookup r events i Hne).
  by destruct (sorted_chunks events !! i).
Qed.
Lemma sorted_chunks_perm events : concat (sorted_chunks events) ≡ₚ events.
Proof. unfold sorted_chunks. rewrite chunks_concat by lia. apply merge_sort_Permutation. Qed.
Lemma partitions_concat r events : NoDup (map key events) ->
  concat (map p_events (create_partitions r events)) = merge_sort disc_le events.
Proof.
  intros Hn. destruct events as [|e0 es]; [done|]. set (events := e0 :: es) in *.
  rewrite partitions_events by done.
  assert (StronglySorted disc_lt (concat (sorted_chunks events))) as Hs.
  { unfold sorted_chunks. rewrite chunks_concat by lia. apply sorted_strict; [apply StronglySorted_merge_sort; apply _|]. by rewrite merge_sort_Permutation. }
  assert (concat (sorted_chunks events) = merge_sort disc_le events) as <- by (apply chunks_concat; lia).
  induction (sorted_chunks events) as [|ch cs IH]; [done|]. cbn in *.
  rewrite to_set_strict, IH; [done|by eapply StronglySorted_app_inv_r|by eapply StronglySorted_app_inv_l].
Qed.
Lemma dedup_sorted l : StronglySorted disc_le l -> StronglySorted disc_lt (dedup l).
Proof.
  induction 1 as [|a l Hs IH Hall]; [constructor|]. cbn. destruct l as [|b l]; [repeat constructor|].
  destruct (same_key a b) eqn:E; [done|]. constructor; [done|]. apply Forall_forall. intros d Hd. apply elem_of_list_In, dedup_in in Hd.
  apply Forall_cons in Hall as [Hab Hall]. apply StronglySorted_inv in Hs as [_ Hbl].
  assert (disc_le b d) as Hbd. { destruct Hd as [<-|Hd]; [unfold disc_le; lia|]. eapply Forall_forall in Hbl; [done|by apply elem_of_list_In]. }
  unfold disc_lt, disc_le, same_key in *. lia.
Qed.
Lemma ascending_strict l : StronglySorted disc_lt l -> ascending l = true.
Proof.
  induction 1 as [|a l Hs IH Hall]; [done|]. cbn. destruct l as [|b l]; [done|].
  apply Forall_cons in Hall as [Hab _]. rewrite (bool_decide_eq_true_2 _ Hab). exact IH.
Qed.
Lemma to_set_ascending l : ascending (to_set l) = true.
Proof. apply ascending_strict, dedup_sorted, StronglySorted_merge_sort; apply _. Qed.
