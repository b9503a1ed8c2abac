(** Proofs about AvnModel.v *)
From Verif Require Import Base BaseLemmas AvnModel.

Lemma quorum_alt n : 1 <= n -> quorum_for n = (n - 1) / 3 + 1.
Proof. unfold quorum_for. intros. lia. Qed.

Lemma quorum_bounds n : 1 <= n -> 1 <= quorum_for n <= n.
Proof. unfold quorum_for. intros. lia. Qed.

Lemma quorum_supermajority_sum n : quorum_for n + supermajority_for n = n.
Proof. unfold quorum_for, supermajority_for. lia. Qed.

Lemma quorum_mono n m : n <= m -> quorum_for n <= quorum_for m /\ supermajority_for n <= supermajority_for m.
Proof. unfold quorum_for, supermajority_for. lia. Qed.

Lemma not_all_in (A B : list N) : NoDup A -> (length B < length A)%nat -> exists a, In a A /\ ~ In a B.
Proof.
  intros HA Hlen.
  destruct (List.existsb (fun a => negb (memN a B)) A) eqn:E.
  - apply existsb_exists in E as (a & Ha & Hn). exists a. split; [exact Ha|].
    apply negb_true_iff in Hn. now apply memN_false.
  - exfalso. assert (Hincl : incl A B).
    { intros a Ha. destruct (memN a B) eqn:Em; [now apply memN_spec|].
      assert (existsb (fun a => negb (memN a B)) A = true); [|congruence].
      apply existsb_exists. exists a. now rewrite Em. }
    apply NoDup_ListNoDup in HA. pose proof (NoDup_incl_length HA Hincl). lia.
Qed.

Lemma quorum_has_honest (n : N) (voters faulty : list N) :
  1 <= n -> NoDup voters -> quorum_for n <= N.of_nat (length voters) ->
  3 * N.of_nat (length faulty) < n ->
  exists v, In v voters /\ ~ In v faulty.
Proof.
  intros Hn Hnd Hq Hf. apply not_all_in; [exact Hnd|]. unfold quorum_for in Hq. lia.
Qed.

Lemma subsets_intersect (all A B : list N) :
  NoDup A -> NoDup B -> incl A all -> incl B all ->
  (length all < length A + length B)%nat -> exists v, In v A /\ In v B.
Proof.
  intros HA HB HiA HiB Hlen.
  destruct (List.existsb (fun a => memN a B) A) eqn:E.
  - apply existsb_exists in E as (a & Ha & Hm). apply memN_spec in Hm. eauto.
  - exfalso. assert (Hdis : forall a, In a A -> ~ In a B).
    { intros a Ha Hb. assert (existsb (fun a => memN a B) A = true); [|congruence].
      apply existsb_exists. exists a. split; [exact Ha | now apply memN_spec]. }
    assert (Hnd : List.NoDup (A ++ B)).
    { apply NoDup_ListNoDup. apply NoDup_app. split; [exact HA|]. split; [|exact HB].
      intros x Hx Hx'. apply elem_of_list_In in Hx, Hx'. exact (Hdis _ Hx Hx'). }
    assert (Hincl : incl (A ++ B) all) by (apply incl_app; assumption).
    pose proof (NoDup_incl_length Hnd Hincl) as L. rewrite app_length in L. lia.
Qed.

Lemma supermajorities_intersect (all A B : list N) :
  let n := N.of_nat (length all) in
  NoDup A -> NoDup B -> incl A all -> incl B all ->
  n <> 0 -> n <> 1 -> n <> 2 -> n <> 4 ->
  supermajority_for n <= N.of_nat (length A) -> supermajority_for n <= N.of_nat (length B) ->
  exists v, In v A /\ In v B.
Proof.
  intros n HA HB HiA HiB H0 H1 H2 H4 HSA HSB. subst n.
  eapply subsets_intersect; eauto. unfold supermajority_for in *. lia.
Qed.

Lemma super_meets_quorum (all A B : list N) :
  let n := N.of_nat (length all) in
  NoDup A -> NoDup B -> incl A all -> incl B all ->
  supermajority_for n < N.of_nat (length A) -> quorum_for n <= N.of_nat (length B) ->
  exists v, In v A /\ In v B.
Proof.
  intros n HA HB HiA HiB HSA HSB. subst n.
  eapply subsets_intersect; eauto. unfold supermajority_for, quorum_for in *. lia.
Qed.

(** Rotation *)
Definition accounts (vs : list validator) : list N := map v_account vs.

Lemma is_validator_spec vs a : is_validator vs a = true <-> In a (accounts vs).
Proof.
  unfold is_validator, accounts. rewrite existsb_exists, in_map_iff. split.
  - intros (v & Hv & E). apply N.eqb_eq in E. eauto.
  - intros (v & E & Hv). exists v. split; [exact Hv | now apply N.eqb_eq].
Qed.

Lemma advance_primary_small vs i :
  (0 < length vs < 256)%nat -> i <= U8_MAX ->
  exists v, nth_error vs (N.to_nat (saturating_add U8_MAX i 1 mod N.of_nat (length vs))) = Some v /\
  advance_primary vs i = Ok (saturating_add U8_MAX i 1 mod N.of_nat (length vs), v_account v).
Proof.
  intros Hl Hi. unfold advance_primary.
  destruct vs as [|v0 vs]; [cbn in Hl; lia|].
  set (n := N.of_nat (length (v0 :: vs))) in *.
  assert (Hn : n mod 256 = n) by (apply N.mod_small; lia).
  rewrite Hn. assert (E0 : (n =? 0) = false) by (apply N.eqb_neq; cbn in *; lia).
  rewrite E0.
  destruct (nth_error (v0 :: vs) (N.to_nat (saturating_add U8_MAX i 1 mod n))) as [v|] eqn:E.
  - eauto.
  - apply nth_error_None in E. assert (saturating_add U8_MAX i 1 mod n < n) by (apply N.mod_lt; cbn in *; lia). lia.
Qed.

Lemma advance_primary_index vs i j a :
  advance_primary vs i = Ok (j, a) -> In a (accounts vs) /\ j < N.of_nat (length vs) /\ j <= U8_MAX.
Proof.
  unfold advance_primary. destruct vs as [|v0 vs]; [discriminate|].
  generalize (v0 :: vs). clear. intros l.
  destruct (N.eqb_spec (N.of_nat (length l) mod 256) 0) as [|Hne]; [discriminate|].
  destruct (nth_error l _) as [v|] eqn:E; [|discriminate].
  intros H; injection H as <- <-. split; [|split].
  - apply in_map. eapply nth_error_In; eauto.
  - match type of E with nth_error _ (N.to_nat ?x) = _ => set (j := x) in *; clearbody j end.
    assert (Hs : nth_error l (N.to_nat j) <> None) by congruence. apply nth_error_Some in Hs. lia.
  - assert (N.of_nat (length l) mod 256 < 256) by (apply N.mod_lt; lia).
    assert (saturating_add U8_MAX i 1 mod (N.of_nat (length l) mod 256) < N.of_nat (length l) mod 256) by (apply N.mod_lt; exact Hne).
    match goal with |- ?x <= _ => set (j := x) in *; clearbody j end. unfold U8_MAX.
    eapply N.lt_le_incl, N.lt_le_trans; [eassumption|]. lia.
Qed.

(** The list read from position [i] to the end, [k] elements, without wrap. *)
Lemma advance_n_linear vs : forall k i,
  (0 < length vs < 256)%nat -> (N.to_nat i + k < length vs)%nat ->
  advance_n k vs i = Ok (i + N.of_nat k, take k (drop (N.to_nat i + 1) (accounts vs))).
Proof.
  induction k as [|k IH]; intros i Hl Hk; cbn [advance_n].
  - rewrite take_0. do 2 f_equal. lia.
  - destruct (advance_primary_small vs i Hl) as (v & Hv & Hadv); [unfold U8_MAX; lia|].
    rewrite Hadv.
    assert (Hj : saturating_add U8_MAX i 1 mod N.of_nat (length vs) = i + 1).
    { unfold saturating_add, U8_MAX. rewrite N.min_r by lia. apply N.mod_small. lia. }
    rewrite Hj in *. rewrite IH by lia.
    do 2 f_equal; [lia|].
    replace (N.to_nat (i + 1)) with (N.to_nat i + 1)%nat in * by lia.
    assert (Hacc : accounts vs !! (N.to_nat i + 1)%nat = Some (v_account v)).
    { unfold accounts. rewrite list_lookup_fmap. rewrite <- nth_error_is_lookup. now rewrite Hv. }
    rewrite (drop_S (accounts vs) (v_account v) (N.to_nat i + 1)%nat) by exact Hacc.
    cbn [take]. f_equal. f_equal. f_equal. lia.
Qed.

Lemma advance_n_app vs : forall k1 k2 i,
  advance_n (k1 + k2) vs i =
  match advance_n k1 vs i with
  | Err e => Err e
  | Ok (j, l1) => match advance_n k2 vs j with Err e => Err e | Ok (j', l2) => Ok (j', l1 ++ l2) end
  end.
Proof.
  induction k1 as [|k1 IH]; intros k2 i; cbn [advance_n Nat.add].
  - destruct (advance_n k2 vs i) as [[j l]|e]; reflexivity.
  - destruct (advance_primary vs i) as [[j a]|e]; [|reflexivity].
    rewrite IH. destruct (advance_n k1 vs j) as [[j1 l1]|e]; [|reflexivity].
    destruct (advance_n k2 vs j1) as [[j2 l2]|e]; reflexivity.
Qed.

(** A full turn visits the accounts in rotated order and restores the index. *)
Lemma advance_full_turn vs i :
  (0 < length vs < 256)%nat -> i < N.of_nat (length vs) ->
  advance_n (length vs) vs i =
  Ok (i, drop (N.to_nat i + 1) (accounts vs) ++ take (N.to_nat i + 1) (accounts vs)).
Proof.
  intros Hl Hi.
  assert (HL : length (accounts vs) = length vs) by apply map_length.
  set (k1 := (length vs - 1 - N.to_nat i)%nat).
  replace (length vs) with (k1 + (1 + N.to_nat i))%nat at 1 by lia.
  rewrite advance_n_app.
  rewrite advance_n_linear by lia.
  rewrite advance_n_app. cbn [advance_n].
  destruct (advance_primary_small vs (i + N.of_nat k1) Hl) as (v & Hv & Hadv); [unfold U8_MAX; lia|].
  rewrite Hadv.
  assert (Hj : saturating_add U8_MAX (i + N.of_nat k1) 1 mod N.of_nat (length vs) = 0).
  { unfold saturating_add, U8_MAX. rewrite N.min_r by lia.
    replace (i + N.of_nat k1 + 1) with (N.of_nat (length vs)) by lia. apply N.mod_same. lia. }
  rewrite Hj in *. rewrite advance_n_linear by lia.
  do 2 f_equal; [lia|].
  f_equal.
  - apply take_ge. rewrite drop_length. lia.
  - assert (Hacc : accounts vs !! 0%nat = Some (v_account v)).
    { unfold accounts. rewrite list_lookup_fmap. rewrite <- nth_error_is_lookup.
      change (N.to_nat 0) with 0%nat in Hv. now rewrite Hv. }
    change (N.to_nat 0 + 1)%nat with 1%nat.
    rewrite Nat.add_comm. destruct (accounts vs) as [|a0 acc]; [discriminate|].
    cbn in Hacc. injection Hacc as ->. cbn [app take drop Nat.add]. now rewrite drop_0.
Qed.

Lemma advance_fair vs i :
  (0 < length vs < 256)%nat -> i < N.of_nat (length vs) ->
  exists l, advance_n (length vs) vs i = Ok (i, l) /\ l ≡ₚ accounts vs.
Proof.
  intros Hl Hi. eexists. split; [apply advance_full_turn; assumption|].
  rewrite Permutation_app_comm. now rewrite take_drop.
Qed.

Lemma primary_for_block_total vs b :
  vs <> [] -> exists v, nth_error vs (N.to_nat (b mod N.of_nat (length vs))) = Some v /\
                        primary_for_block vs b = Ok (v_account v).
Proof.
  intros Hne. unfold primary_for_block. destruct vs as [|v0 vs]; [congruence|].
  set (l := v0 :: vs).
  destruct (nth_error l (N.to_nat (b mod N.of_nat (length l)))) as [v|] eqn:E; [eauto|].
  apply nth_error_None in E.
  assert (b mod N.of_nat (length l) < N.of_nat (length l)) by (apply N.mod_lt; cbn; lia). lia.
Qed.

Lemma primary_for_block_in vs b a : primary_for_block vs b = Ok a -> In a (accounts vs).
Proof.
  unfold primary_for_block. destruct vs as [|v0 vs]; [discriminate|].
  destruct (nth_error _ _) as [v|] eqn:E; [|discriminate].
  intros H; injection H as <-. apply in_map. eapply nth_error_In; eauto.
Qed.

Lemma primary_for_block_periodic vs b :
  vs <> [] -> primary_for_block vs (b + N.of_nat (length vs)) = primary_for_block vs b.
Proof.
  intros Hne. unfold primary_for_block. destruct vs as [|v0 vs]; [congruence|].
  set (l := v0 :: vs). assert (Hn : N.of_nat (length l) <> 0) by (cbn; lia).
  replace ((b + N.of_nat (length l)) mod N.of_nat (length l)) with (b mod N.of_nat (length l)); [reflexivity|].
  rewrite <- (N.mul_1_l (N.of_nat (length l))) at 2. now rewrite N.mod_add.
Qed.

Lemma new_session_no_disabled disabled incoming current v :
  In v (on_new_session disabled true incoming current) <-> In v incoming /\ disabled (v_account v) = false.
Proof.
  unfold on_new_session. rewrite filter_In. rewrite negb_true_iff. reflexivity.
Qed.

Lemma remove_validator_gone vs a :
  NoDup (accounts vs) -> is_validator (remove_validator vs a) a = false /\
  (forall b, b <> a -> is_validator (remove_validator vs a) b = is_validator vs b).
Proof.
  induction vs as [|v vs IH]; cbn; intros Hnd; [auto|].
  apply NoDup_cons in Hnd as [Hni Hnd]. destruct (IH Hnd) as [IH1 IH2].
  destruct (N.eqb_spec (v_account v) a) as [<-|Hne].
  - split.
    + apply not_true_is_false. intros Hv. apply is_validator_spec in Hv. apply Hni. now apply elem_of_list_In.
    + intros b Hb. destruct (N.eqb_spec (v_account v) b); [congruence|reflexivity].
  - cbn. split.
    + destruct (N.eqb_spec (v_account v) a); [congruence|]. exact IH1.
    + intros b Hb. f_equal. now apply IH2.
Qed.

Lemma signature_valid_iff verify vs d v sg :
  signature_is_valid verify vs d v sg = true <->
  In (v_account v) (accounts vs) /\ verify (v_key v) d sg = true.
Proof.
  unfold signature_is_valid. destruct (is_validator vs (v_account v)) eqn:E; cbn.
  - apply is_validator_spec in E. tauto.
  - split; [discriminate|]. intros [Hin _]. apply is_validator_spec in Hin. congruence.
Qed.
