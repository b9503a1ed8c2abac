(** Lemmas for ParseProps: words and slices of them. *)
From Verif Require Import Base CodecModel CodecProofs ParseModel.

(** A 32-byte word. *)
Definition word (n : N) : list N := be_bytes 32 n.

Lemma be_bytes_app a b n : be_bytes (a + b) n = be_bytes a (n / 256 ^ N.of_nat b) ++ be_bytes b n.
Proof.
  revert n. induction b as [|b IH]; intros n.
  - rewrite Nat.add_0_r. cbn. by rewrite N.div_1_r, app_nil_r.
  - replace (a + S b)%nat with (S (a + b)) by lia. cbn [be_bytes]. rewrite IH, <- app_assoc. f_equal. f_equal.
    rewrite N.div_div by lia. f_equal. rewrite pow256_S. done.
Qed.
Lemma be_value_mod k n : be_value (be_bytes k n) = n mod 256 ^ N.of_nat k.
Proof.
  revert n. induction k as [|k IH]; intros n; [cbn; by rewrite N.mod_1_r|]. cbn [be_bytes]. rewrite be_value_snoc, IH, pow256_S.
  rewrite (N.mod_mul_r n 256 (256 ^ N.of_nat k)) by lia. lia.
Qed.
Lemma word_length n : length (word n) = 32%nat.
Proof. apply be_bytes_length. Qed.
Lemma word_of l : bytes l -> length l = 32%nat -> exists n, n < 2 ^ 256 /\ l = word n.
Proof.
  intros B L. exists (be_value l). split.
  - rewrite <- (be_value_bytes l B), L, be_value_mod. apply N.mod_lt. done.
  - unfold word. rewrite <- L. symmetry. by apply be_value_bytes.
Qed.
Lemma word_value n : n < 2 ^ 256 -> be_value (word n) = n.
Proof. intros H. apply be_roundtrip. exact H. Qed.
Lemma word_high (a b : nat) n : (a + b = 32)%nat -> slice 0 a (word n) = be_bytes a (n / 256 ^ N.of_nat b).
Proof. intros E. unfold word, slice. rewrite <- E, be_bytes_app, drop_0, Nat.sub_0_r. apply take_app_alt. by rewrite be_bytes_length. Qed.
Lemma word_low (a b : nat) n : (a + b = 32)%nat -> slice a 32 (word n) = be_bytes b n.
Proof.
  intros E. unfold word, slice. rewrite <- E at 1. rewrite <- E, be_bytes_app. rewrite drop_app_alt by (by rewrite be_bytes_length). replace (a + b - a)%nat with b by lia. rewrite take_ge; [done|]. by rewrite be_bytes_length.
Qed.
Lemma any_positive_be k n : n < 256 ^ N.of_nat k -> any_positive (be_bytes k n) = negb (n =? 0).
Proof.
  revert n. induction k as [|k IH]; intros n Hn; [cbn in *; by replace n with 0 by lia|]. rewrite pow256_S in Hn. cbn [be_bytes]. unfold any_positive in *. rewrite existsb_app, IH by (apply N.div_lt_upper_bound; lia). cbn [existsb]. rewrite orb_false_r.
  pose proof (N.div_mod n 256 ltac:(lia)). destruct (n / 256 =? 0) eqn:E; cbn.
  - apply N.eqb_eq in E. destruct (n =? 0) eqn:E2; cbn; lia.
  - apply N.eqb_neq in E. symmetry. apply negb_true_iff. apply N.eqb_neq. intros ->. by rewrite N.div_0_l in E.
Qed.
Lemma any_positive_high (a b : nat) n : n < 2 ^ 256 -> (a + b = 32)%nat -> any_positive (slice 0 a (word n)) = negb (n <? 256 ^ N.of_nat b).
Proof.
  intros Hn E. rewrite (word_high a b) by done. rewrite any_positive_be.
  - f_equal. destruct (n <? _) eqn:X.
    + apply N.ltb_lt in X. by rewrite N.div_small.
    + apply N.ltb_ge in X. apply N.eqb_neq. intros Y. apply N.div_small_iff in Y; lia.
  - apply N.div_lt_upper_bound; [lia|]. rewrite <- N.pow_add_r, <- Nat2N.inj_add, Nat.add_comm, E. exact Hn.
Qed.
(** What the parsers do with words. *)
Lemma len_word n : len_is 32 (word n) = true.
Proof. unfold len_is. by rewrite word_length. Qed.
Lemma sub_word n a b : (b <= 32)%nat -> sub (word n) a b = Parsed (slice a b (word n)).
Proof. intros H. unfold sub. rewrite word_length. by rewrite (proj2 (Nat.leb_le _ _) H). Qed.
Lemma hash_word n : n < 2 ^ 256 -> hash_from 32 (word n) = Parsed n.
Proof. intros H. unfold hash_from. rewrite word_length. cbn [Nat.eqb]. by rewrite word_value. Qed.
Lemma u256_word n : n < 2 ^ 256 -> u256_from (word n) = Parsed n.
Proof. intros H. unfold u256_from. rewrite word_length. cbn [Nat.leb]. by rewrite word_value. Qed.
Lemma hash_low k n : hash_from k (be_bytes k n) = Parsed (n mod 256 ^ N.of_nat k).
Proof. unfold hash_from. by rewrite be_bytes_length, Nat.eqb_refl, be_value_mod. Qed.
Lemma int_low k e n : int_from k e (be_bytes k n) = Parsed (n mod 256 ^ N.of_nat k).
Proof. unfold int_from. by rewrite be_bytes_length, Nat.eqb_refl, be_value_mod. Qed.
Lemma intx_low k n : int_expect k (be_bytes k n) = Parsed (n mod 256 ^ N.of_nat k).
Proof. unfold int_expect. by rewrite be_bytes_length, Nat.eqb_refl, be_value_mod. Qed.
Lemma slice_app_l (a b : nat) x y : (b <= length x)%nat -> slice a b (x ++ y) = slice a b x.
Proof.
  intros H. unfold slice. destruct (decide (a <= length x)%nat).
  - rewrite drop_app_le by done. rewrite take_app_le; [done|]. rewrite drop_length. lia.
  - replace (b - a)%nat with 0%nat by lia. done.
Qed.
Lemma slice_app_r (a b : nat) x y : length x = a -> length y = (b - a)%nat -> slice a b (x ++ y) = y.
Proof. intros H1 H2. unfold slice. rewrite drop_app_alt by done. by rewrite take_ge by lia. Qed.
Lemma slice_all l : slice 0 (length l) l = l.
Proof. unfold slice. rewrite drop_0, Nat.sub_0_r. by rewrite take_ge. Qed.
Lemma two_words l : bytes l -> length l = 64%nat -> exists n m, n < 2 ^ 256 /\ m < 2 ^ 256 /\ l = word n ++ word m.
Proof.
  intros B L. rewrite <- (take_drop 32 l) in B |- *. apply Forall_app in B as [B1 B2].
  destruct (word_of _ B1) as (n & Hn & ->); [rewrite take_length; lia|]. destruct (word_of _ B2) as (m & Hm & ->); [rewrite drop_length; lia|]. exists n, m. done.
Qed.
Lemma pow160 : 256 ^ N.of_nat 20 = 2 ^ 160. Proof. done. Qed.
Lemma pow128 : 256 ^ N.of_nat 16 = 2 ^ 128. Proof. done. Qed.
Lemma pow64 : 256 ^ N.of_nat 8 = 2 ^ 64. Proof. done. Qed.
Lemma pow32 : 256 ^ N.of_nat 4 = 2 ^ 32. Proof. done. Qed.
Lemma len_is_true k l : len_is k l = true -> length l = k.
Proof. apply Nat.eqb_eq. Qed.
