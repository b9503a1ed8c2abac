(** Lemmas for AbiProps: decimal numbers, ABI encoding and decoding, hashes. *)
From Verif Require Import Base BaseLemmas CodecModel CodecProofs MerkleModel BridgeModel AbiModel AbiSpec.
From Coq Require Import Decimal DecimalN DecimalFacts DecimalString.

(** * Decimal numbers *)
Fixpoint val (acc : N) (d : uint) : N :=
  match d with
  | Nil => acc
  | D0 d => val (acc * 10 + 0) d | D1 d => val (acc * 10 + 1) d | D2 d => val (acc * 10 + 2) d | D3 d => val (acc * 10 + 3) d
  | D4 d => val (acc * 10 + 4) d | D5 d => val (acc * 10 + 5) d | D6 d => val (acc * 10 + 6) d | D7 d => val (acc * 10 + 7) d
  | D8 d => val (acc * 10 + 8) d | D9 d => val (acc * 10 + 9) d
  end.
Lemma val_acc d : forall p, Npos (Pos.of_uint_acc d p) = val (Npos p) d.
Proof. induction d as [|d IH|d IH|d IH|d IH|d IH|d IH|d IH|d IH|d IH|d IH]; intros p; cbn [Pos.of_uint_acc val]; [done|rewrite IH; f_equal; lia..]. Qed.
Lemma val_of_uint d : N.of_uint d = val 0 d.
Proof.
  unfold N.of_uint. induction d as [|d IH|d IH|d IH|d IH|d IH|d IH|d IH|d IH|d IH|d IH]; cbn [Pos.of_uint val]; [done|exact IH|rewrite val_acc; f_equal; lia..].
Qed.
Fixpoint dlen (d : uint) : nat :=
  match d with Nil => 0 | D0 d | D1 d | D2 d | D3 d | D4 d | D5 d | D6 d | D7 d | D8 d | D9 d => S (dlen d) end.
Lemma val_lower d : forall acc, acc * 10 ^ N.of_nat (dlen d) <= val acc d.
Proof.
  induction d as [|d IH|d IH|d IH|d IH|d IH|d IH|d IH|d IH|d IH|d IH]; intros acc; cbn [val dlen]; [change (10 ^ N.of_nat 0) with 1; lia|..];
  (rewrite Nat2N.inj_succ, N.pow_succ_r', N.mul_assoc; etransitivity; [|apply IH]; apply N.mul_le_mono_r; lia).
Qed.
Lemma digits_string d : forall acc, dec_digits acc (ascii_bytes (NilEmpty.string_of_uint d)) = Some (val acc d).
Proof. induction d as [|d IH|d IH|d IH|d IH|d IH|d IH|d IH|d IH|d IH|d IH]; intros acc; [done|cbn [NilEmpty.string_of_uint ascii_bytes dec_digits val]; rewrite <- IH; reflexivity..]. Qed.
Lemma string_length d : length (ascii_bytes (NilEmpty.string_of_uint d)) = dlen d.
Proof. induction d; cbn [NilEmpty.string_of_uint ascii_bytes length dlen]; [done|by f_equal..]. Qed.
(** The digits of a number: none is left out, the first is not zero unless it is the only one. *)
Lemma to_uint_cases n : n = 0 /\ N.to_uint n = D0 Nil \/ 0 < n /\ 10 ^ N.of_nat (dlen (N.to_uint n)) <= n * 10 /\ N.to_uint n <> Nil.
Proof.
  destruct (N.eq_dec n 0) as [->|NZ]; [by left|right]. split; [lia|].
  assert (V : val 0 (N.to_uint n) = n). { rewrite <- val_of_uint. apply DecimalN.Unsigned.of_to. }
  assert (U : unorm (N.to_uint n) = N.to_uint n). { rewrite <- DecimalN.Unsigned.to_of, DecimalN.Unsigned.of_to. done. }
  assert (G : forall d, unorm d = d -> d <> Nil -> val 0 d <> 0 -> 10 ^ N.of_nat (dlen d) <= val 0 d * 10).
  { intros d Ud Nd Zd. destruct d as [|d|d|d|d|d|d|d|d|d|d]; [done| |..].
    { exfalso. apply Zd. unfold unorm in Ud. destruct (nzhead (D0 d)) eqn:E; try discriminate; [by injection Ud as <-|]. by apply nzhead_nonzero in E. }
    all: cbn [dlen val]; rewrite Nat2N.inj_succ, N.pow_succ_r'; rewrite (N.mul_comm _ 10);
      match goal with |- context [val ?a ?d] => pose proof (val_lower d a) as L; etransitivity; [|apply N.mul_le_mono_l; exact L]; apply N.mul_le_mono_l; rewrite <- (N.mul_1_l (10 ^ _)) at 1; apply N.mul_le_mono_r; lia end. }
  assert (NN : N.to_uint n <> Nil). { intros E. rewrite E in V. cbn in V. lia. }
  split; [|done]. rewrite <- V at 2. apply G; [done|done|lia].
Qed.
Lemma dec_bytes_eq n : dec_bytes n = ascii_bytes (NilEmpty.string_of_uint (N.to_uint n)) /\ dec_bytes n <> [].
Proof.
  unfold dec_bytes, NilZero.string_of_uint. destruct (to_uint_cases n) as [[-> E]|(_ & _ & E)]; [by vm_compute|].
  destruct (N.to_uint n); [done|by split..].
Qed.
Lemma dec_bytes_digits n : dec_digits 0 (dec_bytes n) = Some n.
Proof. rewrite (proj1 (dec_bytes_eq n)), digits_string. f_equal. rewrite <- val_of_uint. apply DecimalN.Unsigned.of_to. Qed.
Lemma dec_bytes_length n k : n < 10 ^ N.of_nat k -> (length (dec_bytes n) <= S k)%nat.
Proof.
  intros H. rewrite (proj1 (dec_bytes_eq n)), string_length. destruct (to_uint_cases n) as [[-> E]|(P & L & _)]; [rewrite E; cbn; lia|].
  apply Nat.nlt_ge. intros Hk. assert (10 ^ N.of_nat (S k) < 10 ^ N.of_nat (dlen (N.to_uint n))) by (apply N.pow_lt_mono_r; lia).
  rewrite Nat2N.inj_succ, N.pow_succ_r' in H0. lia.
Qed.
Lemma digits_all l : forall acc v, dec_digits acc l = Some v -> Forall (fun b => 48 <= b <= 57) l.
Proof. induction l as [|b l IH]; intros acc v; [constructor|]. cbn [dec_digits]. destruct (_ && _) eqn:E; [|done]. intros H. constructor; [lia|by eapply IH]. Qed.
Lemma parse_dec max n : n <= max -> parse_uint max (dec_bytes n) = Some n.
Proof.
  intros H. unfold parse_uint. pose proof (dec_bytes_digits n) as D. pose proof (proj2 (dec_bytes_eq n)) as NE. destruct (dec_bytes n) as [|b l] eqn:E; [done|].
  pose proof (digits_all _ _ _ D) as F. apply Forall_cons in F as [F _]. destruct (N.eqb_spec b 43); [lia|]. rewrite D. destruct (N.leb_spec n max); [done|lia].
Qed.
Lemma from_dec n : n < 2 ^ 256 -> from_dec_str (dec_bytes n) = Some n.
Proof. intros H. unfold from_dec_str. rewrite dec_bytes_digits. destruct (N.ltb_spec n (2 ^ 256)); [done|lia]. Qed.

(** * ABI *)
Lemma slice_at (P w R : list N) (a b : nat) : length P = a -> (a + length w = b)%nat -> slice a b (P ++ w ++ R) = w.
Proof. intros Ha Hb. unfold slice. rewrite drop_app_alt by done. apply take_app_alt. lia. Qed.
Lemma word_at_app P w R : length w = 32%nat -> word_at (P ++ w ++ R) (N.of_nat (length P)) = Some (be_value w).
Proof.
  intros L. unfold word_at. rewrite !app_length, L. destruct (N.leb_spec (N.of_nat (length P) + 32) (N.of_nat (length P + (32 + length R)))); [|lia].
  f_equal. f_equal. rewrite Nat2N.id. apply slice_at; [done|lia].
Qed.
Lemma tail_length b : length (tail_of (TBytes b)) = (32 + length b + padding (length b))%nat.
Proof. cbn [tail_of]. rewrite !app_length, be_bytes_length, repeat_length. lia. Qed.
(** What an encoded token decodes to. *)
Inductive fits : sol_type -> token -> sol_value -> Prop :=
| FitUint256 w n : length w = 32%nat -> be_value w = n -> fits Uint256 (TWord w) (Num n)
| FitBytes32 w n : length w = 32%nat -> be_value w = n -> fits Bytes32 (TWord w) (Num n)
| FitUint32 w n : length w = 32%nat -> be_value w = n -> n < 2 ^ 32 -> fits Uint32 (TWord w) (Num n)
| FitBytes b : fits Bytes (TBytes b) (Data b).
Lemma fits_bytes ty b v : fits ty (TBytes b) v -> ty = Bytes /\ v = Data b.
Proof. by inversion 1; subst. Qed.
Lemma fits_word ty w v : fits ty (TWord w) v -> length w = 32%nat /\ v = Num (be_value w) /\ (ty = Uint256 \/ ty = Bytes32 \/ ty = Uint32 /\ be_value w < 2 ^ 32).
Proof. inversion 1; subst; auto 10. Qed.
Lemma decode_heads l : forall ts vs P Q pos data, Forall3 fits ts l vs -> data = P ++ heads pos l ++ Q ++ concat (map tail_of l) ->
  length (P ++ heads pos l ++ Q) = pos -> N.of_nat (length data) < 2 ^ 256 -> decode_args ts data (N.of_nat (length P)) = Some vs.
Proof.
  induction l as [|t l IH]; intros ts vs P Q pos data F E L B.
  { by inversion F. }
  inversion F as [|ty ? v tys ? vs' F1 F2]; subst ts vs. clear F H0 H1 y k. cbn [decode_args].
  destruct t as [b|w].
  - apply fits_bytes in F1 as [-> ->]. set (T := tail_of (TBytes b)) in *. set (W := be_bytes 32 (N.of_nat pos)).
    assert (E' : data = (P ++ W) ++ heads (pos + length T) l ++ (Q ++ T) ++ concat (map tail_of l)).
    { subst data. cbn [heads map concat]. fold T W. rewrite <- !app_assoc. done. }
    assert (LW : length W = 32%nat) by apply be_bytes_length.
    assert (LP : length (P ++ W ++ heads (pos + length T) l ++ Q) = pos).
    { cbn [heads] in L. fold T W in L. etransitivity; [|exact L]. by rewrite <- !app_assoc. }
    assert (H1 : decode_args tys data (N.of_nat (length P) + 32) = Some vs').
    { replace (N.of_nat (length P) + 32) with (N.of_nat (length (P ++ W))) by (rewrite app_length; lia).
      eapply IH; [done|exact E'| |done]. rewrite <- app_assoc. rewrite !app_length in *. lia. }
    rewrite H1. unfold decode_one.
    assert (D1 : data = P ++ W ++ (heads (pos + length T) l ++ (Q ++ T) ++ concat (map tail_of l))) by (rewrite E'; by rewrite <- !app_assoc).
    rewrite D1 at 1. rewrite word_at_app by done. unfold W at 1 2 3 4. assert (Bp : N.of_nat pos < 256 ^ N.of_nat 32).
    { change (256 ^ N.of_nat 32) with (2 ^ 256). rewrite E' in B. rewrite !app_length in *. lia. }
    rewrite be_roundtrip by done. set (pre := P ++ W ++ heads (pos + length T) l ++ Q) in *.
    assert (D2 : data = pre ++ be_bytes 32 (N.of_nat (length b)) ++ (b ++ repeat 0 (padding (length b)) ++ concat (map tail_of l))).
    { rewrite D1. unfold pre, T. cbn [tail_of]. by rewrite <- !app_assoc. }
    rewrite <- LP at 1. rewrite D2 at 1. rewrite word_at_app by apply be_bytes_length.
    assert (LD : (length data = pos + 32 + length b + (padding (length b) + length (concat (map tail_of l))))%nat).
    { rewrite D2, !app_length, be_bytes_length, repeat_length, LP. lia. }
    rewrite be_roundtrip by (change (256 ^ N.of_nat 32) with (2 ^ 256); lia).
    destruct (N.leb_spec (N.of_nat pos + 32 + N.of_nat (length b)) (N.of_nat (length data))); [|lia]. f_equal. f_equal. f_equal.
    rewrite D2, app_assoc. apply slice_at; [rewrite app_length, be_bytes_length; lia|lia].
  - cbn [heads map tail_of concat] in *.
    apply fits_word in F1 as (LW & -> & F1).
    assert (E' : data = (P ++ w) ++ heads pos l ++ Q ++ concat (map tail_of l)) by (subst data; by rewrite <- !app_assoc).
    assert (H1 : decode_args tys data (N.of_nat (length P) + 32) = Some vs').
    { replace (N.of_nat (length P) + 32) with (N.of_nat (length (P ++ w))) by (rewrite app_length; lia).
      eapply IH; [done|exact E'| |done]. rewrite <- app_assoc. rewrite !app_length in *. lia. }
    rewrite H1. unfold decode_one.
    assert (D1 : word_at data (N.of_nat (length P)) = Some (be_value w)). { subst data. rewrite <- !app_assoc. by apply word_at_app. }
    rewrite D1. destruct F1 as [->|[->|[-> F1]]]; [done|done|]. destruct (N.ltb_spec (be_value w) (2 ^ 32)); [done|lia].
Qed.
Lemma heads_length l : Forall (fun t => match t with TWord w => length w = 32%nat | _ => True end) l -> forall pos, length (heads pos l) = (32 * length l)%nat.
Proof.
  induction 1 as [|t l Ht _ IH]; intros pos; [done|]. destruct t as [b|w]; cbn [heads length]; rewrite app_length, IH, ?be_bytes_length; lia.
Qed.
Lemma decode_encoded ts l vs : Forall3 fits ts l vs -> N.of_nat (length (abi_encode l)) < 2 ^ 256 -> decode_args ts (abi_encode l) 0 = Some vs.
Proof.
  intros F B. apply (decode_heads l ts vs [] [] (32 * length l)); [done|done| |done].
  rewrite List.app_nil_l, List.app_nil_r. apply heads_length. clear B. induction F as [|? t ? ? ? ? F1 _ IH]; constructor; [by inversion F1|done].
Qed.
Lemma padding_lt n : (padding n < 32)%nat.
Proof. unfold padding. apply Nat.mod_upper_bound. lia. Qed.
Definition size_of (t : token) : nat := match t with TBytes b => 96 + length b | TWord _ => 32 end.
Lemma encode_length l : Forall (fun t => match t with TWord w => length w = 32%nat | _ => True end) l -> (length (abi_encode l) <= list_sum (map size_of l))%nat.
Proof.
  intros F. unfold abi_encode. rewrite app_length, heads_length by done. clear F. induction l as [|t l IH]; [done|]. cbn [map concat length].
  rewrite app_length. change (list_sum (size_of t :: map size_of l)) with (size_of t + list_sum (map size_of l))%nat.
  assert (length (tail_of t) + 32 <= size_of t)%nat; [|lia].
  destruct t as [b|w]; [rewrite tail_length; pose proof (padding_lt (length b))|]; cbn [size_of tail_of length]; lia.
Qed.

(** * Signatures *)
Lemma split_confirmations confs : Forall (fun c => c < 2 ^ 520) confs -> forall fuel, (length confs <= fuel)%nat -> split65 fuel (encode_confirmations confs) = Some confs.
Proof.
  induction 1 as [|c confs Hc _ IH]; intros fuel Hf; [by destruct fuel|]. destruct fuel as [|fuel]; [cbn in Hf; lia|].
  unfold encode_confirmations in *. cbn [map concat]. destruct (be_bytes 65 c ++ concat (map (be_bytes 65) confs)) as [|x l] eqn:E.
  { apply (f_equal length) in E. rewrite app_length, be_bytes_length in E. cbn in E. lia. }
  cbn [split65]. rewrite <- E. rewrite app_length, be_bytes_length. destruct (Nat.ltb_spec (65 + length (concat (map (be_bytes 65) confs))) 65); [lia|].
  rewrite drop_app_alt by (by rewrite be_bytes_length). rewrite take_app_alt by (by rewrite be_bytes_length). rewrite IH by (cbn in Hf; lia).
  rewrite be_roundtrip; [done|]. exact Hc.
Qed.
Lemma confirmations_length confs : length (encode_confirmations confs) = (65 * length confs)%nat.
Proof. unfold encode_confirmations. induction confs as [|c l IH]; [done|]. cbn [map concat]. rewrite app_length, be_bytes_length, IH. cbn [length]. lia. Qed.
Lemma signatures_confirmations confs : Forall (fun c => c < 2 ^ 520) confs -> signatures (encode_confirmations confs) = Some confs.
Proof. intros F. unfold signatures. apply split_confirmations; [done|]. rewrite confirmations_length. lia. Qed.
