(** Round trips of the encodings of HttpModel. *)
From Verif Require Import Base BaseLemmas CodecModel CodecProofs HttpModel.

Lemma hex_digit_char d : d < 16 -> hex_digit (hex_char d) = Some d.
Proof.
  intros H. unfold hex_char. destruct (N.ltb_spec d 10).
  - unfold hex_digit. replace (48 <=? d + 48) with true by lia. replace (d + 48 <=? 57) with true by lia. cbn. f_equal. lia.
  - unfold hex_digit. replace (d + 87 <=? 57) with false by lia. rewrite andb_false_r.
    replace (97 <=? d + 87) with true by lia. replace (d + 87 <=? 102) with true by lia. cbn. f_equal. lia.
Qed.
Lemma hex_roundtrip l : bytes l -> hex_decode (hex_encode l) = Some l.
Proof.
  induction 1 as [|b l Hb Hl IH]; [done|].
  change (hex_encode (b :: l)) with (hex_char (b / 16) :: hex_char (b mod 16) :: hex_encode l).
  cbn [hex_decode]. rewrite !hex_digit_char, IH; [|apply N.mod_lt; lia|apply N.div_lt_upper_bound; lia].
  f_equal. f_equal. rewrite N.mul_comm. symmetry. apply N.div_mod. lia.
Qed.
Lemma hex_digit_lt b d : hex_digit b = Some d -> d < 16.
Proof. unfold hex_digit. repeat case_match; intros [= <-]; lia. Qed.
Lemma list_pair_ind {A} (P : list A -> Prop) : P [] -> (forall a, P [a]) -> (forall a b l, P l -> P (a :: b :: l)) -> forall l, P l.
Proof.
  intros H0 H1 H2. assert (forall l, P l /\ forall a, P (a :: l)) as H; [|intros l; apply H].
  induction l as [|b l [IH1 IH2]]; split; auto.
Qed.
Lemma hex_decode_bytes l m : hex_decode l = Some m -> bytes m /\ length l = (2 * length m)%nat.
Proof.
  revert m. induction l as [|a|a b l IH] using list_pair_ind; intros m H.
  - injection H as <-. split; [constructor|done].
  - discriminate.
  - cbn [hex_decode] in H. destruct (hex_digit a) eqn:Ha; [|discriminate]. destruct (hex_digit b) eqn:Hb; [|discriminate].
    destruct (hex_decode l) eqn:Hl; [|discriminate]. injection H as <-. destruct (IH _ eq_refl) as [H1 H2].
    apply hex_digit_lt in Ha, Hb. split; [constructor; [cbn; lia|done]|cbn; lia].
Qed.

Lemma le_value_bytes k n : n < 256 ^ N.of_nat k -> le_value (le_bytes k n) = n.
Proof.
  revert n. induction k as [|k IH]; intros n H.
  - cbn in *. change (256 ^ N.of_nat 0) with 1 in H. lia.
  - cbn. rewrite IH.
    + rewrite N.add_comm. symmetry. apply N.div_mod. lia.
    + rewrite pow256_S in H. apply N.div_lt_upper_bound; lia.
Qed.
Lemma le_bytes_value l : bytes l -> le_bytes (length l) (le_value l) = l.
Proof.
  induction 1 as [|b l Hb Hl IH]; [done|]. cbn. f_equal.
  - replace (b + 256 * le_value l) with (b + le_value l * 256) by lia. rewrite N.mod_add by lia. apply N.mod_small. exact Hb.
  - replace (b + 256 * le_value l) with (b + le_value l * 256) by lia. rewrite N.div_add by lia. rewrite N.div_small by exact Hb.
    replace (0 + le_value l) with (le_value l) by lia. exact IH.
Qed.
Lemma le_value_lt l : bytes l -> le_value l < 256 ^ N.of_nat (length l).
Proof.
  induction 1 as [|b l Hb Hl IH]; [by cbn|]. cbn [le_value length]. rewrite pow256_S. lia.
Qed.
Lemma read_app k x y : length x = k -> read k (x ++ y) = Some (x, y).
Proof.
  intros <-. unfold read. rewrite app_length. replace (Nat.leb _ _) with true by (symmetry; apply Nat.leb_le; lia).
  by rewrite take_app, drop_app.
Qed.
Lemma read_spec k l x y : read k l = Some (x, y) -> l = x ++ y /\ length x = k.
Proof.
  unfold read. destruct (Nat.leb_spec k (length l)) as [H|H]; [|discriminate]. intros [= <- <-].
  split; [by rewrite take_drop|]. rewrite take_length. lia.
Qed.
Lemma read_compact_app n r : n < 2 ^ 32 -> read_compact (compact n ++ r) = Some (n, r).
Proof.
  intros Hn. unfold compact.
  destruct (N.ltb_spec n (2 ^ 6)) as [H1|H1].
  { cbn [app]. unfold read_compact. rewrite N.mod_mul, N.div_mul by lia. done. }
  destruct (N.ltb_spec n (2 ^ 14)) as [H2|H2].
  { pose proof (read_app 2 (le_bytes 2 (n * 4 + 1)) r (le_bytes_length _ _)) as R.
    pose proof (le_value_bytes 2 (n * 4 + 1)) as V. specialize (V ltac:(change (256 ^ N.of_nat 2) with 65536; lia)).
    change (le_bytes 2 (n * 4 + 1)) with ((n * 4 + 1) mod 256 :: le_bytes 1 ((n * 4 + 1) / 256)) in *.
    cbn [app] in *. unfold read_compact.
    assert (((n * 4 + 1) mod 256) mod 4 = 1) as M.
    { change 256 with (4 * 64). rewrite N.mod_mul_r by lia. rewrite (N.add_comm (n * 4)). rewrite N.mod_add by lia.
      rewrite (N.mul_comm 4). rewrite N.mod_add by lia. done. }
    rewrite M. change (1 =? 0) with false. change (1 =? 1) with true. cbv iota. rewrite R, V.
    replace ((n * 4 + 1) / 4) with n by (rewrite N.add_comm, N.div_add by lia; done). cbv zeta.
    replace (2 ^ 6 <=? n) with true by lia. done. }
  destruct (N.ltb_spec n (2 ^ 30)) as [H3|H3].
  { pose proof (read_app 4 (le_bytes 4 (n * 4 + 2)) r (le_bytes_length _ _)) as R.
    pose proof (le_value_bytes 4 (n * 4 + 2)) as V. specialize (V ltac:(change (256 ^ N.of_nat 4) with 4294967296; lia)).
    change (le_bytes 4 (n * 4 + 2)) with ((n * 4 + 2) mod 256 :: le_bytes 3 ((n * 4 + 2) / 256)) in *.
    cbn [app] in *. unfold read_compact.
    assert (((n * 4 + 2) mod 256) mod 4 = 2) as M.
    { change 256 with (4 * 64). rewrite N.mod_mul_r by lia. rewrite (N.add_comm (n * 4)). rewrite N.mod_add by lia.
      rewrite (N.mul_comm 4). rewrite N.mod_add by lia. done. }
    rewrite M. change (2 =? 0) with false. change (2 =? 1) with false. change (2 =? 2) with true. cbv iota. rewrite R, V.
    replace ((n * 4 + 2) / 4) with n by (rewrite N.add_comm, N.div_add by lia; done). cbv zeta.
    replace (2 ^ 14 <=? n) with true by lia. done. }
  pose proof (read_app 4 (le_bytes 4 n) r (le_bytes_length _ _)) as R.
  pose proof (le_value_bytes 4 n) as V. specialize (V ltac:(change (256 ^ N.of_nat 4) with 4294967296; lia)).
  cbn [app]. unfold read_compact. change (3 mod 4) with 3. change (3 =? 0) with false. change (3 =? 1) with false. change (3 =? 2) with false.
  change (3 / 4 =? 0) with true. cbv iota. rewrite R, V. cbv zeta. replace (2 ^ 30 <=? n) with true by lia. done.
Qed.
Lemma read_vec_app d r : N.of_nat (length d) < 2 ^ 32 -> read_vec (scale_bytes d ++ r) = Some (d, r).
Proof.
  intros H. unfold read_vec, scale_bytes. rewrite <- app_assoc, read_compact_app by done. rewrite Nat2N.id. by apply read_app.
Qed.
Lemma read_opt_app o r : (forall v, o = Some v -> v < 2 ^ 32) -> read_opt_u32 (opt_u32 o ++ r) = Some (o, r).
Proof.
  intros H. destruct o as [v|]; [|done].
  pose proof (read_app 4 (le_bytes 4 v) r (le_bytes_length _ _)) as R.
  pose proof (le_value_bytes 4 v) as V. specialize (V (H v eq_refl)).
  unfold opt_u32, read_opt_u32. cbn [app]. change (1 =? 0) with false. change (1 =? 1) with true. cbv iota. rewrite R, V. done.
Qed.

(** Values that the Rust types can hold. *)
Definition tx_typed (t : eth_tx) : Prop :=
  tx_from t < 2 ^ 256 /\ tx_to t < 2 ^ 160 /\ bytes (tx_data t) /\ N.of_nat (length (tx_data t)) < 2 ^ 32 /\
  (forall v, tx_block t = Some v -> v < 2 ^ 32).

Lemma tx_roundtrip t r : tx_typed t -> decode_tx (encode_tx t ++ r) = Some t.
Proof.
  intros (H1 & H2 & H3 & H4 & H5). unfold decode_tx, encode_tx. rewrite <- !app_assoc.
  rewrite (read_app 32) by apply be_bytes_length. rewrite (read_app 20) by apply be_bytes_length.
  rewrite read_vec_app by done. rewrite read_opt_app by done.
  rewrite !be_roundtrip; [by destruct t| |]; [exact H2|exact H1].
Qed.
Lemma query_roundtrip h k r : h < 2 ^ 256 -> decode_query (encode_query h k ++ r) = Some (h, k).
Proof.
  intros H. unfold decode_query, encode_query. rewrite <- app_assoc. rewrite (read_app 32) by apply be_bytes_length.
  rewrite be_roundtrip by exact H. by destruct k.
Qed.
Lemma response_roundtrip d n r : N.of_nat (length d) < 2 ^ 32 -> n < 2 ^ 64 -> decode_response (encode_response d n ++ r) = Some (d, n).
Proof.
  intros H1 H2. unfold decode_response, encode_response. rewrite <- app_assoc. rewrite read_vec_app by done.
  rewrite (read_app 8) by apply le_bytes_length. rewrite le_value_bytes by exact H2. done.
Qed.

(** What is decoded is what was encoded: the bytes read are the encoding of the result. *)
Lemma bytes_app x y : bytes (x ++ y) <-> bytes x /\ bytes y.
Proof. apply Forall_app. Qed.
Lemma mod4 v a : a < 4 -> v mod 4 = a -> v = v / 4 * 4 + a.
Proof. intros H <-. rewrite N.mul_comm. apply N.div_mod. lia. Qed.
Lemma mod4_256 b v : (b + 256 * v) mod 4 = b mod 4.
Proof. replace (b + 256 * v) with (b + (64 * v) * 4) by lia. apply N.mod_add. lia. Qed.
Lemma read_compact_spec l n r : bytes l -> read_compact l = Some (n, r) -> n < 2 ^ 32 /\ l = compact n ++ r.
Proof.
  intros B H. destruct l as [|b l]; [discriminate|]. unfold read_compact in H. fold (read_compact) in H.
  assert (b < 256) as Hb by (apply Forall_cons in B; tauto).
  destruct (N.eqb_spec (b mod 4) 0) as [M|M].
  { injection H as <- <-. assert (b / 4 < 64) by (apply N.div_lt_upper_bound; lia).
    split; [lia|]. unfold compact. replace (b / 4 <? 2 ^ 6) with true by lia. cbn [app]. f_equal.
    rewrite (mod4 b 0) at 1 by (try lia; done). lia. }
  destruct (N.eqb_spec (b mod 4) 1) as [M1|M1].
  { destruct (read 2 (b :: l)) as [[x y]|] eqn:R; [|discriminate]. cbv zeta in H.
    destruct (N.leb_spec (2 ^ 6) (le_value x / 4)); [|discriminate]. injection H as <- <-.
    apply read_spec in R as [R1 R2]. rewrite R1 in B. apply bytes_app in B as [Bx _].
    pose proof (le_value_lt x Bx) as V. rewrite R2 in V. change (256 ^ N.of_nat 2) with 65536 in V.
    assert (le_value x / 4 < 16384) by (apply N.div_lt_upper_bound; lia).
    split; [lia|]. unfold compact. replace (le_value x / 4 <? 2 ^ 6) with false by lia. replace (le_value x / 4 <? 2 ^ 14) with true by lia.
    rewrite R1. f_equal.
    assert (le_value x mod 4 = 1) as M4. { destruct x as [|b' x]; [discriminate|]. injection R1 as <- _. cbn [le_value]. rewrite mod4_256. exact M1. }
    rewrite <- (mod4 (le_value x) 1) by (try lia; done). rewrite <- R2. symmetry. by apply le_bytes_value. }
  destruct (N.eqb_spec (b mod 4) 2) as [M2|M2].
  { destruct (read 4 (b :: l)) as [[x y]|] eqn:R; [|discriminate]. cbv zeta in H.
    destruct (N.leb_spec (2 ^ 14) (le_value x / 4)); [|discriminate]. injection H as <- <-.
    apply read_spec in R as [R1 R2]. rewrite R1 in B. apply bytes_app in B as [Bx _].
    pose proof (le_value_lt x Bx) as V. rewrite R2 in V. change (256 ^ N.of_nat 4) with 4294967296 in V.
    assert (le_value x / 4 < 1073741824) by (apply N.div_lt_upper_bound; lia).
    split; [lia|]. unfold compact. replace (le_value x / 4 <? 2 ^ 6) with false by lia. replace (le_value x / 4 <? 2 ^ 14) with false by lia.
    replace (le_value x / 4 <? 2 ^ 30) with true by lia.
    rewrite R1. f_equal.
    assert (le_value x mod 4 = 2) as M4. { destruct x as [|b' x]; [discriminate|]. injection R1 as <- _. cbn [le_value]. rewrite mod4_256. exact M2. }
    rewrite <- (mod4 (le_value x) 2) by (try lia; done). rewrite <- R2. symmetry. by apply le_bytes_value. }
  destruct (N.eqb_spec (b / 4) 0) as [M3|M3]; [|discriminate].
  destruct (read 4 l) as [[x y]|] eqn:R; [|discriminate]. cbv zeta in H.
  destruct (N.leb_spec (2 ^ 30) (le_value x)); [|discriminate]. injection H as <- <-.
  apply read_spec in R as [R1 R2]. rewrite R1 in B. apply Forall_cons in B as [_ B]. apply bytes_app in B as [Bx _].
  pose proof (le_value_lt x Bx) as V. rewrite R2 in V. change (256 ^ N.of_nat 4) with 4294967296 in V.
  split; [lia|]. unfold compact. replace (le_value x <? 2 ^ 6) with false by lia. replace (le_value x <? 2 ^ 14) with false by lia.
  replace (le_value x <? 2 ^ 30) with false by lia. rewrite R1. cbn [app]. f_equal.
  - pose proof (N.mod_lt b 4). pose proof (N.div_mod b 4). lia.
  - f_equal. rewrite <- R2. symmetry. by apply le_bytes_value.
Qed.
Lemma read_vec_spec l d r : bytes l -> read_vec l = Some (d, r) -> N.of_nat (length d) < 2 ^ 32 /\ l = scale_bytes d ++ r.
Proof.
  intros B H. unfold read_vec in H. destruct (read_compact l) as [[n l']|] eqn:E; [|discriminate].
  apply (read_compact_spec _ _ _ B) in E as [E1 E2]. apply read_spec in H as [H1 H2].
  replace (N.of_nat (length d)) with n by lia. split; [done|]. unfold scale_bytes. replace (N.of_nat (length d)) with n by lia.
  rewrite <- app_assoc. by rewrite <- H1.
Qed.
Lemma be_value_lt l : bytes l -> be_value l < 256 ^ N.of_nat (length l).
Proof.
  induction l as [|b l IH] using rev_ind; intros B; [by cbn|].
  apply bytes_app in B as [B1 B2]. apply Forall_cons in B2 as [B2 _]. rewrite be_value_snoc, app_length. cbn [length].
  replace (length l + 1)%nat with (S (length l)) by lia. rewrite pow256_S. specialize (IH B1). lia.
Qed.
Lemma decode_tx_spec l t : bytes l -> decode_tx l = Some t -> tx_typed t /\ exists r, l = encode_tx t ++ r.
Proof.
  intros B H. unfold decode_tx in H.
  destruct (read 32 l) as [[f l1]|] eqn:R1; [|discriminate]. apply read_spec in R1 as [-> L1].
  destruct (read 20 l1) as [[o l2]|] eqn:R2; [|discriminate]. apply read_spec in R2 as [-> L2].
  apply bytes_app in B as [B1 B]. apply bytes_app in B as [B2 B].
  destruct (read_vec l2) as [[d l3]|] eqn:R3; [|discriminate]. apply (read_vec_spec _ _ _ B) in R3 as [L3 ->].
  apply bytes_app in B as [B3 B]. unfold scale_bytes in B3. apply bytes_app in B3 as [_ B3].
  destruct (read_opt_u32 l3) as [[b l4]|] eqn:R4; [|discriminate]. injection H as <-.
  assert ((forall v, b = Some v -> v < 2 ^ 32) /\ l3 = opt_u32 b ++ l4) as [Tb E4].
  { destruct l3 as [|x l3]; [discriminate|]. unfold read_opt_u32 in R4.
    destruct (N.eqb_spec x 0) as [->|]. { injection R4 as <- <-. done. }
    destruct (N.eqb_spec x 1) as [->|]; [|discriminate].
    destruct (read 4 l3) as [[y l5]|] eqn:R5; [|discriminate]. injection R4 as <- <-. apply read_spec in R5 as [-> L5].
    apply Forall_cons in B as [_ B]. apply bytes_app in B as [B5 _].
    split. { intros v [= <-]. pose proof (le_value_lt y B5) as V. rewrite L5 in V. exact V. }
    cbn [opt_u32 app]. f_equal. f_equal. rewrite <- L5. symmetry. by apply le_bytes_value. }
  assert (be_value f < 2 ^ 256) as V1. { pose proof (be_value_lt f B1) as V. rewrite L1 in V. exact V. }
  assert (be_value o < 2 ^ 160) as V2. { pose proof (be_value_lt o B2) as V. rewrite L2 in V. exact V. }
  split; [done|]. exists l4. unfold encode_tx. cbn [tx_from tx_to tx_data tx_block].
  rewrite <- L1, <- L2. rewrite !be_value_bytes by done. rewrite <- !app_assoc. by rewrite E4.
Qed.
Lemma proof_data_inj f t d f' t' d' :
  f < 2 ^ 256 -> f' < 2 ^ 256 -> t < 2 ^ 160 -> t' < 2 ^ 160 -> N.of_nat (length d) < 2 ^ 32 -> N.of_nat (length d') < 2 ^ 32 ->
  proof_data f t d = proof_data f' t' d' -> f = f' /\ t = t' /\ d = d'.
Proof.
  intros Hf Hf' Ht Ht' Hd Hd' E. unfold proof_data in E.
  apply app_split in E as [E1 E]; [|by rewrite !be_bytes_length]. apply app_split in E as [E2 E]; [|by rewrite !be_bytes_length].
  apply be_bytes_inj in E1; [|exact Hf|exact Hf']. apply be_bytes_inj in E2; [|exact Ht|exact Ht'].
  split; [done|]. split; [done|]. rewrite <- (app_nil_r (scale_bytes d)), <- (app_nil_r (scale_bytes d')) in E.
  by apply scale_bytes_prefix in E as [E _].
Qed.
Lemma proof_data_length f t d : (53 <= length (proof_data f t d))%nat.
Proof.
  unfold proof_data. rewrite !app_length, !be_bytes_length. unfold scale_bytes. rewrite app_length.
  assert (1 <= length (compact (N.of_nat (length d))))%nat; [|lia].
  unfold compact. repeat case_match; cbn; lia.
Qed.
