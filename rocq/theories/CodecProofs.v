(** Proofs about CodecModel.v *)
From Verif Require Import Base BaseLemmas CodecModel.

Lemma be_bytes_length k n : length (be_bytes k n) = k.
Proof. revert n; induction k as [|k IH]; intros n; cbn; [reflexivity|]. rewrite app_length, IH. cbn. lia. Qed.
Lemma le_bytes_length k n : length (le_bytes k n) = k.
Proof. revert n; induction k as [|k IH]; intros n; cbn; [reflexivity|]. now rewrite IH. Qed.

Lemma be_value_snoc l b : be_value (l ++ [b]) = be_value l * 256 + b.
Proof. unfold be_value. now rewrite fold_left_app. Qed.

Lemma pow256_S k : 256 ^ N.of_nat (S k) = 256 * 256 ^ N.of_nat k.
Proof. rewrite Nat2N.inj_succ, N.pow_succ_r'. reflexivity. Qed.

Lemma be_roundtrip k n : n < 256 ^ N.of_nat k -> be_value (be_bytes k n) = n.
Proof.
  revert n; induction k as [|k IH]; intros n Hn; cbn [be_bytes]; [cbn in *; lia|].
  rewrite pow256_S in Hn. rewrite be_value_snoc, IH; [|apply N.div_lt_upper_bound; lia].
  pose proof (N.div_mod n 256 ltac:(lia)). lia.
Qed.

Definition bytes (l : list N) : Prop := Forall (fun b => b < 256) l.

Lemma be_bytes_bytes k n : bytes (be_bytes k n).
Proof.
  revert n; induction k as [|k IH]; intros n; cbn; [constructor|]. apply Forall_app. split; [apply IH|].
  constructor; [|constructor]. apply N.mod_lt. lia.
Qed.

Lemma be_value_bytes l : bytes l -> be_bytes (length l) (be_value l) = l.
Proof.
  induction l as [|b l IH] using rev_ind; intros Hb; [reflexivity|].
  apply Forall_app in Hb as [Hl Hb]. inversion Hb as [|? ? Hb1 _]; subst.
  rewrite app_length. cbn [length]. rewrite Nat.add_comm. cbn [Nat.add be_bytes].
  rewrite be_value_snoc. rewrite N.div_add_l by lia. rewrite (N.div_small b) by exact Hb1.
  rewrite N.add_0_r, IH by exact Hl. f_equal.
  rewrite N.add_comm, N.mod_add by lia. now rewrite N.mod_small.
Qed.

Lemma le_be k n : le_bytes k n = rev (be_bytes k n).
Proof. revert n; induction k as [|k IH]; intros n; cbn; [reflexivity|]. rewrite rev_app_distr. cbn. now rewrite IH. Qed.

Lemma be_bytes_inj k n m : n < 256 ^ N.of_nat k -> m < 256 ^ N.of_nat k -> be_bytes k n = be_bytes k m -> n = m.
Proof. intros Hn Hm E. rewrite <- (be_roundtrip k n Hn), <- (be_roundtrip k m Hm). now rewrite E. Qed.
Lemma le_bytes_inj k n m : n < 256 ^ N.of_nat k -> m < 256 ^ N.of_nat k -> le_bytes k n = le_bytes k m -> n = m.
Proof. intros Hn Hm E. rewrite !le_be in E. apply (f_equal (@rev N)) in E. rewrite !rev_involutive in E. eapply be_bytes_inj; eauto. Qed.

(** Equal concatenations with equally long heads split. *)
Lemma app_split {A} (a a' b b' : list A) : length a = length a' -> a ++ b = a' ++ b' -> a = a' /\ b = b'.
Proof. intros. now apply app_inj_1. Qed.

(** The compact prefix is self-delimiting. *)
Lemma compact_prefix n m x y : n < 2 ^ 32 -> m < 2 ^ 32 -> compact n ++ x = compact m ++ y -> n = m /\ x = y.
Proof.
  intros Hn Hm E. unfold compact in E.
  assert (P2 : 256 ^ N.of_nat 2 = 65536) by reflexivity. assert (P4 : 256 ^ N.of_nat 4 = 4294967296) by reflexivity.
  assert (H4 : forall k, (k * 4) mod 4 = 0 /\ (k * 4 + 1) mod 4 = 1 /\ (k * 4 + 2) mod 4 = 2) by (intros; lia).
  destruct (N.ltb_spec n (2 ^ 6)), (N.ltb_spec m (2 ^ 6));
    try destruct (N.ltb_spec n (2 ^ 14)); try destruct (N.ltb_spec m (2 ^ 14));
    try destruct (N.ltb_spec n (2 ^ 30)); try destruct (N.ltb_spec m (2 ^ 30)); cbn [app] in E;
    change (2 ^ 6) with 64 in *; change (2 ^ 14) with 16384 in *; change (2 ^ 30) with 1073741824 in *; change (2^32) with 4294967296 in *; try lia.
  all: try (injection E as E1 E2; split; [lia|exact E2]).
  all: try (apply app_split in E as [E1 E2]; [|now rewrite !le_bytes_length];
    apply le_bytes_inj in E1; [split; [lia|exact E2]| |]; rewrite ?P2, ?P4; lia).
  all: try (injection E as E1; apply app_split in E1 as [E1 E2]; [|now rewrite !le_bytes_length];
    apply le_bytes_inj in E1; [split; [lia|exact E2]| |]; rewrite ?P2, ?P4; lia).
  all: try (exfalso; apply (f_equal (hd 0)) in E; cbn [le_bytes app hd] in E; clear - E; lia).
  apply (f_equal (@tl N)) in E. cbn [tl] in E. apply app_split in E as [E1 E2]; [|now rewrite !le_bytes_length].
  apply le_bytes_inj in E1; [auto| |]; rewrite P4; assumption.
Qed.

Lemma scale_bytes_prefix a b x y :
  N.of_nat (length a) < 2 ^ 32 -> N.of_nat (length b) < 2 ^ 32 ->
  scale_bytes a ++ x = scale_bytes b ++ y -> a = b /\ x = y.
Proof.
  intros Ha Hb E. unfold scale_bytes in E. rewrite <- !app_assoc in E.
  apply compact_prefix in E as [E1 E2]; [|assumption|assumption]. apply app_split in E2; [exact E2|lia].
Qed.

(** * Lower parameters *)
Lemma put_exact pre old post bs a :
  a = length pre -> length old = length bs -> put a bs (pre ++ old ++ post) = pre ++ bs ++ post.
Proof.
  intros -> Hl. unfold put. rewrite take_app. f_equal. f_equal.
  rewrite <- Hl, <- app_length, app_assoc, drop_app. reflexivity.
Qed.

Definition lower_bytes (d : lower_data) : list N :=
  be_bytes 20 (ld_token d) ++ repeat 0 16 ++ be_bytes 16 (ld_amount d) ++ be_bytes 20 (ld_recipient d) ++
  be_bytes 4 (ld_id d) ++ be_bytes 32 (ld_sender d) ++ be_bytes 8 (ld_time d).

Lemma concat_lower_eq d : concat_lower_data d = lower_bytes d.
Proof.
  unfold concat_lower_data, lower_bytes. cbv zeta.
  set (B1 := be_bytes 20 (ld_token d)). set (B3 := be_bytes 16 (ld_amount d)). set (B4 := be_bytes 20 (ld_recipient d)).
  set (B5 := be_bytes 4 (ld_id d)). set (B6 := be_bytes 32 (ld_sender d)). set (B7 := be_bytes 8 (ld_time d)).
  assert (L1 : length B1 = 20%nat) by apply be_bytes_length. assert (L3 : length B3 = 16%nat) by apply be_bytes_length.
  assert (L4 : length B4 = 20%nat) by apply be_bytes_length. assert (L5 : length B5 = 4%nat) by apply be_bytes_length.
  assert (L6 : length B6 = 32%nat) by apply be_bytes_length. assert (L7 : length B7 = 8%nat) by apply be_bytes_length.
  clearbody B1 B3 B4 B5 B6 B7.
  change (repeat 0 116) with ([] ++ repeat 0 20 ++ repeat 0 96).
  rewrite put_exact by (cbn; congruence). cbn [app].
  change (repeat 0 96) with (repeat 0 16 ++ repeat 0 80).
  rewrite (put_exact B1) by (cbn; congruence).
  rewrite (app_assoc B1). change (repeat 0 80) with (repeat 0 16 ++ repeat 0 64).
  rewrite (put_exact (B1 ++ repeat 0 16)) by (rewrite ?app_length; cbn; lia).
  rewrite (app_assoc _ B3). change (repeat 0 64) with (repeat 0 20 ++ repeat 0 44).
  rewrite (put_exact ((B1 ++ repeat 0 16) ++ B3)) by (rewrite ?app_length; cbn; lia).
  rewrite (app_assoc _ B4). change (repeat 0 44) with (repeat 0 4 ++ repeat 0 40).
  rewrite (put_exact (((B1 ++ repeat 0 16) ++ B3) ++ B4)) by (rewrite ?app_length; cbn; lia).
  rewrite (app_assoc _ B5). change (repeat 0 40) with (repeat 0 32 ++ repeat 0 8).
  rewrite (put_exact ((((B1 ++ repeat 0 16) ++ B3) ++ B4) ++ B5)) by (rewrite ?app_length; cbn; lia).
  rewrite (app_assoc _ B6). rewrite <- (app_nil_r (repeat 0 8)).
  rewrite (put_exact (((((B1 ++ repeat 0 16) ++ B3) ++ B4) ++ B5) ++ B6)) by (rewrite ?app_length; cbn; lia).
  rewrite <- !app_assoc, app_nil_r. reflexivity.
Qed.

Lemma slice_mid pre mid post a b :
  a = length pre -> b = (length pre + length mid)%nat -> slice a b (pre ++ mid ++ post) = mid.
Proof.
  intros -> ->. unfold slice. rewrite drop_app.
  replace (length pre + length mid - length pre)%nat with (length mid) by lia. apply take_app.
Qed.

Definition in_range (d : lower_data) : Prop :=
  ld_token d < 2 ^ 160 /\ ld_amount d < 2 ^ 128 /\ ld_recipient d < 2 ^ 160 /\ ld_id d < 2 ^ 32 /\
  ld_sender d < 2 ^ 256 /\ ld_time d < 2 ^ 64.

Lemma lower_roundtrip d : in_range d -> decode_lower_data (concat_lower_data d) = Some d.
Proof.
  intros (H1 & H2 & H3 & H4 & H5 & H6). rewrite concat_lower_eq. unfold lower_bytes, decode_lower_data.
  rewrite !app_length, !be_bytes_length, repeat_length. cbn [Nat.add Nat.eqb].
  set (B1 := be_bytes 20 (ld_token d)). set (B3 := be_bytes 16 (ld_amount d)). set (B4 := be_bytes 20 (ld_recipient d)).
  set (B5 := be_bytes 4 (ld_id d)). set (B6 := be_bytes 32 (ld_sender d)). set (B7 := be_bytes 8 (ld_time d)).
  assert (L1 : length B1 = 20%nat) by apply be_bytes_length. assert (L3 : length B3 = 16%nat) by apply be_bytes_length.
  assert (L4 : length B4 = 20%nat) by apply be_bytes_length. assert (L5 : length B5 = 4%nat) by apply be_bytes_length.
  assert (L6 : length B6 = 32%nat) by apply be_bytes_length. assert (L7 : length B7 = 8%nat) by apply be_bytes_length.
  assert (E1 : slice 0 20 (B1 ++ repeat 0 16 ++ B3 ++ B4 ++ B5 ++ B6 ++ B7) = B1).
  { apply (slice_mid []); cbn; lia. }
  assert (E3 : slice 36 52 (B1 ++ repeat 0 16 ++ B3 ++ B4 ++ B5 ++ B6 ++ B7) = B3).
  { rewrite (app_assoc B1). apply slice_mid; rewrite ?app_length, ?repeat_length; lia. }
  assert (E4 : slice 52 72 (B1 ++ repeat 0 16 ++ B3 ++ B4 ++ B5 ++ B6 ++ B7) = B4).
  { rewrite (app_assoc B1), (app_assoc _ B3). apply slice_mid; rewrite ?app_length, ?repeat_length; lia. }
  assert (E5 : slice 72 76 (B1 ++ repeat 0 16 ++ B3 ++ B4 ++ B5 ++ B6 ++ B7) = B5).
  { rewrite (app_assoc B1), (app_assoc _ B3), (app_assoc _ B4). apply slice_mid; rewrite ?app_length, ?repeat_length; lia. }
  assert (E6 : slice 76 108 (B1 ++ repeat 0 16 ++ B3 ++ B4 ++ B5 ++ B6 ++ B7) = B6).
  { rewrite (app_assoc B1), (app_assoc _ B3), (app_assoc _ B4), (app_assoc _ B5). apply slice_mid; rewrite ?app_length, ?repeat_length; lia. }
  assert (E7 : slice 108 116 (B1 ++ repeat 0 16 ++ B3 ++ B4 ++ B5 ++ B6 ++ B7) = B7).
  { rewrite (app_assoc B1), (app_assoc _ B3), (app_assoc _ B4), (app_assoc _ B5), (app_assoc _ B6). rewrite <- (app_nil_r B7) at 1.
    apply slice_mid; rewrite ?app_length, ?repeat_length; lia. }
  rewrite E1, E3, E4, E5, E6, E7. subst B1 B3 B4 B5 B6 B7.
  rewrite !be_roundtrip; [destruct d; reflexivity|exact H6|exact H5|exact H4|exact H3|exact H2|exact H1].
Qed.

Lemma lower_length d : length (concat_lower_data d) = 116%nat.
Proof. rewrite concat_lower_eq. unfold lower_bytes. rewrite !app_length, !be_bytes_length, repeat_length. reflexivity. Qed.

Lemma lower_injective d d' : in_range d -> in_range d' -> concat_lower_data d = concat_lower_data d' -> d = d'.
Proof. intros H H' E. apply lower_roundtrip in H, H'. rewrite E in H. congruence. Qed.

Lemma decode_total p : (exists d, decode_lower_data p = Some d) <-> length p = 116%nat.
Proof.
  unfold decode_lower_data. destruct (Nat.eqb_spec (length p) 116); split; intros H; eauto; try congruence.
  destruct H; discriminate.
Qed.

Lemma slices_cover p : length p = 116%nat ->
  p = slice 0 20 p ++ slice 20 36 p ++ slice 36 52 p ++ slice 52 72 p ++ slice 72 76 p ++ slice 76 108 p ++ slice 108 116 p.
Proof.
  intros Hl. unfold slice. cbn [Nat.sub].
  assert (Hs : forall a n (q : list N), take n (drop a q) ++ drop (a + n) q = drop a q).
  { intros a n q. rewrite <- drop_drop. apply take_drop. }
  rewrite (firstn_all2 (drop 108 p)) by (rewrite drop_length; lia).
  change (drop 108 p) with (drop (76 + 32) p). rewrite Hs.
  change (drop 76 p) with (drop (72 + 4) p). rewrite Hs.
  change (drop 72 p) with (drop (52 + 20) p). rewrite Hs.
  change (drop 52 p) with (drop (36 + 16) p). rewrite Hs.
  change (drop 36 p) with (drop (20 + 16) p). rewrite Hs.
  change (drop 20 p) with (drop (0 + 20) p). rewrite Hs. reflexivity.
Qed.

Lemma slice_bytes a b p : bytes p -> bytes (slice a b p).
Proof. intros H. unfold slice. now apply Forall_take, Forall_drop. Qed.
Lemma slice_len a b p : (b <= length p)%nat -> length (slice a b p) = (b - a)%nat.
Proof. intros H. unfold slice. rewrite take_length, drop_length. lia. Qed.

Lemma lower_reencode p d : bytes p -> decode_lower_data p = Some d ->
  (concat_lower_data d = p <-> slice 20 36 p = repeat 0 16).
Proof.
  intros Hb H. assert (Hl : length p = 116%nat) by (apply decode_total; eauto).
  unfold decode_lower_data in H. rewrite Hl in H. cbn [Nat.eqb] in H. injection H as <-.
  rewrite concat_lower_eq. unfold lower_bytes. cbn [ld_token ld_amount ld_recipient ld_id ld_sender ld_time].
  assert (Hx : forall a b k, (b - a)%nat = k -> (b <= 116)%nat -> be_bytes k (be_value (slice a b p)) = slice a b p).
  { intros a b k <- Hk. rewrite <- (slice_len a b p) by lia. apply be_value_bytes, slice_bytes, Hb. }
  rewrite !Hx by lia. rewrite (slices_cover p Hl) at 7. split.
  - intros E. apply app_inv_head in E. apply app_split in E as [E _]; [congruence|].
    rewrite repeat_length, slice_len by lia. reflexivity.
  - intros ->. reflexivity.
Qed.
