(** C102: the key the contract is told is the registered one. *)
From Verif Require Import Base BaseLemmas CodecModel CodecProofs HttpProofs ParseProofs EthKeyModel.

(** ** Specification: SEC1's two forms of a point of secp256k1 *)
Definition field_order : N := 115792089237316195423570985008687907853269984665640564039457584007908834671663.
Definition on_curve (x y : N) : Prop := x < field_order /\ y < field_order /\ (y ^ 2) mod field_order = (x ^ 3 + 7) mod field_order.
(** 64 bytes for (x, y); 33 bytes for x and the parity of y. *)
Definition full_form (f : list N) (x y : N) : Prop := f = be_bytes 32 x ++ be_bytes 32 y.
Definition short_form (k : list N) (x y : N) : Prop := k = (if N.even y then 2 else 3) :: be_bytes 32 x.

Lemma P_eq : P = field_order. Proof. reflexivity. Qed.
Lemma order_pos : 0 < field_order. Proof. reflexivity. Qed.
Lemma order_lt : field_order < 256 ^ N.of_nat 32. Proof. reflexivity. Qed.
Lemma order_odd : N.odd field_order = true. Proof. reflexivity. Qed.
Opaque field_order P.

Lemma powm_lt a e : powm a e < P.
Proof. rewrite P_eq. destruct e; cbn [powm]; rewrite P_eq; apply N.mod_lt; pose proof order_pos; lia. Qed.
Lemma root_lt c : root_of c < P.
Proof. unfold root_of. destruct ((P + 1) / 4); [reflexivity|apply powm_lt]. Qed.
Lemma curve_eq x : curve x = (x ^ 3 + 7) mod field_order.
Proof.
  unfold curve. rewrite P_eq. pose proof order_pos. assert (x ^ 3 = x * x * x) as -> by (change 3 with (N.succ 2); rewrite N.pow_succ_r', N.pow_2_r; lia).
  rewrite <- (N.add_mod_idemp_l (_ * x)) by lia. rewrite N.mul_mod_idemp_l by lia. by rewrite N.add_mod_idemp_l by lia.
Qed.
(** The negation keeps the square and, but for 0, changes the parity. *)
Definition neg (r : N) : N := (P - r) mod P.
Lemma neg_lt r : neg r < P.
Proof. unfold neg. apply N.mod_lt. rewrite P_eq. pose proof order_pos. lia. Qed.
Lemma neg_eq r : r < P -> neg r = if r =? 0 then 0 else P - r.
Proof. intros H. unfold neg. destruct (N.eqb_spec r 0) as [->|Hr]; [rewrite N.sub_0_r; apply N.mod_same; lia|]. apply N.mod_small. lia. Qed.
Lemma neg_odd r : r < P -> r <> 0 -> N.odd (neg r) = negb (N.odd r).
Proof.
  intros H Hr. rewrite neg_eq by done. rewrite (proj2 (N.eqb_neq _ _)) by done.
  rewrite N.odd_sub by lia. rewrite P_eq, order_odd. by destruct (N.odd r).
Qed.
Lemma neg_square r : r < P -> neg r * neg r mod P = r * r mod P.
Proof.
  intros H. rewrite neg_eq by done. destruct (N.eqb_spec r 0) as [->|Hr]; [done|].
  assert (E : (P - r) * (P - r) + 2 * r * P = r * r + P * P).
  { rewrite N.mul_sub_distr_l, !N.mul_sub_distr_r. pose proof (N.mul_le_mono r P r P ltac:(lia) ltac:(lia)). 
    pose proof (N.mul_le_mono r P P P ltac:(lia) ltac:(lia)). pose proof (N.mul_le_mono r P r r ltac:(lia) ltac:(lia)). nia. }
  assert (P <> 0) by lia.
  rewrite <- (N.mod_add ((P - r) * (P - r)) (2 * r) P) by done. rewrite E. by apply N.mod_add.
Qed.
(** What is accepted. *)
Lemma decompress_some k f : bytes k -> decompress k = Some f <->
  exists x y t, k = t :: be_bytes 32 x /\ (t = 2 \/ t = 3) /\ full_form f x y /\ on_curve x y /\
    y = (if Bool.eqb (N.odd (root_of (curve x))) (t =? 3) then root_of (curve x) else neg (root_of (curve x))).
Proof.
  intros Hb. unfold decompress, full_form, on_curve. split.
  - destruct k as [|t xb]; [done|]. inversion Hb as [|? ? Ht Hxb]; subst.
    destruct (Nat.eqb_spec (length xb) 32) as [L|]; [|done]. cbn [andb].
    destruct ((t =? 2) || (t =? 3)) eqn:Et; [|done]. destruct (N.ltb_spec (be_value xb) P) as [Hx|]; [|done].
    set (y := if Bool.eqb (N.odd (root_of (curve (be_value xb)))) (t =? 3) then root_of (curve (be_value xb)) else (P - root_of (curve (be_value xb))) mod P).
    destruct (N.eqb_spec (y * y mod P) (curve (be_value xb))) as [Hy|]; [|done]. intros [= <-].
    exists (be_value xb), y, t. split. { f_equal. rewrite <- (be_value_bytes xb Hxb) at 1. by rewrite L. }
    split. { apply orb_prop in Et as [Et|Et]; apply N.eqb_eq in Et; auto. }
    split; [done|]. split; [|done]. rewrite <- P_eq. split; [done|]. split.
    + subst y. destruct (Bool.eqb _ _); [apply root_lt|apply neg_lt].
    + rewrite N.pow_2_r, Hy, curve_eq. by rewrite P_eq.
  - intros (x & y & t & -> & Ht & -> & (Hx & Hy & E) & Ey). rewrite be_bytes_length. cbn [Nat.eqb].
    assert ((t =? 2) || (t =? 3) = true) as -> by (destruct Ht as [-> | ->]; done). cbn [andb].
    rewrite be_value_mod, N.mod_small by (pose proof order_lt; lia). rewrite P_eq. rewrite (proj2 (N.ltb_lt _ _) Hx). rewrite <- P_eq. fold (neg (root_of (curve x))). cbv zeta. rewrite <- Ey.
    rewrite <- N.pow_2_r, curve_eq. rewrite P_eq, E, N.eqb_refl. done.
Qed.
(** What is told is a point of the curve with the registered x, and y is the one of its two roots that the registered
    first byte says; everything else is refused. *)
Theorem C102_the_point_of_the_key k f : bytes k -> decompress k = Some f ->
  exists x y, on_curve x y /\ full_form f x y /\ (y <> 0 -> short_form k x y).
Proof.
  intros Hb H. apply decompress_some in H as (x & y & t & -> & Ht & Hf & Hc & Ey); [|done]. exists x, y. split; [done|]. split; [done|]. intros Hy.
  unfold short_form. f_equal. rewrite <- N.negb_odd.
  set (r := root_of (curve x)) in *. assert (Hr : r < P) by apply root_lt.
  assert (O : N.odd y = (t =? 3)).
  { destruct (Bool.eqb (N.odd r) (t =? 3)) eqn:E; subst y; [by apply eqb_prop|].
    assert (Hr0 : r <> 0). { intros R0. apply Hy. rewrite neg_eq by done. by rewrite R0. }
    rewrite neg_odd by done. apply eqb_false_iff in E. destruct (N.odd r), (t =? 3); done. }
  rewrite O. destruct Ht as [-> | ->]; done.
Qed.
Theorem C102_refused k f : decompress k = Some f -> length k = 33%nat /\ length f = 64%nat /\ (nth 0 k 0 = 2 \/ nth 0 k 0 = 3) /\ be_value (drop 1 k) < field_order.
Proof.
  unfold decompress. destruct k as [|t xb]; [done|]. destruct (Nat.eqb_spec (length xb) 32) as [L|]; [|done]. cbn [andb].
  destruct ((t =? 2) || (t =? 3)) eqn:Et; [|done]. destruct (N.ltb_spec (be_value xb) P) as [Hx|]; [|done]. destruct (_ =? curve _); [|done]. intros E.
  assert (Lf : length f = 64%nat).
  { match type of E with Some ?g = _ => assert (f = g) as -> by congruence end. by rewrite app_length, !be_bytes_length. }
  rewrite Lf, <- P_eq. clear E. cbn [nth drop length]. rewrite L. split; [done|]. split; [done|]. split; [|done].
  apply orb_prop in Et as [Et|Et]; apply N.eqb_eq in Et; auto.
Qed.
Lemma full_parts x y : take 32 (be_bytes 32 x ++ be_bytes 32 y) = be_bytes 32 x /\ drop 32 (be_bytes 32 x ++ be_bytes 32 y) = be_bytes 32 y.
Proof. split; [rewrite take_app_alt; [done|]|rewrite drop_app_alt; [done|]]; by rewrite be_bytes_length. Qed.
Lemma full_inj f x y x' y' : x < field_order -> y < field_order -> x' < field_order -> y' < field_order -> full_form f x y -> full_form f x' y' -> x = x' /\ y = y'.
Proof.
  unfold full_form. intros Hx Hy Hx' Hy' -> E. apply (app_inj_1 _ _ _ _ ltac:(by rewrite !be_bytes_length)) in E as [E1 E2].
  pose proof order_lt. split; eapply (be_bytes_inj 32); try done; lia.
Qed.
Lemma nth_last x y : nth 63 (be_bytes 32 x ++ be_bytes 32 y) 0 mod 2 = y mod 2.
Proof.
  rewrite app_nth2 by (rewrite be_bytes_length; lia). rewrite be_bytes_length. change (63 - 32)%nat with 31%nat.
  change 32%nat with (31 + 1)%nat at 1. rewrite be_bytes_app. rewrite app_nth2 by (rewrite be_bytes_length; lia). rewrite be_bytes_length, Nat.sub_diag.
  change (be_bytes 1 y) with [y mod 256]. cbn [nth]. pose proof (N.div_mod y 256 ltac:(lia)). pose proof (N.div_mod y 2 ltac:(lia)).
  rewrite (N.div_mod y 256) at 2 by lia. replace (256 * (y / 256) + y mod 256) with (y mod 256 + (128 * (y / 256)) * 2) by lia. by rewrite N.mod_add by lia.
Qed.
(** Compressing what was told gives back the registered key. *)
Theorem C102_round_trip k f : bytes k -> decompress k = Some f -> drop 32 f <> be_bytes 32 0 -> compress f = k.
Proof.
  intros Hb H Hn. destruct (C102_the_point_of_the_key k f Hb H) as (x & y & _ & Hf & Hs). unfold full_form in Hf. subst f.
  destruct (full_parts x y) as [E1 E2]. rewrite E2 in Hn. rewrite (Hs ltac:(by intros ->)). unfold compress. rewrite E1, nth_last. f_equal.
  rewrite <- N.bit0_mod, N.bit0_odd, <- N.negb_odd. by destruct (N.odd y).
Qed.
(** So different keys are told differently: the parameters published to add or to remove somebody determine key and account. *)
Theorem C102_keys_are_told_apart k k' f : bytes k -> bytes k' -> decompress k = Some f -> decompress k' = Some f -> drop 32 f <> be_bytes 32 0 -> k = k'.
Proof. intros B B' H H' Hn. rewrite <- (C102_round_trip k f B H Hn). by apply C102_round_trip. Qed.
Theorem C102_published_parameters k k' a a' l : bytes k -> bytes k' ->
  add_params k a = Some l /\ add_params k' a' = Some l \/ remove_params k a = Some l /\ remove_params k' a' = Some l ->
  a = a' /\ decompress k = decompress k' /\ (forall f, decompress k = Some f -> drop 32 f <> be_bytes 32 0 -> k = k').
Proof.
  intros B B' H. enough (a = a' /\ decompress k = decompress k') as [H1 H2].
  { split; [done|]. split; [done|]. intros f Hf Hn. eapply C102_keys_are_told_apart; try done. by rewrite <- H2. }
  unfold add_params, remove_params in H. destruct (decompress k) as [f|], (decompress k') as [f'|]; destruct H as [[H H']|[H H']]; try done;
    rewrite <- H' in H; inversion H; done.
Qed.
(** The two keys with the same x: both are accepted or none, and they are told as the two roots. *)
Theorem C102_both_roots x f : x < field_order -> decompress (2 :: be_bytes 32 x) = Some f ->
  exists f' y y', decompress (3 :: be_bytes 32 x) = Some f' /\ full_form f x y /\ full_form f' x y' /\ (y = 0 /\ y' = 0 \/ y + y' = field_order).
Proof.
  intros Hx H. apply decompress_some in H as (x' & y & t & E & Ht & Hf & Hc & Ey); [|constructor; [done|apply be_bytes_bytes]].
  pose proof (f_equal (hd 0) E) as E1. pose proof (f_equal (@tl N) E) as E2. change (2 = t) in E1. change (be_bytes 32 x = be_bytes 32 x') in E2. subst t. clear E. apply (be_bytes_inj 32) in E2; [|pose proof order_lt; lia|destruct Hc as [? _]; pose proof order_lt; lia]. subst x'.
  set (r := root_of (curve x)) in *. assert (Hr : r < P) by apply root_lt. change (2 =? 3) with false in Ey.
  assert (Hsq : r * r mod P = (x ^ 3 + 7) mod field_order).
  { destruct Hc as (_ & _ & Hc). rewrite <- Hc, N.pow_2_r, <- P_eq. destruct (Bool.eqb _ _); subst y; [done|]. by rewrite neg_square. }
  set (y' := if Bool.eqb (N.odd r) true then r else neg r).
  assert (Hy' : y' < P /\ y' * y' mod P = r * r mod P).
  { subst y'. destruct (Bool.eqb (N.odd r) true); [by split|]. split; [apply neg_lt|by apply neg_square]. }
  assert (Hc' : on_curve x y').
  { destruct Hy' as [Y1 Y2]. rewrite P_eq in Y1. split; [exact Hx|]. split; [exact Y1|]. rewrite N.pow_2_r, <- Hsq, <- Y2. by rewrite P_eq. }
  exists (be_bytes 32 x ++ be_bytes 32 y'), y, y'. split.
  { apply decompress_some; [constructor; [done|apply be_bytes_bytes]|]. exists x, y', 3. split; [done|]. split; [auto|]. split; [done|]. done. }
  split; [done|]. split; [done|]. subst y y'. rewrite <- P_eq. rewrite neg_eq by done. destruct (N.eqb_spec r 0) as [R0|R0].
  - rewrite R0. cbn. by left.
  - right. destruct (N.odd r); cbn; lia.
Qed.
(** [compress] does not look whether the 64 bytes are a point: only the x and one bit of the y remain of them. *)
Theorem C102_compress_unchecked : exists f f', length f = 64%nat /\ length f' = 64%nat /\ bytes f /\ bytes f' /\ f <> f' /\ compress f = compress f'.
Proof.
  exists (be_bytes 32 1 ++ be_bytes 32 2), (be_bytes 32 1 ++ be_bytes 32 4). split; [reflexivity|]. split; [reflexivity|].
  split; [apply Forall_app; split; apply be_bytes_bytes|]. split; [apply Forall_app; split; apply be_bytes_bytes|]. split; [|reflexivity]. 
  intros E. apply (app_inj_1 _ _ _ _ ltac:(by rewrite !be_bytes_length)) in E as [_ E]. apply (be_bytes_inj 32) in E; done.
Qed.
(** A case: the generator of the group, in both forms; 5 is no x of a point. *)
Definition gx : N := 55066263022277343669578718895168534326250603453777594175500187360389116729240.
Definition gy : N := 32670510020758816978083085130507043184471273380659243275938904335757337482424.
Example C102_example : decompress (2 :: be_bytes 32 gx) = Some (be_bytes 32 gx ++ be_bytes 32 gy) /\
  drop 32 (be_bytes 32 gx ++ be_bytes 32 gy) <> be_bytes 32 0 /\ decompress (2 :: be_bytes 32 5) = None.
Proof. split; [by vm_compute|]. split; [by vm_compute|by vm_compute]. Qed.
