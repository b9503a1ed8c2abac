(** The codec reads back what it wrote, whatever follows. *)
From Verif Require Import Base CodecModel CodecProofs ScaleModel.

Lemma le_bytes_length k n : length (le_bytes k n) = k.
Proof. revert n. induction k as [|k IH]; intros n; cbn; [done|by rewrite IH]. Qed.
Lemma le_value_bytes k n : n < 256 ^ N.of_nat k -> le_value (le_bytes k n) = n.
Proof.
  revert n. induction k as [|k IH]; intros n Hn; cbn.
  - change (256 ^ N.of_nat 0) with 1 in Hn. lia.
  - rewrite Nat2N.inj_succ, N.pow_succ_r' in Hn. change (fold_right _ 0 ?l) with (le_value l). rewrite IH; [|apply N.div_lt_upper_bound; lia].
    pose proof (N.div_mod n 256 ltac:(done)). lia.
Qed.
Lemma dec_bytes_app k l r : length l = k -> dec_bytes k (l ++ r) = Some (l, r).
Proof.
  intros <-. unfold dec_bytes. rewrite app_length. rewrite (proj2 (Nat.leb_le _ _)) by lia. by rewrite take_app, drop_app.
Qed.
Lemma dec_int_app k n r : n < 256 ^ N.of_nat k -> dec_int k (le_bytes k n ++ r) = Some (n, r).
Proof. intros Hn. unfold dec_int. rewrite dec_bytes_app by apply le_bytes_length. by rewrite le_value_bytes. Qed.

Lemma dec_compact_app n r : n < 2 ^ 32 -> dec_compact (compact n ++ r) = Some (n, r).
Proof.
  intros Hn. unfold compact.
  destruct (N.ltb_spec n (2 ^ 6)) as [H6|H6].
  { cbn [app dec_compact]. replace ((n * 4) mod 4) with 0 by (symmetry; apply N.mod_mul; lia). rewrite N.eqb_refl, N.div_mul; done. }
  destruct (N.ltb_spec n (2 ^ 14)) as [H14|H14].
  { assert (E : exists p q, le_bytes 2 (n * 4 + 1) ++ r = p :: q /\ p mod 4 = 1).
    { eexists _, _. split; [reflexivity|]. rewrite <-N.add_mod_idemp_l by done.
      assert (H : (n * 4 + 1) mod 256 mod 4 = 1); [|by rewrite N.add_mod_idemp_l in * by done]. 
      change 256 with (4 * 64). rewrite N.mod_mul_r by done. rewrite N.add_mod, N.mul_comm, (N.mul_comm 4 (_ / 4 mod 64)), N.mod_mul by done.
      rewrite (N.mul_comm 4 n), N.mod_mod, N.add_0_r, N.mod_mod by done. rewrite N.add_mod, N.mod_mul by done. done. }
    destruct E as (p & q & E & Hp). unfold dec_compact. rewrite E, Hp. cbn [N.eqb Pos.eqb]. rewrite <-E.
    rewrite dec_int_app by (change (256 ^ N.of_nat 2) with (2 ^ 16); lia).
    replace ((n * 4 + 1) / 4) with n; [|apply (N.div_unique _ 4 _ 1); lia].
    change (1 =? 0) with false. change (1 =? 1) with true. cbv iota. rewrite (proj2 (N.leb_le _ _)) by done. done. }
  destruct (N.ltb_spec n (2 ^ 30)) as [H30|H30].
  { assert (E : exists p q, le_bytes 4 (n * 4 + 2) ++ r = p :: q /\ p mod 4 = 2).
    { eexists _, _. split; [reflexivity|].
      change 256 with (4 * 64). rewrite N.mod_mul_r by done. rewrite N.add_mod, (N.mul_comm 4 (_ / 4 mod 64)), N.mod_mul by done.
      rewrite N.add_0_r, !N.mod_mod by done. rewrite N.add_mod, N.mod_mul by done. done. }
    destruct E as (p & q & E & Hp). unfold dec_compact. rewrite E, Hp. rewrite <-E.
    rewrite dec_int_app by (change (256 ^ N.of_nat 4) with (2 ^ 32); lia).
    replace ((n * 4 + 2) / 4) with n; [|apply (N.div_unique _ 4 _ 2); lia].
    change (2 =? 0) with false. change (2 =? 1) with false. change (2 =? 2) with true. cbv iota. rewrite (proj2 (N.leb_le _ _)) by done. done. }
  cbn [app dec_compact]. change (3 mod 4) with 3. change (3 =? 0) with false. change (3 =? 1) with false. change (3 =? 2) with false. change (3 =? 3) with true. cbv iota.
  rewrite dec_int_app by (change (256 ^ N.of_nat 4) with (2 ^ 32); lia). by rewrite (proj2 (N.leb_le _ _)) by done.
Qed.

Theorem dec_enc t x r : valid t x -> dec t (enc t x ++ r) = Some (x, r).
Proof.
  revert x r. induction t as [k|k| |a IH|m a IH|a IHa b IHb|a IHa b IHb]; intros x r Hv; cbn in *.
  - by apply dec_int_app.
  - destruct Hv as [Hv _]. by apply dec_bytes_app.
  - by destruct x.
  - destruct x as [x|]; cbn; [|done]. by rewrite IH.
  - destruct Hv as (Hl & Hm & HF). rewrite <-app_assoc, dec_compact_app by lia. rewrite (proj2 (N.leb_le _ _)) by done. rewrite Nat2N.id. clear Hl Hm.
    revert r. induction HF as [|y l Hy HF IHl]; intros r; cbn; [done|]. by rewrite <-app_assoc, IH, IHl.
  - destruct x as [x y], Hv as [Hx Hy]; cbn. by rewrite <-app_assoc, IHa, IHb.
  - destruct x as [x|y]; cbn; [by rewrite IHa|by rewrite IHb].
Qed.
Lemma read_enc t x : valid t x -> read t (Some (enc t x)) = Some x.
Proof. intros Hv. unfold read. rewrite <-(app_nil_r (enc t x)), dec_enc; done. Qed.
Lemma read_holds t x raw : holds t x raw -> read t (Some raw) = Some x.
Proof. intros [Hv ->]. by apply read_enc. Qed.

(** A decoder consumes at least the least length of the type. *)
Lemma dec_bytes_length k b x r : dec_bytes k b = Some (x, r) -> length b = (k + length r)%nat.
Proof.
  unfold dec_bytes. destruct (Nat.leb_spec k (length b)) as [H|]; [|done]. intros [= _ <-]. rewrite drop_length. lia.
Qed.
Lemma dec_int_length k b x r : dec_int k b = Some (x, r) -> length b = (k + length r)%nat.
Proof. unfold dec_int. destruct (dec_bytes k b) as [[y q]|] eqn:E; [|done]. intros [= _ <-]. by apply dec_bytes_length in E. Qed.
Lemma dec_compact_length b x r : dec_compact b = Some (x, r) -> (1 + length r <= length b)%nat.
Proof.
  unfold dec_compact. destruct b as [|p q]; [done|].
  destruct (p mod 4 =? 0); [intros [= _ <-]; cbn; lia|].
  destruct (p mod 4 =? 1). { destruct (dec_int 2 (p :: q)) as [[y q']|] eqn:E; [|done]. apply dec_int_length in E. destruct (_ <=? _); [|done]. intros [= _ <-]. lia. }
  destruct (p mod 4 =? 2). { destruct (dec_int 4 (p :: q)) as [[y q']|] eqn:E; [|done]. apply dec_int_length in E. destruct (_ <=? _); [|done]. intros [= _ <-]. lia. }
  destruct (p =? 3); [|done]. destruct (dec_int 4 q) as [[y q']|] eqn:E; [|done]. apply dec_int_length in E. destruct (_ <=? _); [|done]. intros [= _ <-]. cbn. lia.
Qed.
Lemma dec_length t b x r : dec t b = Some (x, r) -> (min_len t + length r <= length b)%nat.
Proof.
  revert b x r. induction t as [k|k| |a IH|m a IH|a IHa c IHc|a IHa c IHc]; intros b x r; cbn.
  - intros H. apply dec_int_length in H. lia.
  - intros H. apply dec_bytes_length in H. lia.
  - destruct b as [|[|[]] q]; intros [= _ <-]; cbn; lia.
  - destruct b as [|[|[]] q]; try done; [intros [= _ <-]; cbn; lia|]. destruct (dec a q) as [[y q']|] eqn:E; [|done]. apply IH in E. intros [= _ <-]. cbn. lia.
  - destruct (dec_compact b) as [[n q]|] eqn:E; [|done]. apply dec_compact_length in E. destruct (n <=? m); [|done]. intros H.
    assert (length r <= length q)%nat; [|lia]. clear E. revert q x r H. induction (N.to_nat n) as [|k IHk]; intros q x r; cbn; [intros [= _ <-]; lia|].
    destruct (dec a q) as [[y q']|] eqn:E; [|done]. apply IH in E. destruct (dec_many (dec a) k q') as [[l q'']|] eqn:E2; [|done]. apply IHk in E2. intros [= _ <-]. lia.
  - destruct (dec a b) as [[y q]|] eqn:E; [|done]. apply IHa in E. destruct (dec c q) as [[z q']|] eqn:E2; [|done]. apply IHc in E2. intros [= _ <-]. lia.
  - destruct b as [|[|[]] q]; try done.
    + destruct (dec a q) as [[y q']|] eqn:E; [|done]. apply IHa in E. intros [= _ <-]. cbn. lia.
    + destruct (dec c q) as [[y q']|] eqn:E; [|done]. apply IHc in E. intros [= _ <-]. cbn. lia.
Qed.
