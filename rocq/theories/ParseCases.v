(** Lemmas for ParseProps: one per parser. *)
From Verif Require Import Base CodecModel CodecProofs ParseModel ParseProofs.

(** What is given to a parser: bytes. *)
Definition octets (data : option (list N)) (topics : list (list N)) : Prop :=
  match data with Some l => bytes l | None => True end /\ Forall bytes topics.
Notation U256 := (2 ^ 256).

(** *** One lemma per parser: what it does with words, and that it refuses everything else *)
Ltac refused := right; eexists; reflexivity.
Ltac try_len t := let L := fresh "L" in destruct (len_is 32 t) eqn:L; cbn [negb orb]; [apply len_is_true in L|refused].
Ltac a_word t := match goal with B : bytes t, L : length t = 32%nat |- _ =>
  let n := fresh "n" in let H := fresh "H" in destruct (word_of t B L) as (n & H & ->); clear B L end.
Ltac topics_of n := match goal with T : Forall bytes ?topics |- _ =>
  match n with
  | 2%nat => destruct topics as [|t0 [|t1 [|? ?]]]; cbn [length Nat.eqb negb index nth_error pbind]; try refused; apply Forall_cons in T as [T0 T]; apply Forall_cons in T as [T1 T]
  | 3%nat => destruct topics as [|t0 [|t1 [|t2 [|? ?]]]]; cbn [length Nat.eqb negb index nth_error pbind]; try refused; apply Forall_cons in T as [T0 T]; apply Forall_cons in T as [T1 T]; apply Forall_cons in T as [T2 T]
  | 4%nat => destruct topics as [|t0 [|t1 [|t2 [|t3 [|? ?]]]]]; cbn [length Nat.eqb negb index nth_error pbind]; try refused; apply Forall_cons in T as [T0 T]; apply Forall_cons in T as [T1 T]; apply Forall_cons in T as [T2 T]; apply Forall_cons in T as [T3 T]
  end end.
Ltac crunch :=
  repeat first
   [ rewrite len_word | rewrite sub_word by lia | rewrite hash_word by done | rewrite u256_word by done
   | rewrite (any_positive_high 16 16) by done | rewrite (any_positive_high 24 8) by done
   | rewrite (word_low 12 20) by done | rewrite (word_low 16 16) by done | rewrite (word_low 24 8) by done | rewrite (word_low 28 4) by done
   | rewrite hash_low | rewrite int_low | rewrite intx_low | progress cbn [negb orb pbind] ].
Ltac overflow n p := destruct (n <? p) eqn:?X; cbn [negb pbind].

Lemma lifted_cases data topics : octets data topics ->
  (exists s token t2 amount, token < U256 /\ t2 < U256 /\ amount < 2 ^ 128 /\ topics = [s; word token; word t2] /\ data = Some (word amount) /\
     parse_lifted data topics = Parsed (mkLiftedData (token mod 2 ^ 160) 0 t2 amount)) \/ exists e, parse_lifted data topics = Refused e.
Proof.
  intros [B T]. unfold parse_lifted. destruct data as [data|]; [|refused]. try_len data. a_word data. topics_of 3%nat. try_len t1. try_len t2. a_word t1. a_word t2. crunch.
  rewrite pow128. overflow n (2 ^ 128); [|refused]. apply N.ltb_lt in X. left. exists t0, n0, n1, n. crunch. rewrite pow160, (N.mod_small n) by done. done.
Qed.
Lemma erc20_cases data topics : octets data topics ->
  (exists s sender bridge amount, sender < U256 /\ bridge < U256 /\ amount < 2 ^ 128 /\ topics = [s; word sender; word bridge] /\ data = Some (word amount) /\
     parse_erc20 data topics = Parsed (mkLiftedData 0 (sender mod 2 ^ 160) (bridge mod 2 ^ 160) amount)) \/ exists e, parse_erc20 data topics = Refused e.
Proof.
  intros [B T]. unfold parse_erc20. destruct data as [data|]; [|refused]. try_len data. a_word data. topics_of 3%nat. try_len t2. try_len t1. a_word t1. a_word t2. crunch.
  rewrite pow128. overflow n (2 ^ 128); [|refused]. apply N.ltb_lt in X. left. exists t0, n0, n1, n. crunch. rewrite pow160, (N.mod_small n) by done. done.
Qed.
Lemma validator_cases data topics : octets data topics ->
  (exists s k1 k2 t2 id, k1 < U256 /\ k2 < U256 /\ t2 < U256 /\ id < U256 /\ topics = [s; word k1; word k2; word t2] /\ data = Some (word id) /\
     parse_added_validator data topics = Parsed (mkValidatorData (k1 * 2 ^ 256 + k2) t2 id)) \/ exists e, parse_added_validator data topics = Refused e.
Proof.
  intros [B T]. unfold parse_added_validator. destruct data as [data|]; [|refused]. try_len data. a_word data. topics_of 4%nat. try_len t1. try_len t2. try_len t3. a_word t1. a_word t2. a_word t3.
  left. exists t0, n0, n1, n2, n. crunch. assert (E : hash_from 64 (word n0 ++ word n1) = Parsed (n0 * 2 ^ 256 + n1)).
  { pose proof (be_bytes_app 32 32 (n0 * 2 ^ 256 + n1)) as E. change (256 ^ N.of_nat 32) with (2 ^ 256) in E. rewrite N.div_add_l, (N.div_small n1), N.add_0_r in E by lia.
    assert (E2 : be_bytes 32 (n0 * 2 ^ 256 + n1) = word n1).
    { unfold word. rewrite <- (be_value_bytes (be_bytes 32 (n0 * 2 ^ 256 + n1))) at 1 by apply be_bytes_bytes. rewrite be_bytes_length, be_value_mod. f_equal. change (256 ^ N.of_nat 32) with (2 ^ 256). rewrite N.add_comm, N.mod_add by lia. by apply N.mod_small. }
    rewrite E2 in E. fold (word n0) in E. rewrite <- E. rewrite hash_low. f_equal. apply N.mod_small. change (256 ^ N.of_nat 64) with (2 ^ 256 * 2 ^ 256). nia. }
  rewrite E. crunch. repeat split; try done.
Qed.
Lemma mint_cases data topics : octets data topics ->
  (exists s batch sale owner l, batch < U256 /\ sale < U256 /\ owner < U256 /\ length l = 128%nat /\ bytes l /\ topics = [s; word batch; word sale; word owner] /\ data = Some l /\
     parse_mint data topics = Parsed (mkMintData batch owner (sale mod 2 ^ 64) (slice 64 100 l))) \/ exists e, parse_mint data topics = Refused e.
Proof.
  intros [B T]. unfold parse_mint. destruct data as [data|]; [|refused]. destruct (len_is 128 data) eqn:L; cbn [negb]; [apply len_is_true in L|refused]. topics_of 4%nat. try_len t1. try_len t3. try_len t2. a_word t1. a_word t2. a_word t3.
  left. exists t0, n, n0, n1, data. crunch. unfold sub. rewrite L. cbn [Nat.leb pbind]. rewrite slice_len by (rewrite L; lia). replace (negb (Nat.leb (100 - 64) 1024)) with false by done. rewrite pow64. repeat split; try done.
Qed.
Lemma transfer_cases data topics : octets data topics ->
  (exists s nft to op, nft < U256 /\ to < U256 /\ op < U256 /\ topics = [s; word nft; word to; word op] /\ data = None /\
     parse_transfer data topics = Parsed (nft, to, op mod 2 ^ 64)) \/ exists e, parse_transfer data topics = Refused e.
Proof.
  intros [B T]. unfold parse_transfer. destruct data as [data|]; [refused|]. topics_of 4%nat. try_len t1. try_len t2. try_len t3. a_word t1. a_word t2. a_word t3.
  left. exists t0, n, n0, n1. crunch. by rewrite pow64.
Qed.
Lemma end_batch_cases data topics : octets data topics ->
  (exists s batch, batch < U256 /\ topics = [s; word batch] /\ data = None /\ parse_end_batch data topics = Parsed batch) \/ exists e, parse_end_batch data topics = Refused e.
Proof.
  intros [B T]. unfold parse_end_batch. destruct data as [data|]; [refused|]. topics_of 2%nat. try_len t1. a_word t1. left. exists t0, n. by crunch.
Qed.
Lemma growth_cases data topics : octets data topics ->
  (exists s amount period, amount < 2 ^ 128 /\ period < U256 /\ topics = [s; word amount; word period] /\ data = None /\
     parse_growth data topics = Parsed (amount, period mod 2 ^ 32)) \/ exists e, parse_growth data topics = Refused e.
Proof.
  intros [B T]. unfold parse_growth. destruct data as [data|]; [refused|]. topics_of 3%nat. try_len t1. try_len t2. a_word t1. a_word t2. crunch. rewrite pow128. overflow n (2 ^ 128); [|refused]. apply N.ltb_lt in X.
  left. exists t0, n, n0. crunch. by rewrite pow32, (N.mod_small n).
Qed.
Lemma claimed_cases data topics : octets data topics ->
  (exists s id, id < U256 /\ topics = [s; word id] /\ data = None /\ parse_claimed data topics = Parsed (id mod 2 ^ 32)) \/ exists e, parse_claimed data topics = Refused e.
Proof.
  intros [B T]. unfold parse_claimed. destruct data as [data|]; [refused|]. topics_of 2%nat. try_len t1. a_word t1. left. exists t0, n. crunch. by rewrite pow32.
Qed.
Lemma reverted_cases data topics : octets data topics ->
  (exists s token t2 to amount id, token < U256 /\ t2 < U256 /\ to < U256 /\ amount < 2 ^ 128 /\ id < U256 /\ topics = [s; word token; word t2; word to] /\ data = Some (word amount ++ word id) /\
     parse_reverted data topics = Parsed (mkRevertedData (token mod 2 ^ 160) t2 (to mod 2 ^ 160) amount (id mod 2 ^ 32))) \/ exists e, parse_reverted data topics = Refused e.
Proof.
  intros [B T]. unfold parse_reverted. destruct data as [data|]; [|refused]. destruct (len_is 64 data) eqn:L; cbn [negb]; [apply len_is_true in L|refused]. destruct (two_words data B L) as (n & m & Hn & Hm & ->). topics_of 4%nat. try_len t1. try_len t2. try_len t3. a_word t1. a_word t2. a_word t3.
  assert (S1 : sub (word n ++ word m) 0 32 = Parsed (word n)).
  { unfold sub. rewrite L. cbn [Nat.leb]. done. }
  assert (S2 : sub (word n ++ word m) 32 64 = Parsed (word m)).
  { unfold sub. rewrite L. cbn [Nat.leb]. done. }
  rewrite S1, S2. crunch. rewrite pow128. overflow n (2 ^ 128); [|refused]. apply N.ltb_lt in X. left. exists t0, n0, n1, n2, n, m. crunch.
  rewrite pow160, pow32, (N.mod_small n) by done. done.
Qed.
Lemma no_positive l : any_positive l = false -> Forall (eq 0) l.
Proof.
  induction l as [|b l IH]; cbn; intros H; [done|]. apply orb_false_iff in H as [H1 H2]. constructor; [apply N.ltb_ge in H1; lia|by apply IH].
Qed.
(** The odd one: the second topic may have any length from 32 bytes on, and shorter ones make the parser panic. *)
Lemma cancel_cases data topics : octets data topics ->
  (exists s nft t op, nft < U256 /\ op < 2 ^ 64 /\ topics = [s; word nft; t] /\ (32 <= length t)%nat /\ take 32 t = word op /\ data = None /\
     parse_cancel data topics = Parsed (nft, op)) \/ (exists e, parse_cancel data topics = Refused e) \/
  (exists s nft t, nft < U256 /\ topics = [s; word nft; t] /\ (length t < 32)%nat /\ ((length t < 24)%nat \/ Forall (eq 0) (take 24 t)) /\ data = None /\ parse_cancel data topics = Panics).
Proof.
  intros [B T]. unfold parse_cancel. destruct data as [data|]; [right; left; eexists; reflexivity|]. destruct topics as [|t0 [|t1 [|t2 [|? ?]]]]; cbn [length Nat.eqb negb index nth_error pbind]; try (right; left; eexists; reflexivity). apply Forall_cons in T as [T0 T]. apply Forall_cons in T as [T1 T]. apply Forall_cons in T as [T2 T].
  destruct (len_is 32 t1) eqn:L1; cbn [negb]; [apply len_is_true in L1|right; left; eexists; reflexivity]. a_word t1. unfold sub.
  assert (S0 : slice 0 24 t2 = take 24 t2) by (unfold slice; by rewrite drop_0).
  destruct (Nat.leb 24 (length t2)) eqn:L24; cbn [pbind].
  - destruct (any_positive (slice 0 24 t2)) eqn:P; [right; left; eexists; reflexivity|]. crunch. destruct (Nat.leb 32 (length t2)) eqn:L32; cbn [pbind].
    + left. apply Nat.leb_le in L32. destruct (word_of (take 32 t2)) as (n0 & Hn0 & E); [by apply Forall_take|rewrite take_length; lia|].
      assert (Hs : slice 24 32 t2 = slice 24 32 (word n0)). { rewrite <- E. unfold slice. rewrite <- (take_drop 32 t2) at 1. rewrite drop_app_le by (rewrite take_length; lia). by rewrite take_app_le by (rewrite drop_length, take_length; lia). }
      assert (Hh : slice 0 24 t2 = slice 0 24 (word n0)). { rewrite <- E. unfold slice. rewrite !drop_0. by rewrite take_take. }
      rewrite Hh, (any_positive_high 24 8), pow64 in P by done. apply negb_false_iff, N.ltb_lt in P.
      exists t0, n, t2, n0. rewrite Hs. crunch. rewrite pow64, N.mod_small by done. done.
    + right. right. apply Nat.leb_gt in L32. exists t0, n, t2. repeat split; try done. right. rewrite <- S0. by apply no_positive.
  - right. right. apply Nat.leb_gt in L24. exists t0, n, t2. repeat split; try done; [lia|by left].
Qed.
