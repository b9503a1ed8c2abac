(** Lemmas about the migrations. *)
From Verif Require Import Base CodecModel CodecProofs ScaleModel ScaleProofs MigrationModel MigrationSpec.

Lemma expand_eq p : length p = 76%nat -> expand p = p ++ repeat 0 40.
Proof.
  intros H. unfold expand. change (repeat 0 116) with ([] ++ repeat 0 76 ++ repeat 0 40). rewrite put_exact; [done|done|by rewrite repeat_length].
Qed.
Lemma resize_eq p : length p = 76%nat -> resize p = p ++ repeat 0 40.
Proof.
  intros H. unfold resize. fold (expand p). rewrite expand_eq by done. rewrite <-(app_nil_r (repeat 0 40)) at 2. rewrite put_exact; [by rewrite app_nil_r|done|done].
Qed.
Lemma params_valid p : length p = 76%nat -> Forall byte p -> valid (TBytes 116) (p ++ repeat 0 40).
Proof.
  intros H HF. split; [rewrite app_length, H; done|]. apply Forall_app. split; [done|]. by repeat constructor.
Qed.

Lemma stored_read t o raw : stored t o raw -> read t raw = o.
Proof. destruct o as [x|]; cbn; [|by intros ->]. intros (b & -> & H). by apply read_holds. Qed.
Lemma translate_stored t u f o raw : stored t o raw -> (forall x, o = Some x -> valid t x -> valid u (f x)) ->
  stored u (f <$> o) (translate_value t u f raw).
Proof.
  destruct o as [x|]; cbn; [|by intros ->]. intros (b & -> & Hv & ->) Hf. cbn. rewrite <-(app_nil_r (enc t x)), dec_enc by done.
  eexists. split; [done|]. split; [by apply Hf|done].
Qed.

Lemma request_v5_ok r : valid (request_t 76) r -> valid (request_t 116) (request_v5 r) /\ same_request r (request_v5 r).
Proof.
  destruct r as [(id & fn & ps & caller)|(id & p & caller)]; [by cbn|]. intros (Hid & Hp & Hc).
  assert (E : resize p = p ++ repeat 0 40) by (apply resize_eq, Hp). split.
  - split; [done|]. split; [|done]. cbn [request_v5 fst snd]. rewrite E. by apply params_valid; apply Hp.
  - by split.
Qed.
Lemma fold_push m q acc : N.of_nat (length acc + length q) <= m ->
  fold_left (fun acc r => try_push m acc (request_v5 r)) q acc = acc ++ map request_v5 q.
Proof.
  revert acc. induction q as [|r q IH]; intros acc H; cbn in *; [by rewrite app_nil_r|].
  unfold try_push at 2. rewrite (proj2 (N.ltb_lt _ _)) by lia. rewrite IH by (rewrite app_length; cbn; lia). by rewrite <-app_assoc.
Qed.
Lemma queue_v5_eq m q : valid (queue_t m 76) q -> queue_v5 m q = map request_v5 q.
Proof. intros (Hl & _ & _). unfold queue_v5. rewrite fold_push; [done|]. cbn in *. lia. Qed.
Lemma queue_v5_ok m q : valid (queue_t m 76) q -> valid (queue_t m 116) (queue_v5 m q) /\ Forall2 same_request q (queue_v5 m q).
Proof.
  intros H. rewrite queue_v5_eq by done. destruct H as (Hl & Hm & HF). split.
  - split; [by rewrite map_length|]. split; [done|]. apply Forall_map. eapply Forall_impl; [exact HF|]. intros r Hr. by apply request_v5_ok.
  - clear Hl. induction HF as [|r q Hr HF IH]; [constructor|]. constructor; [by apply request_v5_ok|done].
Qed.
Lemma active_v5_ok a : valid (active_t 76 tx_t) a -> valid (active_t 116 tx_t) (active_v5 a) /\ same_active a (active_v5 a).
Proof.
  destruct a as (req & conf & tx & upd). intros (Hr & Hc & Ht & Hu). destruct (request_v5_ok req Hr). split; [split; [done|split; [done|split; done]]|split; done].
Qed.
Lemma tx_v4_ok x : valid tx3_t x -> valid tx_t (tx_v4 x) /\ same_tx x (tx_v4 x).
Proof.
  destruct x as (fn & ps & sender & expiry & hash & c1 & c2 & c3 & c4 & ok). intros (H1 & H2 & H3 & H4 & H5 & H6 & H7 & H8 & H9 & H10).
  split; [|by do 10 eexists]. repeat (split; [assumption|]). done.
Qed.

(** The value of an active request to send, for the step to version 4. *)
Lemma active_v4_send d conf tx upd :
  enc (active_t 76 tx3_t) (inl d, (conf, (tx, upd))) = enc (active_t 116 tx3_t) (inl d, (conf, (tx, upd))).
Proof. done. Qed.
Lemma active_v4_none r conf upd :
  enc (active_t 76 tx3_t) (r, (conf, (None, upd))) = enc (active_t 76 tx_t) (r, (conf, (None, upd))).
Proof. done. Qed.
Lemma active_v4_back d conf tx upd :
  enc (active_t 116 tx_t) (inl d, (conf, (tx, upd))) = enc (active_t 76 tx_t) (inl d, (conf, (tx, upd))).
Proof. done. Qed.

Lemma enc_u8s_length m l : (length l < 64)%nat -> length (enc (TU8s m) l) = (1 + length l)%nat.
Proof.
  intros H. change (length (compact (N.of_nat (length l)) ++ concat (map (le_bytes 1) l)) = (1 + length l)%nat). rewrite app_length. f_equal.
  - unfold compact. by rewrite (proj2 (N.ltb_lt _ _)) by (change (2 ^ 6) with 64; lia).
  - clear H. induction l as [|y l IH]; [done|]. cbn [map concat]. rewrite app_length, IH. done.
Qed.
(** A proof request without confirmations is too short to be misread. *)
Lemma short_lower id p caller hash upd : valid (active_t 76 tx3_t) (inr (id, (p, caller)), ((hash, []), (None, upd))) ->
  (length caller < 40)%nat -> dec (active_t 116 tx3_t) (enc (active_t 76 tx3_t) (inr (id, (p, caller)), ((hash, []), (None, upd)))) = None.
Proof.
  intros ((Hid & Hp & Hc) & (Hh & _) & _ & Hu) Hlt.
  destruct (dec (active_t 116 tx3_t) _) as [[x r]|] eqn:E; [exfalso|done].
  assert (L : length (enc (active_t 76 tx3_t) (inr (id, (p, caller)), ((hash, []), (None, upd)))) = (120 + length caller)%nat).
  { destruct Hp as [Hp _], Hh as [Hh _]. cbn [fst snd] in *.
    change (length (1 :: (le_bytes 4 id ++ p ++ enc (TU8s 50) caller) ++ (hash ++ [0]) ++ [0] ++ le_bytes 4 upd) = (120 + length caller)%nat).
    cbn [length]. rewrite !app_length, enc_u8s_length, !le_bytes_length, Hp, Hh by lia. cbn. lia. }
  remember (enc (active_t 76 tx3_t) (inr (id, (p, caller)), ((hash, []), (None, upd)))) as b eqn:Eb.
  assert (exists b', b = 1 :: b') as [b' ->] by (rewrite Eb; by eexists). clear Eb. unfold active_t in E. set (U := TPair conf_t (TPair (TOpt tx3_t) (TInt 4))) in E.
  change (match match dec (lower_t 116) b' with Some (y, r) => Some (inr y : den (request_t 116), r) | None => None end with
          | Some (x, r) => match dec U r with Some (y, r) => Some ((x, y), r) | None => None end | None => None end = Some (x, r)) in E.
  destruct (dec (lower_t 116) b') as [[y q]|] eqn:E1; [|done]. apply dec_length in E1.
  destruct (dec U q) as [[z q']|] eqn:E2; [|done]. apply dec_length in E2.
  change (min_len (lower_t 116)) with 121%nat in E1. change (min_len U) with 38%nat in E2. cbn in L. lia.
Qed.
