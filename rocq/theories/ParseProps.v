(** C63: the decoding of Ethereum logs.

    The specification is the Solidity side: [solidity] lists the events the bridge contract emits, with their arguments;
    [topics_of] and [data_of] are the log the Ethereum virtual machine writes for each (one 32-byte word per argument, the
    indexed ones as topics after the signature, the others in the data; a string as offset, length and padded bytes), and
    [meaning] what this chain should understand.  [in_range] says that the arguments have their Solidity types
    (uint256, bytes32, address, uint128, uint64, uint32). *)
From Verif Require Import Base CodecModel CodecProofs ParseModel ParseProofs ParseCases.

Inductive solidity :=
| SolAddedValidator (key_left key_right t2 id : N)
| SolLifted (token t2 amount : N)
| SolMinted (batch sale owner : N) (reference : list N)
| SolTransferTo (nft t2 op : N)
| SolCancelListing (nft op : N)
| SolEndBatch (batch : N)
| SolGrowth (amount period : N)
| SolLowerClaimed (id : N)
| SolLiftedToPredictionMarket (token t2 amount : N)
| SolErc20Transfer (from to amount : N)
| SolLowerReverted (token t2 recipient amount id : N).

Definition kind_for (e : solidity) : kind :=
  match e with
  | SolAddedValidator _ _ _ _ => AddedValidator | SolLifted _ _ _ => Lifted | SolMinted _ _ _ _ => NftMint
  | SolTransferTo _ _ _ => NftTransferTo | SolCancelListing _ _ => NftCancelListing | SolEndBatch _ => NftEndBatchListing
  | SolGrowth _ _ => AvtGrowthLifted | SolLowerClaimed _ => AvtLowerClaimed
  | SolLiftedToPredictionMarket _ _ _ => LiftedToPredictionMarket | SolErc20Transfer _ _ _ => Erc20DirectTransfer
  | SolLowerReverted _ _ _ _ _ => LowerReverted
  end.
(** A string argument: the offset of its place, its length, its bytes and zeros up to a multiple of 32. *)
Definition padding (l : list N) : list N := repeat 0 ((32 - length l mod 32) mod 32)%nat.
Definition abi_string (l : list N) : list N := word 32 ++ word (N.of_nat (length l)) ++ l ++ padding l.
Definition topics_of (e : solidity) : list (list N) :=
  word (signature (kind_for e)) ::
  match e with
  | SolAddedValidator k1 k2 t2 _ => [word k1; word k2; word t2]
  | SolLifted token t2 _ => [word token; word t2]
  | SolMinted batch sale owner _ => [word batch; word sale; word owner]
  | SolTransferTo nft t2 op => [word nft; word t2; word op]
  | SolCancelListing nft op => [word nft; word op]
  | SolEndBatch batch => [word batch]
  | SolGrowth amount period => [word amount; word period]
  | SolLowerClaimed id => [word id]
  | SolLiftedToPredictionMarket token t2 _ => [word token; word t2]
  | SolErc20Transfer from to _ => [word from; word to]
  | SolLowerReverted token t2 recipient _ _ => [word token; word t2; word recipient]
  end.
Definition data_of (e : solidity) : option (list N) :=
  match e with
  | SolAddedValidator _ _ _ id => Some (word id)
  | SolLifted _ _ amount | SolLiftedToPredictionMarket _ _ amount | SolErc20Transfer _ _ amount => Some (word amount)
  | SolMinted _ _ _ reference => Some (abi_string reference)
  | SolLowerReverted _ _ _ amount id => Some (word amount ++ word id)
  | SolTransferTo _ _ _ | SolCancelListing _ _ | SolEndBatch _ | SolGrowth _ _ | SolLowerClaimed _ => None
  end.
Definition in_range (e : solidity) : Prop :=
  match e with
  | SolAddedValidator k1 k2 t2 id => k1 < U256 /\ k2 < U256 /\ t2 < U256 /\ id < U256
  | SolLifted token t2 amount | SolLiftedToPredictionMarket token t2 amount => token < 2 ^ 160 /\ t2 < U256 /\ amount < U256
  | SolMinted batch sale owner reference => batch < U256 /\ sale < 2 ^ 64 /\ owner < U256 /\ bytes reference /\ N.of_nat (length reference) < U256
  | SolTransferTo nft t2 op => nft < U256 /\ t2 < U256 /\ op < 2 ^ 64
  | SolCancelListing nft op => nft < U256 /\ op < 2 ^ 64
  | SolEndBatch batch => batch < U256
  | SolGrowth amount period => amount < U256 /\ period < 2 ^ 32
  | SolLowerClaimed id => id < 2 ^ 32
  | SolErc20Transfer from to amount => from < 2 ^ 160 /\ to < 2 ^ 160 /\ amount < U256
  | SolLowerReverted token t2 recipient amount id => token < 2 ^ 160 /\ t2 < U256 /\ recipient < 2 ^ 160 /\ amount < U256 /\ id < 2 ^ 32
  end.
(** Amounts are balances of this chain, which have 128 bits. *)
Definition amount_of (e : solidity) : N :=
  match e with
  | SolLifted _ _ a | SolLiftedToPredictionMarket _ _ a | SolErc20Transfer _ _ a | SolGrowth a _ | SolLowerReverted _ _ _ a _ => a
  | _ => 0
  end.
Definition meaning (e : solidity) : event_data :=
  match e with
  | SolAddedValidator k1 k2 t2 id => LogAddedValidator (mkValidatorData (k1 * 2 ^ 256 + k2) t2 id)
  | SolLifted token t2 amount => LogLifted (mkLiftedData token 0 t2 amount)
  | SolMinted batch sale owner reference => LogNftMinted (mkMintData batch owner sale reference)
  | SolTransferTo nft t2 op => LogNftTransferTo nft t2 op
  | SolCancelListing nft op => LogNftCancelListing nft op
  | SolEndBatch batch => LogNftEndBatchListing batch
  | SolGrowth amount period => LogAvtGrowthLifted amount period
  | SolLowerClaimed id => LogLowerClaimed id
  | SolLiftedToPredictionMarket token t2 amount => LogLiftedToPredictionMarket (mkLiftedData token 0 t2 amount)
  | SolErc20Transfer from to amount => LogErc20Transfer (mkLiftedData 0 from to amount)
  | SolLowerReverted token t2 recipient amount id => LogLowerReverted (mkRevertedData token t2 recipient amount id)
  end.
(** The references the decoder can represent: those of 36 bytes. *)
Definition reference_fits (e : solidity) : Prop := match e with SolMinted _ _ _ r => length r = 36%nat | _ => True end.

Lemma word_bytes n : bytes (word n).
Proof. apply be_bytes_bytes. Qed.
Lemma word_inj n m : n < U256 -> m < U256 -> word n = word m -> n = m.
Proof. intros Hn Hm E. by rewrite <- (word_value n Hn), <- (word_value m Hm), E. Qed.
Lemma words_inj n m n2 m2 : n < U256 -> m < U256 -> n2 < U256 -> m2 < U256 -> word n ++ word m = word n2 ++ word m2 -> n = n2 /\ m = m2.
Proof. intros ???? E. apply app_inj_1 in E as [E1 E2]; [|by rewrite !word_length]. split; by apply word_inj. Qed.
Lemma repeat_bytes n : bytes (repeat 0 n).
Proof. induction n; constructor; [lia|done]. Qed.
Lemma sol_octets e : in_range e -> octets (data_of e) (topics_of e).
Proof.
  intros R. split.
  - destruct e; cbn [data_of]; lazymatch goal with |- True => exact I | |- bytes (word _) => apply word_bytes | _ => idtac end.
    + unfold abi_string. apply Forall_app; split; [apply word_bytes|]. apply Forall_app; split; [apply word_bytes|]. apply Forall_app; split; [apply R|apply repeat_bytes].
    + apply Forall_app; split; apply word_bytes.
  - destruct e; cbn [topics_of]; repeat (apply Forall_cons; split; [apply word_bytes|]); apply Forall_nil; exact I.
Qed.
Ltac start := unfold topics_of; cbn [parse_event kind_for data_of meaning amount_of];
  cbn [length Nat.eqb negb index nth_error pbind]; repeat (rewrite len_word; cbn [length Nat.eqb negb orb index nth_error pbind]); unfold pmap.
Lemma hash_two n0 n1 : n0 < U256 -> n1 < U256 -> hash_from 64 (word n0 ++ word n1) = Parsed (n0 * 2 ^ 256 + n1).
Proof.
  intros H0 H1. pose proof (be_bytes_app 32 32 (n0 * 2 ^ 256 + n1)) as E. change (256 ^ N.of_nat 32) with (2 ^ 256) in E. rewrite N.div_add_l, (N.div_small n1), N.add_0_r in E by lia.
  assert (E2 : be_bytes 32 (n0 * 2 ^ 256 + n1) = word n1).
  { unfold word. rewrite <- (be_value_bytes (be_bytes 32 (n0 * 2 ^ 256 + n1))) at 1 by apply be_bytes_bytes. rewrite be_bytes_length, be_value_mod. f_equal. change (256 ^ N.of_nat 32) with (2 ^ 256). rewrite N.add_comm, N.mod_add by lia. by apply N.mod_small. }
  rewrite E2 in E. fold (word n0) in E. rewrite <- E. rewrite hash_low. f_equal. apply N.mod_small. change (256 ^ N.of_nat 64) with (2 ^ 256 * 2 ^ 256). nia.
Qed.
Lemma sub_two_l n m : sub (word n ++ word m) 0 32 = Parsed (word n).
Proof. unfold sub. rewrite app_length, !word_length. cbn [Nat.leb Nat.add]. done. Qed.
Lemma sub_two_r n m : sub (word n ++ word m) 32 64 = Parsed (word m).
Proof. unfold sub. rewrite app_length, !word_length. cbn [Nat.leb Nat.add]. done. Qed.
Lemma len_two n m : len_is 64 (word n ++ word m) = true.
Proof. unfold len_is. by rewrite app_length, !word_length. Qed.
Ltac small := rewrite ?pow160, ?pow128, ?pow64, ?pow32; rewrite ?N.mod_small by (assumption || lia).
Lemma lt_u160 n : n < 2 ^ 160 -> n < U256. Proof. intros H. apply N.lt_trans with (2 ^ 160); [done|]. by apply N.pow_lt_mono_r. Qed.
Lemma lt_u128 n : n < 2 ^ 128 -> n < U256. Proof. intros H. apply N.lt_trans with (2 ^ 128); [done|]. by apply N.pow_lt_mono_r. Qed.
Lemma lt_u64 n : n < 2 ^ 64 -> n < U256. Proof. intros H. apply N.lt_trans with (2 ^ 64); [done|]. by apply N.pow_lt_mono_r. Qed.
Lemma lt_u32 n : n < 2 ^ 32 -> n < U256. Proof. intros H. apply N.lt_trans with (2 ^ 32); [done|]. by apply N.pow_lt_mono_r. Qed.
Ltac widen := repeat match goal with
  | H : ?n < 2 ^ 160 |- _ => lazymatch goal with _ : n < U256 |- _ => fail | _ => pose proof (lt_u160 n H) end
  | H : ?n < 2 ^ 64 |- _ => lazymatch goal with _ : n < U256 |- _ => fail | _ => pose proof (lt_u64 n H) end
  | H : ?n < 2 ^ 32 |- _ => lazymatch goal with _ : n < U256 |- _ => fail | _ => pose proof (lt_u32 n H) end
  end.
(** The 36 bytes the decoder takes of a reference. *)
Lemma abi_36 r : length r = 36%nat -> len_is 128 (abi_string r) = true /\ sub (abi_string r) 64 100 = Parsed r.
Proof.
  intros L. assert (Len : length (abi_string r) = 128%nat).
  { unfold abi_string, padding. rewrite !app_length, !word_length, repeat_length, L. done. }
  split; [unfold len_is; by rewrite Len|]. unfold sub. rewrite Len. cbn [Nat.leb]. f_equal. unfold abi_string. rewrite app_assoc. unfold slice.
  rewrite drop_app_alt by (by rewrite app_length, !word_length). cbn [Nat.sub]. by rewrite take_app_alt.
Qed.

(** ** The theorems *)

(** Every event of the bridge is decoded to exactly its arguments, when its amount fits in a balance. *)
Theorem C63_events_decoded_exactly e : in_range e -> amount_of e < 2 ^ 128 -> reference_fits e ->
  parse_event (kind_for e) (data_of e) (topics_of e) = Parsed (meaning e).
Proof.
  intros R A F. destruct e; cbn [in_range amount_of reference_fits] in *; destruct_and?; widen; start.
  - unfold parse_added_validator. start. rewrite hash_two by done. by crunch.
  - unfold parse_lifted. start. crunch. rewrite pow128, (proj2 (N.ltb_lt amount _)) by done. crunch. by small.
  - unfold parse_mint. start. destruct (abi_36 reference F) as [L S]. rewrite L, S. start. crunch. rewrite F. cbn. by small.
  - unfold parse_transfer. start. crunch. by small.
  - unfold parse_cancel. start. crunch. rewrite pow64, (proj2 (N.ltb_lt op _)) by done. crunch. by small.
  - unfold parse_end_batch. start. by crunch.
  - unfold parse_growth. start. crunch. rewrite pow128, (proj2 (N.ltb_lt amount _)) by done. crunch. by small.
  - unfold parse_claimed. start. crunch. by small.
  - unfold parse_lifted. start. crunch. rewrite pow128, (proj2 (N.ltb_lt amount _)) by done. crunch. by small.
  - unfold parse_erc20. start. crunch. rewrite pow128, (proj2 (N.ltb_lt amount _)) by done. crunch. by small.
  - unfold parse_reverted. start. rewrite len_two. start. rewrite sub_two_l, sub_two_r. crunch. rewrite pow128, (proj2 (N.ltb_lt amount _)) by done. crunch. by small.
Qed.
(** An amount that does not fit is refused, never cut. *)
Theorem C63_large_amounts_refused e : in_range e -> 2 ^ 128 <= amount_of e ->
  exists why, parse_event (kind_for e) (data_of e) (topics_of e) = Refused why.
Proof.
  intros R A. destruct e; cbn [in_range amount_of] in *; destruct_and?; widen; try (exfalso; revert A; clear; lia); start.
  - eexists. unfold parse_lifted. start. crunch. rewrite pow128, (proj2 (N.ltb_ge amount _)) by done. reflexivity.
  - eexists. unfold parse_growth. start. crunch. rewrite pow128, (proj2 (N.ltb_ge amount _)) by done. reflexivity.
  - eexists. unfold parse_lifted. start. crunch. rewrite pow128, (proj2 (N.ltb_ge amount _)) by done. reflexivity.
  - eexists. unfold parse_erc20. start. crunch. rewrite pow128, (proj2 (N.ltb_ge amount _)) by done. reflexivity.
  - eexists. unfold parse_reverted. start. rewrite len_two. start. rewrite sub_two_l. crunch. rewrite pow128, (proj2 (N.ltb_ge amount _)) by done. reflexivity.
Qed.
(** *** Nothing else is decoded *)

(** Every argument a word, of which the decoder keeps the low bits that its type has. *)
Definition words (e : solidity) : Prop :=
  match e with
  | SolAddedValidator a b c d => a < U256 /\ b < U256 /\ c < U256 /\ d < U256
  | SolLifted a b c | SolLiftedToPredictionMarket a b c | SolErc20Transfer a b c | SolTransferTo a b c => a < U256 /\ b < U256 /\ c < U256
  | SolMinted a b c r => a < U256 /\ b < U256 /\ c < U256 /\ bytes r
  | SolCancelListing a b | SolGrowth a b => a < U256 /\ b < U256
  | SolEndBatch a | SolLowerClaimed a => a < U256
  | SolLowerReverted a b c d f => a < U256 /\ b < U256 /\ c < U256 /\ d < U256 /\ f < U256
  end.
Definition trim (e : solidity) : solidity :=
  match e with
  | SolLifted token t2 a => SolLifted (token mod 2 ^ 160) t2 a
  | SolLiftedToPredictionMarket token t2 a => SolLiftedToPredictionMarket (token mod 2 ^ 160) t2 a
  | SolErc20Transfer from to a => SolErc20Transfer (from mod 2 ^ 160) (to mod 2 ^ 160) a
  | SolTransferTo nft t2 op => SolTransferTo nft t2 (op mod 2 ^ 64)
  | SolGrowth a period => SolGrowth a (period mod 2 ^ 32)
  | SolLowerClaimed id => SolLowerClaimed (id mod 2 ^ 32)
  | SolLowerReverted token t2 to a id => SolLowerReverted (token mod 2 ^ 160) t2 (to mod 2 ^ 160) a (id mod 2 ^ 32)
  | SolMinted batch sale owner r => SolMinted batch (sale mod 2 ^ 64) owner r
  | SolAddedValidator _ _ _ _ | SolCancelListing _ _ | SolEndBatch _ => e
  end.
Theorem C63_trim_of_typed_arguments e : in_range e -> trim e = e.
Proof. destruct e; cbn; intros R; destruct_and?; rewrite ?N.mod_small by done; done. Qed.

Lemma parsed_inj {A} (x y : A) : Parsed x = Parsed y -> x = y. Proof. by intros [= ->]. Qed.
Ltac from_cases L H := let e := fresh "e" in let E := fresh "E" in
  destruct L as [L|[e E]]; [|by rewrite E in H].
Theorem C63_nothing_else_decoded k data topics d : octets data topics -> k <> NftMint -> k <> NftCancelListing ->
  parse_event k data topics = Parsed d ->
  exists s e, kind_for e = k /\ words e /\ amount_of e < 2 ^ 128 /\ topics = s :: tl (topics_of e) /\ data = data_of e /\ d = meaning (trim e).
Proof.
  intros O K1 K2 H. destruct k; try done; clear K1 K2; cbn [parse_event] in H; unfold pmap in H.
  - pose proof (validator_cases data topics O) as C. from_cases C H. destruct C as (s & k1 & k2 & t2 & id & ?&?&?&?& -> & -> & E). rewrite E in H. cbn [pbind] in H. apply parsed_inj in H. subst d. exists s, (SolAddedValidator k1 k2 t2 id). repeat split; try done.
  - pose proof (lifted_cases data topics O) as C. from_cases C H. destruct C as (s & token & t2 & a & ?&?&?& -> & -> & E). rewrite E in H. cbn [pbind] in H. apply parsed_inj in H. subst d. exists s, (SolLifted token t2 a). repeat split; try done. by apply lt_u128.
  - pose proof (transfer_cases data topics O) as C. from_cases C H. destruct C as (s & nft & t2 & op & ?&?&?& -> & -> & E). rewrite E in H. cbn [pbind] in H. apply parsed_inj in H. subst d. exists s, (SolTransferTo nft t2 op). repeat split; try done.
  - pose proof (end_batch_cases data topics O) as C. from_cases C H. destruct C as (s & b & ?& -> & -> & E). rewrite E in H. cbn [pbind] in H. apply parsed_inj in H. subst d. exists s, (SolEndBatch b). repeat split; try done.
  - pose proof (growth_cases data topics O) as C. from_cases C H. destruct C as (s & a & p & ?&?& -> & -> & E). rewrite E in H. cbn [pbind] in H. apply parsed_inj in H. subst d. exists s, (SolGrowth a p). repeat split; try done. by apply lt_u128.
  - pose proof (claimed_cases data topics O) as C. from_cases C H. destruct C as (s & id & ?& -> & -> & E). rewrite E in H. cbn [pbind] in H. apply parsed_inj in H. subst d. exists s, (SolLowerClaimed id). repeat split; try done.
  - pose proof (lifted_cases data topics O) as C. from_cases C H. destruct C as (s & token & t2 & a & ?&?&?& -> & -> & E). rewrite E in H. cbn [pbind] in H. apply parsed_inj in H. subst d. exists s, (SolLiftedToPredictionMarket token t2 a). repeat split; try done. by apply lt_u128.
  - pose proof (erc20_cases data topics O) as C. from_cases C H. destruct C as (s & from & to & a & ?&?&?& -> & -> & E). rewrite E in H. cbn [pbind] in H. apply parsed_inj in H. subst d. exists s, (SolErc20Transfer from to a). repeat split; try done. by apply lt_u128.
  - pose proof (reverted_cases data topics O) as C. from_cases C H. destruct C as (s & token & t2 & to & a & id & ?&?&?&?&?& -> & -> & E). rewrite E in H. cbn [pbind] in H. apply parsed_inj in H. subst d. exists s, (SolLowerReverted token t2 to a id). repeat split; try done. by apply lt_u128.
Qed.
(** A mint: any 128 bytes of data will do, of which the reference is the bytes 64 to 99. *)
Theorem C63_mint_decoded data topics d : octets data topics -> parse_event NftMint data topics = Parsed d ->
  exists s batch sale owner l, batch < U256 /\ sale < U256 /\ owner < U256 /\ length l = 128%nat /\ topics = [s; word batch; word sale; word owner] /\ data = Some l /\
    d = LogNftMinted (mkMintData batch owner (sale mod 2 ^ 64) (slice 64 100 l)).
Proof.
  intros O H. cbn [parse_event] in H. unfold pmap in H. pose proof (mint_cases data topics O) as C. from_cases C H. destruct C as (s & b & sale & o & l & ?&?&?&?&?& -> & -> & E). rewrite E in H. cbn [pbind] in H. apply parsed_inj in H. subst d.
  exists s, b, sale, o, l. repeat split; try done.
Qed.
(** A cancelled listing: of the second topic only the first 32 bytes are looked at. *)
Theorem C63_cancel_decoded data topics d : octets data topics -> parse_event NftCancelListing data topics = Parsed d ->
  exists s nft t op, nft < U256 /\ op < 2 ^ 64 /\ topics = [s; word nft; t] /\ (32 <= length t)%nat /\ take 32 t = word op /\ data = None /\ d = LogNftCancelListing nft op.
Proof.
  intros O H. cbn [parse_event] in H. unfold pmap in H. destruct (cancel_cases data topics O) as [C|[[e E]|(s & nft & t & ?&?&?&?&?& E)]]; [|by rewrite E in H|by rewrite E in H].
  destruct C as (s & nft & t & op & ?&?& -> & ?&?& -> & E). rewrite E in H. cbn [pbind] in H. apply parsed_inj in H. subst d. exists s, nft, t, op. repeat split; done.
Qed.
(** *** Panics *)
Theorem C63_no_panic k data topics : octets data topics -> Forall (fun t => length t = 32%nat) topics -> parse_event k data topics <> Panics.
Proof.
  intros O F H. destruct k; cbn [parse_event] in H; unfold pmap in H.
  - destruct (validator_cases data topics O) as [(? & ? & ? & ? & ? & ? & ? & ? & ? & ? & ? & E)|[e E]]; by rewrite E in H.
  - destruct (lifted_cases data topics O) as [(? & ? & ? & ? & ? & ? & ? & ? & ? & E)|[e E]]; by rewrite E in H.
  - destruct (mint_cases data topics O) as [(? & ? & ? & ? & ? & ? & ? & ? & ? & ? & ? & ? & E)|[e E]]; by rewrite E in H.
  - destruct (transfer_cases data topics O) as [(? & ? & ? & ? & ? & ? & ? & ? & ? & E)|[e E]]; by rewrite E in H.
  - destruct (cancel_cases data topics O) as [(? & ? & ? & ? & ? & ? & ? & ? & ? & ? & E)|[[e E]|(s & nft & t & ? & -> & L & _)]]; [by rewrite E in H|by rewrite E in H|].
    rewrite !Forall_cons in F. destruct F as (_ & _ & Lt & _). lia.
  - destruct (end_batch_cases data topics O) as [(? & ? & ? & ? & ? & E)|[e E]]; by rewrite E in H.
  - destruct (growth_cases data topics O) as [(? & ? & ? & ? & ? & ? & ? & E)|[e E]]; by rewrite E in H.
  - destruct (claimed_cases data topics O) as [(? & ? & ? & ? & ? & E)|[e E]]; by rewrite E in H.
  - destruct (lifted_cases data topics O) as [(? & ? & ? & ? & ? & ? & ? & ? & ? & E)|[e E]]; by rewrite E in H.
  - destruct (erc20_cases data topics O) as [(? & ? & ? & ? & ? & ? & ? & ? & ? & E)|[e E]]; by rewrite E in H.
  - destruct (reverted_cases data topics O) as [(? & ? & ? & ? & ? & ? & ? & ? & ? & ? & ? & ? & ? & E)|[e E]]; by rewrite E in H.
Qed.
(** Without that condition on the topics, only the parser of cancelled listings can panic, and only so: *)
Theorem C63_panic_only_short_cancel k data topics : octets data topics -> parse_event k data topics = Panics ->
  k = NftCancelListing /\ data = None /\ exists s nft t, nft < U256 /\ topics = [s; word nft; t] /\ (length t < 32)%nat.
Proof.
  intros O H. destruct k; cbn [parse_event] in H; unfold pmap in H.
  - destruct (validator_cases data topics O) as [(? & ? & ? & ? & ? & ? & ? & ? & ? & ? & ? & E)|[e E]]; by rewrite E in H.
  - destruct (lifted_cases data topics O) as [(? & ? & ? & ? & ? & ? & ? & ? & ? & E)|[e E]]; by rewrite E in H.
  - destruct (mint_cases data topics O) as [(? & ? & ? & ? & ? & ? & ? & ? & ? & ? & ? & ? & E)|[e E]]; by rewrite E in H.
  - destruct (transfer_cases data topics O) as [(? & ? & ? & ? & ? & ? & ? & ? & ? & E)|[e E]]; by rewrite E in H.
  - destruct (cancel_cases data topics O) as [(? & ? & ? & ? & ? & ? & ? & ? & ? & ? & E)|[[e E]|(s & nft & t & ? & -> & L & _ & -> & _)]]; [by rewrite E in H|by rewrite E in H|].
    repeat split; try done. by exists s, nft, t.
  - destruct (end_batch_cases data topics O) as [(? & ? & ? & ? & ? & E)|[e E]]; by rewrite E in H.
  - destruct (growth_cases data topics O) as [(? & ? & ? & ? & ? & ? & ? & E)|[e E]]; by rewrite E in H.
  - destruct (claimed_cases data topics O) as [(? & ? & ? & ? & ? & E)|[e E]]; by rewrite E in H.
  - destruct (lifted_cases data topics O) as [(? & ? & ? & ? & ? & ? & ? & ? & ? & E)|[e E]]; by rewrite E in H.
  - destruct (erc20_cases data topics O) as [(? & ? & ? & ? & ? & ? & ? & ? & ? & E)|[e E]]; by rewrite E in H.
  - destruct (reverted_cases data topics O) as [(? & ? & ? & ? & ? & ? & ? & ? & ? & ? & ? & ? & ? & E)|[e E]]; by rewrite E in H.
Qed.
Theorem C63_short_topic_panics_refuted :
  ~ forall k data topics, octets data topics -> parse_event k data topics <> Panics.
Proof.
  intros H. apply (H NftCancelListing None [word (signature NftCancelListing); word 7; [0; 0; 0]]); [|done].
  split; [done|]. apply Forall_cons; split; [apply word_bytes|]. apply Forall_cons; split; [apply word_bytes|]. repeat constructor.
Qed.

(** *** References of minted tokens *)
Lemma abi_string_length r : length (abi_string r) = (64 + (length r + (32 - length r mod 32) mod 32))%nat.
Proof. unfold abi_string, padding. rewrite !app_length, !word_length, repeat_length. lia. Qed.
Lemma padded_64 n : (n + (32 - n mod 32) mod 32 = 64)%nat <-> (33 <= n <= 64)%nat.
Proof.
  pose proof (Nat.div_mod n 32 ltac:(lia)) as D. pose proof (Nat.mod_upper_bound n 32 ltac:(lia)) as B.
  destruct (decide (n mod 32 = 0)%nat) as [Z|Z].
  - rewrite Z in *. change ((32 - 0) mod 32)%nat with 0%nat. lia.
  - rewrite (Nat.mod_small (32 - n mod 32)) by lia. split; intros; nia.
Qed.
(** Only references of 33 to 64 bytes are taken, and of these the first 36 bytes, completed by zeros. *)
Theorem C63_mint_reference batch sale owner r : in_range (SolMinted batch sale owner r) ->
  let e := SolMinted batch sale owner r in
  if decide (33 <= length r <= 64)%nat
  then parse_event NftMint (data_of e) (topics_of e) = Parsed (LogNftMinted (mkMintData batch owner sale (take 36 (r ++ repeat 0 36))))
  else exists why, parse_event NftMint (data_of e) (topics_of e) = Refused why.
Proof.
  intros R e. subst e. cbn [in_range] in R. destruct_and?. widen. destruct (decide _) as [D|D].
  - start. unfold parse_mint. start.
    assert (Len : length (abi_string r) = 128%nat). { rewrite abi_string_length. apply padded_64 in D. lia. }
    assert (S : sub (abi_string r) 64 100 = Parsed (take 36 (r ++ repeat 0 36))).
    { unfold sub. rewrite Len. cbn [Nat.leb]. f_equal. unfold abi_string. rewrite app_assoc. unfold slice. rewrite drop_app_alt by (by rewrite app_length, !word_length).
      cbn [Nat.sub]. unfold padding. apply padded_64 in D. set (z := ((32 - length r mod 32) mod 32)%nat) in *. destruct (decide (36 <= length r)%nat).
      - by rewrite !take_app_le by lia.
      - rewrite !take_app_ge by lia. f_equal.
        assert (Z : forall a b, (a <= b)%nat -> take a (repeat 0 b) = repeat 0 a). { intros a b Hab. apply (list_eq_same_length _ _ a); [rewrite repeat_length; done|rewrite take_length, repeat_length; lia|]. intros i x y Hi Hx Hy. apply lookup_take_Some in Hx as [Hx _]. apply elem_of_list_lookup_2, elem_of_list_In, repeat_spec in Hx. apply elem_of_list_lookup_2, elem_of_list_In, repeat_spec in Hy. by subst. }
        rewrite !Z by lia. done. }
    unfold len_is at 1. rewrite Len, S. start. crunch. rewrite take_length, app_length, repeat_length.
    replace (negb _) with false by (symmetry; apply negb_false_iff, Nat.leb_le; lia). small. done.
  - start. unfold parse_mint. eexists. unfold len_is at 1. replace (Nat.eqb _ 128) with false; [reflexivity|]. symmetry. apply Nat.eqb_neq. rewrite abi_string_length. intros X. apply D, padded_64. lia.
Qed.
(** So two different references can be taken for the same. *)
Theorem C63_reference_exact_refuted :
  ~ forall e, in_range e -> amount_of e < 2 ^ 128 ->
      parse_event (kind_for e) (data_of e) (topics_of e) = Parsed (meaning e) \/ exists why, parse_event (kind_for e) (data_of e) (topics_of e) = Refused why.
Proof.
  intros H. assert (R : in_range (SolMinted 1 0 2 (repeat 97 40))).
  { cbn [in_range]. repeat split; try done. repeat constructor. }
  specialize (H _ R ltac:(done)). pose proof (C63_mint_reference _ _ _ _ R) as M. cbv zeta in M. rewrite decide_True in M by (rewrite repeat_length; lia). cbn [kind_for] in H. rewrite M in H.
  destruct H as [H|[? H]]; [|done]. apply parsed_inj in H. apply (f_equal (fun d => match d with LogNftMinted m => length (mi_ref m) | _ => 0%nat end)) in H. vm_compute in H. done.
Qed.

(** *** Signatures *)
Theorem C63_signatures_distinct k1 k2 : signature k1 = signature k2 -> k1 = k2.
Proof. destruct k1, k2; cbn [signature]; intros H; done. Qed.
Theorem C63_kind_of_signature s k : kind_of s = Some k <-> s = signature k.
Proof.
  unfold kind_of. split.
  - intros H. apply List.find_some in H as [_ H]. by apply N.eqb_eq in H.
  - intros ->. by destruct k.
Qed.
Theorem C63_legacy_lifts_unknown s : In s legacy_lift_signatures -> kind_of s = None.
Proof. intros [<-|[<-|[]]]; done. Qed.
(** The pallet that was first to decode logs and the off-chain registry agree, but for direct token transfers. *)
Theorem C63_two_decoders_agree s data topics d : s <> signature Erc20DirectTransfer ->
  parse_by_pallet s data topics = Parsed d <-> parse_by_registry s data topics = Parsed d.
Proof.
  intros NE. unfold parse_by_registry. destruct (kind_of s) as [k|] eqn:K.
  - apply C63_kind_of_signature in K as ->. destruct k; unfold parse_by_pallet; repeat (match goal with |- context [?a =? ?b] => let v := eval vm_compute in (a =? b) in change (a =? b) with v end; cbv iota); try done; destruct (parse_event _ data topics); done.
  - assert (U : forall k, (s =? signature k) = false). { intros k. apply N.eqb_neq. intros E. apply C63_kind_of_signature in E. congruence. }
    unfold parse_by_pallet. rewrite !U. done.
Qed.
Theorem C63_pallet_refuses_transfers data topics : parse_by_pallet (signature Erc20DirectTransfer) data topics = Refused "UnrecognizedEventSignature".
Proof. done. Qed.
(** Claims of lowers are decoded, but never pass for valid. *)
Theorem C63_valid_events d : event_valid d = true <->
  match d with
  | LogAddedValidator v => vd_key v <> 0 /\ vd_t2 v <> 0 /\ vd_id v <> 0
  | LogLifted l | LogLiftedToPredictionMarket l | LogErc20Transfer l => li_token l <> 0 /\ li_receiver l <> 0
  | LogNftMinted m => mi_batch m <> 0 /\ mi_owner m <> 0 /\ mi_ref m <> []
  | LogNftTransferTo _ to _ => to <> 0
  | LogAvtGrowthLifted a _ => a <> 0
  | LogLowerReverted r => re_token r <> 0 /\ re_receiver r <> 0 /\ re_amount r <> 0
  | LogLowerClaimed _ => False
  | EmptyEvent | LogNftCancelListing _ _ | LogNftEndBatchListing _ => True
  end.
Proof.
  assert (Z : forall n, nz n = true <-> n <> 0). { intros n. unfold nz. rewrite negb_true_iff. apply N.eqb_neq. }
  destruct d; cbn [event_valid]; unfold lifted_valid; rewrite ?andb_true_iff, ?Z, ?N.ltb_lt; try tauto; try done; try lia.
  rewrite negb_true_iff, Nat.eqb_neq, length_zero_iff_nil. tauto.
Qed.

(** *** A case that meets the hypotheses *)
Example C63_example : let e := SolLowerReverted 77 5 99 1000000000000000000 12 in
  in_range e /\ amount_of e < 2 ^ 128 /\ reference_fits e /\
  parse_event LowerReverted (data_of e) (topics_of e) = Parsed (LogLowerReverted (mkRevertedData 77 5 99 1000000000000000000 12)).
Proof. cbv zeta. split; [cbn [in_range]; repeat split; done|]. split; [done|]. split; [done|]. apply (C63_events_decoded_exactly (SolLowerReverted 77 5 99 1000000000000000000 12)); cbn [in_range]; repeat split; done. Qed.
