(** More lemmas for AbiProps: orders, and histories of the bridge. *)
From Verif Require Import Base BaseLemmas AvnModel CodecModel CodecProofs MerkleModel BridgeModel BridgeProofs AbiModel AbiSpec AbiProofs.

Lemma dec_short n k : n < 10 ^ N.of_nat k -> (k <= 129)%nat -> negb (len (dec_bytes n) <=? VALUE_LIMIT) = false.
Proof. intros H Hk. apply dec_bytes_length in H. unfold len, VALUE_LIMIT. apply negb_false_iff, N.leb_le. lia. Qed.
Lemma be_short n m : (n <= 130)%nat -> negb (len (be_bytes n m) <=? VALUE_LIMIT) = false.
Proof. intros H. unfold len, VALUE_LIMIT. rewrite be_bytes_length. apply negb_false_iff, N.leb_le. lia. Qed.
Lemma u32_dec n : n < 2 ^ 32 -> n < 10 ^ N.of_nat 10.
Proof. intros H. etransitivity; [exact H|]. by vm_compute. Qed.
Lemma u64_dec n : n < 2 ^ 64 -> n < 10 ^ N.of_nat 20.
Proof. intros H. etransitivity; [exact H|]. by vm_compute. Qed.
Lemma u128_dec n : n < 2 ^ 128 -> n < 10 ^ N.of_nat 39.
Proof. intros H. etransitivity; [exact H|]. by vm_compute. Qed.
Lemma word256 n : n < 2 ^ 256 -> be_value (be_bytes 32 n) = n.
Proof. intros H. apply be_roundtrip. exact H. Qed.
Lemma bytes_short (t1 : list N) : length t1 = 64%nat -> negb (len t1 <=? VALUE_LIMIT) = false.
Proof. intros H. unfold len, VALUE_LIMIT. rewrite H. done. Qed.

(** ** The hash of an order *)
Lemma ids_ok expiry id l r : expiry < 2 ^ 64 -> id < 2 ^ 32 -> rev l = dec_bytes id :: dec_bytes expiry :: r -> id_and_expiry l = Gives (id, expiry).
Proof. intros He Hi E. unfold id_and_expiry. rewrite E, !parse_dec by lia. done. Qed.
Lemma digest_eq K lossy i ty fields m : concat (map (enc_field K) fields) = m ->
  eip712_hash K (domain_of lossy i) (mkStruct (ascii_bytes ty) fields) = digest K (contract_of lossy i) ty m.
Proof.
  intros <-. unfold eip712_hash, signing_data, hash_struct, struct_data, domain_struct, digest, separator, domain_type, contract_of, domain_of, word. change keccak with kec.
  cbn [ss_type ss_fields map concat enc_field do_name do_version do_chain do_contract k_name k_version k_chain k_address]. by rewrite app_nil_r.
Qed.
Lemma order_hash K lossy i o expiry id : order_typed o -> expiry < 2 ^ 64 -> id < 2 ^ 32 ->
  confirmation_hash K (domain_of lossy i) (order_name o) (order_params o ++ [(UINT256, dec_bytes expiry); (UINT32, dec_bytes id)]) =
    Gives (call_digest K (contract_of lossy i) (call_of o expiry id)).
Proof.
  intros T He Hi. unfold confirmation_hash.
  assert (G : forall s, confirmed_struct (order_name o) (order_params o ++ [(UINT256, dec_bytes expiry); (UINT32, dec_bytes id)]) = Gives s ->
    eip712_hash K (domain_of lossy i) s = call_digest K (contract_of lossy i) (call_of o expiry id) ->
    obind (confirmed_struct (order_name o) (order_params o ++ [(UINT256, dec_bytes expiry); (UINT32, dec_bytes id)])) (fun s => Gives (eip712_hash K (domain_of lossy i) s)) =
    Gives (call_digest K (contract_of lossy i) (call_of o expiry id))).
  { intros s -> <-. done. }
  destruct o as [root|rewards avg period|t1 t2|t1 t2]; cbn [order_params app]; cbn [order_typed] in T.
  - apply (G (publish_root root expiry id)).
    + unfold confirmed_struct. change (method_of _) with (Some PublishRoot). cbn [order_params app map snd].
      unfold word_of_slice. rewrite be_bytes_length. cbn [Nat.eqb obind]. rewrite word256 by done. erewrite (ids_ok expiry id) by (done || reflexivity). done.
    + apply digest_eq. cbn [map concat enc_field call_of members]. unfold word. change keccak with kec. by rewrite app_nil_r.
  - destruct T as (T1 & T2 & T3). apply (G (trigger_growth rewards avg period expiry id)).
    + unfold confirmed_struct. change (method_of _) with (Some TriggerGrowth). cbn [order_params app map snd].
      rewrite !parse_dec by lia. cbn [or_refuse obind]. erewrite (ids_ok expiry id) by (done || reflexivity). done.
    + apply digest_eq. cbn [map concat enc_field call_of members]. unfold word. change keccak with kec. by rewrite app_nil_r.
  - destruct T as (T1 & T2 & T3). apply (G (add_author t1 t2 expiry id)).
    + unfold confirmed_struct. change (method_of _) with (Some AddAuthor). cbn [order_params app map snd].
      unfold word_of_slice. rewrite be_bytes_length. cbn [Nat.eqb obind]. rewrite word256 by done. erewrite (ids_ok expiry id) by (done || reflexivity). done.
    + apply digest_eq. cbn [map concat enc_field call_of members]. unfold word. change keccak with kec. by rewrite app_nil_r.
  - destruct T as (T1 & T2 & T3). apply (G (remove_author t2 t1 expiry id)).
    + unfold confirmed_struct. change (method_of _) with (Some RemoveAuthor). cbn [order_params app map snd].
      unfold word_of_slice. rewrite be_bytes_length. cbn [Nat.eqb obind]. rewrite word256 by done. erewrite (ids_ok expiry id) by (done || reflexivity). done.
    + apply digest_eq. cbn [map concat enc_field call_of members]. unfold word. change keccak with kec. by rewrite app_nil_r.
Qed.
Lemma order_bounded o expiry id : order_typed o -> expiry < 2 ^ 64 -> id < 2 ^ 32 ->
  bound_params (order_params o ++ [(UINT256, dec_bytes expiry); (UINT32, dec_bytes id)]) = Ok tt.
Proof.
  intros T He Hi. apply u32_dec in Hi. apply u64_dec in He. pose proof (dec_short _ _ Hi ltac:(lia)) as A1. pose proof (dec_short _ _ He ltac:(lia)) as A2.
  destruct o as [root|rewards avg period|t1 t2|t1 t2]; cbn [order_params app]; cbn [order_typed] in T; unfold bound_params; cbn [bound_each];
    change (negb (len UINT256 <=? TYPE_LIMIT)) with false; change (negb (len UINT32 <=? TYPE_LIMIT)) with false; cbv iota; rewrite ?A1, ?A2.
  - change (negb (len (ascii_bytes "bytes32") <=? TYPE_LIMIT)) with false. by rewrite be_short by lia.
  - destruct T as (T1 & T2 & T3). apply u128_dec in T1, T2. apply u32_dec in T3.
    change (negb (len (ascii_bytes "uint256") <=? TYPE_LIMIT)) with false. change (negb (len (ascii_bytes "uint32") <=? TYPE_LIMIT)) with false.
    by rewrite (dec_short _ _ T1), (dec_short _ _ T2), (dec_short _ _ T3) by lia.
  - destruct T as (T1 & T2 & T3). change (negb (len (ascii_bytes "bytes32") <=? TYPE_LIMIT)) with false. change (negb (len (ascii_bytes "bytes") <=? TYPE_LIMIT)) with false.
    by rewrite be_short, bytes_short by (lia || done).
  - destruct T as (T1 & T2 & T3). change (negb (len (ascii_bytes "bytes32") <=? TYPE_LIMIT)) with false. change (negb (len (ascii_bytes "bytes") <=? TYPE_LIMIT)) with false.
    by rewrite be_short, bytes_short by (lia || done).
Qed.

(** ** The call of an order *)
Lemma to_uint256 n : n < 2 ^ 256 -> to_token (PUint 256) (dec_bytes n) = Gives (TWord (be_bytes 32 n)).
Proof. intros H. cbn [to_token]. by rewrite from_dec. Qed.
Lemma to_uint32 n : n < 2 ^ 256 -> to_token (PUint 32) (dec_bytes n) = Gives (TWord (be_bytes 32 n)).
Proof. intros H. cbn [to_token]. by rewrite from_dec. Qed.
Lemma to_bytes32 n : to_token PBytes32 (be_bytes 32 n) = Gives (TWord (be_bytes 32 n)).
Proof. unfold to_token. rewrite be_bytes_length. done. Qed.
Lemma fits_uint256 n : n < 2 ^ 256 -> fits Uint256 (TWord (be_bytes 32 n)) (Num n).
Proof. intros H. constructor; [apply be_bytes_length|by apply word256]. Qed.
Lemma fits_bytes32 n : n < 2 ^ 256 -> fits Bytes32 (TWord (be_bytes 32 n)) (Num n).
Proof. intros H. constructor; [apply be_bytes_length|by apply word256]. Qed.
Lemma fits_uint32 n : n < 2 ^ 32 -> fits Uint32 (TWord (be_bytes 32 n)) (Num n).
Proof. intros H. constructor; [apply be_bytes_length|apply word256; lia|done]. Qed.
Lemma selector_app K fn ts rest : length (selector K fn ts) = 4%nat /\ take 4 (selector K fn ts ++ rest) = selector K fn ts /\ drop 4 (selector K fn ts ++ rest) = rest.
Proof.
  assert (L : length (selector K fn ts) = 4%nat) by (unfold selector; rewrite take_length, be_bytes_length; lia).
  split; [done|]. split; [by apply take_app_alt|by apply drop_app_alt].
Qed.
Definition sels (K : list N -> N) : list (list N) :=
  [sel K "publishRoot(bytes32,uint256,uint32,bytes)"; sel K "triggerGrowth(uint256,uint256,uint32,uint256,uint32,bytes)";
   sel K "addAuthor(bytes,bytes32,uint256,uint32,bytes)"; sel K "removeAuthor(bytes32,bytes,uint256,uint32,bytes)"].
Lemma sel_eq K fn ts sg : fn ++ ascii_bytes "(" ++ joined (map type_name ts) ++ ascii_bytes ")" = ascii_bytes sg -> selector K fn ts = sel K sg.
Proof. intros E. unfold selector, sel, word. rewrite E. change keccak with kec. done. Qed.
Lemma small_encoding l confs : Forall (fun t => match t with TWord w => length w = 32%nat | _ => True end) (l ++ [TBytes (encode_confirmations confs)]) ->
  len confs <= CONFIRMATIONS_LIMIT -> (list_sum (map size_of l) <= 1000)%nat -> N.of_nat (length (abi_encode (l ++ [TBytes (encode_confirmations confs)]))) < 2 ^ 256.
Proof.
  intros F Hc Hl. pose proof (encode_length _ F) as L. rewrite map_app, list_sum_app in L. cbn [map size_of] in L. rewrite confirmations_length in L.
  assert (S1 : forall x, list_sum [x] = x) by (intros; cbn; lia). rewrite S1 in L. unfold len, CONFIRMATIONS_LIMIT in Hc. lia.
Qed.
Ltac all_fit := repeat (apply Forall3_cons; [first [apply fits_uint256; lia | apply fits_bytes32; lia | apply fits_uint32; lia | apply FitBytes]|]); apply Forall3_nil.
Ltac all_words := repeat (apply Forall_cons; split; [first [exact I | apply be_bytes_length]|]); apply Forall_nil; exact I.
Lemma order_call K utf8 o expiry id confs : order_typed o -> expiry < 2 ^ 64 -> id < 2 ^ 32 -> Forall (fun c => c < 2 ^ 520) confs -> len confs <= CONFIRMATIONS_LIMIT ->
  utf8 (order_name o) = true -> selectors_differ K ->
  exists cd, send_calldata K utf8 (order_name o) (order_params o ++ [(UINT256, dec_bytes expiry); (UINT32, dec_bytes id)]) confs = Gives cd /\
    receive K cd = Some (call_of o expiry id, confs).
Proof.
  intros T He Hi Fc Hc U D. unfold send_calldata, abi_encode_function. rewrite U.
  assert (E256 : to_param_type (ascii_bytes "uint256") = Some (PUint 256)) by done. assert (E256' : to_param_type UINT256 = Some (PUint 256)) by done.
  assert (E32 : to_param_type (ascii_bytes "uint32") = Some (PUint 32)) by done. assert (E32' : to_param_type UINT32 = Some (PUint 32)) by done.
  assert (EB : to_param_type (ascii_bytes "bytes") = Some PBytes) by done. assert (EB32 : to_param_type (ascii_bytes "bytes32") = Some PBytes32) by done.
  assert (He' : expiry < 2 ^ 256) by lia. assert (Hi' : id < 2 ^ 256) by lia.
  unfold selectors_differ in D. rewrite !NoDup_cons, !not_elem_of_cons in D. destruct D as ((N12 & N13 & N14 & _) & (N23 & N24 & _) & (N34 & _) & _).
  destruct o as [root|rewards avg period|t1 t2|t1 t2]; cbn [order_params app to_tokens]; cbn [order_typed] in T.
  - rewrite EB32, E256', E32', EB. cbn [or_refuse obind]. rewrite to_bytes32, to_uint256, to_uint32 by done. cbn [to_token obind map fst snd].
    eexists. split; [reflexivity|]. unfold receive. cbv zeta. match goal with |- context [take 4 (selector ?K ?f ?t ++ ?r)] => destruct (selector_app K f t r) as (_ & E1 & E2) end. rewrite E1, E2. clear E1 E2.
    rewrite (sel_eq K _ _ "publishRoot(bytes32,uint256,uint32,bytes)") by (by vm_compute).
    rewrite bool_decide_eq_true_2 by done.
    rewrite (decode_encoded _ _ [Num root; Num expiry; Num id; Data (encode_confirmations confs)]); [by rewrite signatures_confirmations| |].
    + all_fit.
    + apply (small_encoding [_; _; _]); [all_words|done|cbn; lia].
  - destruct T as (T1 & T2 & T3). rewrite E256, E32, E256', E32', EB. cbn [or_refuse obind]. rewrite !to_uint256, !to_uint32 by lia. cbn [to_token obind map fst snd].
    eexists. split; [reflexivity|]. unfold receive. cbv zeta. match goal with |- context [take 4 (selector ?K ?f ?t ++ ?r)] => destruct (selector_app K f t r) as (_ & E1 & E2) end. rewrite E1, E2. clear E1 E2.
    rewrite (sel_eq K _ _ "triggerGrowth(uint256,uint256,uint32,uint256,uint32,bytes)") by (by vm_compute).
    rewrite bool_decide_eq_false_2 by (intros Es; symmetry in Es; exact (N12 Es)). rewrite bool_decide_eq_true_2 by done.
    rewrite (decode_encoded _ _ [Num rewards; Num avg; Num period; Num expiry; Num id; Data (encode_confirmations confs)]); [by rewrite signatures_confirmations| |].
    + all_fit.
    + apply (small_encoding [_; _; _; _; _]); [all_words|done|cbn; lia].
  - destruct T as (T1 & T2 & T3). rewrite EB, EB32, E256', E32'. cbn [or_refuse obind]. rewrite to_bytes32, to_uint256, to_uint32 by done. cbn [to_token obind map fst snd].
    eexists. split; [reflexivity|]. unfold receive. cbv zeta. match goal with |- context [take 4 (selector ?K ?f ?t ++ ?r)] => destruct (selector_app K f t r) as (_ & E1 & E2) end. rewrite E1, E2. clear E1 E2.
    rewrite (sel_eq K _ _ "addAuthor(bytes,bytes32,uint256,uint32,bytes)") by (by vm_compute).
    rewrite bool_decide_eq_false_2 by (intros Es; symmetry in Es; exact (N13 Es)). rewrite bool_decide_eq_false_2 by (intros Es; symmetry in Es; exact (N23 Es)). rewrite bool_decide_eq_true_2 by done.
    rewrite (decode_encoded _ _ [Data t1; Num t2; Num expiry; Num id; Data (encode_confirmations confs)]); [by rewrite signatures_confirmations| |].
    + all_fit.
    + apply (small_encoding [_; _; _; _]); [all_words|done|cbn; lia].
  - destruct T as (T1 & T2 & T3). rewrite EB, EB32, E256', E32'. cbn [or_refuse obind]. rewrite to_bytes32, to_uint256, to_uint32 by done. cbn [to_token obind map fst snd].
    eexists. split; [reflexivity|]. unfold receive. cbv zeta. match goal with |- context [take 4 (selector ?K ?f ?t ++ ?r)] => destruct (selector_app K f t r) as (_ & E1 & E2) end. rewrite E1, E2. clear E1 E2.
    rewrite (sel_eq K _ _ "removeAuthor(bytes32,bytes,uint256,uint32,bytes)") by (by vm_compute).
    rewrite bool_decide_eq_false_2 by (intros Es; symmetry in Es; exact (N14 Es)). rewrite bool_decide_eq_false_2 by (intros Es; symmetry in Es; exact (N24 Es)). rewrite bool_decide_eq_false_2 by (intros Es; symmetry in Es; exact (N34 Es)). rewrite bool_decide_eq_true_2 by done.
    rewrite (decode_encoded _ _ [Num t2; Data t1; Num expiry; Num id; Data (encode_confirmations confs)]); [by rewrite signatures_confirmations| |].
    + all_fit.
    + apply (small_encoding [_; _; _; _]); [all_words|done|cbn; lia].
Qed.
Lemma corroborate_call K utf8 id expiry : id < 2 ^ 32 -> expiry < 2 ^ 64 -> utf8 (ascii_bytes "corroborate") = true ->
  exists cd, corroborate_calldata K utf8 id expiry = Gives cd /\ receive_corroborate K cd = Some (id, expiry).
Proof.
  intros Hi He U. unfold corroborate_calldata, abi_encode_function. rewrite U. cbn [to_tokens].
  assert (E256' : to_param_type UINT256 = Some (PUint 256)) by done. assert (E32' : to_param_type UINT32 = Some (PUint 32)) by done.
  rewrite E256', E32'. cbn [or_refuse obind]. rewrite to_uint256, to_uint32 by lia. cbn [obind map fst snd].
  eexists. split; [reflexivity|]. unfold receive_corroborate. cbv zeta. match goal with |- context [take 4 (selector ?K ?f ?t ++ ?r)] => destruct (selector_app K f t r) as (_ & E1 & E2) end. rewrite E1, E2. clear E1 E2.
  rewrite (sel_eq K _ _ "corroborate(uint32,uint256)") by (by vm_compute). rewrite bool_decide_eq_true_2 by done.
  rewrite (decode_encoded _ _ [Num id; Num expiry]); [done| |].
  - all_fit.
  - unfold abi_encode. cbn [heads map tail_of concat length app]. rewrite !app_length, !be_bytes_length. by vm_compute.
Qed.
