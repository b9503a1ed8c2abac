(** C66, C67: the node's service signs and sends only what the node's own keys ordered, and uses nonces in order. *)
From Verif Require Import Base BaseLemmas CodecModel CodecProofs HttpModel HttpProofs ServiceModel ServiceProofs ServiceProofs2.

(** A concrete node: one avnk key (1), the Ethereum address 5 with the secret key 9, and cryptography in which key 1's token for a
    message is the 64 byte number [7] and is valid for [digest 3] and for the transaction [order] only. *)
Definition digest (n : N) : list N := be_bytes 32 n.
Definition order : eth_tx := mkTx 11 12 [1; 2; 3] None.
Definition token_bytes : list N := be_bytes 64 7.
Definition some_crypto : crypto := mkCrypto
  (fun key msg token => (key =? 1) && bool_decide (token = token_bytes) && (bool_decide (msg = digest 3) || bool_decide (msg = proof_data 11 12 [1; 2; 3])))
  (fun key => bool_decide (key = digest 9)) (fun key d => key ++ d).
Definition some_keys : keystore := mkKeys [1] [(hex_encode (ETHK ++ be_bytes 20 5), Some (hex_encode (digest 9))); (ascii_bytes "README", None)].
Lemma some_keys_nodup : NoDup (ks_files some_keys).*1.
Proof. apply (bool_decide_unpack _); by vm_compute. Qed.

(** * C66 *)
(** Signing: a signature is returned exactly when the body is the hexadecimal of 32 bytes for which the caller holds a token, and
    it is the node's only Ethereum key that signs exactly those bytes.  Nothing else changes. *)
Theorem C66_sign_iff cr k s id body header text : NoDup (ks_files k).*1 -> sv_crashed s = false ->
  (In (id, Answer text) (sv_responses (step cr k s (Arrive id (Sign body header)))) /\ ~ In (id, Answer text) (sv_responses s)) <->
  (~ In (id, Answer text) (sv_responses s) /\
   exists d h addr key, N.of_nat (length body) <= 100000 /\ hex_decode body = Some d /\ length d = 32%nat /\ header = Some h /\
     holds_token cr k h d /\ eth_key k addr key /\ cr_valid_key cr key = true /\ text = hex_encode (cr_sign cr key d)).
Proof.
  intros ND NC. cbn [step]. rewrite NC. cbn [arrive].
  assert (sign_request cr k body header = Gives text <->
    exists d h addr key, N.of_nat (length body) <= 100000 /\ hex_decode body = Some d /\ length d = 32%nat /\ header = Some h /\
     holds_token cr k h d /\ eth_key k addr key /\ cr_valid_key cr key = true /\ text = hex_encode (cr_sign cr key d)) as S.
  { unfold sign_request, MAX_BODY_SIZE. destruct (N.ltb_spec 100000 (N.of_nat (length body))) as [L|L].
    { split; [discriminate|]. intros (d & h & addr & key & L' & _). lia. }
    destruct (hex_decode body) as [d|]; cbn [or_refuse obind].
    2: { split; [discriminate|]. intros (d & h & addr & key & _ & E & _). discriminate. }
    destruct (Nat.eqb_spec (length d) 32) as [E32|E32]; cbn [negb].
    2: { split; [discriminate|]. intros (d' & h & addr & key & _ & [= <-] & E & _). done. }
    pose proof (validate_gives cr k header d) as V.
    destruct (validate_token cr k header d) as [[]| |]; cbn [obind].
    2, 3: split; [discriminate|]; intros (d' & h & addr & key & _ & [= <-] & _ & Eh & T & _); assert (X : exists h, header = Some h /\ holds_token cr k h d) by eauto; apply V in X; discriminate.
    destruct (proj1 V eq_refl) as (h & Eh & T). unfold sign_digest.
    pose proof (key_gives k) as KG.
    destruct (eth_address k) as [a| |] eqn:EA; cbn [obind].
    2, 3: split; [discriminate|]; intros (d' & h' & addr & key & _ & _ & _ & _ & _ & K & _); apply (KG addr key ND) in K; discriminate.
    destruct (priv_key k a) as [p| |] eqn:EP; cbn [obind].
    2, 3: split; [discriminate|]; intros (d' & h' & addr & key & _ & _ & _ & _ & _ & K & _); apply (KG addr key ND) in K; cbn in K; rewrite EP in K; discriminate.
    assert (K : eth_key k a p). { apply (KG a p ND). cbn. rewrite EP. done. }
    assert (KU : forall a' p', eth_key k a' p' -> p' = p). { intros a' p' K'. apply (KG a' p' ND) in K'. cbn in K'. rewrite EP in K'. by injection K' as _ <-. }
    destruct (cr_valid_key cr p) eqn:VK.
    - split.
      + intros [= <-]. exists d, h, a, p. done.
      + intros (d' & h' & addr & key & _ & [= <-] & _ & _ & _ & K' & _ & ->). by rewrite (KU _ _ K').
    - split; [discriminate|]. intros (d' & h' & addr & key & _ & _ & _ & _ & _ & K' & VK' & _). rewrite (KU _ _ K') in VK'. congruence. }
  destruct (sign_request cr k body header) as [x|e|] eqn:SR; cbn [settle reply sv_responses].
  - cbn. split.
    + intros [[[= <-]|I] NI]; [|done]. split; [done|]. by apply S.
    + intros [NI Q]. split; [|done]. left. apply S in Q. by injection Q as <-.
  - cbn. split; [intros [[E|I] NI]; [discriminate|done]|]. intros [NI Q]. apply S in Q. discriminate.
  - cbn. split; [intros [I NI]; done|]. intros [NI Q]. apply S in Q. discriminate.
Qed.
Example C66_sign_example :
  sv_responses (step some_crypto some_keys start (Arrive 1 (Sign (hex_encode (digest 3)) (Some (hex_encode token_bytes))))) =
  [(1, Answer (hex_encode (digest 9 ++ digest 3)))].
Proof. by vm_compute. Qed.
(** Which key that is: of all the files of the keystore exactly one has a name that is the hexadecimal of "ethk" and an address, the file named so in
    lower case holds the key.  Files of other types of keys, and with other names, do not matter. *)
Definition key_file (name addr : list N) : Prop := addr <> [] /\ hex_decode name = Some ([101; 116; 104; 107] ++ addr).
Lemma file_key_spec name addr : file_key name = Some addr <-> key_file name addr.
Proof.
  unfold file_key, key_file. destruct (hex_decode name) as [h|]; [|split; [done|intros [_ H]; done]].
  destruct (Nat.ltb_spec 4 (length h)) as [L|L]; cbn [andb].
  - destruct (bool_decide_reflect (take 4 h = ETHK)) as [E|E].
    + split.
      * intros [= <-]. split; [|f_equal; rewrite <- (take_drop 4 h) at 1; by rewrite E].
        intros Z. apply (f_equal length) in Z. rewrite drop_length in Z. cbn in Z. lia.
      * intros [_ [= ->]]. done.
    + split; [done|]. intros [_ [= ->]]. done.
  - split; [done|]. intros [N [= ->]]. destruct addr; [done|]. cbn in L. lia.
Qed.
Theorem C66_key_named k addr key : eth_key k addr key <->
  (exists before f after, ks_files k = before ++ f :: after /\ key_file f.1 addr /\ forall g a, In g (before ++ after) -> ~ key_file g.1 a) /\
  exists phrase rest, In (hex_encode ([101; 116; 104; 107] ++ addr), Some phrase) (ks_files k) /\ hex_decode phrase = Some (key ++ rest) /\ length key = 32%nat.
Proof.
  unfold eth_key, eth_addresses. change ETHK with [101; 116; 104; 107]. generalize (ks_files k). intros l.
  assert (G0 : forall l : list (list N * option (list N)), omap (fun f => file_key f.1) l = [] <-> forall g a, In g l -> ~ key_file g.1 a).
  { clear. induction l as [|f l IH]; cbn; [naive_solver|]. destruct (file_key f.1) as [a|] eqn:E.
    - split; [done|]. intros H. exfalso. apply (H f a); [by left|]. by apply file_key_spec.
    - rewrite IH. split; [|naive_solver]. intros H g a [<-|I]; [|by apply H]. rewrite <- file_key_spec. congruence. }
  split; intros [H1 H2]; (split; [|exact H2]); clear H2.
  - revert H1. induction l as [|f l IH]; cbn; [done|]. destruct (file_key f.1) as [a|] eqn:E.
    + intros [= -> Z]. pose proof (proj1 (G0 l) Z) as Z'. exists [], f, l. split; [done|]. split; [by apply file_key_spec|done].
    + intros Z. destruct (IH Z) as (b & f' & r & -> & K & O). exists (f :: b), f', r. split; [done|]. split; [done|]. intros g a [<-|I]; [rewrite <- file_key_spec; congruence|by apply O].
  - destruct H1 as (b & f & r & -> & K & O). apply file_key_spec in K.
    assert (Zb : omap (fun f => file_key f.1) b = []) by (apply G0; intros g a I; apply O, in_app_iff; by left).
    assert (Zr : omap (fun f => file_key f.1) r = []) by (apply G0; intros g a I; apply O, in_app_iff; by right).
    rewrite omap_app. rewrite Zb. cbn. rewrite K. by rewrite Zr.
Qed.
(** Hexadecimal texts may be written in either case. *)
Definition upper (c : N) : N := if (97 <=? c) && (c <=? 102) then c - 32 else c.
Theorem C66_either_case l : hex_decode (map upper l) = hex_decode l.
Proof.
  assert (D : forall c, hex_digit (upper c) = hex_digit c).
  { intros c. unfold upper, hex_digit. destruct (N.leb_spec 97 c), (N.leb_spec c 102); cbn [andb]; try reflexivity.
    all: repeat (match goal with |- context [?a <=? ?b] => first [rewrite (proj2 (N.leb_le a b)) by lia | rewrite (proj2 (N.leb_gt a b)) by lia] end; cbn [andb]). all: f_equal; try lia. }
  revert l. fix IH 1. intros [|a [|b l]]; [done|done|]. cbn [map hex_decode]. rewrite !D, IH. done.
Qed.
Example C66_either_case_example : hex_decode (ascii_bytes "0aFf") = Some [10; 255] /\ map upper (ascii_bytes "0aFf") = ascii_bytes "0AFF".
Proof. by vm_compute. Qed.
(** Sending: whatever happens - any requests, in any order and overlapping, any answers of Ethereum, restarts - every transaction that
    was ever signed carries the contract and the data of a request that came with a token for them, and is from the node's address. *)
Theorem C66_transactions_ordered cr k es u : NoDup (ks_files k).*1 -> In u (sv_signed (run cr k start es)) ->
  exists body header t key, In (Arrive (su_id u) (Send body (Some header))) es /\ N.of_nat (length body) <= 100000 /\
    decode_tx body = Some t /\ holds_token cr k header (proof_data (tx_from t) (tx_to t) (tx_data t)) /\
    su_to u = tx_to t /\ su_data u = tx_data t /\ eth_key k (su_from u) key.
Proof.
  intros ND I. destruct (g_signed _ _ _ _ (good_run cr k es ND) u I) as (t & key & (b & h & O1 & O2 & O3 & O4) & E1 & E2 & E3).
  exists b, h, t, key. done.
Qed.
Definition ordered_run : list event :=
  [Arrive 1 (Send (encode_tx order) (Some (hex_encode token_bytes))); EthSays (Count 4); Arrive 2 (View (encode_tx order)); EthSays Prepared; EthSays (Accept 77)].
Example C66_transactions_example : let s := run some_crypto some_keys start ordered_run in
  sv_pool s = [mkSub 1 4 (be_bytes 20 5) 12 [1; 2; 3]] /\ sv_responses s = [(1, Answer (hex_encode (digest 77))); (2, Error "Failed to acquire web3 mutex")].
Proof. by vm_compute. Qed.
(** Ethereum is only given transactions that were signed for it. *)
Theorem C66_pool_signed cr k es u : NoDup (ks_files k).*1 -> In u (sv_pool (run cr k start es)) -> In u (sv_signed (run cr k start es)).
Proof. intros ND. apply (g_pool _ _ _ _ (good_run cr k es ND)). Qed.
(** One request puts at most one transaction on Ethereum, and gets at most one response. *)
Theorem C66_once_per_request cr k es : NoDup (arrivals es) ->
  NoDup (map su_id (sv_pool (run cr k start es))) /\ NoDup (sv_responses (run cr k start es)).*1.
Proof. intros ND. split; apply (once_run cr k es ND). Qed.
(** A token covers one kind of request with one content: the message of a signing token (32 bytes) is never that of a transaction,
    and transactions with the same message have the same sender, contract and data. *)
Theorem C66_tokens_separate d f t x : length d = 32%nat -> proof_data f t x <> d.
Proof. intros L E. pose proof (proof_data_length f t x). rewrite E in *. lia. Qed.
Theorem C66_token_content b b' t t' : bytes b -> bytes b' -> decode_tx b = Some t -> decode_tx b' = Some t' ->
  proof_data (tx_from t) (tx_to t) (tx_data t) = proof_data (tx_from t') (tx_to t') (tx_data t') ->
  tx_from t = tx_from t' /\ tx_to t = tx_to t' /\ tx_data t = tx_data t'.
Proof.
  intros B B' D D' E. apply (decode_tx_spec _ _ B) in D as [(? & ? & ? & ? & ?) _]. apply (decode_tx_spec _ _ B') in D' as [(? & ? & ? & ? & ?) _].
  by apply proof_data_inj.
Qed.
(** What a worker posts is what the service reads. *)
Theorem C66_request_read_back t : tx_typed t -> decode_tx (encode_tx t) = Some t.
Proof. intros T. rewrite <- (app_nil_r (encode_tx t)). by apply tx_roundtrip. Qed.
Theorem C66_request_canonical b t : bytes b -> decode_tx b = Some t -> tx_typed t /\ exists rest, b = encode_tx t ++ rest.
Proof. apply decode_tx_spec. Qed.
Example C66_typed_example : tx_typed order /\ tx_typed (mkTx (2 ^ 256 - 1) (2 ^ 160 - 1) [255] (Some 4294967295)).
Proof. split; (split; [done|]; split; [done|]; split; [repeat constructor|]; split; [done|]; intros v [=]; subst; done). Qed.
(** A token header is read back. *)
Lemma trim_hex l : trim (hex_encode l) = hex_encode l.
Proof.
  assert (N : forall d, is_space (hex_char d) = false).
  { intros d. unfold is_space, hex_char. destruct (N.ltb_spec d 10); lia. }
  assert (T : forall m, Forall (fun b => is_space b = false) m -> trim_start m = m) by (intros [|b m] F; [done|]; apply Forall_cons in F as [F _]; cbn; by rewrite F).
  assert (F : Forall (fun b => is_space b = false) (hex_encode l)) by (induction l as [|b l IH]; [constructor|]; cbn; constructor; [apply N|]; constructor; [apply N|exact IH]).
  unfold trim. rewrite (T (hex_encode l)) by done. rewrite T by (apply Forall_rev; done). by rewrite rev_involutive.
Qed.
Theorem C66_token_read_back token rest : bytes token -> bytes rest -> length token = 64%nat -> token_of (hex_encode (token ++ rest)) = Some token.
Proof.
  intros B R L. unfold token_of. rewrite trim_hex, hex_roundtrip by (by apply bytes_app). by rewrite (read_app 64).
Qed.
(** Refuted: a caller without a token cannot do anything.  A body that is not the hexadecimal of 32 bytes ends the process, before the
    token is looked at. *)
Theorem C66_unauthorised_harmless_refuted :
  ~ forall cr k s id body header, (forall h, header = Some h -> forall msg, ~ holds_token cr k h msg) ->
      sv_crashed (step cr k s (Arrive id (Sign body header))) = sv_crashed s.
Proof.
  intros H. specialize (H some_crypto some_keys start 1 (hex_encode [1]) None). by discriminate (H ltac:(done)).
Qed.
(** Everything else a caller without tokens does leaves the signatures and transactions as they are. *)
Theorem C66_unauthorised_partial cr k s id r :
  (forall h b, r = Sign b (Some h) \/ r = Send b (Some h) -> forall msg, ~ holds_token cr k h msg) ->
  let s' := step cr k s (Arrive id r) in
  sv_signed s' = sv_signed s /\ sv_pool s' = sv_pool s /\ sv_nonce s' = sv_nonce s /\
  (forall t addr key p, sv_lock s' = Some (Sending id t addr key p) -> sv_lock s = Some (Sending id t addr key p)) /\
  (forall text b h, r = Sign b h -> In (id, Answer text) (sv_responses s') -> In (id, Answer text) (sv_responses s)) /\
  (sv_crashed s' = true -> sv_crashed s = true \/ exists b h, r = Sign b h).
Proof.
  intros H. cbn zeta. cbn [step]. destruct (sv_crashed s) eqn:C; [rewrite C; split_and!; auto|].
  destruct r as [body header|body header|body|body]; cbn [arrive].
  - assert (forall x, sign_request cr k body header <> Gives x) as NG.
    { intros x. unfold sign_request. destruct (_ <? _); [discriminate|]. destruct (hex_decode body) as [d|]; cbn [or_refuse obind]; [|discriminate].
      destruct (negb _); [discriminate|]. pose proof (validate_gives cr k header d) as V. destruct (validate_token cr k header d) as [[]| |]; cbn [obind]; try discriminate.
      destruct (proj1 V eq_refl) as (h & -> & T). exfalso. by eapply (H h body); [left|]. }
    destruct (sign_request cr k body header) as [x|e|]; [by destruct (NG x)| |]; cbn; split_and!; auto.
    all: try (by intros text b h _ [E|I]; [discriminate E|exact I]).
    all: intros E; congruence || (right; eauto).
  - destruct (admit_send cr k body header) as [t|e|] eqn:A; cbn.
    + exfalso. apply admit_send_gives in A as (_ & _ & h & -> & T). by eapply (H h body); [right|].
    + split_and!; auto; discriminate || congruence.
    + exfalso. revert A. unfold admit_send. destruct (_ <? _); [discriminate|]. destruct (decode_tx body); cbn [or_refuse obind]; [|discriminate].
      unfold validate_token, or_refuse, obind. destruct header as [h|]; [|discriminate]. destruct (token_of h); [|discriminate]. by destruct (authenticated _ _ _ _).
  - destruct (admit_view body) as [t|e|] eqn:A; cbn.
    + destruct (sv_lock s) eqn:L; cbn; split_and!; auto; discriminate || (intros; congruence).
    + split_and!; auto; discriminate || congruence.
    + exfalso. revert A. unfold admit_view, or_refuse. destruct (_ <? _); [discriminate|]. by destruct (decode_tx body).
  - destruct (admit_query body) as [q|e|] eqn:A; cbn.
    + destruct (sv_lock s) eqn:L; cbn; split_and!; auto; discriminate || (intros; congruence).
    + split_and!; auto; discriminate || congruence.
    + exfalso. revert A. unfold admit_query, admit_view, or_refuse. destruct (_ <? _); [discriminate|]. destruct (decode_tx body); [|discriminate]. cbn. by destruct (decode_query _).
Qed.
Lemma header_of id id' b b' h h' : Arrive id (Send b (Some h)) = Arrive id' (Send b' (Some h')) -> h' = h.
Proof. congruence. Qed.
(** Refuted: a token is good for one transaction.  It names no nonce: the same request sent again is executed again. *)
Theorem C66_token_used_once_refuted :
  ~ forall cr k es, NoDup (ks_files k).*1 -> NoDup (arrivals es) ->
      forall u v, In u (sv_pool (run cr k start es)) -> In v (sv_pool (run cr k start es)) -> su_id u <> su_id v ->
      (su_to u, su_data u) = (su_to v, su_data v) ->
      exists h h' b b', In (Arrive (su_id u) (Send b (Some h))) es /\ In (Arrive (su_id v) (Send b' (Some h'))) es /\ h <> h'.
Proof.
  intros H. set (twice := ordered_run ++ [Arrive 3 (Send (encode_tx order) (Some (hex_encode token_bytes))); EthSays Prepared; EthSays (Accept 78)]).
  assert (P : sv_pool (run some_crypto some_keys start twice) = [mkSub 3 5 (be_bytes 20 5) 12 [1; 2; 3]; mkSub 1 4 (be_bytes 20 5) 12 [1; 2; 3]]) by (vm_compute; reflexivity).
  destruct (H some_crypto some_keys twice some_keys_nodup) with (u := mkSub 1 4 (be_bytes 20 5) 12 [1; 2; 3]) (v := mkSub 3 5 (be_bytes 20 5) 12 [1; 2; 3]) as (h & h' & b & b' & I & I' & Q).
  - apply (bool_decide_unpack _); by vm_compute.
  - rewrite P. by right; left.
  - rewrite P. by left.
  - done.
  - done.
  - clear P. apply Q. cbn [su_id] in I, I'. unfold twice, ordered_run in I, I'.
    assert (E : h = hex_encode token_bytes).
    { clear I'. repeat (destruct I as [I|I]; [discriminate I || exact (header_of _ _ _ _ _ _ I)|]). destruct I. }
    assert (E' : h' = hex_encode token_bytes).
    { clear I. repeat (destruct I' as [I'|I']; [discriminate I' || exact (header_of _ _ _ _ _ _ I')|]). destruct I'. }
    congruence.
Qed.

(** * C67 *)
(** As long as Ethereum answers truthfully and no answer is lost, the transactions that Ethereum takes from one run of the service
    have strictly increasing nonces, whatever the requests and however they overlap.  (Newest first.) *)
Theorem C67_nonces_increase cr k es : honest cr k start es -> StronglySorted newer (sv_pool (run cr k start es)).
Proof. intros H. apply (f_sorted _ (fresh_run cr k es start fresh_start H)). Qed.
(** ... and they are consecutive unless Ethereum refused one as too low. *)
Theorem C67_nonces_consecutive cr k es : honest cr k start es -> ~ In (EthSays (Fail NonceTooLow)) es ->
  forall i u v, nth_error (sv_pool (run cr k start es)) i = Some u -> nth_error (sv_pool (run cr k start es)) (S i) = Some v -> su_nonce u = su_nonce v + 1.
Proof.
  intros H NL. apply (dense_run cr k es start fresh_start); [split; try done; cbn; by destruct i|done|].
  apply Forall_forall. intros e I ->. by apply NL, elem_of_list_In.
Qed.
Definition long_run : list event :=
  ordered_run ++ [Arrive 3 (Send (encode_tx order) (Some (hex_encode token_bytes))); EthSays Prepared; EthSays (Fail NonceTooLow); EthSays (Count 9);
                  EthSays Prepared; EthSays (Accept 78)].
Example C67_nonces_example : honest some_crypto some_keys start long_run /\ map su_nonce (sv_pool (run some_crypto some_keys start long_run)) = [9; 4].
Proof. split; [|by vm_compute]. vm_compute. repeat split. Qed.
(** A request is answered with a hash exactly when Ethereum has taken its transaction: the hash is one Ethereum gave. *)
Theorem C67_hash_means_taken cr k es id b h text : NoDup (arrivals es) -> In (Arrive id (Send b h)) es ->
  In (id, Answer text) (sv_responses (run cr k start es)) ->
  exists u hash, In u (sv_pool (run cr k start es)) /\ su_id u = id /\ text = hex_encode (be_bytes 32 hash) /\ In (EthSays (Accept hash)) es.
Proof. intros ND I R. by apply (o_answer _ _ (once_run cr k es ND) id text b h). Qed.
Theorem C67_error_means_not_taken_partial cr k es id e : NoDup (arrivals es) -> ~ In (EthSays AcceptLost) es ->
  In (id, Error e) (sv_responses (run cr k start es)) -> forall u, In u (sv_pool (run cr k start es)) -> su_id u <> id.
Proof.
  intros ND NL R u I E. apply (o_error _ _ (once_run cr k es ND) NL id e R). rewrite <- E. apply in_map_iff. exists u. done.
Qed.
(** Refuted: an error means that the transaction was not sent.  Ethereum may have taken it although its answer was lost. *)
Theorem C67_error_means_not_taken_refuted :
  ~ forall cr k es id e, NoDup (arrivals es) -> In (id, Error e) (sv_responses (run cr k start es)) ->
      forall u, In u (sv_pool (run cr k start es)) -> su_id u <> id.
Proof.
  intros H. set (es := [Arrive 1 (Send (encode_tx order) (Some (hex_encode token_bytes))); EthSays (Count 4); EthSays Prepared; EthSays AcceptLost]).
  assert (P : sv_pool (run some_crypto some_keys start es) = [mkSub 1 4 (be_bytes 20 5) 12 [1; 2; 3]]) by (vm_compute; reflexivity).
  assert (R : sv_responses (run some_crypto some_keys start es) = [(1, Error "Error sending transaction to ethereum")]) by (vm_compute; reflexivity).
  assert (ND : NoDup (arrivals es)) by (apply (bool_decide_unpack _); by vm_compute).
  specialize (H some_crypto some_keys es 1 "Error sending transaction to ethereum" ND). rewrite P, R in H.
  by apply (H (or_introl eq_refl) _ (or_introl eq_refl)).
Qed.
(** A stored nonce that Ethereum has passed is corrected within the request: the second attempt uses the count. *)
Theorem C67_low_nonce_recovers cr k s id body h t addr key n c hash :
  NoDup (ks_files k).*1 -> sv_crashed s = false -> sv_lock s = None -> sv_nonce s = Some n -> c < 2 ^ 64 ->
  N.of_nat (length body) <= 100000 -> decode_tx body = Some t -> holds_token cr k h (proof_data (tx_from t) (tx_to t) (tx_data t)) ->
  eth_key k addr key -> cr_valid_key cr key = true ->
  let s' := run cr k s [Arrive id (Send body (Some h)); EthSays Prepared; EthSays (Fail NonceTooLow); EthSays (Count c); EthSays Prepared; EthSays (Accept hash)] in
  sv_pool s' = mkSub id c addr (tx_to t) (tx_data t) :: sv_pool s /\ sv_responses s' = (id, Answer (hex_encode (be_bytes 32 hash))) :: sv_responses s /\
  sv_nonce s' = Some ((c + 1) mod 2 ^ 64) /\ sv_lock s' = None.
Proof.
  intros ND C L Nn Hc B D T K V.
  assert (A : admit_send cr k body (Some h) = Gives t) by (apply admit_send_gives; split_and!; eauto).
  apply (key_gives k addr key ND) in K.
  destruct s as [nn lk cra rs sg pl cl]. cbn in C, L, Nn. subst nn lk cra. cbn zeta.
  assert (R : run cr k (mkSt (Some n) None false rs sg pl cl)
    [Arrive id (Send body (Some h)); EthSays Prepared; EthSays (Fail NonceTooLow); EthSays (Count c); EthSays Prepared; EthSays (Accept hash)] =
    mkSt (Some ((c mod U64 + 1) mod U64)) None false ((id, Answer (hex_encode (be_bytes 32 hash))) :: rs)
      (mkSub id (c mod U64) addr (tx_to t) (tx_data t) :: mkSub id n addr (tx_to t) (tx_data t) :: sg) (mkSub id (c mod U64) addr (tx_to t) (tx_data t) :: pl) cl).
  { unfold run. cbn [fold_left]. unfold step at 6. cbn [sv_crashed arrive]. rewrite A. cbn [settle sv_lock]. rewrite K. cbn [settle fst snd begin_send sv_nonce].
    cbn. rewrite V. cbn. rewrite V. cbn. done. }
  rewrite R. cbn [sv_pool sv_responses sv_nonce sv_lock]. rewrite (N.mod_small c) by exact Hc. done.
Qed.
(** Refuted: a stored nonce that runs ahead of Ethereum is corrected.  As long as the process runs, no transaction with a nonce below
    the stored one is ever signed again; if an earlier transaction is dropped, the ones after it wait for ever. *)
Theorem C67_ahead_is_permanent cr k es es' n : honest cr k start (es ++ es') -> sv_nonce (run cr k start es) = Some n ->
  forall u, In u (sv_signed (run cr k start (es ++ es'))) -> In u (sv_signed (run cr k start es)) \/ n <= su_nonce u.
Proof.
  intros H Nn. assert (forall l l' s, honest cr k s (l ++ l') -> honest cr k s l /\ honest cr k (run cr k s l) l') as HA.
  { clear. induction l as [|e l IH]; intros l' s H; [done|]. destruct H as [H1 H2]. destruct (IH _ _ H2) as [A B]. done. }
  destruct (HA _ _ _ H) as [H1 H2]. unfold run. rewrite fold_left_app. apply (nonce_run cr k es' _ n); [by apply fresh_run; [apply fresh_start|]|done|done].
Qed.
Definition gap_run : list event := ordered_run ++ [Arrive 3 (Send (encode_tx order) (Some (hex_encode token_bytes))); EthSays Prepared].
(** Ethereum dropped the transaction with nonce 4 (its count is 4), and the next is signed with nonce 5. *)
Example C67_ahead_example : honest some_crypto some_keys start (ordered_run ++ [Arrive 3 (Send (encode_tx order) (Some (hex_encode token_bytes))); EthSays Prepared]) /\
  map su_nonce (sv_signed (run some_crypto some_keys start gap_run)) = [5; 4].
Proof. split; [|by vm_compute]. vm_compute. repeat split. Qed.
(** Refuted: two transactions never have the same nonce, also across a restart.  The count that Ethereum reports leaves out the
    transactions that wait, so the first transaction after a restart replaces one whose hash was already reported. *)
Theorem C67_nonces_distinct_across_restart_refuted :
  ~ forall cr k es, (forall c, In (EthSays (Count c)) es -> c < 2 ^ 64) -> ~ In (EthSays AcceptLost) es -> NoDup (arrivals es) ->
      NoDup (map su_nonce (sv_pool (run cr k start es))).
Proof.
  intros H. set (es := ordered_run ++ [Restart; Arrive 3 (Send (encode_tx order) (Some (hex_encode token_bytes))); EthSays (Count 4); EthSays Prepared; EthSays (Accept 78)]).
  assert (P : map su_nonce (sv_pool (run some_crypto some_keys start es)) = [4; 4]) by (vm_compute; reflexivity).
  assert (ND : NoDup (arrivals es)) by (apply (bool_decide_unpack _); by vm_compute).
  assert (F : forallb (fun e => match e with EthSays (Count c) => c <? 2 ^ 64 | EthSays AcceptLost => false | _ => true end) es = true) by (vm_compute; reflexivity).
  rewrite forallb_forall in F.
  assert (C : forall c, In (EthSays (Count c)) es -> c < 2 ^ 64) by (intros c I; apply F in I; by apply N.ltb_lt).
  assert (L : ~ In (EthSays AcceptLost) es) by (intros I; apply F in I; discriminate).
  specialize (H some_crypto some_keys es C L ND). rewrite P in H. apply NoDup_cons in H as [H _]. apply H. left.
Qed.
