(** C99: the off-chain workers talk to the service of their own machine and to no other, and the two read each other's texts alike. *)
From Verif Require Import Base BaseLemmas CodecModel CodecProofs HttpModel HttpProofs ServiceModel ServiceProofs ServiceProofs2 ServiceProps WireModel.
From Verif Require BridgeModel AbiModel AbiProofs SummaryOcwModel ParseProofs CorroborateProps.

(** A number in decimal: digits, the first perhaps preceded by a plus sign. *)
Definition digits (l : list N) : Prop := l <> [] /\ Forall (fun b => 48 <= b <= 57) l.
Definition port_like (l : list N) : Prop := digits l \/ exists r, l = 43 :: r /\ digits r.

(** ** Lemmas *)
Lemma parse_like max l v : AbiModel.parse_uint max l = Some v -> port_like l.
Proof.
  unfold AbiModel.parse_uint. destruct l as [|b r]; [done|]. destruct (N.eqb_spec b 43) as [->|NE].
  - destruct r as [|c r]; [done|]. destruct (AbiModel.dec_digits 0 (c :: r)) eqn:E; [|done]. intros _. right. exists (c :: r). split; [done|]. split; [done|].
    by eapply AbiProofs.digits_all.
  - destruct (AbiModel.dec_digits 0 (b :: r)) eqn:E; [|done]. intros _. left. split; [done|]. by eapply AbiProofs.digits_all.
Qed.
Lemma port_text_like stored : port_like (port_text stored) /\ exists v, parse_u32 (port_text stored) = Some v.
Proof.
  assert (D : port_like DEFAULT_PORT /\ exists v, parse_u32 DEFAULT_PORT = Some v).
  { split; [|by exists 2020]. left. split; [done|]. repeat constructor; vm_compute; discriminate. }
  unfold port_text. set (t := match stored with Some _ => _ | None => _ end). destruct (parse_u32 t) as [v|] eqn:E; [|exact D].
  split; [by eapply parse_like|by exists v].
Qed.
Lemma strip_spec l : exists n, l = repeat SLASH n ++ strip_slashes l /\ forall r, strip_slashes l <> SLASH :: r.
Proof.
  induction l as [|b l IH]; [by exists 0%nat|]. cbn [strip_slashes]. destruct (N.eqb_spec b SLASH) as [->|NE].
  - destruct IH as (n & E & F). exists (S n). split; [|done]. cbn. by rewrite <- E.
  - exists 0%nat. split; [done|]. intros r [= -> _]. done.
Qed.
Lemma strip_idem l : strip_slashes (SLASH :: strip_slashes l) = strip_slashes l.
Proof. cbn [strip_slashes]. rewrite N.eqb_refl. induction l as [|b l IH]; [done|]. cbn [strip_slashes]. destruct (b =? SLASH) eqn:E; [done|]. cbn [strip_slashes]. by rewrite E. Qed.
Lemma after_skip x r : Forall (fun b => b <> SLASH) x -> after_slash (x ++ SLASH :: r) = SLASH :: r.
Proof. induction 1 as [|b x H F IH]; [done|]. cbn [app after_slash]. destruct (N.eqb_spec b SLASH); [done|]. done. Qed.
Lemma digits_no_slash l : Forall (fun b => 48 <= b <= 57) l -> Forall (fun b => b <> SLASH) l.
Proof. intros F. eapply Forall_impl; [exact F|]. unfold SLASH. intros. cbn in *. lia. Qed.
Lemma port_no_slash l : port_like l -> Forall (fun b => b <> SLASH) l.
Proof. intros [[_ F]|(r & -> & _ & F)]; [by apply digits_no_slash|]. constructor; [done|by apply digits_no_slash]. Qed.
Lemma url_path_url stored path : url_path (url stored path) = SLASH :: strip_slashes path.
Proof.
  unfold url_path, url. change (drop 7 (ascii_bytes "http://127.0.0.1:" ++ port_text stored ++ [SLASH] ++ strip_slashes path))
    with (ascii_bytes "127.0.0.1:" ++ port_text stored ++ [SLASH] ++ strip_slashes path).
  rewrite app_assoc. change ([SLASH] ++ strip_slashes path) with (SLASH :: strip_slashes path). apply after_skip.
  apply Forall_app. split; [repeat constructor; discriminate|]. apply port_no_slash, port_text_like.
Qed.
Lemma pieces_skip x r : Forall (fun b => b <> SLASH) x -> pieces (x ++ SLASH :: r) = x :: pieces r.
Proof. induction 1 as [|b x H F IH]; [cbn; done|]. cbn [app pieces]. destruct (N.eqb_spec b SLASH); [done|]. by rewrite IH. Qed.
Lemma pieces_end x : Forall (fun b => b <> SLASH) x -> pieces x = [x].
Proof. induction 1 as [|b x H F IH]; [done|]. cbn [pieces]. destruct (N.eqb_spec b SLASH); [done|]. by rewrite IH. Qed.
Lemma dec_digits_bytes n : Forall (fun b => 48 <= b <= 57) (dec_bytes n).
Proof. eapply AbiProofs.digits_all. apply AbiProofs.dec_bytes_digits. Qed.
Lemma route_url v stored path : route v (url_path (url stored path)) = route v path.
Proof. unfold route. rewrite url_path_url, strip_idem. done. Qed.
Lemma route_root stored a b : route GET (url_path (url stored (root_path a b))) = Some (ERoothash (dec_bytes a) (dec_bytes b)).
Proof.
  rewrite route_url. unfold route. replace (strip_slashes (root_path a b)) with (ascii_bytes "roothash" ++ SLASH :: dec_bytes a ++ SLASH :: dec_bytes b) by done.
  rewrite pieces_skip by (repeat constructor; discriminate). rewrite pieces_skip by (apply digits_no_slash, dec_digits_bytes).
  rewrite pieces_end by (apply digits_no_slash, dec_digits_bytes). reflexivity.
Qed.
Lemma token_of_hex t : bytes t -> length t = 64%nat -> token_of (hex_encode t) = Some t.
Proof.
  intros B L. unfold token_of. rewrite trim_hex, hex_roundtrip by done. pose proof (read_app 64 t [] L) as R. rewrite app_nil_r in R. by rewrite R.
Qed.
Lemma sign_request_iff cr k body header text : NoDup (ks_files k).*1 ->
  sign_request cr k body header = Gives text <->
  exists d h addr key, N.of_nat (length body) <= 100000 /\ hex_decode body = Some d /\ length d = 32%nat /\ header = Some h /\
     holds_token cr k h d /\ eth_key k addr key /\ cr_valid_key cr key = true /\ text = hex_encode (cr_sign cr key d).
Proof.
  intros ND. pose proof (C66_sign_iff cr k start 0 body header text ND eq_refl) as S. cbn [step start sv_crashed arrive sv_responses] in S.
  destruct (sign_request cr k body header) as [x|e|]; cbn [settle reply sv_responses] in S; cbn in S; split; intros H.
  - injection H as ->. apply S. tauto.
  - destruct (proj2 S (conj (fun x => x) H)) as [[E|[]] _]. by injection E as ->.
  - discriminate.
  - destruct (proj2 S (conj (fun x => x) H)) as [[E|[]] _]. discriminate.
  - discriminate.
  - destruct (proj2 S (conj (fun x => x) H)) as [[] _].
Qed.
Lemma hex_length l : length (hex_encode l) = (2 * length l)%nat.
Proof. induction l as [|b l IH]; [done|]. cbn. fold (hex_encode l). rewrite IH. lia. Qed.
Lemma tx_length t : tx_typed t -> (length (encode_tx t) <= 62 + length (tx_data t))%nat.
Proof.
  intros (_ & _ & _ & L & _). unfold encode_tx, scale_bytes. rewrite !app_length, !be_bytes_length.
  assert (length (compact (N.of_nat (length (tx_data t)))) <= 5)%nat. { unfold compact. repeat case_match; cbn; rewrite ?le_bytes_length; lia. }
  destruct (tx_block t); cbn [opt_u32 length]; rewrite ?le_bytes_length; lia.
Qed.

(** ** The theorems *)
(** Whatever the local store holds and whatever path is asked for, the URL is http on 127.0.0.1, at a port written in digits (perhaps after a plus
    sign), and its path has exactly one slash in front. *)
Theorem C99_stays_on_the_machine stored path : exists port rest n,
  url stored path = ascii_bytes "http://127.0.0.1:" ++ port ++ ascii_bytes "/" ++ rest /\ port_like port /\
  path = repeat 47 n ++ rest /\ (forall r, rest <> 47 :: r).
Proof.
  destruct (strip_spec path) as (n & E & F). exists (port_text stored), (strip_slashes path), n.
  split; [done|]. split; [apply port_text_like|]. done.
Qed.
Example C99_stays_example : url (Some (scale_bytes (ascii_bytes "evil.com/"))) (ascii_bytes "//eth/send") = ascii_bytes "http://127.0.0.1:2020/eth/send".
Proof. by vm_compute. Qed.
(** A node started with off-chain workers talks to the address it listens on, if and only if its port is not given or is a number below 2^32. *)
Theorem C99_same_address cli before : N.of_nat (length (node_port cli)) < 2 ^ 32 ->
  ascii_bytes "127.0.0.1:" ++ port_text (stored_port true cli before) = listen_address cli <->
  cli = None \/ exists t v, cli = Some t /\ AbiModel.parse_uint (2 ^ 32 - 1) t = Some v.
Proof.
  intros L. unfold listen_address, stored_port, port_text. pose proof (read_vec_app (node_port cli) [] L) as R. rewrite app_nil_r in R. rewrite R.
  change (AbiModel.parse_uint (2 ^ 32 - 1)) with parse_u32.
  destruct (parse_u32 (node_port cli)) as [v|] eqn:E.
  - split; [|done]. intros _. destruct cli as [t|]; [right; by exists t, v|by left].
  - split.
    + intros H. apply app_inv_head in H. rewrite <- H in E. done.
    + intros [->|(t & v & -> & H)]; [done|]. cbn in E. congruence.
Qed.
(** So for every port number, written in decimal. *)
Theorem C99_port_numbers n before : n < 2 ^ 32 ->
  ascii_bytes "127.0.0.1:" ++ port_text (stored_port true (Some (dec_bytes n)) before) = listen_address (Some (dec_bytes n)).
Proof.
  intros H. assert (P : AbiModel.parse_uint (2 ^ 32 - 1) (dec_bytes n) = Some n) by (apply AbiProofs.parse_dec; lia).
  apply C99_same_address; [|right; by exists (dec_bytes n), n]. cbn.
  pose proof (AbiProofs.dec_bytes_length n 10 ltac:(lia)) as D. change (dec_bytes n) with (BridgeModel.dec_bytes n). lia.
Qed.
Example C99_same_address_example : port_text (stored_port true (Some (ascii_bytes "2040")) None) = ascii_bytes "2040" /\
  listen_address (Some (ascii_bytes "2040")) = ascii_bytes "127.0.0.1:2040".
Proof. by vm_compute. Qed.
(** The check of the port is of a u32, so a number that is no port does not fall back to the default. *)
Theorem C99_bad_port_refuted :
  ~ (forall text, AbiModel.parse_uint 65535 text = None -> port_text (Some (scale_bytes text)) = ascii_bytes "2020").
Proof. intros H. specialize (H (ascii_bytes "70000") eq_refl). vm_compute in H. discriminate. Qed.
(** And a port that is no number is replaced by the default on the worker's side only. *)
Theorem C99_same_address_refuted : exists t, port_text (stored_port true (Some t) None) = ascii_bytes "2020" /\ listen_address (Some t) = ascii_bytes "127.0.0.1:http".
Proof. exists (ascii_bytes "http"). by vm_compute. Qed.

(** Each request reaches the endpoint it is meant for, whatever the local store holds, with or without slashes in front. *)
Theorem C99_reaches stored n from to :
  route POST (url_path (url stored (repeat 47 n ++ ascii_bytes "eth/sign_hashed_data"))) = Some ESign /\
  route POST (url_path (url stored (repeat 47 n ++ ascii_bytes "eth/send"))) = Some ESend /\
  route POST (url_path (url stored (repeat 47 n ++ ascii_bytes "eth/view"))) = Some EView /\
  route POST (url_path (url stored (repeat 47 n ++ ascii_bytes "eth/query"))) = Some EQuery /\
  route GET (url_path (url stored (repeat 47 n ++ ascii_bytes "latest_finalised_block"))) = Some EFinalised /\
  route GET (url_path (url stored (repeat 47 n ++ root_path from to))) = Some (ERoothash (dec_bytes from) (dec_bytes to)).
Proof.
  assert (R : forall v p, route v (url_path (url stored (repeat 47 n ++ p))) = route v p).
  { intros v p. rewrite route_url. unfold route. replace (strip_slashes (repeat 47 n ++ p)) with (strip_slashes p); [done|].
    induction n as [|m IH]; [done|]. cbn [repeat app strip_slashes]. exact IH. }
  rewrite !R. split; [reflexivity|]. split; [reflexivity|]. split; [reflexivity|]. split; [reflexivity|]. split; [reflexivity|].
  rewrite <- (route_url GET stored). apply route_root.
Qed.
(** The block numbers in the path of a root are read as they were meant. *)
Theorem C99_block_numbers n : n < 2 ^ 32 -> parse_u32 (dec_bytes n) = Some n.
Proof. intros H. apply AbiProofs.parse_dec. unfold U32_TOP. lia. Qed.
(** Nothing serves the latest Ethereum block that the bridge offers to other pallets: that request fails, always. *)
Theorem C99_ethereum_block_refuted : ~ exists h others stored n, finalised_ethereum_block h others stored = Some n.
Proof.
  intros (h & o & s & n & H). unfold finalised_ethereum_block, exchange, serve, get_request in H. cbn [h_verb h_url] in H. rewrite route_url in H. discriminate.
Qed.

(** The worker sees the block its node has finalised, up to the largest u32. *)
Theorem C99_finalised_block h others stored : finalised_block h others stored = Some (N.min (h_finalised h) (2 ^ 32 - 1)).
Proof.
  unfold finalised_block, exchange, serve, get_request. cbn [h_verb h_url]. rewrite route_url. change (route GET (ascii_bytes "latest_finalised_block")) with (Some EFinalised).
  cbv iota. cbn [received]. change (200 =? 200) with true. cbv iota beta. unfold u32_of, finalised_answer. rewrite hex_roundtrip by apply CorroborateProps.le_bytes_bytes.
  pose proof (read_app 4 (le_bytes 4 (N.min (h_finalised h) U32_TOP)) [] (le_bytes_length _ _)) as R. rewrite app_nil_r in R.
  rewrite R. f_equal. apply le_value_bytes. unfold U32_TOP. change (256 ^ N.of_nat 4) with (2 ^ 32). lia.
Qed.
(** A root of a range is what the node computes for exactly this range, or an error. *)
Theorem C99_root h others stored from to r : (forall a b x, h_root h a b = Some x -> x < 2 ^ 256) ->
  compute_root_hash h others stored from to = Some r <-> from < 2 ^ 32 /\ to < 2 ^ 32 /\ h_root h from to = Some r.
Proof.
  intros RT. unfold compute_root_hash. destruct (N.leb_spec from U32_TOP) as [L1|L1], (N.leb_spec to U32_TOP) as [L2|L2]; cbn [andb]; unfold U32_TOP in *.
  2-4: split; [discriminate|intros; lia].
  unfold exchange, serve, get_request. cbn [h_verb h_url]. rewrite route_root. unfold roothash_answer. rewrite !C99_block_numbers by lia.
  destruct (h_root h from to) as [x|] eqn:E.
  - cbn [received]. change (200 =? 200) with true. cbv iota beta. unfold SummaryOcwModel.validate_response.
    rewrite hex_length, be_bytes_length. cbn [Nat.mul Nat.add Nat.eqb]. rewrite hex_roundtrip by apply be_bytes_bytes.
    change (be_value <$> Some (be_bytes 32 x)) with (Some (be_value (be_bytes 32 x))). rewrite ParseProofs.be_value_mod, N.mod_small by (specialize (RT _ _ _ E); exact RT).
    split; [intros [= ->]; split; [lia|split; [lia|done]]|intros (_ & _ & [= ->]); done].
  - cbn [received]. split; [discriminate|intros (_ & _ & ?); discriminate].
Qed.
(** A request for a signature on a hash gives a signature exactly if the token is by an AvN key of the node and the node has one usable Ethereum key;
    and then it is the signature by that key on that hash. *)
Theorem C99_signature h others stored sign hash token sig : NoDup (ks_files (h_keys h)).*1 ->
  (forall key d, length (cr_sign (h_crypto h) key d) = 65%nat /\ bytes (cr_sign (h_crypto h) key d)) ->
  bytes hash -> length hash = 32%nat -> sign hash = Some token -> bytes token -> length token = 64%nat ->
  sign_msg_hash h others stored sign hash = Some sig <->
  (exists avn, In avn (ks_avn (h_keys h)) /\ cr_verify (h_crypto h) avn hash token = true) /\
  (exists addr key, eth_key (h_keys h) addr key /\ cr_valid_key (h_crypto h) key = true /\ sig = cr_sign (h_crypto h) key hash).
Proof.
  intros ND SG Bh Lh ST Bt Lt. unfold sign_msg_hash. rewrite ST. unfold exchange, serve, post_request. cbn [h_verb h_url h_body h_auth].
  rewrite route_url. change (route POST (ascii_bytes "eth/sign_hashed_data")) with (Some ESign). cbv iota.
  pose proof (sign_request_iff (h_crypto h) (h_keys h) (hex_encode hash) (Some (hex_encode token))) as S.
  change (hex_encode <$> Some token) with (Some (hex_encode token)).
  destruct (sign_request (h_crypto h) (h_keys h) (hex_encode hash) (Some (hex_encode token))) as [text|e|]; cbn [ok received].
  - change (200 =? 200) with true. cbv iota beta. destruct (proj1 (S text ND) eq_refl) as (d & hd & addr & key & _ & Ed & _ & Eh & T & K & V & ->).
    rewrite hex_roundtrip in Ed by done. injection Ed as <-. injection Eh as <-.
    unfold signature_of. rewrite hex_roundtrip by apply SG. rewrite (proj1 (SG key hash)). cbn [Nat.eqb].
    destruct T as (t & avn & ET & I & VE). rewrite token_of_hex in ET by done. injection ET as <-.
    split.
    + intros [= <-]. split; [by exists avn|by exists addr, key].
    + intros (_ & addr' & key' & K' & V' & ->).
      assert (E : sign_request (h_crypto h) (h_keys h) (hex_encode hash) (Some (hex_encode token)) = Gives (hex_encode (cr_sign (h_crypto h) key hash))).
      { apply sign_request_iff; [done|]. exists hash, (hex_encode token), addr, key. rewrite hex_length, hex_roundtrip by done. split; [lia|]. repeat (split; [done|]). split; [|done]. exists token, avn. by rewrite token_of_hex. }
      apply (key_gives (h_keys h)) in K, K'; [|done..]. rewrite K in K'. by injection K' as _ ->.
  - split; [discriminate|]. intros ((avn & I & VE) & addr & key & K & V & ->).
    assert (Q : Refuses e = Gives (hex_encode (cr_sign (h_crypto h) key hash))); [|discriminate]. apply S; [done|].
    exists hash, (hex_encode token), addr, key. rewrite hex_length, hex_roundtrip by done. split; [lia|]. repeat (split; [done|]). split; [|done]. exists token, avn. by rewrite token_of_hex.
  - split; [discriminate|]. intros ((avn & I & VE) & addr & key & K & V & ->).
    assert (Q : Panics = Gives (hex_encode (cr_sign (h_crypto h) key hash))); [|discriminate]. apply S; [done|].
    exists hash, (hex_encode token), addr, key. rewrite hex_length, hex_roundtrip by done. split; [lia|]. repeat (split; [done|]). split; [|done]. exists token, avn. by rewrite token_of_hex.
Qed.
(** An order to send reaches the service as it was given, and is taken exactly if it is no larger than the service allows and the token is by an AvN key
    of the node; calls of views and queries arrive as they were meant. *)
Theorem C99_orders_arrive cr k stored from to data token : tx_typed (mkTx from to data None) -> bytes token -> length token = 64%nat ->
  let r := send_order stored from to data (Some token) in
  route (h_verb r) (url_path (h_url r)) = Some ESend /\
  forall t, admit_send cr k (h_body r) (h_auth r) = Gives t <->
    t = mkTx from to data None /\ N.of_nat (length (h_body r)) <= 100000 /\
    exists avn, In avn (ks_avn k) /\ cr_verify cr avn (proof_data from to data) token = true.
Proof.
  intros T B L r. split. { unfold r, send_order, ethereum_call, post_request. cbn [h_verb h_url]. rewrite route_url. reflexivity. }
  intros t. unfold r, send_order, ethereum_call, post_request. cbn [h_body h_auth]. change (hex_encode <$> Some token) with (Some (hex_encode token)).
  unfold admit_send, MAX_BODY_SIZE. destruct (N.ltb_spec 100000 (N.of_nat (length (encode_tx (mkTx from to data None))))) as [G|G].
  { split; [discriminate|]. intros (_ & G' & _). lia. }
  pose proof (tx_roundtrip (mkTx from to data None) [] T) as R. rewrite app_nil_r in R. rewrite R. cbn [or_refuse obind tx_from tx_to tx_data].
  unfold validate_token. cbn [or_refuse obind]. rewrite token_of_hex by done. cbn [or_refuse obind]. unfold authenticated.
  destruct (existsb (fun key => cr_verify cr key (proof_data from to data) token) (ks_avn k)) eqn:E; cbn [obind].
  - split.
    + intros [= <-]. split; [done|]. split; [done|]. apply existsb_exists in E as (a & I & V). by exists a.
    + by intros (-> & _).
  - split; [discriminate|]. intros (_ & _ & a & I & V). assert (X : existsb (fun key => cr_verify cr key (proof_data from to data) token) (ks_avn k) = true); [|congruence].
    apply existsb_exists. by exists a.
Qed.
Theorem C99_views_arrive stored from to data block : tx_typed (mkTx from to data block) ->
  let r := ethereum_call stored "view" from to data block None in
  route (h_verb r) (url_path (h_url r)) = Some EView /\
  (N.of_nat (length (h_body r)) <= 100000 -> admit_view (h_body r) = Gives (mkTx from to data block)).
Proof.
  intros T r. split. { unfold r, ethereum_call, post_request. cbn [h_verb h_url]. rewrite route_url. reflexivity. }
  unfold r, ethereum_call, post_request. cbn [h_body]. intros G. unfold admit_view, MAX_BODY_SIZE.
  destruct (N.ltb_spec 100000 (N.of_nat (length (encode_tx (mkTx from to data block))))) as [G'|G']; [lia|].
  pose proof (tx_roundtrip (mkTx from to data block) [] T) as R. rewrite app_nil_r in R. by rewrite R.
Qed.
Theorem C99_queries_arrive stored sender contract hash kind : sender < 2 ^ 256 -> contract < 2 ^ 160 -> hash < 2 ^ 256 ->
  (let r := fetch_event stored contract hash in
   route (h_verb r) (url_path (h_url r)) = Some EQuery /\ admit_query (h_body r) = Gives (hash, TransactionReceipt)) /\
  (let r := ethereum_call stored "query" sender contract (encode_query hash kind) None None in
   route (h_verb r) (url_path (h_url r)) = Some EQuery /\ admit_query (h_body r) = Gives (hash, kind)).
Proof.
  intros S C H.
  assert (A : forall f q, f < 2 ^ 256 -> admit_query (encode_tx (mkTx f contract (encode_query hash q) None)) = Gives (hash, q)).
  { intros f q F. assert (LQ : length (encode_query hash q) = 33%nat) by (unfold encode_query; rewrite app_length, be_bytes_length; done).
    assert (T : tx_typed (mkTx f contract (encode_query hash q) None)).
    { split; [exact F|]. split; [exact C|]. cbn [tx_data tx_block]. split; [|split; [rewrite LQ; done|done]].
      unfold encode_query. apply Forall_app. split; [apply be_bytes_bytes|]. destruct q; repeat constructor; lia. }
    pose proof (tx_length _ T) as LT. cbn [tx_data] in LT. rewrite LQ in LT.
    unfold admit_query, admit_view, MAX_BODY_SIZE. destruct (N.ltb_spec 100000 (N.of_nat (length (encode_tx (mkTx f contract (encode_query hash q) None))))) as [G|G]; [lia|].
    pose proof (tx_roundtrip _ [] T) as R. rewrite app_nil_r in R. rewrite R. cbn [or_refuse obind tx_data].
    pose proof (query_roundtrip hash q [] H) as Q. rewrite app_nil_r in Q. by rewrite Q. }
  split; (split; [unfold fetch_event, ethereum_call, post_request; cbn [h_verb h_url]; rewrite route_url; reflexivity|]).
  - unfold fetch_event, post_request. cbn [h_body]. apply A. lia.
  - unfold ethereum_call, post_request. cbn [h_body]. by apply A.
Qed.
(** Whatever answers, only the hexadecimal of 65 bytes is taken for a signature. *)
Theorem C99_only_whole_signatures answer sig : signature_of answer = Some sig <-> hex_decode answer = Some sig /\ length answer = 130%nat.
Proof.
  unfold signature_of. destruct (hex_decode answer) as [b|] eqn:E; [|by split; [|intros [? _]]].
  destruct (hex_decode_bytes _ _ E) as [_ L]. destruct (Nat.eqb_spec (length b) 65) as [H|H]; split.
  - intros [= <-]. split; [done|lia].
  - intros [[= <-] _]. done.
  - done.
  - intros [_ ?]. lia.
Qed.
(** Only a response with status 200 counts, and it is taken as it is. *)
Theorem C99_only_200 t b : received t = Some b <-> t = Response 200 b.
Proof.
  destruct t as [| |c x]; cbn [received]; [done|done|]. destruct (N.eqb_spec c 200) as [->|NE]; split; intros [=]; congruence.
Qed.

(** A node with the keys of C66: its worker gets the signature of its Ethereum key on hash 3, and the root and block of its node. *)
Definition some_host : host := mkHost 700 some_keys some_crypto (fun a b => if a <=? b then Some (a + b) else None).
Definition no_others : endpoint -> http_request -> transfer := fun _ _ => NoResponse.
Example C99_examples : let stored := stored_port true (Some (ascii_bytes "2040")) None in
  finalised_block some_host no_others stored = Some 700 /\
  compute_root_hash some_host no_others stored 1 30 = Some 31 /\ compute_root_hash some_host no_others stored 30 1 = None /\
  (exists a, exchange some_host no_others (post_request stored (ascii_bytes "eth/sign_hashed_data") (hex_encode (digest 3)) (Some token_bytes)) = Some a /\
             hex_decode a = Some (digest 9 ++ digest 3)) /\
  sign_msg_hash some_host no_others stored (fun _ => None) (digest 3) = None.
Proof.
  split; [vm_compute; reflexivity|]. split; [vm_compute; reflexivity|]. split; [vm_compute; reflexivity|]. split; [|reflexivity].
  eexists. split; vm_compute; reflexivity.
Qed.
(** The hypotheses of [C99_signature] are met: a node whose cryptography gives signatures of 65 bytes. *)
Definition long_crypto : crypto := mkCrypto (cr_verify some_crypto) (cr_valid_key some_crypto) (fun key d => be_bytes 65 (be_value (key ++ d))).
Example C99_signature_example : let h := mkHost 700 some_keys long_crypto (fun _ _ => None) in
  (forall key d, length (cr_sign (h_crypto h) key d) = 65%nat /\ bytes (cr_sign (h_crypto h) key d)) /\ bytes token_bytes /\ length token_bytes = 64%nat /\
  sign_msg_hash h no_others None (fun _ => Some token_bytes) (digest 3) = Some (0 :: digest 9 ++ digest 3) /\
  sign_msg_hash h no_others None (fun _ => Some token_bytes) (digest 4) = None.
Proof.
  intros h. split. { intros key d. split; [apply be_bytes_length|apply be_bytes_bytes]. }
  split; [apply be_bytes_bytes|]. split; [apply be_bytes_length|]. split; vm_compute; reflexivity.
Qed.
Example C99_orders_example : tx_typed (mkTx 11 12 [1; 2; 3] None) /\
  admit_send some_crypto some_keys (h_body (send_order None 11 12 [1; 2; 3] (Some token_bytes))) (h_auth (send_order None 11 12 [1; 2; 3] (Some token_bytes))) = Gives order.
Proof. split; [|vm_compute; reflexivity]. split; [done|]. split; [done|]. split; [repeat constructor; lia|]. split; [done|]. done. Qed.
