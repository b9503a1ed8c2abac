(** C68: what an author reports about a transaction follows from what Ethereum says about it. *)
From Verif Require Import Base BaseLemmas CodecModel CodecProofs HttpModel HttpProofs ServiceModel ServiceProofs ServiceProofs2 CorroborateModel.
From Verif Require LogModel BridgeModel.

(** * Specification: what the Ethereum node says. *)
(** The bridge contract's [corroborate] answers an int8: 1 the transaction was executed, -1 it expired, 0 not known yet. *)
Inductive verdict := Executed | Expired | Unknown.
Definition word_of (v : verdict) : list N := match v with Executed => be_bytes 32 1 | Expired => repeat 255 32 | Unknown => be_bytes 32 0 end.
(** The bodies that the node's service then returns: the view result, and the call data of the transaction (none if the node does not know
    it; no block while it is pending) with the number of the latest block, read first. *)
Definition view_body (v : verdict) : list N := hex_encode (word_of v).
Definition query_body (current : N) (tx : option (list N * option N)) : list N := query_answer CallData current tx.
(** They are what the service answers. *)
Theorem C68_service_answers cr k s id t v : sv_crashed s = false -> sv_lock s = Some (Viewing id t) ->
  sv_responses (step cr k s (EthSays (CallResult (word_of v)))) = (id, Answer (view_body v)) :: sv_responses s.
Proof. intros C L. cbn. rewrite C. unfold on_answer. by rewrite L. Qed.
Theorem C68_service_answers_query cr k s id h current tx : sv_crashed s = false -> sv_lock s = Some (QueryBlock id h CallData) ->
  sv_responses (run cr k s [EthSays (Block current); EthSays (Data tx)]) = (id, Answer (query_body current tx)) :: sv_responses s.
Proof.
  intros C L. unfold run. cbn [fold_left]. unfold step at 2. rewrite C. unfold on_answer. rewrite L. cbn. rewrite C. done.
Qed.

(** * Confirmations *)
Theorem C68_confirmations current b : b <= current -> current < 2 ^ 64 -> confirmations current (Some b) = current - b.
Proof.
  intros H1 H2. unfold confirmations. assert (U64 = 2 ^ 64) as E by reflexivity. replace (current + U64 - b) with ((current - b) + 1 * U64) by lia.
  rewrite N.mod_add by (rewrite E; lia). apply N.mod_small. lia.
Qed.
(** Enough confirmations means that the transaction's block is that deep. *)
Theorem C68_depth current b m : b <= current -> current < 2 ^ 64 -> m <= confirmations current (Some b) <-> b + m <= current.
Proof. intros H1 H2. rewrite C68_confirmations by done. lia. Qed.
(** Refuted: ... also when the block came after the number of the latest block was read: the subtraction wraps, and a transaction mined
    just now has 2^64-1 confirmations. *)
Theorem C68_depth_refuted : ~ forall current b m, b < 2 ^ 64 -> current < 2 ^ 64 -> m <= confirmations current (Some b) -> b + m <= current.
Proof. intros H. specialize (H 100 101 20 ltac:(done) ltac:(done)). assert (20 <= confirmations 100 (Some 101)) as L by (vm_compute; discriminate). specialize (H L). lia. Qed.
(** Refuted: a transaction that is in no block has no confirmations. *)
Theorem C68_pending_refuted : ~ forall current, confirmations current None = 0.
Proof. intros H. by specialize (H 1). Qed.
Theorem C68_pending current : current < 2 ^ 64 -> confirmations current None = current.
Proof. intros H. unfold confirmations. assert (U64 = 2 ^ 64) as E by reflexivity. replace (current + U64 - 0) with (current + 1 * U64) by lia. rewrite N.mod_add by (rewrite E; lia). by apply N.mod_small. Qed.

(** * What the worker reads *)
Lemma word_bytes v : bytes (word_of v) /\ length (word_of v) = 32%nat.
Proof. split; [|by destruct v]. destruct v; [apply be_bytes_bytes| |apply be_bytes_bytes]. cbn [word_of]. apply Forall_forall. intros x I. apply elem_of_list_In, repeat_spec in I as ->. done. Qed.
Theorem C68_status_read v : tx_status (Some (view_body v)) = Ok (match v with Executed => Some true | Expired => Some false | Unknown => None end).
Proof. by destruct v; vm_compute. Qed.
(** Nothing else is taken for a verdict: a status is read only from 32 bytes that end in 1 or in 255, and any other answer of the contract,
    or none, reports nothing. *)
Theorem C68_status_only view b : tx_status view = Ok (Some b) <->
  exists text word last, view = Some text /\ hex_decode text = Some (word ++ [last]) /\ length word = 31%nat /\ last = (if b then 1 else 255).
Proof.
  unfold tx_status, corroborate_result. split.
  - destruct view as [text|]; [|done]. destruct (hex_decode text) as [w|] eqn:D; [|done]. destruct (Nat.eqb_spec (length w) 32) as [L|L]; [|done].
    destruct w as [|last word _] using rev_ind; [done|]. rewrite app_length in L. cbn [length] in L. rewrite nth_error_app2 by lia. replace (31 - length word)%nat with 0%nat by lia. cbn.
    intros H. exists text, word, last. split_and!; [done|done|lia|]. destruct (N.eqb_spec last 0); [done|]. destruct (N.eqb_spec last 1) as [->|]; [by injection H as <-|].
    destruct (N.eqb_spec last 255) as [->|]; [by injection H as <-|done].
  - intros (text & word & last & -> & -> & L & ->). rewrite app_length, L. change (Nat.eqb (31 + length [if b then 1 else 255]) 32) with true. cbn match. rewrite nth_error_app2 by lia. rewrite L. cbn. by destruct b.
Qed.
Theorem C68_no_status_no_report min hash expected view query : (forall b, tx_status view <> Ok (Some b)) -> corroborated (corroborate min hash expected view query) = None.
Proof. intros H. unfold corroborate. destruct (tx_status view) as [[b|]|]; [by destruct (H b)|done|done]. Qed.
Lemma scale_bytes_length d : (length (scale_bytes d) <= length d + 5)%nat.
Proof. unfold scale_bytes. rewrite app_length. unfold compact. repeat case_match; cbn; lia. Qed.
Lemma compact_bytes n : n < 2 ^ 32 -> bytes (compact n).
Proof.
  intros H. assert (LB : forall k m, bytes (le_bytes k m)).
  { induction k as [|k IH]; intros m; [constructor|]. cbn. constructor; [apply N.mod_lt; lia|apply IH]. }
  unfold compact. repeat case_match; try apply LB.
  - constructor; [|constructor]. apply N.ltb_lt in H0. cbn. lia.
  - constructor; [done|apply LB].
Qed.
Lemma scale_bytes_bytes d : bytes d -> N.of_nat (length d) < 2 ^ 32 -> bytes (scale_bytes d).
Proof. intros B L. unfold scale_bytes. apply bytes_app. split; [by apply compact_bytes|done]. Qed.
Lemma le_bytes_bytes k m : bytes (le_bytes k m).
Proof. revert m. induction k as [|k IH]; intros m; [constructor|]. cbn. constructor; [apply N.mod_lt; lia|apply IH]. Qed.
Theorem C68_query_read current data block : bytes data -> N.of_nat (length data) < 2 ^ 31 ->
  query_result (query_body current (Some (data, block))) = Some (hex_encode data, confirmations current block).
Proof.
  intros B L. unfold query_body, query_answer, query_response, query_result, encode_response.
  pose proof (scale_bytes_length data) as SL. assert (BS : bytes (scale_bytes data)) by (apply scale_bytes_bytes; [done|lia]).
  rewrite hex_roundtrip.
  2: { apply bytes_app. split; [apply scale_bytes_bytes; [done|lia]|apply le_bytes_bytes]. }
  pose proof (response_roundtrip (scale_bytes data) (confirmations current block) []) as R. unfold encode_response in R. rewrite app_nil_r in R.
  rewrite R; [|lia|].
  - pose proof (read_vec_app data []) as V. rewrite app_nil_r in V. by rewrite V by lia.
  - unfold confirmations. apply N.mod_lt. by vm_compute.
Qed.
Lemma hex_encode_inj a b : bytes a -> bytes b -> hex_encode a = hex_encode b -> a = b.
Proof. intros A B E. apply (f_equal hex_decode) in E. rewrite !hex_roundtrip in E by done. by injection E. Qed.

(** * C68: the report *)
(** An author reports exactly when the contract has decided, and: the transaction it was told of carries the expected call data and is deep
    enough (then: valid hash); or it was told of none, or of one with other call data (then: invalid hash). *)
Theorem C68_report_iff min_conf hash expected v current data block su hv :
  bytes expected -> bytes data -> N.of_nat (length data) < 2 ^ 31 ->
  corroborated (corroborate min_conf hash (Some expected) (Some (view_body v)) (Some (query_body current (Some (data, block))))) = Some (su, hv) <->
  ((v = Executed /\ su = true) \/ (v = Expired /\ su = false)) /\
  ((hv = true /\ hash <> 0 /\ data = expected /\ min_conf <= confirmations current block) \/
   (hv = false /\ (hash = 0 \/ data <> expected))).
Proof.
  intros Be Bd L. unfold corroborate. rewrite C68_status_read.
  assert (X : tx_hash_check hash (Some expected) (Some (query_body current (Some (data, block)))) =
    if hash =? 0 then Ok (false, None) else Ok (bool_decide (data = expected), Some (confirmations current block))).
  { unfold tx_hash_check. destruct (hash =? 0); [done|]. rewrite C68_query_read by done. f_equal. f_equal. apply bool_decide_ext.
    split; [intros E; symmetry; by apply hex_encode_inj|by intros ->]. }
  destruct v; [rewrite X|rewrite X|].
  3: { cbn. split; [discriminate|]. intros [[[E _]|[E _]] _]; discriminate. }
  all: destruct (N.eqb_spec hash 0) as [->|NZ]; cbn [andb].
  all: try (split; [intros [= <- <-]; split; [auto|]; right; auto|];
            intros [[[? ->]|[? ->]] [(-> & ? & _)|(-> & _)]]; done).
  all: destruct (bool_decide_reflect (data = expected)) as [->|NE]; cbn [andb].
  all: try (split; [intros [= <- <-]; split; [auto|]; right; auto|];
            intros [[[? ->]|[? ->]] [(-> & _ & ? & _)|(-> & _)]]; done).
  all: destruct (N.ltb_spec (confirmations current block) min_conf) as [Lt|Ge].
  all: try (split; [discriminate|]; intros [_ [(-> & _ & _ & ?)|(-> & [?|?])]]; [lia|done|done]).
  all: split; [intros [= <- <-]; split; [auto|]; left; auto|];
    intros [[[? ->]|[? ->]] [(-> & _)|(-> & [?|?])]]; done.
Qed.
(** A transaction that the node does not know counts as one with other call data. *)
Theorem C68_unknown_transaction min_conf hash expected v current : hash <> 0 -> expected <> [] -> bytes expected ->
  corroborated (corroborate min_conf hash (Some expected) (Some (view_body v)) (Some (query_body current None))) =
  match v with Executed => Some (true, false) | Expired => Some (false, false) | Unknown => None end.
Proof.
  intros NZ NE B. change (query_body current None) with (query_body current (Some ([], None))).
  assert (E : forall su hv, corroborated (corroborate min_conf hash (Some expected) (Some (view_body v)) (Some (query_body current (Some ([], None))))) = Some (su, hv) <->
    ((v = Executed /\ su = true) \/ (v = Expired /\ su = false)) /\
    ((hv = true /\ hash <> 0 /\ [] = expected /\ min_conf <= confirmations current None) \/ (hv = false /\ (hash = 0 \/ [] <> expected)))).
  { intros su hv. apply C68_report_iff; [done|constructor|done]. }
  destruct v; [by apply E; auto| apply E; auto|].
  destruct (corroborated _) as [[su hv]|]; [|done]. destruct (proj1 (E su hv) eq_refl) as [[[X _]|[X _]] _]; discriminate.
Qed.
(** Example: executed in block 100, seen at 120. *)
Example C68_report_example : corroborated (corroborate 20 7 (Some [1; 2]) (Some (view_body Executed)) (Some (query_body 120 (Some ([1; 2], Some 100))))) = Some (true, true).
Proof. by vm_compute. Qed.
Example C68_too_young_example : corroborated (corroborate 20 7 (Some [1; 2]) (Some (view_body Executed)) (Some (query_body 119 (Some ([1; 2], Some 100))))) = None.
Proof. by vm_compute. Qed.
(** Refuted: a result is reported only when the transaction is deep enough.  With an unknown or wrong hash no depth is asked for: the
    verdict of the latest block is reported at once, and a reorganisation of Ethereum can still change it. *)
Theorem C68_settled_only_refuted :
  ~ forall min_conf hash expected v current data block su hv, bytes expected -> bytes data -> N.of_nat (length data) < 2 ^ 31 -> 0 < min_conf ->
      corroborated (corroborate min_conf hash (Some expected) (Some (view_body v)) (Some (query_body current (Some (data, Some block))))) = Some (su, hv) ->
      block + min_conf <= current.
Proof.
  intros H. specialize (H 20 7 [1; 2] Executed 100 [3] 100 true false). enough (100 + 20 <= 100) by lia. apply H; try done; try (repeat constructor; done).
Qed.
(** With a valid hash, and a block that is not newer than the number read, it holds. *)
Theorem C68_settled_only_partial min_conf hash expected v current data block su :
  bytes expected -> bytes data -> N.of_nat (length data) < 2 ^ 31 -> block <= current -> current < 2 ^ 64 ->
  corroborated (corroborate min_conf hash (Some expected) (Some (view_body v)) (Some (query_body current (Some (data, Some block))))) = Some (su, true) ->
  block + min_conf <= current /\ data = expected /\ (su = true <-> v = Executed).
Proof.
  intros Be Bd L H1 H2 R. apply C68_report_iff in R as [R1 [(_ & _ & E & D)|[? _]]]; try done. apply C68_depth in D; try done.
  split; [done|]. split; [done|]. destruct R1 as [[-> ->]|[-> ->]]; done.
Qed.
(** No report without answers: a failed request reports nothing. *)
Theorem C68_no_answer min_conf hash expected view query : view = None \/ (query = None /\ hash <> 0) ->
  corroborated (corroborate min_conf hash expected view query) = None.
Proof.
  intros [->|[-> NZ]]; [done|]. unfold corroborate. destruct (tx_status view) as [[b|]|]; try done. unfold tx_hash_check.
  by destruct (N.eqb_spec hash 0).
Qed.
(** An Ethereum event is accepted for processing exactly when it is deep enough, under the same conditions on the numbers. *)
Theorem C68_event_depth min_conf bridge contracts id rc d addr current block : block <= current -> current < 2 ^ 64 ->
  LogModel.rc_readable rc = true -> LogModel.rc_success rc = true -> LogModel.rc_event rc = Some (addr, Some d) -> LogModel.contract_ok bridge contracts id.1 addr = true ->
  LogModel.rc_confirmations rc = confirmations current (Some block) ->
  LogModel.compute_result min_conf bridge contracts id (Some rc) = (if block + min_conf <=? current then (LogModel.ROk, d) else (LogModel.RYoung, 0)).
Proof.
  intros H1 H2 E1 E2 E3 E4 E5. unfold LogModel.compute_result. rewrite E1, E2, E3, E4, E5. cbn. rewrite C68_confirmations by done.
  destruct (N.leb_spec (block + min_conf) current); destruct (N.ltb_spec (current - block) min_conf); try done; lia.
Qed.
(** The worker submits a corroboration only with such a report, for a transaction that is active, of which it is not the sender, that was
    sent or has expired, and on which it has not reported yet. *)
Theorem C68_worker s me finalised signs sent locked answers id su hv attempt :
  BridgeModel.ocw s me finalised signs sent locked (corroborated answers) = BridgeModel.SubmitCorroboration id su hv attempt ->
  corroborated answers = Some (su, hv) /\
  exists a r t, (BridgeModel.s_active s = Some a) /\ BridgeModel.ac_req a = BridgeModel.RSend r /\ BridgeModel.ac_tx a = Some t /\
    id = BridgeModel.sr_id r /\ attempt = BridgeModel.tx_attempt t /\ me <> BridgeModel.tx_sender t /\
    BridgeModel.requires_corroboration t me = true /\
    (BridgeModel.tx_hash t <> 0 \/ BridgeModel.tx_expiry t < BridgeModel.s_time s) /\ BridgeModel.ac_updated a <= finalised.
Proof.
  unfold BridgeModel.ocw. destruct (BridgeModel.s_active s) as [a|] eqn:EA; [|discriminate].
  destruct (N.ltb_spec finalised (BridgeModel.ac_updated a)) as [|Fin]; [discriminate|].
  destruct (BridgeModel.ac_req a) as [r|r] eqn:ER.
  2: { destruct (BridgeModel.has_enough_confirmations s a); [discriminate|]. by destruct (memN _ _). }
  destruct (BridgeModel.ac_tx a) as [t|] eqn:ET; [|discriminate].
  destruct (N.eqb_spec me (BridgeModel.tx_sender t)) as [Me|Me]; cbn [negb andb].
  { destruct (_ && _); [by destruct locked|discriminate]. }
  destruct (BridgeModel.has_enough_confirmations s a); cbn [negb]; [|by destruct (memN _ _)].
  destruct (negb (BridgeModel.tx_hash t =? 0) || (BridgeModel.tx_expiry t <? BridgeModel.s_time s)) eqn:SE; [|discriminate].
  destruct (BridgeModel.requires_corroboration t me) eqn:RC; [|discriminate].
  destruct (corroborated answers) as [[su' hv']|]; [|discriminate]. intros [= <- <- <- <-]. split; [done|].
  exists a, r, t. split_and!; try done. apply orb_true_iff in SE as [SE|SE]; [left|right; lia]. intros E. rewrite E in SE. discriminate.
Qed.
(** A view request is answered from the latest block: the block it names is not used. *)
Theorem C68_view_ignores_block cr k s id t b : tx_typed t -> (forall v, b = Some v -> v < 2 ^ 32) -> sv_crashed s = false -> sv_lock s = None ->
  N.of_nat (length (encode_tx (mkTx (tx_from t) (tx_to t) (tx_data t) b))) <= 100000 ->
  sv_calls (step cr k s (Arrive id (View (encode_tx (mkTx (tx_from t) (tx_to t) (tx_data t) b))))) = (id, tx_to t, tx_data t) :: sv_calls s.
Proof.
  intros (T1 & T2 & T3 & T4 & T5) Hb C L Len. set (t' := mkTx (tx_from t) (tx_to t) (tx_data t) b). fold t' in Len.
  assert (D : decode_tx (encode_tx t') = Some t'). { rewrite <- (app_nil_r (encode_tx t')). by apply tx_roundtrip. }
  unfold step. rewrite C. unfold arrive, admit_view, MAX_BODY_SIZE. destruct (N.ltb_spec 100000 (N.of_nat (length (encode_tx t')))); [lia|].
  rewrite D. cbn [or_refuse settle]. rewrite L. done.
Qed.
