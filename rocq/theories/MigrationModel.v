(** Runtime upgrades: the migrations that run once when the code of the chain is replaced.  They work on raw storage: the bytes
    in it were written by older code, with older types, so a stored value is a list of bytes here and every read decodes it.
    Weights and log messages are not modelled. *)
From Verif Require Import Base AvnModel CodecModel ScaleModel.
From Verif Require SummaryModel.

(** ** The storage types of the bridge pallet (pallets/eth-bridge/src/types.rs, src/migration.rs:15-91) *)

Definition TU8s (m : N) : ty := TVec m (TInt 1).
(** lib.rs:137-143: limits of 32 characters for a function name, 50 for a caller id, 5 parameters, 7 for a type, 130 for a value. *)
Definition params_t : ty := TVec 5 (TPair (TU8s 7) (TU8s 130)).
(** types.rs:34-40 [SendRequestData]: tx id, function name, parameters, caller id.  The same in all versions. *)
Definition send_t : ty := TPair (TInt 4) (TPair (TU8s 32) (TPair params_t (TU8s 50))).
(** types.rs:87-93 [LowerProofRequestData], migration.rs:71-76 [LegacyLowerProofRequestData]: lower id, parameters in [n] bytes, caller id. *)
Definition lower_t (n : nat) : ty := TPair (TInt 4) (TPair (TBytes n) (TU8s 50)).
(** types.rs:11-15 [Request] ([n] = 116), migration.rs:78-82 [LegacyRequest] ([n] = 76). *)
Definition request_t (n : nat) : ty := TEnum send_t (lower_t n).
(** types.rs:95-100 [ActiveConfirmation]: message hash, at most 100 signatures. *)
Definition conf_t : ty := TPair (TBytes 32) (TVec 100 (TBytes 65)).
Definition accounts_t : ty := TVec 100 (TBytes 32).
(** migration.rs:44-57 [ActiveEthTransactionV3]: function name, parameters, sender, expiry, transaction hash, the four lists of
    corroborations, whether it succeeded. *)
Definition tx3_t : ty :=
  TPair (TU8s 32) (TPair params_t (TPair (TBytes 32) (TPair (TInt 8) (TPair (TBytes 32)
    (TPair accounts_t (TPair accounts_t (TPair accounts_t (TPair accounts_t TBool)))))))).
(** types.rs:145-160 [ActiveEthTransaction]: the same, and the number of replays. *)
Definition tx_t : ty :=
  TPair (TU8s 32) (TPair params_t (TPair (TBytes 32) (TPair (TInt 8) (TPair (TBytes 32)
    (TPair accounts_t (TPair accounts_t (TPair accounts_t (TPair accounts_t (TPair TBool (TInt 2)))))))))).
(** types.rs:112-119 [ActiveRequestData], migration.rs:34-41 [ActiveRequestDataV3], migration.rs:63-69 [LegacyActiveRequestData]:
    request, confirmations, transaction if any, block of the last update. *)
Definition active_t (n : nat) (tx : ty) : ty := TPair (request_t n) (TPair conf_t (TPair (TOpt tx) (TInt 4))).
(** The queue, of at most [m] requests ([MaxQueuedTxRequests]). *)
Definition queue_t (m : N) (n : nat) : ty := TVec m (request_t n).
(** migration.rs:19-24 [v2::ActiveEthRange]: start block, length, partition, filter (a set of at most 20 event types); types.rs:188-194
    [ActiveEthRange]: also the additional transactions (at most 16). *)
Definition range2_t : ty := TPair (TPair (TInt 4) (TInt 4)) (TPair (TInt 2) (TU8s 20)).
Definition range_t : ty := TPair (TPair (TInt 4) (TInt 4)) (TPair (TInt 2) (TPair (TU8s 20) (TVec 16 (TBytes 32)))).

(** The items of the bridge pallet that its migrations touch. *)
Record bridge := mkBridge {
  b_version : N;                        (* the on-chain storage version *)
  b_range_size : option (list N);       (* EthBlockRangeSize *)
  b_range : option (list N);            (* ActiveEthereumRange *)
  b_active : option (list N);           (* ActiveRequest *)
  b_queue : option (list N) }.          (* RequestQueue *)
#[export] Instance eta_bridge : Settable _ := settable! mkBridge <b_version; b_range_size; b_range; b_active; b_queue>.

(** [StorageValue::translate] (frame-support): nothing stored stays nothing; a value that does not decode is an error and stays. *)
Definition translate_value (t u : ty) (f : den t -> den u) (raw : option (list N)) : option (list N) :=
  match raw with
  | None => None
  | Some b => match dec t b with Some (x, _) => Some (enc u (f x)) | None => Some b end
  end.
(** lib.rs:305-308: [EthBlockRangeSize], 20 if there is none. *)
Definition range_size (s : bridge) : N := default 20 (read (TInt 4) (b_range_size s)).

(** lib.rs:153,155. *)
Definition DEFAULT_RANGE : N := 20.
Definition BRIDGE_VERSION : N := 5.
(** migration.rs:164-180 [set_block_range_size]. *)
Definition set_block_range_size (s : bridge) : bridge := s <| b_range_size := Some (enc (TInt 4) DEFAULT_RANGE) |>.
(** migration.rs:182-200 [migrate_to_v3]; [take] leaves a value that does not decode. *)
Definition migrate_to_v3 (s : bridge) : bridge :=
  let s := match read range2_t (b_range s) with
           | Some (r, (p, f)) => s <| b_range := Some (enc range_t (r, (p, (f, [])))) |>
           | None => s
           end in
  s <| b_version := 3 |>.
(** migration.rs:207-222: the new field is zero. *)
Definition tx_v4 (x : den tx3_t) : den tx_t :=
  let '(fn, (ps, (sender, (expiry, (hash, (c1, (c2, (c3, (c4, ok))))))))) := x in
  (fn, (ps, (sender, (expiry, (hash, (c1, (c2, (c3, (c4, (ok, 0)))))))))).
(** migration.rs:202-245 [migrate_to_v4].  Note the type read: the request in it is the current one, with 116 bytes of parameters. *)
Definition active_v4 (x : den (active_t 116 tx3_t)) : den (active_t 116 tx_t) :=
  let '(req, (conf, (tx, upd))) := x in (req, (conf, (match tx with Some t => Some (tx_v4 t) | None => None end, upd))).
Definition migrate_to_v4 (s : bridge) : bridge :=
  s <| b_active := translate_value (active_t 116 tx3_t) (active_t 116 tx_t) active_v4 (b_active s) |> <| b_version := BRIDGE_VERSION |>.
(** migration.rs:259-266 [resize_lower_params_to_v5]. *)
Definition resize (p : list N) : list N := put 76 (repeat 0 40) (put 0 p (repeat 0 116)).
(** migration.rs:275-296, 334-353: a request; the fields of a request to send are copied. *)
Definition request_v5 (r : den (request_t 76)) : den (request_t 116) :=
  match r with
  | inr (id, (p, caller)) => inr (id, (resize p, caller))
  | inl (id, (fn, (ps, caller))) => inl (id, (fn, (ps, caller)))
  end.
(** migration.rs:268-317 [migrate_active_request_to_v5]. *)
Definition active_v5 (x : den (active_t 76 tx_t)) : den (active_t 116 tx_t) :=
  let '(req, (conf, (tx, upd))) := x in (request_v5 req, (conf, (tx, upd))).
(** migration.rs:326-358: [try_push] drops an element beyond the bound. *)
Definition try_push {A} (m : N) (l : list A) (x : A) : list A := if N.of_nat (length l) <? m then l ++ [x] else l.
Definition queue_v5 (m : N) (q : list (den (request_t 76))) : list (den (request_t 116)) :=
  fold_left (fun acc r => try_push m acc (request_v5 r)) q [].
(** migration.rs:247-257 [migrate_to_v5], 319-365 [migrate_request_queue_to_v5]. *)
Definition migrate_to_v5 (m : N) (s : bridge) : bridge :=
  s <| b_active := translate_value (active_t 76 tx_t) (active_t 116 tx_t) active_v5 (b_active s) |>
    <| b_queue := translate_value (queue_t m 76) (queue_t m 116) (queue_v5 m) (b_queue s) |>
    <| b_version := BRIDGE_VERSION |>.
(** migration.rs:94-124 [EthBridgeMigrations::on_runtime_upgrade]: the version is read once, at the beginning. *)
Definition bridge_upgrade (m : N) (s : bridge) : bridge :=
  let onchain := b_version s in
  let s := if range_size s =? 0 then set_block_range_size s else s in
  let s := if onchain <? 3 then migrate_to_v3 s else s in
  let s := if (onchain <? 4) && ((BRIDGE_VERSION =? 4) || (BRIDGE_VERSION =? 5)) then migrate_to_v4 s else s in
  if (onchain <=? 4) && (BRIDGE_VERSION =? 5) then migrate_to_v5 m s else s.
(** migration.rs:131-161 [post_upgrade], the check under try-runtime: true when it succeeds. *)
Definition tail_zero (p : list N) : bool := forallb (fun b => b =? 0) (slice 76 116 p).
Definition request_checked (r : den (request_t 116)) : bool := match r with inr (_, (p, _)) => tail_zero p | inl _ => true end.
Definition bridge_post_upgrade (m : N) (s : bridge) : bool :=
  negb (range_size s =? 0) &&
  (if b_version s =? 5 then
     match read (queue_t m 116) (b_queue s) with Some q => forallb request_checked q | None => true end &&
     match read (active_t 116 tx_t) (b_active s) with Some (r, _) => request_checked r | None => true end
   else true).

(** ** The lowers of the token pallet (pallets/token-manager/src/migration.rs) *)

(** token-manager/src/lib.rs:1201-1205 [LowerProofData] ([n] = 116), migration.rs:27-31 [LowerProofDataV1] ([n] = 76). *)
Definition proof_t (n : nat) : ty := TPair (TBytes n) (TU8s 10000).
Record lowers := mkLowers {
  t_version : N;
  t_period : option (list N);              (* LowerSchedulePeriod *)
  t_failed : gmap N (list N);              (* FailedLowerProofs, by lower id *)
  t_pending : gmap N (list N);             (* LowersPendingProof *)
  t_ready : gmap N (list N) }.             (* LowersReadyToClaim *)
#[export] Instance eta_lowers : Settable _ := settable! mkLowers <t_version; t_period; t_failed; t_pending; t_ready>.
(** [StorageMap::translate] (frame-support): every entry; one that does not decode stays. *)
Definition translate_map (t u : ty) (f : den t -> den u) (m : gmap N (list N)) : gmap N (list N) :=
  (fun b => match dec t b with Some (x, _) => enc u (f x) | None => b end) <$> m.
(** lib.rs:359: no value reads as zero. *)
Definition lower_period (s : lowers) : N := default 0 (read (TInt 4) (t_period s)).
(** migration.rs:34-38 [expand_lower_v1_to_v2]. *)
Definition expand (p : list N) : list N := put 0 p (repeat 0 116).
Definition LOWER_PERIOD : N := 3275.
Definition TOKEN_VERSION : N := 2.
(** migration.rs:40-60 [set_lower_schedule_period]. *)
Definition set_lower_period (s : lowers) : lowers :=
  s <| t_period := Some (enc (TInt 4) LOWER_PERIOD) |> <| t_version := TOKEN_VERSION |>.
(** migration.rs:62-103 [translate_lower_data]. *)
Definition translate_lowers (s : lowers) : lowers :=
  s <| t_failed := translate_map (TBytes 76) (TBytes 116) expand (t_failed s) |>
    <| t_pending := translate_map (TBytes 76) (TBytes 116) expand (t_pending s) |>
    <| t_ready := translate_map (proof_t 76) (proof_t 116) (fun x => (expand x.1, x.2)) (t_ready s) |>
    <| t_version := TOKEN_VERSION |>.
(** migration.rs:107-133 [SetLowerSchedulePeriod::on_runtime_upgrade]. *)
Definition token_upgrade (s : lowers) : lowers :=
  let onchain := t_version s in
  let s := if onchain <? 1 then set_lower_period s else s in
  if onchain <? 2 then translate_lowers s else s.
(** migration.rs:142-162 [post_upgrade], given the period before ([pre_upgrade], 135-140): false when its assertion fails. *)
Definition token_post_upgrade (before : N) (s : lowers) : bool := if before =? 0 then before =? LOWER_PERIOD else true.

(** ** The keys of the validators pallet (pallets/validators-manager/src/migration.rs) *)

Record keys := mkKeys { k_version : N; k_owner : gmap N N (* EthereumPublicKeys *); k_key : gmap N N (* AccountIdToEthereumKeys *) }.
#[export] Instance eta_keys : Settable _ := settable! mkKeys <k_version; k_owner; k_key>.
(** lib.rs:429. *)
Definition KEYS_VERSION : N := 2.
(** migration.rs:59-74 [populate_reverse_map]; [order] is the order in which the storage iterates over the first table. *)
Definition populate (order : list (N * N)) (s : keys) : keys :=
  s <| k_key := fold_left (fun m e => <[e.2 := e.1]> m) order (k_key s) |> <| k_version := KEYS_VERSION |>.
(** migration.rs:12-33 [ValidatorsManagerMigrations::on_runtime_upgrade]. *)
Definition keys_upgrade (order : list (N * N)) (s : keys) : keys := if k_version s =? 1 then populate order s else s.
(** migration.rs:40-55 [post_upgrade]. *)
Definition keys_post_upgrade (s : keys) : bool :=
  (k_version s =? KEYS_VERSION) && forallb (fun e => bool_decide (k_key s !! e.2 = Some e.1)) (map_to_list (k_owner s)).

(** ** The summary pallet (pallets/summary/src/lib.rs:818-846 [on_runtime_upgrade]) *)
#[local] Existing Instance SummaryModel.etaSt.
(** [None]: the [expect] of line 839 panics.  Constants: lib.rs:66-67. *)
Definition summary_upgrade (version : N) (s : SummaryModel.st) : option (N * SummaryModel.st) :=
  if version <? 1 then
    match SummaryModel.s_validators s with
    | v :: _ => Some (1, s <| SummaryModel.s_next_slot_at := 28800 |> <| SummaryModel.s_schedule := 28800 |>
                           <| SummaryModel.s_voting := 25 |> <| SummaryModel.s_slot_validator := Some (v_account v) |>)
    | [] => None
    end
  else Some (version, s).
