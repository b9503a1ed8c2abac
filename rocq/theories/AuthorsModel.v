(** Model of pallets/authors-manager (lib.rs, migration.rs): authors are registered and removed through Ethereum, without staking.
    The pallet is in no runtime of the repository at this commit. *)
From Verif Require Import Base.

(** primitives/avn-common lib.rs:72 [MaximumValidatorsBound]; lib.rs:81-83 [MinimumAuthorsCount]; [c_valid_key]: which compressed keys
    [decompress_eth_public_key] accepts; [c_iter]: the order in which storage iterates over the table of keys (by hash of the key). *)
Definition MAX_AUTHORS : N := 256.
Record config := mkConfig { c_min : N; c_valid_key : N -> bool; c_iter : gmap N N -> list (N * N) }.
(** lib.rs:336-386. [Unknown], [Slashed] and status [None] are never written. *)
Inductive status := Awaiting | Confirmed | Actioned.
Inductive kind := Registration | Resignation | Activation.
#[export] Instance status_eq : EqDecision status. Proof. solve_decision. Defined.
#[export] Instance kind_eq : EqDecision kind. Proof. solve_decision. Defined.
(** lib.rs:372-377 [AuthorsActionData]. *)
Record action := mkAction { a_status : status; a_tx : N; a_kind : kind }.
#[export] Instance eta_action : Settable _ := settable! mkAction <a_status; a_tx; a_kind>.
(** Elsewhere: who has set session keys, and whether the bridge takes requests. *)
Record env := mkEnv { e_session : gset N; e_bridge : bool }.
Inductive call := AddAuthor | RemoveAuthor.
(** lib.rs:184-222 storage: [s_owner] is EthereumPublicKeys, [s_key] AccountIdToEthereumKeys, [s_txs] TransactionToAction; [s_next] is the bridge's next
    transaction id, [s_calls] what was published to Ethereum (transaction id, function, account, key), latest first.  The list is [[]] where the storage value is
    absent: every use treats the two alike (an error, of another name, in the two validations). *)
Record st := mkSt {
  s_list : list N; s_actions : gmap (N * N) action; s_owner : gmap N N; s_key : gmap N N; s_ingress : N;
  s_txs : gmap N (N * N); s_env : env; s_next : N; s_calls : list (N * call * N * N) }.
#[export] Instance eta_st : Settable _ :=
  settable! mkSt <s_list; s_actions; s_owner; s_key; s_ingress; s_txs; s_env; s_next; s_calls>.

(** lib.rs:480-491 [has_any_active_action], [action_state_is_active]. *)
Definition is_active (a : action) : bool := match a_status a with Awaiting | Confirmed => true | Actioned => false end.
Definition any_active (s : st) : bool := existsb (fun x => is_active x.2) (map_to_list (s_actions s)).
(** lib.rs:431-463 [validate_author_registration_request]; [ValidatorIdOf] is total. *)
Definition validate_registration (a k : N) : M st unit :=
  s <-- get_st ;;
  ensure (negb (bool_decide (s_list s = []))) "NoAuthors" ;;;
  ensure (negb (bool_decide (a ∈ s_list s))) "AuthorAlreadyExists" ;;;
  ensure (bool_decide (s_owner s !! k = None)) "AuthorEthKeyAlreadyExists" ;;;
  ensure (N.of_nat (length (s_list s)) <? MAX_AUTHORS) "MaximumAuthorsReached" ;;;
  ensure (bool_decide (a ∈ e_session (s_env s))) "AuthorSessionKeysNotSet" ;;;
  ensure (negb (any_active s)) "ValidatorActionAlreadyInProgress".
(** lib.rs:465-480 [validate_author_deregistration_request]. *)
Definition validate_deregistration (c : config) (a : N) : M st unit :=
  s <-- get_st ;;
  ensure (c_min c <? N.of_nat (length (s_list s))) "MinimumAuthorsReached" ;;;
  ensure (bool_decide (a ∈ s_list s)) "AuthorNotFound" ;;;
  ensure (negb (any_active s)) "ValidatorActionAlreadyInProgress".
(** [BridgeInterface::publish] as seen from here: a fresh transaction id, or an error. *)
Definition publish (f : call) (a k : N) : M st N :=
  s <-- get_st ;;
  ensure (e_bridge (s_env s)) "ErrorSubmitCandidateTxnToTier1" ;;;
  modify (fun s => s <| s_next := s_next s + 1 |> <| s_calls := (s_next s, f, a, k) :: s_calls s |>) ;;; mret_ (s_next s).
(** lib.rs:532-549 and 601-618: the action and its transaction (the counter is a u64, not reduced here). *)
Definition record_action (a tx : N) (ty : kind) : M st unit :=
  modify (fun s => let i := s_ingress s + 1 in
    s <| s_ingress := i |> <| s_actions := <[(a, i) := mkAction Awaiting tx ty]> (s_actions s) |> <| s_txs := <[tx := (a, i)]> (s_txs s) |>).
(** lib.rs:494-558 [send_author_registration_to_t1]. *)
Definition send_registration (c : config) (a k : N) : M st unit :=
  modify (fun s => s <| s_owner := <[k := a]> (s_owner s) |> <| s_key := <[a := k]> (s_key s) |>) ;;;
  ensure (c_valid_key c k) "InvalidPublicKey" ;;;
  tx <-- publish AddAuthor a k ;; record_action a tx Registration.
(** lib.rs:561-627 [send_author_deregistration_to_t1]. *)
Definition send_deregistration (c : config) (a : N) : M st unit :=
  s <-- get_st ;;
  match s_key s !! a with
  | None => fail "AuthorNotFound"
  | Some k =>
      ensure (c_valid_key c k) "InvalidPublicKey" ;;;
      tx <-- publish RemoveAuthor a k ;; record_action a tx Resignation
  end.
(** lib.rs:254-271 [add_author]; root only, transactional. *)
Definition add_author (c : config) (a k : N) : M st unit := validate_registration a k ;;; send_registration c a k.
(** lib.rs:273-289 [remove_author]; root only. *)
Definition remove_author (c : config) (a : N) : M st unit := validate_deregistration c a ;;; send_deregistration c a.
(** lib.rs:291-318 [rotate_author_ethereum_key]; root only.  The table from accounts to keys is not written. *)
Definition rotate_key (a old new : N) : M st unit :=
  s <-- get_st ;;
  ensure (bool_decide (s_owner s !! new = None)) "AuthorEthKeyAlreadyExists" ;;;
  ensure (negb (old =? new)) "AuthorEthKeyAlreadyExists" ;;;
  match s_owner s !! old with
  | None => fail "AuthorNotFound"
  | Some a' => ensure (a' =? a) "AuthorNotFound" ;;;
      modify (fun s => s <| s_owner := <[new := a']> (delete old (s_owner s)) |>)
  end.

(** lib.rs:417-422 [get_ethereum_public_key_if_exists]: the first of the account's keys in the order of the storage. *)
Definition first_key (c : config) (a : N) (s : st) : option N := fst <$> List.find (fun x => x.2 =? a) (c_iter c (s_owner s)).
(** lib.rs:424-429 [remove_ethereum_public_key_if_required].  The table from accounts to keys is not written. *)
Definition drop_key (c : config) (a : N) (s : st) : st :=
  match first_key c a s with Some k => s <| s_owner := delete k (s_owner s) |> | None => s end.
Definition set_action (p : N * N) (f : action -> action) (s : st) : st := s <| s_actions := alter f p (s_actions s) |>.
(** lib.rs:652-661 [cleanup_registration_storage]. *)
Definition cleanup_registration (p : N * N) (s : st) : st :=
  let s1 := match s_key s !! p.1 with Some k => s <| s_owner := delete k (s_owner s) |> <| s_key := delete p.1 (s_key s) |> | None => s end in
  s1 <| s_actions := delete p (s_actions s1) |>.
(** lib.rs:663-699 [complete_author_registration]; an error undoes everything (see [Result] below), so the clean-up on the error path is not modelled. *)
Definition complete_registration (p : N * N) : M st unit :=
  s <-- get_st ;;
  ensure (N.of_nat (length (s_list s)) <? MAX_AUTHORS) "MaximumAuthorsReached" ;;;
  modify (fun s => set_action p (fun x => x <| a_kind := Activation |> <| a_status := Actioned |>) (s <| s_list := s_list s ++ [p.1] |>)).
(** lib.rs:701-724 [complete_author_deregistration]. *)
Definition complete_deregistration (c : config) (p : N * N) : M st unit :=
  modify (fun s => set_action p (fun x => x <| a_status := Actioned |>) (drop_key c p.1 (s <| s_list := filter (fun v => v <> p.1) (s_list s) |>))).
(** lib.rs:630-650 [rollback_failed_author_action]. *)
Definition rollback (p : N * N) (ty : kind) (s : st) : st :=
  match ty with Registration => cleanup_registration p s | _ => s <| s_actions := delete p (s_actions s) |> end.
(** lib.rs:841-874 [process_result] for this pallet's own requests. *)
Definition process_result (c : config) (tx : N) (succeeded : bool) : M st unit :=
  s <-- get_st ;;
  match s_txs s !! tx with
  | None => mret_ tt
  | Some p =>
      modify (fun s => s <| s_txs := delete tx (s_txs s) |>) ;;;
      match s_actions s !! p with
      | None => fail "AuthorsActionDataNotFound"
      | Some x =>
          if negb succeeded then modify (rollback p (a_kind x))
          else match a_kind x with Registration => complete_registration p | Resignation => complete_deregistration c p | Activation => mret_ tt end
      end
  end.
(** lib.rs:765-803 [on_new_session]: one entry, with what the session reports; lib.rs:739-763 [author_permanently_removed], [clean_up_author_data]. *)
Definition visit (c : config) (active disabled : list N) (s : st) (p : N * N) : st :=
  match s_actions s !! p with
  | None => s
  | Some x =>
      match a_status x, a_kind x with
      | Awaiting, Resignation =>
          if bool_decide (p.1 ∈ active) || bool_decide (p.1 ∈ disabled) then s
          else drop_key c p.1 (set_action p (fun x => x <| a_status := Confirmed |>) s)
      | Awaiting, Activation => set_action p (fun x => x <| a_status := Confirmed |>) s
      | _, _ => s
      end
  end.
(** lib.rs:805-831 [SessionManager::new_session]: the authors of the next session; [None] keeps the old ones. *)
Definition new_session (s : st) : option (list N) := match s_list s with [] => None | l => Some l end.

(** ** Transactions and environment
    [Result]: a call that fails leaves nothing behind (see ValModel.v).  [NewSession]: the entries are visited in any order without repetition. *)
Inductive op :=
| Add (who : option N) (a k : N) | Remove (who : option N) (a : N) | RotateKey (who : option N) (a old new : N)
| Result (tx : N) (succeeded : bool) | NewSession (active disabled : list N) (order : list (N * N)) | Elsewhere (e : env) (next : N).
(** [who = None] is root. *)
Definition ensure_root (who : option N) : M st unit := ensure (bool_decide (who = None)) "BadOrigin".
Definition body (c : config) (o : op) : M st unit :=
  match o with
  | Add who a k => ensure_root who ;;; add_author c a k
  | Remove who a => ensure_root who ;;; remove_author c a
  | RotateKey who a old new => ensure_root who ;;; rotate_key a old new
  | Result tx ok => process_result c tx ok
  | NewSession active disabled order => modify (fun s => if bool_decide (NoDup order) then fold_left (visit c active disabled) order s else s)
  | Elsewhere e next => modify (fun s => s <| s_env := e |> <| s_next := N.max (s_next s) next |>)
  end.
Definition accepted (c : config) (s : st) (o : op) : bool := match body c o s with (_, Ok _) => true | _ => false end.
Definition step (c : config) (s : st) (o : op) : st := match body c o s with (s', Ok _) => s' | _ => s end.
Definition run (c : config) (s : st) (l : list op) : st := fold_left (step c) l s.
(** lib.rs:233-247: genesis authors with their keys. *)
Definition genesis (l : list (N * N)) (e : env) (next : N) : st :=
  mkSt (map fst l) ∅ (list_to_map (map (fun x => (x.2, x.1)) l)) (list_to_map l) 0 ∅ e next [].

(** ** The upgrade *)
(** migration.rs:55-72 [populate_reverse_map], 13-31 [on_runtime_upgrade]; [version] is the stored version of the pallet's storage. *)
Definition upgrade (c : config) (version : N) (s : st) : N * st :=
  if version <? 1 then (1, s <| s_key := fold_left (fun m x => <[x.2 := x.1]> m) (c_iter c (s_owner s)) (s_key s) |>) else (version, s).
(** migration.rs:37-51 [post_upgrade] *)
Definition post_upgrade (c : config) (r : N * st) : bool :=
  (1 <=? r.1) && forallb (fun x => bool_decide (s_key r.2 !! x.2 = Some x.1)) (c_iter c (s_owner r.2)).
