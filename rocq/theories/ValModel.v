(** Model of pallets/validators-manager (lib.rs): registering and removing collators through Ethereum. *)
From Verif Require Import Base.

(** primitives/avn-common lib.rs:72 [MaximumValidatorsBound]; lib.rs:102 [MinimumValidatorCount]; [c_valid_key]: which
    compressed keys [decompress_eth_public_key] accepts. *)
Definition MAX_VALIDATORS : N := 256.
Record config := mkConfig { c_min : N; c_valid_key : N -> bool }.
(** lib.rs:331-360. [Unknown], [Slashed] and status [None] are never written. *)
Inductive status := Awaiting | Confirmed | Actioned.
Inductive kind := Registration | Resignation | Activation.
#[export] Instance status_eq : EqDecision status. Proof. solve_decision. Defined.
#[export] Instance kind_eq : EqDecision kind. Proof. solve_decision. Defined.
(** lib.rs:388-393 [ValidatorsActionData]. *)
Record action := mkAction { a_status : status; a_tx : N; a_kind : kind }.
#[export] Instance eta_action : Settable _ := settable! mkAction <a_status; a_tx; a_kind>.
(** What other pallets answer: session keys set, staking candidates, balances, least stake, whether the bridge takes
    requests, and whether joining with a deposit, scheduling to leave and leaving succeed (StakeModel.v models these). *)
Record env := mkEnv {
  e_session : gset N; e_candidates : gset N; e_free : gmap N N; e_min_stake : N; e_bridge : bool;
  e_join : N -> N -> bool; e_leave : N -> bool; e_exit : N -> bool }.
Inductive call := AddAuthor | RemoveAuthor.
(** Calls into staking made on a validator's behalf. *)
Inductive staking := Joined (who deposit : N) | Leaving (who : N) | Left_ (who : N).
(** lib.rs:186-235 storage; [s_next] is the bridge's next transaction id, [s_calls] what was published to Ethereum
    (transaction id, function, account, key), [s_staking] the staking calls made; latest first.  The list is [[]] where
    the storage value is absent: every use treats the two alike (ok_or / is_empty / mutate of Some). *)
Record st := mkSt {
  s_list : list N; s_actions : gmap (N * N) action; s_owner : gmap N N; s_key : gmap N N; s_ingress : N;
  s_deposits : gmap N N; s_txs : gmap N (N * N); s_env : env; s_next : N; s_calls : list (N * call * N * N); s_staking : list staking }.
#[export] Instance eta_st : Settable _ :=
  settable! mkSt <s_list; s_actions; s_owner; s_key; s_ingress; s_deposits; s_txs; s_env; s_next; s_calls; s_staking>.

(** lib.rs:497-513 [has_any_active_action], [action_state_is_active]. *)
Definition is_active (a : action) : bool := match a_status a with Awaiting | Confirmed => true | Actioned => false end.
Definition any_active (s : st) : bool := existsb (fun x => is_active x.2) (map_to_list (s_actions s)).
(** lib.rs:449-481 [validate_validator_registration_request]. *)
Definition validate_registration (a k : N) : M st unit :=
  s <-- get_st ;;
  ensure (negb (bool_decide (s_list s = []))) "NoValidators" ;;;
  ensure (negb (bool_decide (a ∈ s_list s))) "ValidatorAlreadyExists" ;;;
  ensure (bool_decide (s_owner s !! k = None)) "ValidatorEthKeyAlreadyExists" ;;;
  ensure (N.of_nat (length (s_list s)) <? MAX_VALIDATORS) "MaximumValidatorsReached" ;;;
  ensure (bool_decide (a ∈ e_session (s_env s))) "CandidateSessionKeysNotFound" ;;;
  ensure (negb (any_active s)) "ValidatorActionAlreadyInProgress".
(** lib.rs:483-495 [validate_validator_deregistration_request]. *)
Definition validate_deregistration (c : config) (a : N) : M st unit :=
  s <-- get_st ;;
  ensure (c_min c <? N.of_nat (length (s_list s))) "MinimumValidatorsReached" ;;;
  ensure (bool_decide (a ∈ s_list s)) "ValidatorNotFound" ;;;
  ensure (negb (any_active s)) "ValidatorActionAlreadyInProgress".
(** lib.rs:515-537 [validate_staking_preconditions]. *)
Definition validate_staking (a deposit : N) : M st unit :=
  s <-- get_st ;;
  ensure (negb (bool_decide (a ∈ e_candidates (s_env s)))) "AlreadyCandidate" ;;;
  ensure (e_min_stake (s_env s) <=? deposit) "DepositBelowMinimum" ;;;
  ensure (deposit <=? mget 0 a (e_free (s_env s))) "InsufficientBalance".
(** [BridgeInterface::publish] as seen from here: a fresh transaction id, or an error. *)
Definition publish (f : call) (a k : N) : M st N :=
  s <-- get_st ;;
  ensure (e_bridge (s_env s)) "ErrorSubmitCandidateTxnToTier1" ;;;
  modify (fun s => s <| s_next := s_next s + 1 |> <| s_calls := (s_next s, f, a, k) :: s_calls s |>) ;;; mret_ (s_next s).
(** lib.rs:617-640 and 686-709: the action and its transaction (the counter is a u64, not reduced here). *)
Definition record_action (a tx : N) (ty : kind) : M st unit :=
  modify (fun s => let i := s_ingress s + 1 in
    s <| s_ingress := i |> <| s_actions := <[(a, i) := mkAction Awaiting tx ty]> (s_actions s) |> <| s_txs := <[tx := (a, i)]> (s_txs s) |>).
(** lib.rs:583-643 [send_validator_registration_to_t1]. *)
Definition send_registration (c : config) (a k : N) : M st unit :=
  modify (fun s => s <| s_owner := <[k := a]> (s_owner s) |> <| s_key := <[a := k]> (s_key s) |>) ;;;
  ensure (c_valid_key c k) "InvalidPublicKey" ;;;
  tx <-- publish AddAuthor a k ;; record_action a tx Registration.
(** lib.rs:646-712 [send_validator_deregistration_to_t1]. *)
Definition send_deregistration (c : config) (a : N) : M st unit :=
  s <-- get_st ;;
  match s_key s !! a with
  | None => fail "ValidatorNotFound"
  | Some k =>
      ensure (c_valid_key c k) "InvalidPublicKey" ;;;
      tx <-- publish RemoveAuthor a k ;; record_action a tx Resignation
  end.
(** lib.rs:257-285 [add_collator]; root only, transactional. *)
Definition add_collator (c : config) (a k : N) (deposit : option N) : M st unit :=
  validate_registration a k ;;;
  s <-- get_st ;;
  let bond := match deposit with Some d => d | None => e_min_stake (s_env s) end in
  validate_staking a bond ;;;
  modify (fun s => s <| s_deposits := <[a := bond]> (s_deposits s) |>) ;;;
  send_registration c a k.
(** lib.rs:290-304 [remove_validator]; root only. *)
Definition remove_validator (c : config) (a : N) : M st unit := validate_deregistration c a ;;; send_deregistration c a.
(** lib.rs:309-336 [rotate_validator_ethereum_key]; root only. *)
Definition rotate_key (a old new : N) : M st unit :=
  s <-- get_st ;;
  ensure (bool_decide (s_owner s !! new = None)) "ValidatorEthKeyAlreadyExists" ;;;
  ensure (negb (old =? new)) "ValidatorEthKeyAlreadyExists" ;;;
  match s_owner s !! old with
  | None => fail "ValidatorNotFound"
  | Some a' => ensure (a' =? a) "ValidatorNotFound" ;;;
      modify (fun s => s <| s_owner := <[new := a']> (delete old (s_owner s)) |> <| s_key := <[a' := new]> (s_key s) |>)
  end.

(** lib.rs:441-447 [remove_ethereum_public_key_if_required]. *)
Definition drop_key (a : N) (s : st) : st :=
  match s_key s !! a with Some k => s <| s_owner := delete k (s_owner s) |> <| s_key := delete a (s_key s) |> | None => s end.
Definition set_action (p : N * N) (f : action -> action) (s : st) : st := s <| s_actions := alter f p (s_actions s) |>.
(** lib.rs:830-849 [cleanup_registration_storage]. *)
Definition cleanup_registration (p : N * N) (with_deposit : bool) (s : st) : st :=
  let s1 := drop_key p.1 s in
  let s2 := if with_deposit then s1 <| s_deposits := delete p.1 (s_deposits s1) |> else s1 in
  s2 <| s_actions := delete p (s_actions s2) |>.
(** lib.rs:714-729 [add_validator_to_staking], 731-785 [complete_validator_registration]; an error here undoes everything
    (see [Result] below), so the clean-up code on the error paths is not modelled. *)
Definition complete_registration (p : N * N) : M st unit :=
  s <-- get_st ;;
  ensure (N.of_nat (length (s_list s)) <? MAX_VALIDATORS) "MaximumValidatorsReached" ;;;
  let d := match s_deposits s !! p.1 with Some d => d | None => e_min_stake (s_env s) end in
  ensure (e_join (s_env s) p.1 d) "JoinFailed" ;;;
  modify (fun s => set_action p (fun x => x <| a_kind := Activation |> <| a_status := Actioned |>)
    (s <| s_list := s_list s ++ [p.1] |> <| s_deposits := delete p.1 (s_deposits s) |> <| s_staking := Joined p.1 d :: s_staking s |>)).
(** lib.rs:787-828 [complete_validator_deregistration]. *)
Definition complete_deregistration (p : N * N) : M st unit :=
  s <-- get_st ;;
  ensure (e_leave (s_env s) p.1) "LeaveFailed" ;;;
  modify (fun s => set_action p (fun x => x <| a_status := Actioned |>)
    (drop_key p.1 (s <| s_list := filter (fun v => v <> p.1) (s_list s) |> <| s_staking := Leaving p.1 :: s_staking s |>))).
(** lib.rs:886-906 [rollback_failed_validator_action]. *)
Definition rollback (p : N * N) (ty : kind) (s : st) : st :=
  match ty with Registration => cleanup_registration p true s | _ => s <| s_actions := delete p (s_actions s) |> end.
(** lib.rs:909-951 [process_result] for this pallet's own requests. *)
Definition process_result (tx : N) (succeeded : bool) : M st unit :=
  s <-- get_st ;;
  match s_txs s !! tx with
  | None => mret_ tt
  | Some p =>
      modify (fun s => s <| s_txs := delete tx (s_txs s) |>) ;;;
      match s_actions s !! p with
      | None => fail "ValidatorsActionDataNotFound"
      | Some x =>
          if negb succeeded then modify (rollback p (a_kind x))
          else match a_kind x with Registration => complete_registration p | Resignation => complete_deregistration p | Activation => mret_ tt end
      end
  end.
(** lib.rs:967-1031 [on_new_session]: one entry, with what the session reports; [None] stops the iteration. *)
Definition visit (active disabled : list N) (p : N * N) (s : st) : st * bool :=
  match s_actions s !! p with
  | None => (s, true)
  | Some x =>
      match a_status x, a_kind x with
      | Actioned, Resignation =>
          if bool_decide (p.1 ∈ active) || bool_decide (p.1 ∈ disabled) then (s, true)
          else if bool_decide (p.1 ∈ e_candidates (s_env s)) && e_exit (s_env s) p.1
          then (set_action p (fun x => x <| a_status := Confirmed |>) (s <| s_staking := Left_ p.1 :: s_staking s |>), true) else (s, true)
      | Actioned, Activation =>
          if bool_decide (p.1 ∈ active)
          then (set_action p (fun x => x <| a_status := Confirmed |>) s, bool_decide (is_Some (s_key s !! p.1))) else (s, true)
      | Confirmed, _ => (s <| s_actions := delete p (s_actions s) |>, true)
      | _, _ => (s, true)
      end
  end.
Fixpoint visit_all (active disabled : list N) (l : list (N * N)) (s : st) : st :=
  match l with
  | [] => s
  | p :: r => let '(s', go) := visit active disabled p s in if go then visit_all active disabled r s' else s'
  end.

(** ** Transactions and environment
    [Result]: a call that fails leaves nothing behind: successes are reported from add_corroboration (eth-bridge tx.rs:10-20,
    lib.rs:566), which then fails as a whole; failures are also reported where the outcome is ignored (lib.rs:1363,
    request.rs:70), but reporting a failure succeeds for every recorded transaction (C54_failure_accepted).
    [NewSession]: the entries are visited in any order without repetition. *)
Inductive op :=
| AddCollator (who : option N) (a k : N) (deposit : option N) | RemoveValidator (who : option N) (a : N) | RotateKey (who : option N) (a old new : N)
| Result (tx : N) (succeeded : bool) | NewSession (active disabled : list N) (order : list (N * N)) | Elsewhere (e : env) (next : N).
(** [who = None] is root. *)
Definition ensure_root (who : option N) : M st unit := ensure (bool_decide (who = None)) "BadOrigin".
Definition body (c : config) (o : op) : M st unit :=
  match o with
  | AddCollator who a k d => ensure_root who ;;; add_collator c a k d
  | RemoveValidator who a => ensure_root who ;;; remove_validator c a
  | RotateKey who a old new => ensure_root who ;;; rotate_key a old new
  | Result tx ok => process_result tx ok
  | NewSession active disabled order => modify (fun s => if bool_decide (NoDup order) then visit_all active disabled order s else s)
  | Elsewhere e next => modify (fun s => s <| s_env := e |> <| s_next := N.max (s_next s) next |>)
  end.
Definition accepted (c : config) (s : st) (o : op) : bool := match body c o s with (_, Ok _) => true | _ => false end.
Definition step (c : config) (s : st) (o : op) : st := match body c o s with (s', Ok _) => s' | _ => s end.
Definition run (c : config) (s : st) (l : list op) : st := fold_left (step c) l s.
(** lib.rs:237-263: genesis validators with their keys. *)
Definition genesis (l : list (N * N)) (e : env) (next : N) : st :=
  mkSt (map fst l) ∅ (list_to_map (map (fun x => (x.2, x.1)) l)) (list_to_map l) 0 ∅ ∅ e next [] [].
