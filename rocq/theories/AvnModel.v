(** Model of pallets/avn: the validator list, the quorum formulas, sender rotation and the
    signature check of unsigned validator transactions. *)
From Verif Require Import Base.

(** primitives/avn-common/src/event_types.rs:988-991 [struct Validator]: an account and the
    session (AuthorityId) key.  Account ids and keys are numbers. *)
Record validator := mkValidator { v_account : N; v_key : N }.
#[export] Instance etaValidator : Settable _ := settable! mkValidator <v_account; v_key>.

(** pallets/avn/src/lib.rs:873-875 [QuorumPolicy::required_for] for this chain.  The u32
    multiplication by two cannot overflow below 2^31 validators; that is not modelled. *)
Definition quorum_for (n : N) : N := n - n * 2 / 3.
(** pallets/avn/src/lib.rs:877-879 [required_for_supermajority]. *)
Definition supermajority_for (n : N) : N := n * 2 / 3.

(** primitives/avn-common/src/lib.rs:409-415: the trait's default formulas
    [(total * PERCENT + 99) / 100]. *)
Definition percent_quorum (percent total : N) : N := (total * percent + 99) / 100.

(** pallets/avn/src/lib.rs:881-889 [get_quorum], [get_supermajority_quorum]. *)
Definition avn_quorum (vs : list validator) : N := quorum_for (N.of_nat (length vs)).
Definition avn_supermajority (vs : list validator) : N := supermajority_for (N.of_nat (length vs)).

(** pallets/avn/src/lib.rs:449-451 [is_validator]. *)
Definition is_validator (vs : list validator) (a : N) : bool :=
  existsb (fun v => v_account v =? a) vs.

(** pallets/avn/src/lib.rs:458-463 [try_get_validator]: the first entry for the account. *)
Definition try_get_validator (vs : list validator) (a : N) : option validator :=
  List.find (fun v => v_account v =? a) vs.

(** pallets/avn/src/lib.rs:465-474 [remove_validator_from_active_list]: removes the first entry
    of the account, if any. *)
Fixpoint remove_validator (vs : list validator) (a : N) : list validator :=
  match vs with
  | [] => []
  | v :: r => if v_account v =? a then r else v :: remove_validator r a
  end.

(** pallets/avn/src/lib.rs:605-635 [on_new_session]: entries whose account is disabled are filtered
    out; the stored list is replaced only when [changed].  The call to [NewSessionHandler] is not
    modelled. *)
Definition on_new_session (disabled : N -> bool) (changed : bool) (incoming current : list validator)
  : list validator :=
  if changed then List.filter (fun v => negb (disabled (v_account v))) incoming else current.

(** pallets/avn/src/lib.rs:315-330 [advance_primary_validator_for_sending]: the stored index is a
    u8; [validators.len() as u8] wraps modulo 256, and a wrapped length of zero makes the remainder
    panic.  Returns the new index and the chosen account. *)
Definition advance_primary (vs : list validator) (index : N) : res (N * N) :=
  match vs with
  | [] => Err "NoValidatorsFound"
  | _ =>
    let len8 := N.of_nat (length vs) mod 256 in
    if len8 =? 0 then Err "panic: attempt to calculate the remainder with a divisor of zero"
    else
      let i := saturating_add U8_MAX index 1 mod len8 in
      match nth_error vs (N.to_nat i) with
      | Some v => Ok (i, v_account v)
      | None => Err "panic: index out of bounds"
      end
  end.

(** pallets/avn/src/lib.rs:277-293 [get_primary_validator_for_sending]: a stale index is reset to
    zero.  Returns the stored index after the call and the account. *)
Definition get_primary (vs : list validator) (index : N) : res (N * N) :=
  match vs with
  | [] => Err "NoValidatorsFound"
  | v0 :: _ =>
    if N.of_nat (length vs) <=? index then Ok (0, v_account v0)
    else match nth_error vs (N.to_nat index) with
         | Some v => Ok (index, v_account v)
         | None => Err "panic: index out of bounds"
         end
  end.

(** pallets/avn/src/lib.rs:332-347 [calculate_primary_validator_for_block] (also used with slot
    numbers by the summary pallet). *)
Definition primary_for_block (vs : list validator) (block : N) : res N :=
  match vs with
  | [] => Err "NoValidatorsFound"
  | _ => match nth_error vs (N.to_nat (block mod N.of_nat (length vs))) with
         | Some v => Ok (v_account v)
         | None => Err "panic: index out of bounds"
         end
  end.

(** [k] consecutive sender selections; the chosen accounts in order. *)
Fixpoint advance_n (k : nat) (vs : list validator) (index : N) : res (N * list N) :=
  match k with
  | O => Ok (index, [])
  | S k' =>
    match advance_primary vs index with
    | Err e => Err e
    | Ok (i, a) =>
      match advance_n k' vs i with
      | Err e => Err e
      | Ok (i', l) => Ok (i', a :: l)
      end
    end
  end.

(** pallets/avn/src/lib.rs:417-440 [signature_is_valid]: the named account must be a validator and
    the signature must verify under the key carried by the transaction's [validator] argument.
    [verify key data sig] stands for [RuntimeAppPublic::verify]; data and signatures are numbers. *)
Definition signature_is_valid (verify : N -> N -> N -> bool) (vs : list validator)
    (data : N) (v : validator) (sig : N) : bool :=
  if negb (is_validator vs (v_account v)) then false else verify (v_key v) data sig.

(** pallets/avn/src/vote.rs:38-52 [VotingSessionData] (the session id is dropped: it is a function
    of the subject). *)
Record session := mkSession {
  ss_threshold : N; ss_ayes : list N; ss_nays : list N; ss_end : N; ss_created : N }.
#[export] Instance etaSession : Settable _ :=
  settable! mkSession <ss_threshold; ss_ayes; ss_nays; ss_end; ss_created>.

(** vote.rs:54-66 [Default]. *)
Definition session_default : session := mkSession 0 [] [] 0 0.
(** vote.rs:68-83 [new]. *)
Definition session_new (threshold end_ created : N) : session := mkSession threshold [] [] end_ created.
(** vote.rs:85-88 [has_outcome]. *)
Definition has_outcome (s : session) : bool :=
  (ss_threshold s <=? N.of_nat (length (ss_ayes s))) || (ss_threshold s <=? N.of_nat (length (ss_nays s))).
(** vote.rs:91-93 [is_approved]. *)
Definition is_approved (s : session) : bool := ss_threshold s <=? N.of_nat (length (ss_ayes s)).
(** vote.rs:96-98 [has_voted]. *)
Definition has_voted (s : session) (a : N) : bool := memN a (ss_ayes s) || memN a (ss_nays s).

(** primitives/avn-common/src/lib.rs:72 [MaximumValidatorsBound]: bound on each vote vector. *)
Definition MAX_VALIDATORS : N := 256.
