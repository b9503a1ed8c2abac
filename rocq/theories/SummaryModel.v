(** Model of pallets/summary (lib.rs, vote.rs, challenge.rs, utils.rs, types.rs): recording,
    voting on, approving and publishing of summary roots, slots, challenges, periods.
    The offchain worker (which only *submits* the transactions modelled here) is modelled in
    SummaryOcwModel.v. *)
From Verif Require Import Base AvnModel.

(** [RootRange] (primitives/avn-common/src/lib.rs:432-441): (from_block, to_block). *)
Notation range := (N * N)%type.
(** [RootId] (primitives/avn-common/src/lib.rs:443-456): range and ingress counter. *)
Notation root_id := (N * N * N)%type.

(** types.rs:8-19 [RootData]. *)
Record root_data := mkRootData {
  rd_hash : N; rd_added_by : option N; rd_validated : bool; rd_finalised : bool; rd_tx : option N }.
#[export] Instance etaRootData : Settable _ :=
  settable! mkRootData <rd_hash; rd_added_by; rd_validated; rd_finalised; rd_tx>.
(** types.rs:21-31 [RootData::new] *)
Definition root_data_new (h by_ : N) : root_data := mkRootData h (Some by_) false false None.
(** types.rs:33-43 [Default] *)
Definition root_data_default : root_data := mkRootData 0 None false false None.

(** types.rs:45-52 [ExternalValidationEnum]. *)
Inductive ext_status := ExtUnknown | ExtInProgress | ExtPendingAdmin | ExtAccepted | ExtRejected.
#[export] Instance ext_status_eq : EqDecision ext_status.
Proof. solve_decision. Defined.

(** Outcome of an external (watchtower) vote: [ProposalStatusEnum] reduced to what
    [on_voting_completed] distinguishes (lib.rs:1571-1573): expired, resolved passed, or other. *)
Inductive proposal_result := PExpired | PPassed | POther | PCancelled.

(** offence.rs:17-24 [SummaryOffenceType]. *)
Inductive offence_kind := SlotNotAdvanced | NoSummaryCreated | RejectedValidRoot | CreatedInvalidRoot | ApprovedInvalidRoot.

(** The deposited events (lib.rs:131-210) that the properties observe, and the successful calls of
    [BridgeInterface::publish] ([EvPublished]) and insertions into [AnchorRoots] ([EvAnchored]).
    [EvOffence] is a call of [create_and_report_summary_offence] (offence.rs:74-112); whether the
    offence pallet already knows the offence is not modelled. *)
Inductive event :=
| EvSummaryCalculated (rid : root_id) (hash : N) (by_ : N)
| EvVoteAdded (voter : N) (rid : root_id) (agree : bool)
| EvVotingEnded (rid : root_id) (approved : bool)
| EvRootValidated (rid : root_id) (hash : N)
| EvSlotAdvanced (by_ new_slot slot_validator slot_end : N)
| EvNoSummary (challengee void_slot : N)
| EvOffence (k : offence_kind) (offenders : list N)
| EvPublished (rid : root_id) (hash : N) (tx : N)
| EvAnchored (rid : root_id) (hash : N) (anchor_id : N)
| EvExternalSubmitted (rid : root_id) (ref_ : N)
| EvChallengeAdded (challenger challengee : N)
| EvRootChallengeResolved (rid : root_id) (accepted : bool).

(** The storage of the pallet (lib.rs:272-386) together with what it reads from its environment:
    the block number, the avn validators, and the next answers of the two external calls. *)
Record st := mkSt {
  s_block : N;
  s_validators : list validator;
  s_env_publish : option N;      (* next answer of BridgeInterface::publish: tx id, or an error *)
  s_env_submit : bool;           (* next answer of ExternalValidator::submit_proposal *)
  s_next_block : N;              (* NextBlockToProcess *)
  s_tx_to_root : gmap N root_id; (* TxIdToRoot *)
  s_next_slot_at : N;            (* NextSlotAtBlock *)
  s_slot : N;                    (* CurrentSlot *)
  s_slot_validator : option N;   (* CurrentSlotsValidator *)
  s_last_summary_slot : N;       (* SlotOfLastPublishedSummary *)
  s_roots : gmap root_id root_data;  (* Roots *)
  s_votes : gmap root_id session;    (* VotesRepository *)
  s_pending : gmap range N;          (* PendingApproval *)
  s_ingress : N;                     (* TotalIngresses *)
  s_schedule : N;                    (* SchedulePeriod *)
  s_voting : N;                      (* VotingPeriod *)
  s_anchor_counter : N;              (* AnchorRootsCounter *)
  s_anchors : gmap N N;              (* AnchorRoots *)
  s_ext_status : gmap root_id ext_status;   (* ExternalValidationStatus *)
  s_ext_ref : gmap N root_id;               (* ExternalValidationRef *)
  s_reviews : gmap root_id N;               (* PendingAdminReviews: the external reference *)
  s_ext_threshold : option N;               (* ExternalValidationThreshold *)
  s_events : list event }.                  (* newest first *)
#[export] Instance etaSt : Settable _ := settable! mkSt
  <s_block; s_validators; s_env_publish; s_env_submit; s_next_block; s_tx_to_root; s_next_slot_at;
   s_slot; s_slot_validator; s_last_summary_slot; s_roots; s_votes; s_pending; s_ingress; s_schedule;
   s_voting; s_anchor_counter; s_anchors; s_ext_status; s_ext_ref; s_reviews; s_ext_threshold; s_events>.

(** Constants of the runtime configuration (lib.rs:97-140): grace period, whether roots go to
    Ethereum or are kept as anchors, whether external validation is on, and the hash that makes the
    external reference (utils.rs:57-58). *)
Record config := mkConfig {
  c_grace : N; c_auto_submit : bool; c_ext_enabled : bool; c_ext_hash : root_id -> N -> N }.

(** lib.rs:65-69 *)
Definition MIN_SCHEDULE : N := 30.
Definition MIN_VOTING : N := 25.
Definition MAX_VOTING : N := 28800.

Section pallet.
Variable c : config.

Definition emit (e : event) : M st unit := modify (fun s => s <| s_events := e :: s_events s |>).

(** primitives/avn-common/src/lib.rs:183-195, block numbers are u32. *)
Definition safe_add (a b : N) : option N := checked_add U32_MAX a b.
Definition safe_sub (a b : N) : option N := checked_sub a b.

(** lib.rs:912-921 [validate_schedule_period] *)
Definition validate_schedule (p : N) : M st unit :=
  ensure (MIN_SCHEDULE <=? p) "SchedulePeriodIsTooShort".
(** lib.rs:923-941 [validate_voting_period] *)
Definition validate_voting (v p : N) : M st unit :=
  ensure (MIN_VOTING <=? v) "VotingPeriodIsTooShort";;;
  ensure (v <? p) "VotingPeriodIsEqualOrLongerThanSchedulePeriod";;;
  ensure (v <=? MAX_VOTING) "VotingPeriodIsTooLong".

(** lib.rs:943-950 [grace_period_elapsed] *)
Definition grace_elapsed (s : st) (block : N) : bool :=
  c_grace c <? match safe_sub block (s_next_slot_at s) with Some d => d | None => 0 end.

(** lib.rs:952-976 [validator_can_advance_slot] *)
Definition validator_can_advance_slot (who : N) : M st unit :=
  s <-- get_st;;
  ensure (s_next_slot_at s <=? s_block s) "TooEarlyToAdvance";;;
  sv <-- some_or (s_slot_validator s) "CurrentSlotValidatorNotFound";;
  if grace_elapsed s (s_block s)
  then ensure (negb (who =? sv)) "GracePeriodElapsed"
  else ensure (who =? sv) "WrongValidator".

(** lib.rs:1137-1165 [register_offence_if_no_summary_created_in_slot] *)
Definition register_no_summary : M st unit :=
  s <-- get_st;;
  if s_last_summary_slot s <? s_slot s then
    match s_slot_validator s with
    | None => mret_ tt
    | Some v => emit (EvOffence NoSummaryCreated [v]);;; emit (EvNoSummary v (s_slot s))
    end
  else mret_ tt.

(** lib.rs:978-1012 [update_slot_number] *)
Definition update_slot_number (who : N) : M st unit :=
  validator_can_advance_slot who;;;
  register_no_summary;;;
  s <-- get_st;;
  new_slot <-- some_or (safe_add (s_slot s) 1) "Overflow";;
  new_validator <-- lift_res (primary_for_block (s_validators s) new_slot);;
  next_start <-- some_or (safe_add (s_next_slot_at s) (s_schedule s)) "Overflow";;
  modify (fun s => s <| s_slot := new_slot |> <| s_slot_validator := Some new_validator |>
                     <| s_next_slot_at := next_start |>);;;
  emit (EvSlotAdvanced who new_slot new_validator next_start).

(** lib.rs:1275-1290 [get_target_block] *)
Definition target_block (next schedule : N) : option N :=
  match safe_add next schedule with
  | None => None
  | Some e => if next =? 0 then Some e else safe_sub e 1
  end.

(** lib.rs:1525-1533 [summary_is_neither_pending_nor_approved] *)
Definition neither_pending_nor_approved (s : st) (r : range) : bool :=
  negb (match s_pending s !! r with Some _ => true | None => false end) &&
  negb (existsb (fun kv => bool_decide (fst (fst kv) = r) && rd_validated (snd kv))
          (map_to_list (s_roots s))).

(** lib.rs:1535-1543 [try_get_root_data] *)
Definition try_get_root (rid : root_id) : M st root_data :=
  s <-- get_st;; some_or (s_roots s !! rid) "RootDataNotFound".

(** lib.rs:520-576 [record_summary_calculation], the dispatchable. *)
Definition record_summary (new_block hash ingress who : N) : M st unit :=
  s <-- get_st;;
  ensure (s_ingress s + 1 =? ingress) "InvalidIngressCounter";;;
  ensure (is_validator (s_validators s) who) "InvalidKey";;;
  let r := (s_next_block s, new_block) in
  let rid := (r, ingress) in
  target <-- some_or (target_block (s_next_block s) (s_schedule s)) "Overflow";;
  ensure (neither_pending_nor_approved s r) "SummaryPendingOrApproved";;;
  ensure (match s_votes s !! rid with None => true | Some _ => false end) "RootHasAlreadyBeenRegisteredForVoting";;;
  ensure (new_block =? target) "InvalidSummaryRange";;;
  voting_end <-- some_or (safe_add (s_block s) (s_voting s)) "Overflow";;
  modify (fun s => s <| s_ingress := ingress |>
     <| s_roots := <[ rid := root_data_new hash who ]> (s_roots s) |>
     <| s_pending := <[ r := ingress ]> (s_pending s) |>
     <| s_votes := <[ rid := session_new (avn_quorum (s_validators s)) voting_end (s_block s) ]> (s_votes s) |>);;;
  emit (EvSummaryCalculated rid hash who).

(** lib.rs:1452-1492 [record_summary_validate_unsigned]: only the current slot's validator, with a
    valid signature ([sig_ok] is the outcome of [signature_is_valid]'s verification). *)
Definition record_validate (who : N) (sig_ok : bool) (s : st) : bool :=
  match s_slot_validator s with
  | None => false
  | Some v => (who =? v) && is_validator (s_validators s) who && sig_ok
  end.

(** vote.rs:57-84 [is_valid] of the root voting session. *)
Definition session_is_valid (s : st) (rid : root_id) : bool :=
  match s_roots s !! rid, s_pending s !! fst rid, s_votes s !! rid with
  | Some d, Some ic, Some _ => negb (rd_validated d) && (ic =? snd rid)
  | _, _, _ => false
  end.
(** vote.rs:86-92 [is_active] *)
Definition session_is_active (s : st) (rid : root_id) : bool :=
  match s_votes s !! rid with
  | Some v => (s_block s <? ss_end v) && session_is_valid s rid
  | None => false
  end.

(** lib.rs:1325-1333 [get_next_approved_root_id] *)
Definition next_anchor_id : M st N :=
  s <-- get_st;;
  n <-- some_or (checked_add U32_MAX (s_anchor_counter s) 1) "Overflow";;
  modify (fun s => s <| s_anchor_counter := n |>);;;
  mret_ (s_anchor_counter s).

(** lib.rs:1298-1323 [send_root_to_ethereum] *)
Definition send_root (rid : root_id) (d : root_data) : M st unit :=
  s <-- get_st;;
  tx <-- some_or (s_env_publish s) "ErrorPublishingSummary";;
  emit (EvPublished rid (rd_hash d) tx);;;
  modify (fun s => s
    <| s_roots := <[ rid := (match s_roots s !! rid with Some d' => d' | None => root_data_default end)
                              <| rd_tx := Some tx |> ]> (s_roots s) |>
    <| s_tx_to_root := <[ tx := rid ]> (s_tx_to_root s) |>).

(** utils.rs:15-37 [process_accepted_root]; [empty_root] is the zero hash (lib.rs:1521-1523). *)
Definition process_accepted_root (rid : root_id) : M st unit :=
  d <-- try_get_root rid;;
  if rd_hash d =? 0 then mret_ tt
  else if c_auto_submit c then send_root rid d
  else
    a <-- next_anchor_id;;
    modify (fun s => s <| s_anchors := <[ a := rd_hash d ]> (s_anchors s) |>);;;
    emit (EvAnchored rid (rd_hash d) a).

(** utils.rs:39-46 [cleanup_external_validation_data] *)
Definition cleanup_external (rid : root_id) (ref_ : N) : M st unit :=
  modify (fun s => s <| s_ext_status := delete rid (s_ext_status s) |>
                     <| s_ext_ref := delete ref_ (s_ext_ref s) |>
                     <| s_reviews := delete rid (s_reviews s) |>).

(** utils.rs:48-90 [submit_root_for_external_validation] *)
Definition submit_external (rid : root_id) (hash : N) : M st unit :=
  s <-- get_st;;
  _t <-- some_or (s_ext_threshold s) "ExternalValidationThresholdNotSet";;
  ensure (s_env_submit s) "submit_proposal failed";;;
  modify (fun s => s <| s_ext_ref := <[ c_ext_hash c rid hash := rid ]> (s_ext_ref s) |>
                     <| s_ext_status := <[ rid := ExtInProgress ]> (s_ext_status s) |>);;;
  emit (EvExternalSubmitted rid (c_ext_hash c rid hash)).

(** lib.rs:1335-1444 [end_voting] *)
Definition end_voting (reporter : N) (rid : root_id) : M st unit :=
  s <-- get_st;;
  ensure (session_is_valid s rid) "VotingSessionIsNotValid";;;
  let vote := mget session_default rid (s_votes s) in
  ensure (has_outcome vote || (ss_end vote <=? s_block s)) "ErrorEndingVotingPeriod";;;
  d <-- try_get_root rid;;
  (if is_approved vote then
     (if rd_hash d =? 0 then mret_ tt
      else if c_ext_enabled c then submit_external rid (rd_hash d)
      else process_accepted_root rid);;;
     emit (EvOffence RejectedValidRoot (ss_nays vote));;;
     next <-- some_or (safe_add (snd (fst rid)) 1) "Overflow";;
     modify (fun s => s <| s_next_block := next |>
       <| s_roots := <[ rid := (match s_roots s !! rid with Some d' => d' | None => root_data_default end)
                                 <| rd_validated := true |> ]> (s_roots s) |>
       <| s_last_summary_slot := s_slot s |>);;;
     emit (EvRootValidated rid (rd_hash d))
   else
     creator <-- some_or (rd_added_by d) "CurrentSlotValidatorNotFound";;
     emit (EvOffence CreatedInvalidRoot [creator]);;;
     emit (EvOffence ApprovedInvalidRoot (ss_ayes vote)));;;
  modify (fun s => s <| s_pending := delete (fst rid) (s_pending s) |>);;;
  emit (EvVotingEnded rid (is_approved vote)).

(** avn/src/vote.rs:131-139 [validate_vote] *)
Definition validate_vote (rid : root_id) (who : N) : M st unit :=
  s <-- get_st;;
  ensure (is_validator (s_validators s) who) "NotAValidator";;;
  ensure (session_is_active s rid) "InvalidVote";;;
  v <-- some_or (s_votes s !! rid) "Root Id is not found in votes repository";;
  ensure (negb (has_voted v who)) "DuplicateVote".

(** avn/src/vote.rs:152-161 [end_voting_if_outcome_reached] *)
Definition end_if_outcome (rid : root_id) (who : N) : M st unit :=
  s <-- get_st;;
  v <-- some_or (s_votes s !! rid) "Root Id is not found in votes repository";;
  if has_outcome v && session_is_active s rid then end_voting who rid else mret_ tt.

(** summary/src/vote.rs:94-108 [record_approve_vote], [record_reject_vote]; the vectors are bounded. *)
Definition record_vote (rid : root_id) (who : N) (agree : bool) : M st unit :=
  s <-- get_st;;
  let v := mget session_default rid (s_votes s) in
  if agree then
    ensure (N.of_nat (length (ss_ayes v)) <? MAX_VALIDATORS) "VectorBoundsExceeded";;;
    modify (fun s => s <| s_votes := <[ rid := v <| ss_ayes := ss_ayes v ++ [who] |> ]> (s_votes s) |>)
  else
    ensure (N.of_nat (length (ss_nays v)) <? MAX_VALIDATORS) "VectorBoundsExceeded";;;
    modify (fun s => s <| s_votes := <[ rid := v <| ss_nays := ss_nays v ++ [who] |> ]> (s_votes s) |>).

(** avn/src/vote.rs:121-150 [process_approve_vote], [process_reject_vote] and
    summary lib.rs:578-618 [approve_root], [reject_root]. *)
Definition vote_root (rid : root_id) (who : N) (agree : bool) : M st unit :=
  (if agree then (_d <-- try_get_root rid;; mret_ tt) else mret_ tt);;;
  validate_vote rid who;;;
  record_vote rid who agree;;;
  end_if_outcome rid who;;;
  emit (EvVoteAdded who rid agree).

(** challenge.rs:49-68 [is_valid] and lib.rs:646-687 [add_challenge]; [reason] is [Some slot] for
    [SlotNotAdvanced slot]. *)
Definition add_challenge (reason : option N) (challenger challengee who : N) : M st unit :=
  s <-- get_st;;
  ensure (match reason, s_slot_validator s with
          | Some slot, Some sv => (slot =? s_slot s) && grace_elapsed s (s_block s) && (challengee =? sv)
          | _, _ => false
          end) "InvalidChallenge";;;
  emit (EvOffence SlotNotAdvanced [challengee]);;;
  update_slot_number who;;;
  emit (EvChallengeAdded challenger challengee).

(** lib.rs:490-514 [set_periods] (deprecated but still callable by root) *)
Definition set_periods (p v : N) : M st unit :=
  validate_schedule p;;; validate_voting v p;;;
  s <-- get_st;;
  at_ <-- some_or (safe_add (s_next_block s) p) "Overflow";;
  modify (fun s => s <| s_schedule := p |> <| s_voting := v |> <| s_next_slot_at := at_ |>).

(** lib.rs:689-739 [set_admin_config] *)
Inductive admin_config := CfgThreshold (t : N) | CfgSchedule (p : N) | CfgVoting (p : N).
Definition set_admin_config (cfg : admin_config) : M st unit :=
  match cfg with
  | CfgThreshold t =>
    modify (fun s => s <| s_ext_threshold := Some t |>);;;
    ensure ((0 <? t) && (t <=? 100)) "InvalidExternalValidationThreshold"
  | CfgSchedule p =>
    validate_schedule p;;;
    s <-- get_st;;
    validate_voting (s_voting s) p;;;
    at_ <-- some_or (safe_add (s_next_block s) p) "Overflow";;
    modify (fun s => s <| s_schedule := p |> <| s_next_slot_at := at_ |>)
  | CfgVoting v =>
    s <-- get_st;;
    validate_voting v (s_schedule s);;;
    modify (fun s => s <| s_voting := v |>)
  end.

(** lib.rs:741-781 [admin_resolve_challenge] *)
Definition admin_resolve (rid : root_id) (accepted : bool) : M st unit :=
  s <-- get_st;;
  ref_ <-- some_or (s_reviews s !! rid) "ExternalValidationRequestNotFound";;
  _d <-- try_get_root rid;;
  status <-- some_or (s_ext_status s !! rid) "ExternalValidationStatusMissing";;
  ensure (bool_decide (status = ExtPendingAdmin)) "InvalidRoot";;;
  (if accepted then process_accepted_root rid else mret_ tt);;;
  cleanup_external rid ref_;;;
  emit (EvRootChallengeResolved rid accepted).

(** utils.rs:102-120 [setup_root_for_admin_review] *)
Definition setup_review (rid : root_id) (ref_ : N) : M st unit :=
  modify (fun s => s <| s_ext_status := <[ rid := ExtPendingAdmin ]> (s_ext_status s) |>
                     <| s_reviews := <[ rid := ref_ ]> (s_reviews s) |>).

(** lib.rs:1561-1615 [on_voting_completed] and lib.rs:1617-1627 [on_cancelled].  A hook: it has no
    result and is not rolled back when [process_accepted_root] fails inside it. *)
Definition external_result (ref_ : N) (res_ : proposal_result) (s : st) : st :=
  match s_ext_ref s !! ref_ with
  | None => s
  | Some rid =>
    match res_ with
    | PExpired | PPassed =>
      match s_roots s !! rid with
      | None => s
      | Some _ =>
        let s1 := s <| s_ext_status := <[ rid := ExtAccepted ]> (s_ext_status s) |> in
        match process_accepted_root rid s1 with
        | (s2, Err _) => s2
        | (s2, Ok _) => fst (cleanup_external rid ref_ s2)
        end
      end
    | POther | PCancelled => fst (setup_review rid ref_ s)
    end
  end.

(** lib.rs:1632-1660 [process_result]; [matches] is the outcome of the caller-id comparison. *)
Definition process_result (tx : N) (matches succeeded : bool) (s : st) : st :=
  match s_tx_to_root s !! tx with
  | Some rid =>
    if matches && succeeded then
      s <| s_roots := <[ rid := (match s_roots s !! rid with Some d' => d' | None => root_data_default end)
                                  <| rd_finalised := true |> ]> (s_roots s) |>
        <| s_tx_to_root := delete tx (s_tx_to_root s) |>
    else s
  | None => s
  end.

(** Everything that can happen to the pallet.  Unsigned calls carry the outcome of the signature
    verification; they are dispatched only if [validate_unsigned] accepts them (FRAME's
    [pre_dispatch]).  The [Env*] operations change what the pallet reads from its environment. *)
Inductive op :=
| OpRecord (new_block hash ingress who : N) (sig_ok : bool)
| OpVote (rid : root_id) (who : N) (agree sig_ok : bool)
| OpEnd (rid : root_id) (who : N) (sig_ok : bool)
| OpAdvanceSlot (who : N) (sig_ok : bool)
| OpChallenge (reason : option N) (challenger challengee who : N) (sig_ok : bool)
| OpSetPeriods (p v : N)
| OpAdmin (cfg : admin_config)
| OpResolve (rid : root_id) (accepted : bool)
| OpExternal (ref_ : N) (r : proposal_result)
| OpBridgeResult (tx : N) (matches succeeded : bool)
| EnvBlocks (n : N)
| EnvValidators (vs : list validator)
| EnvPublish (o : option N)
| EnvSubmit (b : bool).

(** lib.rs:833-877 [validate_unsigned] for each unsigned call. *)
Definition validate_unsigned (o : op) (s : st) : bool :=
  match o with
  | OpRecord _ _ _ who sig_ok => record_validate who sig_ok s
  | OpVote rid who agree sig_ok =>
    (* approve also checks that the root exists (lib.rs:846-848) *)
    (if agree then match s_roots s !! rid with Some _ => true | None => false end else true) &&
    is_ok (snd (validate_vote rid who s)) && is_validator (s_validators s) who && sig_ok
  | OpEnd rid who sig_ok =>
    session_is_valid s rid && is_validator (s_validators s) who && sig_ok
  | OpAdvanceSlot who sig_ok =>
    match s_slot_validator s with
    | None => false
    | Some v => (who =? v) && is_validator (s_validators s) who && sig_ok
    end
  | OpChallenge reason _ _ who sig_ok =>
    match reason with None => false | Some _ => is_validator (s_validators s) who && sig_ok end
  | _ => true
  end.

Definition exec (o : op) : M st unit :=
  match o with
  | OpRecord nb h ic who _ => record_summary nb h ic who
  | OpVote rid who agree _ => vote_root rid who agree
  | OpEnd rid who _ => end_voting who rid
  | OpAdvanceSlot who _ => update_slot_number who
  | OpChallenge r ch ce who _ => add_challenge r ch ce who
  | OpSetPeriods p v => set_periods p v
  | OpAdmin cfg => set_admin_config cfg
  | OpResolve rid a => admin_resolve rid a
  | OpExternal ref_ r => modify (external_result ref_ r)
  | OpBridgeResult tx m su => modify (process_result tx m su)
  | EnvBlocks n => modify (fun s => s <| s_block := s_block s + n |>)
  | EnvValidators vs => modify (fun s => s <| s_validators := vs |>)
  | EnvPublish o => modify (fun s => s <| s_env_publish := o |>)
  | EnvSubmit b => modify (fun s => s <| s_env_submit := b |>)
  end.

Definition step (s : st) (o : op) : st :=
  if validate_unsigned o s then fst (dispatch (exec o) s) else s.

Definition run (s : st) (ops : list op) : st := fold_left step ops s.

(** lib.rs:417-462 [GenesisConfig::build]: the first validator owns slot 0.  [None] stands for a
    failed assertion. *)
Definition genesis (vs : list validator) (schedule voting : N) : option st :=
  let p := if schedule =? 0 then 28800 else schedule in
  let v := if voting =? 0 then MIN_VOTING else voting in
  match vs with
  | [] => None
  | v0 :: _ =>
    if (MIN_SCHEDULE <=? p) && (MIN_VOTING <=? v) && (v <? p) && (v <=? MAX_VOTING) then
      Some (mkSt 0 vs None false 0 ∅ p 0 (Some (v_account v0)) 0 ∅ ∅ ∅ 0 p v 0 ∅ ∅ ∅ ∅ None [])
    else None
  end.

End pallet.
