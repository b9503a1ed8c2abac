(** Model of pallets/eth-bridge, incoming part: votes on the first Ethereum block, votes on partitions of
    the events of an Ethereum block range, processing of the accepted events, and the record of
    processed events, which pallets/ethereum-events shares.  Line numbers are those of
    pallets/eth-bridge/src/lib.rs unless another file is named. *)
From Verif Require Import Base AvnModel.

(** primitives/avn-common/src/event_types.rs [EthEvent], [EthEventId]: transaction hash, event
    signature and the decoded contents, each a number. *)
Record eth_event := mkEvent { ev_tx : N; ev_sig : N; ev_data : N }.
(** primitives/avn-common/src/event_discovery.rs:39-43 [DiscoveredEvent]. *)
Record discovered := mkDisc { d_event : eth_event; d_block : N }.
(** event_discovery.rs:18-22 [EthBlockRange]. *)
Record range := mkRange { r_start : N; r_len : N }.
(** event_discovery.rs:60-66 [EthereumEventsPartition]; the set of events is a list. *)
Record partition := mkPart { p_range : range; p_number : N; p_last : bool; p_events : list discovered }.
#[export] Instance eth_event_eq_dec : EqDecision eth_event. Proof. solve_decision. Defined.
#[export] Instance discovered_eq_dec : EqDecision discovered. Proof. solve_decision. Defined.
#[export] Instance range_eq_dec : EqDecision range. Proof. solve_decision. Defined.
#[export] Instance partition_eq_dec : EqDecision partition. Proof. solve_decision. Defined.

(** event_discovery.rs:24-36 [next_range], [end_block]; u32. *)
Definition next_range (r : range) : range := mkRange (saturating_add U32_MAX (r_start r) (r_len r)) (r_len r).
Definition end_block (r : range) : N := saturating_add U32_MAX (r_start r) (r_len r) - 1.

(** event_discovery.rs:12-13. *)
Definition BATCH_LIMIT : N := 32.
(** event_discovery.rs:45-57 [Ord]: by block, then by transaction hash; the rest of the event does not
    count. *)
Definition disc_le (a b : discovered) : Prop :=
  d_block a < d_block b \/ (d_block a = d_block b /\ ev_tx (d_event a) <= ev_tx (d_event b)).
#[export] Instance disc_le_dec a b : Decision (disc_le a b).
Proof. unfold disc_le. apply _. Defined.
Definition same_key (a b : discovered) : bool :=
  (d_block a =? d_block b) && (ev_tx (d_event a) =? ev_tx (d_event b)).
(** [BTreeSet::from_iter] (alloc/collections/btree): sort, then keep the last of equal keys. *)
Fixpoint dedup (l : list discovered) : list discovered :=
  match l with
  | a :: ((b :: _) as r) => if same_key a b then dedup r else a :: dedup r
  | l => l
  end.
Definition to_set (l : list discovered) : list discovered := dedup (merge_sort disc_le l).

(** [slice::chunks]. *)
Fixpoint chunks_fuel {A} (fuel : nat) (k : nat) (l : list A) : list (list A) :=
  match fuel, l with
  | _, [] => []
  | O, _ => []
  | S f, _ => take k l :: chunks_fuel f k (drop k l)
  end.
Definition chunks {A} (k : nat) (l : list A) : list (list A) := chunks_fuel (length l) k l.
(** event_discovery.rs:205-246 [create_partitions]: the number is cast to u16; a set never exceeds the
    bound, because a chunk does not. *)
Definition create_partitions (r : range) (events : list discovered) : list partition :=
  let cs := chunks (N.to_nat BATCH_LIMIT) (merge_sort disc_le events) in
  match imap (fun i ch => mkPart r (N.of_nat i mod 65536) (Nat.eqb (length cs) (i + 1)) (to_set ch)) cs with
  | [] => [mkPart r 0 true []]
  | l => l
  end.

(** event_discovery.rs:248-256 [compute_start_block_from_finalised_block_number]; [5 * range_length] is a u32
    product that wraps in release builds. *)
Definition compute_start (block size : N) : res N :=
  let calc := saturating_sub block ((5 * size) mod 2 ^ 32) in
  if size =? 0 then Err "InvalidEthereumBlockRange" else Ok (calc - calc mod size).

(** event_discovery.rs:258-267 [ActiveEthRange]. *)
Record active_range := mkActiveRange { a_range : range; a_partition : N; a_filter : list N; a_additional : list N }.
(** primitives/avn-common/src/eth/mod.rs [EthBridgeInstance]: network, hash, [is_valid]. *)
Record instance := mkInstance { i_network : N; i_hash : N; i_valid : bool }.

(** Who handed an event to the handlers. *)
Inductive source := ByPartition (p : partition) | ByLegacyCheck.
Inductive event :=
| EventAccepted (e : eth_event)
| EventRejected (e : eth_event) (reason : string)
| OffenceReported (reporter : N) (offenders : list N)
| AdditionalEventQueued (tx : N)
| EventMigrated (tx : N) (accepted : bool).

(** Outside the pallet: which signatures are valid event kinds ([ValidEvents::try_from]), the legacy lift
    signatures, the event kinds wanted ([ProcessedEventsHandler::get], fixed by the runtime), the range
    size (set at genesis, never changed by a call), and the answer of the handlers to the n-th event
    given to them. *)
Record config := mkConfig {
  c_kind : N -> option N; c_legacy : N -> bool; c_lifted : N; c_filter : list N;
  c_range_size : N; c_handler : nat -> eth_event -> bool }.

Record st := mkSt {
  s_instance : instance;                       (* Instance *)
  s_active : option active_range;              (* ActiveEthereumRange *)
  s_votes : list (partition * list N);         (* EthereumEvents, without empty entries *)
  s_blocks : gmap N (list N);                  (* SubmittedEthBlocks *)
  s_processed : gmap N (N * bool);             (* ProcessedEthereumEvents *)
  s_additional : list N;                       (* AdditionalEthereumEventsQueue *)
  s_vs : list validator;                       (* avn validators *)
  s_handled : list (source * eth_event);       (* calls of the event handlers, newest first *)
  s_events : list event }.                     (* newest first *)
#[export] Instance etaSt : Settable _ :=
  settable! mkSt <s_instance; s_active; s_votes; s_blocks; s_processed; s_additional; s_vs; s_handled; s_events>.

Definition emit (e : event) : M st unit := modify (fun s => s <| s_events := e :: s_events s |>).
Definition len {A} (l : list A) : N := N.of_nat (length l).
(** primitives/avn-common [MaximumValidatorsBound]. *)
Definition VOTES_BOUND : N := 256.

(** The vote map: [get], [insert], [take]. *)
Fixpoint vget (p : partition) (l : list (partition * list N)) : list N :=
  match l with [] => [] | (q, v) :: r => if decide (p = q) then v else vget p r end.
Definition vdel (p : partition) (l : list (partition * list N)) : list (partition * list N) :=
  List.filter (fun e => negb (bool_decide (p = e.1))) l.
Definition vset (p : partition) (v : list N) (l : list (partition * list N)) := (p, v) :: vdel p l.
(** [clear(limit, None)]: everything, unless there are more entries than the limit; which ones then stay
    depends on the storage key hashes and is left open ([kept] names them). *)
Definition vclear (limit : N) (kept : list partition) (l : list (partition * list N)) : list (partition * list N) :=
  if len l <=? limit then [] else List.filter (fun e => bool_decide (e.1 ∈ kept)) l.

(** 1403-1420 [author_has_cast_event_vote], [author_has_submitted_latest_block]. *)
Definition has_cast_event_vote (s : st) (a : N) : bool := existsb (fun e => memN a e.2) (s_votes s).
Definition has_submitted_block (s : st) (a : N) : bool := existsb (fun e => memN a e.2) (map_to_list (s_blocks s)).

(** 1384-1391 [ethereum_event_has_already_been_accepted]. *)
Definition already_accepted (s : st) (tx : N) : bool :=
  match s_processed s !! tx with Some (_, acc) => acc | None => false end.
(** 1424-1427 [processed_event_exists]. *)
Definition processed_exists (s : st) (tx : N) : bool := bool_decide (is_Some (s_processed s !! tx)).
(** 1428-1447 [add_processed_event]. *)
Definition add_processed (c : config) (tx sig : N) (accepted : bool) : M st unit :=
  s <-- get_st ;;
  ensure (negb (already_accepted s tx)) "()" ;;;
  kind <-- some_or (if c_legacy c sig then Some (c_lifted c) else c_kind c sig) "()" ;;
  modify (fun s => s <| s_processed := <[tx := (kind, accepted)]> (s_processed s) |>).
(** 1450-1470 the network aware versions. *)
Definition processed_exists_net (s : st) (net tx : N) : bool :=
  if negb (i_valid (s_instance s)) || negb (i_network (s_instance s) =? net) then false else processed_exists s tx.
Definition add_processed_net (c : config) (net tx sig : N) (accepted : bool) : M st unit :=
  s <-- get_st ;;
  ensure (i_valid (s_instance s)) "InvalidInstance" ;;;
  ensure (i_network (s_instance s) =? net) "InvalidNetwork" ;;;
  fun s => match add_processed c tx sig accepted s with
           | (s1, Err _) => (s1, Err "EventAlreadyProcessed")
           | r => r
           end.

(** The call of the handlers of the other pallets; none of them calls back into this pallet. *)
Definition handle (c : config) (src : source) (e : eth_event) : M st bool :=
  fun s => (s <| s_handled := (src, e) :: s_handled s |>, Ok (c_handler c (length (s_handled s)) e)).

(** 1024-1056 [process_ethereum_event]. *)
Definition process_event (c : config) (net : N) (p : partition) (e : eth_event) : M st unit :=
  s <-- get_st ;;
  ensure (negb (processed_exists_net s net (ev_tx e))) "EventAlreadyProcessed" ;;;
  add_processed_net c net (ev_tx e) (ev_sig e) true ;;;
  ok <-- handle c (ByPartition p) e ;;
  if ok : bool then emit (EventAccepted e) else emit (EventRejected e "handler").

(** Body of the loop of 978-1012. *)
Definition process_discovered (c : config) (net : N) (a : active_range) (p : partition) (d : discovered) : M st unit :=
  match c_kind c (ev_sig (d_event d)) with
  | Some k =>
      if memN k (a_filter a) then
        if end_block (a_range a) <? d_block d then emit (EventRejected (d_event d) "EventBelongsInFutureRange")
        else fun s => match process_event c net p (d_event d) s with
                      | (s1, Err e) => emit (EventRejected (d_event d) e) s1
                      | r => r
                      end
      else mret_ tt
  | None => mret_ tt
  end.
Fixpoint process_all (c : config) (net : N) (a : active_range) (p : partition) (l : list discovered) : M st unit :=
  match l with
  | [] => mret_ tt
  | d :: r => process_discovered c net a p d ;;; process_all c net a p r
  end.
(** 970-1022 [process_ethereum_events_partition]; the offences of offence.rs:63-95 are recorded as
    events, reporting itself is not modelled. *)
Definition process_partition (c : config) (net : N) (a : active_range) (p : partition) (author : N) : M st unit :=
  modify (fun s => s <| s_votes := vdel p (s_votes s) |>) ;;;
  process_all c net a p (p_events p) ;;;
  modify (fun s => s <| s_events := rev (map (fun e => OffenceReported author e.2) (s_votes s)) ++ s_events s |>
                     <| s_votes := [] |>).
(** 948-968 [advance_partition]; the partition number is a u16. *)
Definition advance_partition (c : config) (a : active_range) (p : partition) : M st unit :=
  if p_last p then
    modify (fun s => s <| s_active := Some (mkActiveRange (next_range (a_range a)) 0 (c_filter c) (s_additional s)) |>
                       <| s_additional := [] |>)
  else modify (fun s => s <| s_active := Some (mkActiveRange (a_range a) (saturating_add 65535 (a_partition a) 1)
                                                 (a_filter a) (a_additional a)) |>).

(** 1393-1402 [does_range_matches_active] and the same test in the call. *)
Definition matches (p : partition) (a : active_range) : bool :=
  bool_decide (p_range p = a_range a) && (p_number p =? a_partition a).

(** 576-635 [submit_ethereum_events]. *)
Definition submit_events (c : config) (author : N) (p : partition) : M st unit :=
  s <-- get_st ;;
  ensure (i_valid (s_instance s)) "InvalidInstance" ;;;
  a <-- some_or (s_active s) "NonActiveEthereumRange" ;;
  ensure (matches p a) "NonActiveEthereumRange" ;;;
  ensure (negb (has_cast_event_vote s author)) "EventVoteExists" ;;;
  let votes := vget p (s_votes s) in
  ensure (len votes <? VOTES_BOUND) "EventVotesFull" ;;;
  let votes' := author :: votes in
  if len votes' <? avn_quorum (s_vs s) then modify (fun s => s <| s_votes := vset p votes' (s_votes s) |>)
  else process_partition c (i_network (s_instance s)) a p author ;;; advance_partition c a p.

(** 664-673: the votes per block in ascending order (block numbers are unique, so the counts never
    decide). *)
Definition fst_le (a b : N * N) : Prop := a.1 <= b.1.
#[export] Instance fst_le_dec a b : Decision (fst_le a b).
Proof. unfold fst_le. apply _. Defined.
Definition vote_counts (m : gmap N (list N)) : list (N * N) :=
  merge_sort fst_le (map (fun e => (e.1, len e.2)) (map_to_list m)).
Definition total_votes (l : list (N * N)) : N := fold_right N.add 0 (map snd l).
(** 682-693 the selection loop. *)
Fixpoint select (remaining quorum : N) (l : list (N * N)) : option N :=
  match l with
  | [] => None
  | (b, n) :: r => if remaining - n <? quorum then Some b else select (remaining - n) quorum r
  end.
(** 640-712 [submit_latest_ethereum_block].  [clear(256)] of the block votes removes all of them: there
    are at most as many entries as votes, and what a partial clear would leave is never read again, since the
    active range is never unset. *)
Definition submit_block (c : config) (author seen : N) : M st unit :=
  s <-- get_st ;;
  ensure (i_valid (s_instance s)) "InvalidInstance" ;;;
  ensure (match s_active s with None => true | Some _ => false end) "VotingEnded" ;;;
  ensure (negb (has_submitted_block s author)) "EventVoteExists" ;;;
  b <-- lift_res (compute_start seen (c_range_size c)) ;;
  let votes := mget [] b (s_blocks s) in
  ensure (len votes <? VOTES_BOUND) "EventVotesFull" ;;;
  modify (fun s => s <| s_blocks := <[b := author :: votes]> (s_blocks s) |>) ;;;
  s <-- get_st ;;
  let l := vote_counts (s_blocks s) in
  if avn_supermajority (s_vs s) <=? total_votes l then
    let r := match select (avn_supermajority (s_vs s)) (avn_quorum (s_vs s)) l with
             | Some b => mkRange b (c_range_size c)
             | None => mkRange 0 0
             end in
    modify (fun s => s <| s_active := Some (mkActiveRange r 0 (c_filter c) (s_additional s)) |>
                       <| s_additional := [] |> <| s_blocks := ∅ |>)
  else mret_ tt.

(** 741-753 [QueueAdditionalEthereumEvent] (event_discovery.rs:203: at most 16). *)
Definition queue_additional (tx : N) : M st unit :=
  s <-- get_st ;;
  ensure (negb (already_accepted s tx)) "EventAlreadyAccepted" ;;;
  ensure (memN tx (s_additional s) || (len (s_additional s) <? 16)) "QuotaReachedForAdditionalEvents" ;;;
  modify (fun s => s <| s_additional := if memN tx (s_additional s) then s_additional s else tx :: s_additional s |>) ;;;
  emit (AdditionalEventQueued tx).
(** 757-771 [SetEthBridgeInstance], the part about incoming events. *)
Definition set_instance (i : instance) (kept1 kept2 : list partition) : M st unit :=
  ensure (i_valid i) "InvalidInstance" ;;;
  modify (fun s => s <| s_votes := vclear 1 kept2 (vclear 100 kept1 (s_votes s)) |> <| s_instance := i |>).

(** 1319-1350 [migrate_events_batch]: records of another pallet are taken over; one that cannot be stored
    is given back to that pallet (not modelled). *)
Fixpoint migrate_in (c : config) (net : N) (l : list (N * N * bool)) : M st unit :=
  match l with
  | [] => mret_ tt
  | (tx, sig, acc) :: r =>
      (fun s => match add_processed_net c net tx sig acc s with
                | (s1, Ok _) => emit (EventMigrated tx acc) s1
                | (s1, Err _) => (s1, Ok tt)
                end) ;;; migrate_in c net r
  end.
(** 1481-1526 [get_events_to_migrate]: another pallet takes over records of this one.  (No runtime of this
    repository configures that.) *)
Definition migrate_out (txs : list N) : M st unit :=
  modify (fun s => s <| s_processed := foldr delete (s_processed s) txs |>).

(** pallets/ethereum-events/src/lib.rs:566-640 [process_event]: the older way to bring in an event, with the
    same record of processed events ([ProcessedEventsChecker] is this pallet in runtime/*/src).  [ok] is the
    recorded check result, [challenged] whether the challenge succeeded.  The event's signature is that of
    a valid event kind (ethereum-events [add_event]). *)
Definition legacy_process (c : config) (e : eth_event) (ok challenged : bool) : M st unit :=
  s <-- get_st ;;
  _ <-- some_or (c_kind c (ev_sig e)) "InvalidEventToProcess" ;;
  let fresh := negb (processed_exists s (ev_tx e)) in
  let resubmittable := negb ok || (challenged && fresh) in
  (if resubmittable then mret_ tt
   else fun s => match add_processed c (ev_tx e) (ev_sig e) true s with (s1, _) => (s1, Ok tt) end) ;;;
  if ok && negb challenged && fresh then
    r <-- handle c ByLegacyCheck e ;;
    if r : bool then emit (EventAccepted e) else emit (EventRejected e "handler")
  else emit (EventRejected e "check").

(** What a validator signs (1137-1182). *)
Inductive payload := PEvents (inst account : N) (p : partition) | PBlock (inst account block : N).
Inductive op :=
| OpSubmitEvents (author : validator) (p : partition) (sig : N)
| OpSubmitBlock (author : validator) (seen sig : N)
| OpQueueAdditional (tx : N) | OpRestart (kept : list partition)
| OpSetInstance (i : instance) (kept1 kept2 : list partition)          (* root *)
| OpMigrateIn (net : N) (l : list (N * N * bool)) | OpMigrateOut (txs : list N)
| OpLegacy (e : eth_event) (ok challenged : bool)
| EnvValidators (vs : list validator).

(** What decoding a partition guarantees: a bounded set, sorted without equal keys. *)
Definition disc_lt (a b : discovered) : Prop := disc_le a b /\ same_key a b = false.
#[export] Instance disc_lt_dec a b : Decision (disc_lt a b).
Proof. unfold disc_lt. apply _. Defined.
Fixpoint ascending (l : list discovered) : bool :=
  match l with
  | a :: ((b :: _) as r) => bool_decide (disc_lt a b) && ascending r
  | _ => true
  end.
(** 1137-1182 [validate_unsigned], which FRAME applies again just before dispatching. *)
Definition valid (verify : N -> payload -> N -> bool) (s : st) (o : op) : bool :=
  match o with
  | OpSubmitEvents v p sig =>
      (len (p_events p) <=? BATCH_LIMIT) && ascending (p_events p) &&
      (match s_active s with Some a => matches p a | None => false end) &&
      is_validator (s_vs s) (v_account v) && verify (v_key v) (PEvents (i_hash (s_instance s)) (v_account v) p) sig
  | OpSubmitBlock v seen sig =>
      (match s_active s with Some _ => false | None => true end) &&
      is_validator (s_vs s) (v_account v) && verify (v_key v) (PBlock (i_hash (s_instance s)) (v_account v) seen) sig
  | _ => true
  end.
Definition exec (c : config) (o : op) : M st unit :=
  match o with
  | OpSubmitEvents v p _ => dispatch (submit_events c (v_account v) p)
  | OpSubmitBlock v seen _ => dispatch (submit_block c (v_account v) seen)
  | OpQueueAdditional tx => dispatch (queue_additional tx)
  | OpRestart kept => modify (fun s => s <| s_votes := vclear 100 kept (s_votes s) |>)
  | OpSetInstance i k1 k2 => dispatch (set_instance i k1 k2)
  | OpMigrateIn net l => migrate_in c net l
  | OpMigrateOut txs => migrate_out txs
  | OpLegacy e ok ch => dispatch (legacy_process c e ok ch)
  | EnvValidators vs => modify (fun s => s <| s_vs := vs |>)
  end.
Definition step (c : config) (verify : N -> payload -> N -> bool) (s : st) (o : op) : st :=
  if valid verify s o then fst (exec c o s) else s.
Definition run (c : config) (verify : N -> payload -> N -> bool) (s : st) (ops : list op) : st :=
  fold_left (step c verify) ops s.
(** 340-358 genesis. *)
Definition genesis (i : instance) (vs : list validator) : st := mkSt i None [] ∅ ∅ [] vs [] [].
