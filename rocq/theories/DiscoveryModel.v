(** Model of the node's Ethereum event handler, client/external-service/src/ethereum_events_handler.rs (line numbers are of this
    file unless another is named): what an author's node reads from Ethereum and what it votes for.

    Ethereum is reached through a node that answers queries; the answers are an oracle ([eth_node]).  The runtime's answers are
    given ([runtime_view]).  Timers, retries, logging and the signature of the vote are left out. *)
From Verif Require Import Base CodecModel AvnModel IncomingModel ParseModel.

(** The web3 crate's [Log]: address, topics (H256, as numbers), data, and block number and transaction hash, which are absent in
    pending logs. *)
Record log := mkLog { lg_address : N; lg_topics : list N; lg_data : list N; lg_block : option N; lg_tx : option N }.
#[export] Instance log_eq : EqDecision log. Proof. solve_decision. Defined.

(** The web3 crate's [Filter]: a range of blocks, the emitting contracts (none: any), the first topics, and the third topics
    (none: any). *)
Record query := mkQuery { q_from : N; q_to : N; q_addresses : option (list N); q_topic0 : list N; q_topic2 : option (list N) }.
(** What eth_getLogs means by a filter (Ethereum's JSON-RPC, not in the repository). *)
Definition mem (x : N) (l : list N) : bool := existsb (N.eqb x) l.
Definition matches (q : query) (l : log) : bool :=
  match lg_block l with Some b => (q_from q <=? b) && (b <=? q_to q) | None => false end &&
  match q_addresses q with Some a => mem (lg_address l) a | None => true end &&
  match lg_topics l with t :: _ => mem t (q_topic0 q) | [] => false end &&
  match q_topic2 q with Some ts => match nth_error (lg_topics l) 2 with Some t => mem t ts | None => false end | None => true end.

(** The node asked: number of the latest block, logs of a filter, receipt of a transaction (its block number, if any).
    [None] in front: the query failed. *)
Record eth_node := mkNode { nd_latest : option N; nd_logs : query -> option (list log); nd_receipt : N -> option (option (option N)) }.

(** 221-249 [identify_secondary_bridge_events]; [Web3H256::from] pads the address, so the topic is the same number. *)
Definition secondary_query (from to : N) (contracts : list N) : query :=
  mkQuery from to None (map signature (List.filter (fun k => negb (is_primary k)) kinds)) (Some contracts).
(** 251-277 [identify_primary_bridge_events]. *)
Definition primary_query (from to : N) (contracts : list N) : query :=
  mkQuery from to (Some contracts) (map signature (List.filter is_primary kinds)) None.

(** A discovered event with its contents decoded. *)
Record found := mkFound { fo_tx : N; fo_sig : N; fo_data : event_data; fo_block : N }.
(** 409-441 [parse_log]. *)
Definition with_token (a : N) (e : event_data) : event_data :=
  match e with
  | LogErc20Transfer d => LogErc20Transfer (if li_token d =? 0 then mkLiftedData a (li_sender d) (li_receiver d) (li_amount d) else d)
  | e => e
  end.
Definition parse_log (l : log) : parsed found :=
  match lg_topics l with
  | [] => Refused "MissingEventSignature"
  | s :: _ =>
    match lg_tx l with
    | None => Refused "MissingTransactionHash"
    | Some tx =>
      let data := match lg_data l with [] => None | d => Some d end in
      let! e := parse_by_registry s data (map (be_bytes 32) (lg_topics l)) in
      match lg_block l with
      | None => Refused "MissingBlockNumber"
      | Some b => Parsed (mkFound tx s (with_token (lg_address l) e) b)
      end
    end
  end.
(** 331-345: the loop over the logs with a map keyed by transaction; [seen] are its keys.  The entries are listed in the order of
    insertion; Rust's HashMap gives them in any order (see [vote_partition]). *)
Fixpoint collect (seen : list N) (logs : list log) : parsed (list found) :=
  match logs with
  | [] => Parsed []
  | l :: r =>
    match lg_tx l with
    | None => collect seen r
    | Some tx =>
      if mem tx seen then collect seen r
      else let! f := parse_log l in let! fs := collect (tx :: seen) r in Parsed (f :: fs)
    end
  end.
(** 304-307. *)
Definition wants_secondary (wanted : list N) : bool :=
  existsb (fun s => match kind_of s with Some k => negb (is_primary k) | None => false end) wanted.
Definition ask (nd : eth_node) (q : query) : parsed (list log) := match nd_logs nd q with Some l => Parsed l | None => Refused "ErrorGettingEventLogs" end.
(** 279-350 [identify_events]. *)
Definition identify_events (nd : eth_node) (from to : N) (contracts wanted : list N) : parsed (list found) :=
  let! logs := ask nd (primary_query from to contracts) in
  let! more := if wants_secondary wanted then ask nd (secondary_query from to contracts) else Parsed [] in
  let! fs := collect [] (logs ++ more) in
  Parsed (List.filter (fun f => mem (fo_sig f) wanted) fs).
(** 352-384 [identify_additional_event_info]: the receipts there are; 398-399: the block number, 0 if there is none, saturated to u32. *)
Fixpoint receipt_blocks (nd : eth_node) (txs : list N) : parsed (list N) :=
  match txs with
  | [] => Parsed []
  | tx :: r =>
    match nd_receipt nd tx with
    | None => Refused "ErrorGettingEventLogs"
    | Some None => receipt_blocks nd r
    | Some (Some b) => let! bs := receipt_blocks nd r in Parsed (N.min U32_MAX (default 0 b) :: bs)
    end
  end.
Fixpoint events_of_blocks (nd : eth_node) (blocks contracts wanted : list N) : parsed (list found) :=
  match blocks with
  | [] => Parsed []
  | b :: r => let! fs := identify_events nd b b contracts wanted in let! gs := events_of_blocks nd r contracts wanted in Parsed (fs ++ gs)
  end.
(** 386-420 [identify_additional_events]. *)
Definition identify_additional_events (nd : eth_node) (contracts wanted txs : list N) : parsed (list found) :=
  let! blocks := receipt_blocks nd txs in events_of_blocks nd blocks contracts wanted.

(** The discovered event as it is voted for: [code] is the encoding of the contents, which the bridge's model takes as a number. *)
Definition coded (code : event_data -> N) (f : found) : discovered := mkDisc (mkEvent (fo_tx f) (fo_sig f) (code (fo_data f))) (fo_block f).
(** What the runtime says (runtime/avn/src/apis.rs:223-275): the bridge contract, the active range and partition, the signatures to
    find, the transactions to look up in addition, and whether this author has voted. *)
Record runtime_view := mkView { rv_contract : N; rv_active : option (range * N); rv_wanted : list N; rv_additional : list N; rv_voted : bool }.
(** 929-985 [execute_event_processing] up to the signature; [order] is the order in which HashMaps gave their entries. *)
Definition vote_partition (order : list found -> list found) (code : event_data -> N) (nd : eth_node) (v : runtime_view) (r : range) (number : N) : parsed partition :=
  let! additional := identify_additional_events nd [rv_contract v] (rv_wanted v) (rv_additional v) in
  let! found := identify_events nd (r_start r) (end_block r) [rv_contract v] (rv_wanted v) in
  let all := map (coded code) (order (additional ++ found)) in
  match List.find (fun p => p_number p =? number) (create_partitions r all) with
  | Some p => Parsed p
  | None => Refused "Partition not found"
  end.
(** What the node then does. *)
Inductive action := Votes (p : partition) | SubmitsBlock (n : N) | DoesNothing | Fails (e : string) | Crashes.
(** lib.rs:40. *)
Definition ETH_FINALITY : N := 20.
(** web3_utils.rs:190-200 [is_eth_block_finalised]; a u32 and 20 as u64. *)
Definition block_finalised (latest block : N) : bool := block + ETH_FINALITY <=? latest.
(** 722-773 the part of [query_runtime_and_process] for one instance, 775-850 [submit_latest_ethereum_block] (the number is cast to
    u32), 852-927 [process_events]. *)
Definition handle (order : list found -> list found) (code : event_data -> N) (nd : eth_node) (v : runtime_view) : action :=
  match rv_active v with
  | Some (r, number) =>
    match nd_latest nd with
    | None => Fails "Failed to get latest block number"
    | Some latest =>
      if block_finalised latest (end_block r) then
        if rv_voted v then DoesNothing
        else match vote_partition order code nd v r number with Parsed p => Votes p | Refused e => Fails e | Panics => Crashes end
      else DoesNothing
    end
  | None =>
    if rv_voted v then DoesNothing
    else match nd_latest nd with None => Fails "Failed to retrieve latest ethereum block" | Some n => SubmitsBlock (n mod 2 ^ 32) end
  end.

(** 607-628 [find_current_node_author]: authors as pairs of address and signing key. *)
Definition find_author (authors : list (N * N)) (keys : list N) : option (N * N) := List.find (fun a => mem a.2 keys) authors.
