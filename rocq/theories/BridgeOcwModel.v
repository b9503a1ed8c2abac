(** The bridge's offchain worker on many nodes, what authors sign, and Ethereum.
    pallets/eth-bridge/src/lib.rs ("lib.rs"), call.rs, eth.rs of the same directory; pallets/avn/src/lib.rs:349-362.
    The on-chain half is BridgeModel.v, the worker's decision is [BridgeModel.ocw], its reading of the service's answers CorroborateModel.v.
    This file adds the node around them, the bytes signed, and a world of nodes, one chain and the bridge contracts. *)
From Verif Require Import Base CodecModel HttpModel AvnModel BridgeModel CorroborateModel CorroborateProps.

(** ** What is signed *)
(** SCALE of a byte vector shorter than 64: one byte of length, then the bytes. *)
Definition short_vec (b : list N) : list N := 4 * N.of_nat (length b) :: b.
(** primitives/avn-common/src/context_constants.rs:1-5 *)
Definition ctx_confirm : list N := ascii_bytes "EthBridgeConfirmation".
Definition ctx_corroborate : list N := ascii_bytes "EthBridgeCorroboration".
Definition ctx_hash : list N := ascii_bytes "EthBridgeEthTxHash".
Definition ctx_events : list N := ascii_bytes "EthBridgeDiscoveredEthEventsHash".
Definition ctx_block : list N := ascii_bytes "EthBridgeLatestEthereumBlockHash".
Definition bool_byte (b : bool) : N := if b then 1 else 0.

(** Everything an author signs with its AvN key for the bridge: the three calls of this file's worker (call.rs:71-107, verified at lib.rs:1068-1122), the two calls of the
    node's event handler (verified at lib.rs:1123-1175; the partition is given by its SCALE bytes), and the two tokens that authenticate requests to the node's own service:
    for a signature (eth.rs:17-26) the bare hash, for sending (eth.rs:288-296) account, contract and call data.  Instances are named by their 32-byte hash. *)
Inductive subject :=
| SCall (p : payload)
| SEvents (inst account : N) (partition : list N)
| SBlock (inst account block : N)
| SSignToken (hash : N)
| SSendToken (account contract : N) (calldata : list N).
Definition subject_bytes (x : subject) : list N :=
  match x with
  | SCall (PConfirm inst id sig account) => be_bytes 32 inst ++ short_vec ctx_confirm ++ le_bytes 4 id ++ be_bytes 65 sig ++ be_bytes 32 account
  | SCall (PHash inst id hash account) => be_bytes 32 inst ++ short_vec ctx_hash ++ le_bytes 4 id ++ be_bytes 32 hash ++ be_bytes 32 account
  | SCall (PCorroborate inst id su hv account attempt) =>
      be_bytes 32 inst ++ short_vec ctx_corroborate ++ le_bytes 4 id ++ [bool_byte su; bool_byte hv] ++ be_bytes 32 account ++ le_bytes 2 attempt
  | SEvents inst account part => be_bytes 32 inst ++ short_vec ctx_events ++ be_bytes 32 account ++ part
  | SBlock inst account block => be_bytes 32 inst ++ short_vec ctx_block ++ be_bytes 32 account ++ le_bytes 4 block
  | SSignToken hash => be_bytes 32 hash
  | SSendToken account contract data => be_bytes 32 account ++ be_bytes 20 contract ++ scale_bytes data
  end.

(** ** A node *)
(** The AvN keys in its key store; the finalised block its service reports; the service's answers: to a request for a signature on a hash, to a request to send
    (the transaction's hash), to the view of [corroborate] for the active transaction and to the query of the transaction's call data (HTTP bodies, eth.rs:121-155); the call
    data the node itself computes; whether the lock on sending is held.  [None]: the request failed, the worker stops. *)
Record node := mkNode {
  n_keys : list N; n_finalised : N;
  n_signs : N -> option N; n_send : option N;
  n_view : option (list N); n_query : option (list N); n_expected : option (list N);
  n_locked : bool }.

(** pallets/avn/src/lib.rs:349-362 [get_validator_for_current_node]: the first validator whose key is local. *)
Definition local_validator (n : node) (s : st) : option validator :=
  List.find (fun v => memN (v_key v) (n_keys n)) (s_vs s).

(** eth.rs:100-119 [corroborate] on the active transaction. *)
Definition report (c : config) (n : node) (s : st) : option (bool * bool) :=
  match s_active s with
  | Some a => match ac_tx a with
              | Some t => corroborated (corroborate (c_min_confirmation c) (tx_hash t) (n_expected n) (n_view n) (n_query n))
              | None => None end
  | None => None
  end.
(** lib.rs:783-789 [offchain_worker], after a successful [setup_ocw] (OcwModel.v).  A failed request ends the run with nothing submitted. *)
Definition worker (c : config) (n : node) (s : st) : option (validator * ocw_action) :=
  match local_validator n s with
  | None => None
  | Some v =>
    Some (v, match ocw s (v_account v) (n_finalised n) (fun m => default 0 (n_signs n m)) (default 0 (n_send n)) (n_locked n) (report c n s) with
             | SubmitConfirmation id conf =>
                 match s_active s with
                 | Some a => match n_signs n (ac_msg a) with Some _ => SubmitConfirmation id conf | None => Nothing end
                 | None => Nothing
                 end
             | SendAndSubmitHash id h => match n_send n with Some _ => SendAndSubmitHash id h | None => Nothing end
             | x => x
             end)
  end.
(** call.rs:6-50: what the worker signs for its submission. *)
Definition payload_of (s : st) (me : N) (x : ocw_action) : option payload :=
  match x with
  | Nothing => None
  | SubmitConfirmation id conf => Some (PConfirm (s_instance s) id conf me)
  | SendAndSubmitHash id h => Some (PHash (s_instance s) id h me)
  | SubmitCorroboration id su hv k => Some (PCorroborate (s_instance s) id su hv me k)
  end.
(** The call it then submits. *)
Definition op_of (v : validator) (x : ocw_action) : option op :=
  match x with
  | Nothing => None
  | SubmitConfirmation id conf => Some (OpConfirm id conf v 0)
  | SendAndSubmitHash id h => Some (OpEthTxHash id h v 0)
  | SubmitCorroboration id su hv k => Some (OpCorroborate id su hv v k 0)
  end.
(** By confirming a request to send, or by sending it, a node consents to the execution of this transaction until its expiry. *)
Definition consent (s : st) (x : ocw_action) : option (N * N * N) :=
  match x, s_active s with
  | (SubmitConfirmation id _ | SendAndSubmitHash id _), Some a =>
      match ac_tx a with Some t => Some (s_instance s, id, tx_expiry t) | None => None end
  | _, _ => None
  end.

(** ** Ethereum *)
(** The clock, and the executions of transactions by bridge contracts (instance, id, expiry, time), newest first.  The contracts are not part of the code base; what is assumed
    of them is the contract's interface as the pallet uses it: an id is executed at most once and not after the expiry it was signed with, [corroborate(id, expiry)] says
    whether the id was executed, and if not whether the expiry has passed.  Ethereum is taken without reorganisations. *)
Record eth := mkEth { e_time : N; e_log : list (N * N * N * N) }.
Definition used_at (e : eth) (time inst id : N) : bool :=
  existsb (fun '(i, x, _, t) => (i =? inst) && (x =? id) && (t <=? time)) (e_log e).
Definition contract_says (e : eth) (time inst id expiry : N) : verdict :=
  if used_at e time inst id then Executed else if expiry <? time then Expired else Unknown.
Definition execute (e : eth) (inst id expiry : N) : eth :=
  if negb (used_at e (e_time e) inst id) && (e_time e <=? expiry) then mkEth (e_time e) ((inst, id, expiry, e_time e) :: e_log e) else e.

(** ** Nodes, the chain and Ethereum together *)
(** Signatures are symbolic: which key has signed which payload (for the bytes see C86).  Whoever has a signature may submit it at any time. *)
Record world := mkWorld { w_st : st; w_eth : eth; w_sigs : list (N * payload); w_consents : list (N * (N * N * N)) }.
#[export] Instance etaWorld : Settable _ := settable! mkWorld <w_st; w_eth; w_sigs; w_consents>.
#[export] Instance payload_eq_dec : EqDecision payload. Proof. solve_decision. Defined.
Inductive wop :=
| WWorker (n : node)                    (* the worker of node n runs *)
| WSign (k : N) (p : payload)           (* the holder of key k signs something *)
| WSubmit (o : op)                      (* a call or anything else that happens on the chain *)
| WClock (t : N)                        (* Ethereum's clock advances by t *)
| WExecute (inst id expiry : N).        (* somebody calls the contract *)
Definition opt_list {A} (x : option A) : list A := match x with Some y => [y] | None => [] end.
Definition verified (w : world) (key : N) (p : payload) (_ : N) : bool := bool_decide ((key, p) ∈ w_sigs w).
Definition wstep (c : config) (w : world) (o : wop) : world :=
  match o with
  | WWorker n =>
    match worker c n (w_st w) with
    | None => w
    | Some (v, x) => w <| w_sigs := map (pair (v_key v)) (opt_list (payload_of (w_st w) (v_account v) x)) ++ w_sigs w |>
                       <| w_consents := map (pair (v_key v)) (opt_list (consent (w_st w) x)) ++ w_consents w |>
    end
  | WSign k p => w <| w_sigs := (k, p) :: w_sigs w |>
  | WSubmit o => w <| w_st := step c (verified w) (w_st w) o |>
  | WClock t => w <| w_eth := mkEth (e_time (w_eth w) + t) (e_log (w_eth w)) |>
  | WExecute inst id expiry => w <| w_eth := execute (w_eth w) inst id expiry |>
  end.
Definition wrun (c : config) (w : world) (ops : list wop) : world := fold_left (wstep c) ops w.
Definition wstart (s : st) : world := mkWorld s (mkEth 0 []) [] [].
