(** The off-chain worker of pallets/ethereum-events, and the world of nodes that run it around the chain of LogModel.v. *)
From Verif Require Import Base AvnModel LogModel.

(** The pallet's configuration, and from pallets/avn the number of confirmations (EthereumConfirmations, compared at lib.rs:1480-1488) and the bridge contract; both are taken as fixed. *)
Record wconfig := mkWconfig { wc_pallet : config; wc_conf : N; wc_bridge : N }.
(** A node as a run of the worker meets it: its number; the keys in its key store; whether this is the node's first run in this block (pallets/avn/src/lib.rs:246-257); the finalised
    block its service reports (244: [None], an error); the service's answers about transactions ([None]: an HTTP error); whether its own store and its key store work. *)
Record node := mkNode { n_id : N; n_keys : list N; n_first : bool; n_finalised : option N; n_eth : event_id -> option receipt; n_saves : bool; n_signs : bool }.
(** pallets/avn/src/lib.rs:349-362 [get_validator_for_current_node] *)
Definition local_validator (n : node) (s : st) : option validator := List.find (fun v => memN (v_key v) (n_keys n)) (s_validators s).
(** lib.rs:1391-1407 [check_event] *)
Definition found (wc : wconfig) (n : node) (s : st) (id : event_id) : result * N := compute_result (wc_conf wc) (wc_bridge wc) (s_contracts s) id (n_eth n id).
(** lib.rs:986-1007 [try_check_event] with 1246-1287 *)
Definition try_check (wc : wconfig) (n : node) (me : N) (s : st) (fin : N) : list message :=
  match next_to_check s fin with
  | None => []
  | Some e => match check_to_submit me (s_block s) e.1.1 (found wc n s e.1.1) with Some r => [MCheck r e.1.2] | None => [] end
  end.
(** lib.rs:1009-1025 [try_process_event] with 1226-1244 *)
Definition try_process (s : st) (fin : N) : list message :=
  match next_to_process s (s_block s) fin with Some e => [MProcess (ck_id e.1.1) e.1.2] | None => [] end.
(** lib.rs:1027-1043 [try_validate_event] with 1289-1330 [validate_event] and 1372-1389 [save_validated_event_in_local_storage]: the event is noted as validated
    before it is known whether it will be challenged. *)
Definition try_validate (wc : wconfig) (n : node) (me : N) (s : st) (seen : list event_id) (fin : N) : list message * list event_id :=
  match next_to_validate s me seen fin with
  | None => ([], seen)
  | Some e =>
    let f := found wc n s (ck_id e.1.1) in
    if bool_decide (f.1 = RHttp) then ([], seen)
    else if negb (n_saves n) then ([], seen)
    else (match challenge_required me e.1.1 f with Some ch => [MChallenge ch e.1.2] | None => [] end, seen ++ [ck_id e.1.1])
  end.
(** lib.rs:813-847 [offchain_worker]: what is signed and under which key, and what the node has validated afterwards.  What is signed is then submitted (as a call of [WChain] below, if ever). *)
Definition worker (wc : wconfig) (n : node) (s : st) (seen : list event_id) : list (N * message) * list event_id :=
  let sign (v : validator) (l : list message) := if n_signs n then map (pair (v_key v)) l else [] in
  if n_first n then
    match local_validator n s, n_finalised n with
    | Some v, Some fin =>
      match primary_for_block (s_validators s) (s_block s) with
      | Ok p =>
        if p =? v_account v then (sign v (try_check wc n (v_account v) s fin ++ try_process s fin), seen)
        else let '(l, seen') := try_validate wc n (v_account v) s seen fin in (sign v l, seen')
      | Err _ => ([], seen)
      end
    | _, _ => ([], seen)
    end
  else ([], seen).

(** The world: the chain, everything signed so far, and each node's store.  Not modelled: forks (a worker sees the one chain). *)
Record world := mkWorld { w_log : st; w_sigs : list (N * message); w_seen : N -> list event_id }.
Inductive wop :=
| WWorker (n : node)                  (* a node runs the worker on the chain's state *)
| WSign (key : N) (m : message)       (* somebody signs *)
| WChain (o : op).                    (* a call reaches the chain, or a block passes *)
Definition wstep (wc : wconfig) (w : world) (o : wop) : world :=
  match o with
  | WWorker n => let '(l, seen) := worker wc n (w_log w) (w_seen w (n_id n)) in
      mkWorld (w_log w) (l ++ w_sigs w) (fun i => if i =? n_id n then seen else w_seen w i)
  | WSign key m => mkWorld (w_log w) ((key, m) :: w_sigs w) (w_seen w)
  | WChain o => mkWorld (step (wc_pallet wc) (w_log w) o) (w_sigs w) (w_seen w)
  end.
Definition wrun (wc : wconfig) (w : world) (ops : list wop) : world := fold_left (wstep wc) ops w.
Definition wstart (s : st) : world := mkWorld s [] (fun _ => []).
