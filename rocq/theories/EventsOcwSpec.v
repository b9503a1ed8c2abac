(** What the properties of the event workers talk about. *)
From Verif Require Import Base AvnModel LogModel EventsOcwModel.

(** Ethereum: for each event, the receipt of its transaction (final, apart from the confirmations).  A node is truthful if whatever its service answers is that receipt. *)
Definition truthful (eth : event_id -> receipt) (n : node) : Prop :=
  forall id rc, n_eth n id = Some rc -> rc_readable rc = rc_readable (eth id) /\ rc_success rc = rc_success (eth id) /\ rc_event rc = rc_event (eth id).
(** What is the case: the data of the event, if the transaction succeeded and contains a well-formed event of this kind from a contract that the chain trusts. *)
Definition fact (eth : event_id -> receipt) (bridge : N) (contracts : list N) (id : event_id) : option N :=
  if rc_readable (eth id) && rc_success (eth id) then
    match rc_event (eth id) with
    | Some (addr, Some d) => if (if is_nft_kind id.1 then memN addr contracts else addr =? bridge) then Some d else None
    | _ => None
    end
  else None.
(** A check is true if it says that the event is genuine, with these data, and so it is, or that it is invalid, and there is none. *)
Definition true_check (fact : event_id -> option N) (r : check) : Prop :=
  match ck_result r with ROk => fact (ck_id r) = Some (ck_data r) | RInvalid => fact (ck_id r) = None | _ => False end.

(** The signed message, sender and signature of a call that carries one. *)
Definition signed_call (o : op) : option (validator * message * N) :=
  match o with
  | SubmitCheck r n v sig => Some (v, MCheck r n, sig)
  | ChallengeEvent ch n v sig => Some (v, MChallenge ch n, sig)
  | ProcessEvent id n v sig _ => Some (v, MProcess id n, sig)
  | _ => None
  end.
(** [A]: the honest accounts, [K]: the keys only honest nodes sign with. *)
Definition keys_of_honest (A K : N -> Prop) (vs : list validator) : Prop := forall v, In v vs -> A (v_account v) -> K (v_key v).
(** What may happen: workers that use an honest key are truthful; nobody else signs with an honest key, and what verifies under one was signed with it; calls carry
    the registered key of the validator they name (the code does not check this, C23); new validator sets keep honest keys with honest accounts; the trusted contracts stay.
    Everybody else may sign and submit whatever they like, whenever they like. *)
Definition allowed (wc : wconfig) (A K : N -> Prop) (eth : event_id -> receipt) (w : world) (o : wop) : Prop :=
  match o with
  | WWorker n => forall v, local_validator n (w_log w) = Some v -> K (v_key v) -> truthful eth n
  | WSign k _ => ~ K k
  | WChain o =>
      (forall v m sig, signed_call o = Some (v, m, sig) -> In v (s_validators (w_log w)) /\ (K (v_key v) -> c_verify (wc_pallet wc) (v_key v) m sig = true -> In (v_key v, m) (w_sigs w))) /\
      (forall vs k, o = NewBlock vs k -> keys_of_honest A K vs) /\ (forall a, o <> InsertNftContract true a)
  end.
Fixpoint honest_history (wc : wconfig) (A K : N -> Prop) (eth : event_id -> receipt) (w : world) (ops : list wop) : Prop :=
  match ops with
  | [] => True
  | o :: r => allowed wc A K eth w o /\ honest_history wc A K eth (wstep wc w o) r
  end.
(** The calls among what happens. *)
Fixpoint calls (ops : list wop) : list op := match ops with [] => [] | WChain o :: r => o :: calls r | _ :: r => calls r end.
