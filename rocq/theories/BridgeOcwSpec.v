(** What the properties about the bridge's workers talk about. *)
From Verif Require Import Base CodecModel HttpModel AvnModel BridgeModel BridgeSpec CorroborateModel CorroborateProps BridgeOcwModel.

(** The contract [inst] has executed transaction [id]. *)
Definition executed (e : eth) (inst id : N) : Prop := exists expiry t, In (inst, id, expiry, t) (e_log e).

(** A node is truthful about Ethereum: if its service answers the view of the active transaction, then with what the contract said at some time up to now. *)
Definition truthful (e : eth) (s : st) (n : node) : Prop :=
  forall a r t body, s_active s = Some a -> ac_req a = RSend r -> ac_tx a = Some t -> n_view n = Some body ->
    exists time, time <= e_time e /\ body = view_body (contract_says e time (s_instance s) (sr_id r) (tx_expiry t)).

(** [A]: the honest accounts; [K]: the keys with which only honest workers sign. *)
Definition keys_of_honest (A K : N -> Prop) (vs : list validator) : Prop := forall v, In v vs -> A (v_account v) -> K (v_key v).
Definition author_of (o : op) : option validator :=
  match o with OpConfirm _ _ v _ | OpEthTxHash _ _ v _ | OpCorroborate _ _ _ v _ _ => Some v | _ => None end.

(** What may happen.  Workers that use an honest key are truthful; an honest key signs nothing else.  Calls carry the registered key of the author they name (the code does not
    check this, C23); new validator sets keep honest keys with honest accounts.  The contract executes only what some honest node consented to (it demands the signatures of a
    quorum of authors, C13, C69; the quorum is taken to contain an honest one).  Everybody else signs and submits whatever they like, whenever they like. *)
Definition allowed (A K : N -> Prop) (w : world) (o : wop) : Prop :=
  match o with
  | WWorker n => forall v, local_validator n (w_st w) = Some v -> K (v_key v) -> truthful (w_eth w) (w_st w) n
  | WSign k _ => ~ K k
  | WSubmit o => (forall v, author_of o = Some v -> In v (s_vs (w_st w))) /\ (forall vs, o = EnvValidators vs -> keys_of_honest A K vs)
  | WClock _ => True
  | WExecute inst id expiry => exists k, K k /\ In (k, (inst, id, expiry)) (w_consents w)
  end.
Fixpoint honest_history (c : config) (A K : N -> Prop) (w : world) (ops : list wop) : Prop :=
  match ops with
  | [] => True
  | o :: r => allowed A K w o /\ honest_history c A K (wstep c w o) r
  end.

(** Every report that decides is backed by an honest author: when a report brings those who say the same to the required number, one of them is honest. *)
Definition backed (A : N -> Prop) (w : world) (o : wop) : Prop :=
  forall id su hv v k sig a t, o = WSubmit (OpCorroborate id su hv v k sig) -> s_active (w_st w) = Some a -> ac_tx a = Some t ->
    let same := if su then tx_success t else tx_failure t in
    has_enough_corroborations (w_st w) (N.of_nat (length same) + 1) = true -> exists x, In x (v_account v :: same) /\ A x.
(** No administrator resets ids or the contract, and the two counters do not overflow: ids of 32 bits, attempts of 16 bits. *)
Definition undisturbed (w : world) (o : wop) : Prop :=
  (forall n, o <> WSubmit (OpSetTxId n)) /\ (forall n, o <> WSubmit (OpSetInstance n)) /\ s_next (w_st w) + 1 < 2 ^ 32 /\
  forall a t, s_active (w_st w) = Some a -> ac_tx a = Some t -> tx_attempt t < 65535.
Fixpoint always (c : config) (P : world -> wop -> Prop) (w : world) (ops : list wop) : Prop :=
  match ops with
  | [] => True
  | o :: r => P w o /\ always c P (wstep c w o) r
  end.

(** The fields of what is signed are of their Rust types. *)
Definition wf_payload (p : payload) : Prop :=
  match p with
  | PConfirm inst id sig account => inst < 256 ^ 32 /\ id < 2 ^ 32 /\ sig < 256 ^ 65 /\ account < 256 ^ 32
  | PHash inst id hash account => inst < 256 ^ 32 /\ id < 2 ^ 32 /\ hash < 256 ^ 32 /\ account < 256 ^ 32
  | PCorroborate inst id _ _ account attempt => inst < 256 ^ 32 /\ id < 2 ^ 32 /\ account < 256 ^ 32 /\ attempt < 2 ^ 16
  end.
Definition wf_subject (x : subject) : Prop :=
  match x with
  | SCall p => wf_payload p
  | SEvents inst account part => inst < 256 ^ 32 /\ account < 256 ^ 32
  | SBlock inst account block => inst < 256 ^ 32 /\ account < 256 ^ 32 /\ block < 2 ^ 32
  | SSignToken hash => hash < 256 ^ 32
  | SSendToken account contract data => account < 256 ^ 32 /\ contract < 256 ^ 20 /\ N.of_nat (length data) < 2 ^ 32
  end.
(** What the chain verifies signatures on, as opposed to the node's own service. *)
Definition for_the_chain (x : subject) : bool := match x with SCall _ | SEvents _ _ _ | SBlock _ _ _ => true | _ => false end.
(** The instance a message for the chain is about. *)
Definition instance_of (x : subject) : option N :=
  match x with
  | SCall (PConfirm i _ _ _) | SCall (PHash i _ _ _) | SCall (PCorroborate i _ _ _ _ _) | SEvents i _ _ | SBlock i _ _ => Some i
  | _ => None
  end.
