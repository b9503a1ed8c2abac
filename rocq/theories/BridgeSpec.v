(** Vocabulary of the outgoing bridge properties C09 - C14 and C35. *)
From Verif Require Import Base AvnModel BridgeModel.

(** The requests accepted so far, oldest first, as announced by the events deposited. *)
Definition accepted (evs : list event) : list request :=
  rev (omap (fun e => match e with PublishToEthereum r => Some (RSend r) | LowerProofRequested r => Some (RLower r) | _ => None end) evs).
(** The requests not finished yet: the active one, then the queued ones in order. *)
Definition outstanding (s : st) : list request :=
  match s_active s with Some a => [ac_req a] | None => [] end ++ s_queue s.
(** The notification is about this request: it carries its id and the id of the pallet that made it. *)
Definition about (r : request) (n : notice) : Prop :=
  match r, n with
  | RSend q, NResult id caller _ => id = sr_id q /\ caller = sr_caller q
  | RLower q, NProof id caller _ => id = lr_id q /\ caller = lr_caller q
  | _, _ => False
  end.

(** Ids of the accepted Ethereum transactions, oldest first. *)
Definition send_ids (l : list request) : list N := omap (fun r => match r with RSend q => Some (sr_id q) | RLower _ => None end) l.
Definition no_id_reset (ops : list op) : Prop := forall o, In o ops -> match o with OpSetTxId _ => False | _ => True end.

(** Somewhere in the history [ops] started in [s0] an operation was submitted with [P]. *)
Definition happened (c : config) (verify : N -> payload -> N -> bool) (s0 : st) (ops : list op) (P : st -> op -> Prop) : Prop :=
  exists q o r, ops = q ++ o :: r /\ P (run c verify s0 q) o.

(** Account [a], a validator at that time, reported outcome [su] of attempt [k] of transaction [id]. *)
Definition reports (verify : N -> payload -> N -> bool) (id : N) (su : bool) (k a : N) (s : st) (o : op) : Prop :=
  exists hv key sig, o = OpCorroborate id su hv (mkValidator a key) k sig /\ is_validator (s_vs s) a = true /\
    verify key (PCorroborate (s_instance s) id su hv a k) sig = true.
(** Account [a], a validator at that time, confirmed the message [msg] of request [id] with the
    signature [conf], which recovers to a key registered for [a]. *)
Definition confirms (c : config) (verify : N -> payload -> N -> bool) (id msg conf a : N) (s : st) (o : op) : Prop :=
  exists v sig key, o = OpConfirm id conf v sig /\ v_account v = a /\ is_validator (s_vs s) a = true /\
    c_recover c conf msg = Some key /\ s_keys s !! key = Some a.

(** The same request, message, sender and attempt. *)
Definition same_attempt (a b : active) : Prop :=
  ac_req a = ac_req b /\ ac_msg a = ac_msg b /\
  match ac_tx a, ac_tx b with
  | Some t, Some u => tx_sender t = tx_sender u /\ tx_attempt t = tx_attempt u /\ tx_expiry t = tx_expiry u /\ tx_params t = tx_params u
  | None, None => True
  | _, _ => False
  end.
(** Nothing was submitted for it yet. *)
Definition untouched (a : active) : Prop :=
  ac_confirmations a = [] /\
  forall t, ac_tx a = Some t -> tx_hash t = 0 /\ tx_success t = [] /\ tx_failure t = [] /\ tx_valid_hash t = [] /\ tx_invalid_hash t = [].

(** [pre ++ post] is a history at whose end [a] is active; the attempt [a] began after [pre] and was
    active all through [post]. *)
Definition began (c : config) (verify : N -> payload -> N -> bool) (g : st) (pre post : list op) (a : active) : Prop :=
  (exists a0, s_active (run c verify g pre) = Some a0 /\ untouched a0 /\ same_attempt a0 a) /\
  forall q r, post = q ++ r -> exists a1, s_active (run c verify g (pre ++ q)) = Some a1 /\ same_attempt a1 a.
