(** Vocabulary of the fee properties, C30. *)
From Verif Require Import Base FeeModel.

(** No call authorised by root concerns [who]. *)
Definition quiet_call (who : N) (a : admin) : Prop :=
  match a with Set_ root w _ _ | Remove root w => root = false \/ w <> who end.
Definition quiet (who : N) (o : op) : Prop :=
  match o with OpTx _ _ _ _ b | OpElse b => Forall (quiet_call who) (b_calls b) | _ => True end.
(** The transaction is included. *)
Definition included (c : config) (s : st) (o : op) : Prop := snd (exec c Avn o s) = Ok tt.
(** Transactions of [who] included along a history. *)
Definition tx_of (who : N) (o : op) : bool := match o with OpTx w _ _ _ _ => w =? who | _ => false end.
Fixpoint txs_by (c : config) (who : N) (s : st) (ops : list op) : N :=
  match ops with
  | [] => 0
  | o :: r => (if tx_of who o && is_ok (snd (exec c Avn o s)) then 1 else 0) + txs_by c who (step c Avn s o) r
  end.
(** How many of his transactions were charged an adjusted fee, according to the events. *)
Fixpoint adjusted (who : N) (evs : list event) : N :=
  match evs with
  | [] => 0
  | AdjustedTransactionFeePaid w _ :: r => (if w =? who then 1 else 0) + adjusted who r
  | _ :: r => adjusted who r
  end.

(** The state in which the fee of a transaction is corrected: the predicted fee is gone, the call has run. *)
Definition after_call (s : st) (who predicted : N) (b : body) : st :=
  run_body b (s <| s_nonces := <[who := (nonce_of s who + 1) mod 2 ^ 32]> (s_nonces s) |>
                <| s_free := <[who := free_of s who - predicted]> (s_free s) |>).
(** [r] comes back to the sender, the rest of the predicted fee goes to the staking pot; nobody else is affected. *)
Definition settled (c : config) (who predicted r : N) (m s' : st) : Prop :=
  r <= predicted /\
  forall a, free_of s' a = free_of m a + (if a =? who then r else 0) + (if a =? c_pot c then predicted - r else 0).

(** The price of a transaction whose network fee (without tip) is [network], under an adjustment in force. *)
Inductive price (network : N) : fee_type -> N -> Prop :=
| PFixed fee : price network (FixedFee fee) fee
| PPercentage p discount : discount <= network ->          (* above a hundred counts as a hundred *)
    100 * discount <= N.min p 100 * network + 50 -> N.min p 100 * network <= 100 * discount + 50 ->   (* to the nearest unit *)
    price network (PercentageFee p) (network - discount).
Definition terms (f : fee_config) : fee_type :=
  match f with CFixed x => FixedFee x | CPercentage p => PercentageFee p | CTime t _ | CTx t _ _ => t | CNone => NoFeeType end.
(** An adjustment in force. *)
Definition in_force (s : st) (f : fee_config) : Prop :=
  match f with
  | CFixed _ | CPercentage _ => True
  | CTime _ e => s_block s < e
  | CTx _ a e => nonce_of s a <= e
  | CNone => False
  end.
(** Nothing overflows: balances are u128 and bounded by the total issuance. *)
Definition room (c : config) (m : st) (who predicted : N) : Prop :=
  who <> c_pot c /\ free_of m who + predicted <= U128_MAX /\ free_of m (c_pot c) + predicted <= U128_MAX.
(** The sender still has something (free or reserved) when the fee is corrected. *)
Definition alive (m : st) (who : N) : Prop := 0 < free_of m who + mget 0 who (s_reserved m).
Definition reachable (c : config) (s : st) : Prop := exists free ops, s = run c Avn (genesis free) ops.
(** Root makes a call of the pallet. *)
Definition by_root (a : admin) : op := OpElse (mkBody [a] (fun m => m)).
