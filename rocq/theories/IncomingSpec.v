(** Vocabulary of the incoming bridge properties C08, C15, C16, C17 and C36. *)
From Verif Require Import Base AvnModel IncomingModel.

(** Somewhere in the history [ops] started in [s0] an operation was submitted with [P]. *)
Definition happened (c : config) (verify : N -> payload -> N -> bool) (s0 : st) (ops : list op) (P : st -> op -> Prop) : Prop :=
  exists q o r, ops = q ++ o :: r /\ P (run c verify s0 q) o.

(** Account [a], a validator at that time, voted for partition [p], with a valid signature. *)
Definition votes_for (verify : N -> payload -> N -> bool) (p : partition) (a : N) (s : st) (o : op) : Prop :=
  exists key sig, o = OpSubmitEvents (mkValidator a key) p sig /\ is_validator (s_vs s) a = true /\
    verify key (PEvents (i_hash (s_instance s)) a p) sig = true.
(** Account [a], a validator at that time, reported Ethereum block [seen], with a valid signature. *)
Definition reports_block (verify : N -> payload -> N -> bool) (a seen : N) (s : st) (o : op) : Prop :=
  exists key sig, o = OpSubmitBlock (mkValidator a key) seen sig /\ is_validator (s_vs s) a = true /\
    verify key (PBlock (i_hash (s_instance s)) a seen) sig = true.

(** At least a quorum of distinct accounts (quorum of the validators at the end of [ops]), each of which voted
    for [p] as a validator in [ops ++ [o]]. *)
Definition quorum_voted (c : config) (verify : N -> payload -> N -> bool) (s0 : st) (ops : list op) (o : op) (p : partition) : Prop :=
  exists voters, NoDup voters /\ avn_quorum (s_vs (run c verify s0 ops)) <= N.of_nat (length voters) /\
    forall a, In a voters -> happened c verify s0 (ops ++ [o]) (votes_for verify p a).

(** Records of processed events are never handed over to another pallet. *)
Definition keeps_records (ops : list op) : Prop := forall o, In o ops -> match o with OpMigrateOut _ => False | _ => True end.

(** Transaction hashes of the events given to the event handlers. *)
Definition handled_txs (s : st) : list N := map (fun h => ev_tx h.2) (s_handled s).
(** An event this chain should process when it is in an accepted partition of the active range [a]: its
    kind is wanted and its block is not after the range. *)
Definition wanted (c : config) (a : active_range) (d : discovered) : Prop :=
  (exists k, c_kind c (ev_sig (d_event d)) = Some k /\ In k (a_filter a)) /\ d_block d < r_start (a_range a) + r_len (a_range a).

(** Accounts reported as offenders by these events. *)
Definition offenders (evs : list event) : list N :=
  concat (map (fun e => match e with OffenceReported _ l => l | _ => [] end) evs).

(** The first block of the range that a validator reporting Ethereum block [seen] asks for: five ranges
    back, rounded down to a multiple of the range size. *)
Definition aligned (size seen : N) : N := (seen - 5 * size) / size * size.

(** [walk r n l r' n']: accepting the partitions [l] in turn takes discovery from partition [n] of range [r]
    to partition [n'] of range [r'].  Block numbers are u32 and partition numbers u16; both stop at the maximum. *)
Inductive walk : range -> N -> list partition -> range -> N -> Prop :=
| walk_done r n : walk r n [] r n
| walk_more p l r n r' n' : p_range p = r -> p_number p = n -> p_last p = false ->
    walk r (N.min 65535 (n + 1)) l r' n' -> walk r n (p :: l) r' n'
| walk_last p l r n r' n' : p_range p = r -> p_number p = n -> p_last p = true ->
    walk (mkRange (N.min U32_MAX (r_start r + r_len r)) (r_len r)) 0 l r' n' -> walk r n (p :: l) r' n'.
