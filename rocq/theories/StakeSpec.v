(** Vocabulary in which the staking properties are stated. *)
From Verif Require Import Base BaseLemmas CodecModel SigModel StakeModel.

(** The sum of the amounts of a list of (owner, amount). *)
Fixpoint lsum (l : list (N * N)) : N := match l with [] => 0 | x :: r => x.2 + lsum r end.
(** From greatest to least amount. *)
Definition descending (l : list (N * N)) : Prop := StronglySorted (fun x y => y.2 <= x.2) l.
(** The runtime constants. *)
Definition config_ok (c : config) : Prop :=
  1 <= c_max_top c <= 300 /\ 1 <= c_max_bot c <= 300 /\ 1 <= c_max_per_nominator c <= 300 /\ 1 <= c_min_per_collator c.
(** The states of the pallet: what some history of calls, blocks and changes elsewhere in the runtime leads to from a
    genesis whose minimum nominator stake is at least the minimum per nomination. *)
Definition reachable (c : config) (cr : crypto) (s : st) : Prop :=
  config_ok c /\ exists delay min_col min_nom l, c_min_per_collator c <= min_nom /\ s = run c cr (genesis c delay min_col min_nom) l.
(** What candidates and nominators have at stake. *)
Definition at_stake (s : st) : N := msum (fun _ x => k_bond x) (s_cands s) + msum (fun _ m => m_total m) (s_nominators s).
(** The calls by which [w] schedules the withdrawal of (part of) what it nominates [k] with. *)
Definition schedules_withdrawal (o : op) (w k : N) : Prop :=
  match o with
  | ScheduleRevoke w' k' | ScheduleUnbond w' k' _ | Signed w' _ (SRevoke k') => w' = w /\ k' = k
  | ScheduleLeaveNominators w' | Signed w' _ SLeaveNominators | Signed w' _ (SNominatorUnbond _) => w' = w
  | _ => False
  end.
(** The calls by which candidate [k] schedules that it leaves, or that its bond becomes smaller by [x]. *)
Definition schedules_leaving (o : op) (k : N) : Prop := match o with ScheduleLeave k' _ => k' = k | _ => False end.
Definition schedules_unbond (o : op) (k x : N) : Prop :=
  match o with ScheduleCandidateUnbond k' y | Signed k' _ (SCandidateUnbond y) => k' = k /\ y = x | _ => False end.
(** What [w] nominates [k] with. *)
Definition nomination (s : st) (w k : N) : option N := match s_nominators s !! w with Some m => m_noms m !! k | None => None end.
(** The bond of candidate [k]. *)
Definition bond_of (s : st) (k : N) : option N := k_bond <$> s_cands s !! k.
(** Why what [w] nominates [k] with may change from [before] to [after] when [o] is applied to [s], giving [s']. *)
Inductive nomination_change (s s' : st) (o : op) (w k : N) : option N -> option N -> Prop :=
(** its owner nominates *)
| NewNomination a h1 h2 : o = Nominate w k a h1 h2 -> nomination_change s s' o w k None (Some a)
| NewRelayedNomination p l x a : o = Signed w p (SNominate l x) -> k ∈ l -> a <= x -> nomination_change s s' o w k None (Some a)
(** its owner bonds more *)
| MoreBonded a x : o = BondExtra w k x -> nomination_change s s' o w k (Some a) (Some (a + x))
| MoreRelayedBonded p y a x : o = Signed w p (SBondExtra y) -> x <= y -> nomination_change s s' o w k (Some a) (Some (a + x))
(** a request of its owner for it is executed, after its time *)
| RequestExecuted caller r a : o = ExecuteRequest caller w k \/ (exists p, o = Signed caller p (SExecuteRequests w)) ->
    r ∈ reqs_of s k -> r_who r = w -> r_when r <= s_era s ->
    nomination_change s s' o w k (Some a) (match r_action r with Revoke _ => None | Decrease d => Some (a - d) end)
(** its owner leaves altogether, after the time of its request to revoke this nomination *)
| NominatorLeft caller h r a : o = ExecuteLeaveNominators caller w h \/ (exists p, o = Signed caller p (SExecuteLeaveNominators w)) ->
    r ∈ reqs_of s k -> r_who r = w -> r_when r <= s_era s -> r_action r = Revoke a -> nomination_change s s' o w k (Some a) None
(** the candidate leaves, after its time *)
| CandidateLeft caller h x e a : o = ExecuteLeave caller k h -> s_cands s !! k = Some x -> k_status x = Leaving e -> e <= s_era s ->
    nomination_change s s' o w k (Some a) None
(** somebody else nominates the same candidate with more, and this nomination drops out of its lists *)
| Outbid w' a a' : w' <> w -> (exists h1 h2, o = Nominate w' k a' h1 h2) \/ (exists p l x, o = Signed w' p (SNominate l x) /\ k ∈ l) ->
    nomination s w' k = None -> nomination s' w' k = Some a' -> a < a' -> nomination_change s s' o w k (Some a) None.
(** Why the bond of [k] may change. *)
Inductive bond_change (s : st) (o : op) (k : N) : option N -> option N -> Prop :=
| Joined b h : o = Join k b h -> bond_change s o k None (Some b)
| BondMore b x : o = CandidateBondExtra k x \/ (exists p, o = Signed k p (SCandidateBondExtra x)) -> bond_change s o k (Some b) (Some (b + x))
| BondLess caller x less e : o = ExecuteCandidateUnbond caller k \/ (exists p, o = Signed caller p (SExecuteCandidateUnbond k)) ->
    s_cands s !! k = Some x -> k_req x = Some (less, e) -> e <= s_era s -> bond_change s o k (Some (k_bond x)) (Some (k_bond x - less))
| LeftWithBond caller h x e : o = ExecuteLeave caller k h -> s_cands s !! k = Some x -> k_status x = Leaving e -> e <= s_era s ->
    bond_change s o k (Some (k_bond x)) None.

(** The calls of candidates and nominators, and what they must leave alone: balances, session keys, eras, settings,
    the selected collators, the snapshots, the block number and nonces. *)
Definition staking_call (o : op) : bool :=
  match o with
  | SetTotalSelected _ | SetBlocksPerEra _ | SetAdmin _ | NewBlock | EnvBalances _ _ | EnvSessions _ => false
  | _ => true
  end.
Definition rest (s : st) :=
  (s_free s, s_held s, s_registered s, (s_era s, s_era_first s, s_era_length s, s_delay s, s_min_col s, s_min_nom s, s_total_selected s),
   (s_selected s, s_snaps s, s_block s, s_nonces s)).
