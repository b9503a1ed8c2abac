(** Model of the payouts of pallets/parachain-staking (lib.rs): staking rewards from the reward pot, and collator growth. *)
From Verif Require Import Base.

(** sp_arithmetic per_things.rs [Perbill::from_rational]: rounds down; 100% when the ratio is above one or undefined. *)
Definition BILLION : N := 1000000000.
Definition perbill_ratio (p q : N) : N :=
  if (q =? 0) || (q <? p) then BILLION
  else let f := N.max 1 ((q + (BILLION - 1)) / BILLION) in (p / f) * BILLION / (q / f).
(** per_things.rs [Perbill * N]: to nearest, half down. *)
Definition perbill_mul (parts x : N) : N :=
  let rem := x mod BILLION in
  x / BILLION * parts + rem * parts / BILLION + (if (rem * parts) mod BILLION <=? 500000000 then 0 else 1).

(** Runtime constants (lib.rs:170-235): payment delay in eras, growth switched on, eras per growth period; the reward pot
    account (2080-2083) and the treasury, which receives dust; [is_staking_enabled] (76-82). *)
Record config := mkConfig { c_delay : N; c_growth : bool; c_eras_per_period : N; c_pot : N; c_treasury : N; c_enabled : bool }.
(** types.rs:115-127 [CollatorSnapshot]; default is all zero. *)
Record snapshot := mkSnap { sn_bond : N; sn_noms : list (N * N); sn_total : N }.
(** types.rs:1365-1373 [GrowthInfo]; the scores as a map (BTreeMap order; the bound of 10000 entries is not modelled). *)
Record growth := mkGrowth { g_count : N; g_stake : N; g_reward : N; g_points : N; g_scores : gmap N N; g_tx : option N; g_triggered : option bool }.
#[export] Instance eta_growth : Settable _ := settable! mkGrowth <g_count; g_stake; g_reward; g_points; g_scores; g_tx; g_triggered>.
Definition growth_default : growth := mkGrowth 0 0 0 0 ∅ None None.
Inductive event :=
| Rewarded (account amount : N) | ErrorPaying (account amount : N) | NotEnoughFunds (pot : N) | CollatorPaid (account amount period : N).
(** lib.rs:545-670 storage, the native balances, and the requests published to the bridge ([s_calls]: transaction id,
    rewards, average stake, period). *)
Record st := mkSt {
  s_era : N; s_points : gmap N N; s_awarded : gmap N (gmap N N); s_snaps : gmap N (gmap N snapshot); s_staked : gmap N N;
  s_delayed : gmap N N; s_locked : N; s_free : gmap N N; s_issuance : N; s_selected : list N;
  s_start : N; s_index : N; s_growth : gmap N growth; s_processed : gset N; s_last : N; s_published : gmap N N;
  s_next_tx : N; s_bridge_ok : bool; s_calls : list (N * N * N * N); s_events : list event }.
#[export] Instance eta_st : Settable _ :=
  settable! mkSt <s_era; s_points; s_awarded; s_snaps; s_staked; s_delayed; s_locked; s_free; s_issuance; s_selected;
                  s_start; s_index; s_growth; s_processed; s_last; s_published; s_next_tx; s_bridge_ok; s_calls; s_events>.
Definition free_of (s : st) (a : N) : N := mget 0 a (s_free s).
Definition points_of (s : st) (e : N) : N := mget 0 e (s_points s).
Definition awarded_in (s : st) (e : N) : gmap N N := mget ∅ e (s_awarded s).
Definition emit (e : event) : M st unit := modify (fun s => s <| s_events := e :: s_events s |>).
Definition keys {V} (m : gmap N V) : list N := merge_sort N.le (map fst (map_to_list m)).
Definition sat32 (a b : N) : N := saturating_add U32_MAX a b.
Definition sat (a b : N) : N := saturating_add U128_MAX a b.

(** ** Staking rewards *)

(** lib.rs:2478-2489 [note_author]. *)
Definition note_author (who : N) : M st unit :=
  modify (fun s => let m := awarded_in s (s_era s) in
    s <| s_awarded := <[s_era s := <[who := sat32 (mget 0 who m) 20]> m]> (s_awarded s) |>
      <| s_points := <[s_era s := sat32 (points_of s (s_era s)) 20]> (s_points s) |>).
(** lib.rs:1756-1783 [compute_total_reward_to_pay] (the existential deposit is zero). *)
Definition compute_total_reward (c : config) : M st N :=
  s <-- get_st ;;
  let pot := free_of s (c_pot c) in
  (if s_locked s <=? pot then mret_ tt else emit (NotEnoughFunds pot)) ;;;
  let payout := if s_locked s <=? pot then pot - s_locked s else 0 in
  if s_locked s + payout <=? U128_MAX then modify (fun s => s <| s_locked := s_locked s + payout |>) ;;; mret_ payout
  else modify (fun s => s <| s_locked := U128_MAX |>) ;;; mret_ (saturating_sub U128_MAX (s_locked s)).

(** pallet-balances [Currency::transfer] from the pot, KeepAlive; the pot has no locks. *)
Definition pot_transfer (c : config) (to amount : N) : M st unit :=
  s <-- get_st ;;
  if (amount =? 0) || (c_pot c =? to) then mret_ tt else
  ensure (amount <=? free_of s (c_pot c)) "InsufficientBalance" ;;;
  ensure (free_of s to + amount <=? U128_MAX) "Overflow" ;;;
  modify (fun s => s <| s_free := <[to := free_of s to + amount]> (<[c_pot c := free_of s (c_pot c) - amount]> (s_free s)) |>).
(** lib.rs:1896-1919 the closure [pay_reward]: a failed transfer is only reported. *)
Definition pay_reward (c : config) (amount to : N) : M st unit := fun s =>
  match pot_transfer c to amount s with
  | (s1, Ok _) => (s1 <| s_events := Rewarded to amount :: s_events s1 |> <| s_locked := saturating_sub (s_locked s1) amount |>, Ok tt)
  | (s1, Err _) => emit (ErrorPaying to amount) s1
  end.
(** lib.rs:1936-1942. *)
Fixpoint pay_nominators (c : config) (total reward : N) (l : list (N * N)) : M st unit :=
  match l with
  | [] => mret_ tt
  | x :: r => let a := perbill_mul (perbill_ratio x.2 total) reward in
              (if a =? 0 then mret_ tt else pay_reward c a x.1) ;;; pay_nominators c total reward r
  end.
(** lib.rs:1877-1958 [pay_one_collator_reward]; [order] chooses among the accounts (the hash order of the storage map). *)
Definition pick (order : N) (m : gmap N N) : option N :=
  let l := keys m in nth_error l (N.to_nat (order mod N.max 1 (N.of_nat (length l)))).
Definition pay_one_collator (c : config) (era reward order : N) : M st (option N) :=
  s <-- get_st ;;
  if points_of s era =? 0 then mret_ None else
  match pick order (awarded_in s era) with
  | None => mret_ None
  | Some k =>
      let pts := mget 0 k (awarded_in s era) in
      let due := perbill_mul (perbill_ratio pts (points_of s era)) reward in
      let v := mget (mkSnap 0 [] 0) k (mget ∅ era (s_snaps s)) in
      modify (fun s => s <| s_awarded := <[era := delete k (awarded_in s era)]> (s_awarded s) |>
                         <| s_snaps := <[era := delete k (mget ∅ era (s_snaps s))]> (s_snaps s) |>) ;;;
      pay_reward c (perbill_mul (perbill_ratio (sn_bond v) (sn_total v)) due) k ;;;
      pay_nominators c (sn_total v) due (sn_noms v) ;;;
      mret_ (Some k)
  end.
(** lib.rs:1849-1871 [handle_delayed_payouts]. *)
Definition handle_delayed_payouts (c : config) (order : N) : M st unit :=
  s <-- get_st ;;
  if s_era s <? c_delay c then mret_ tt else
  let era := s_era s - c_delay c in
  match s_delayed s !! era with
  | None => mret_ tt
  | Some reward =>
      r <-- pay_one_collator c era reward order ;;
      match r with
      | Some _ => mret_ tt
      | None => modify (fun s => s <| s_delayed := delete era (s_delayed s) |> <| s_points := delete era (s_points s) |>)
      end
  end.

(** ** Growth *)

(** lib.rs:2424-2455 [trigger_growth_on_t1]: asks the bridge to send triggerGrowth. *)
Definition trigger_growth (period : N) (g : growth) : M st unit :=
  s <-- get_st ;;
  ensure (s_bridge_ok s) "BridgeError" ;;;
  let tx := s_next_tx s in
  modify (fun s => s <| s_next_tx := tx + 1 |> <| s_calls := (tx, g_reward g, g_stake g / g_count g, period) :: s_calls s |>
                     <| s_last := period |> <| s_published := <[tx := period]> (s_published s) |>
                     <| s_growth := <[period := (mget growth_default period (s_growth s)) <| g_tx := Some tx |>]> (s_growth s) |>).
(** lib.rs:2384-2422 [trigger_outstanding_growths], 2457-2460 [get_untriggered_growths]. *)
Definition trigger_one (period : N) : M st unit := fun s =>
  match s_growth s !! period with
  | None => (s, Ok tt)
  | Some g =>
      if bool_decide (period ∈ s_processed s) || negb (bool_decide (g_tx g = None)) || negb (bool_decide (g_triggered g = None)) then (s, Ok tt)
      else if (g_count g =? 0) || (g_stake g =? 0) || (g_reward g =? 0) then
        (s <| s_last := period |> <| s_growth := <[period := g <| g_tx := Some 0 |>]> (s_growth s) |>, Ok tt)
      else (fst (trigger_growth period g s), Ok tt)
  end.
Fixpoint trigger_from (period : N) (n : nat) : M st unit :=
  match n with O => mret_ tt | S k => trigger_one period ;;; trigger_from (period + 1) k end.
Definition trigger_outstanding (latest : N) : M st unit :=
  s <-- get_st ;;
  trigger_from (s_last s + 1) (N.to_nat (N.min 10 (latest - s_last s))).
(** lib.rs:2166-2191 [update_collator_scores]. *)
Definition add_scores (old new : gmap N N) : gmap N N :=
  union_with (fun a b => Some (sat32 a b)) old new.
(** lib.rs:2101-2164 [update_collator_payout], [is_new_growth_period], [accumulate_payout_for_period]. *)
Definition update_collator_payout (c : config) (era staked reward points : N) (scores : gmap N N) : M st unit :=
  s <-- get_st ;;
  if (s_index s =? 0) || (c_eras_per_period c <=? era - s_start s) then
    let i := sat32 (s_index s) 1 in
    modify (fun s => s <| s_start := era |> <| s_index := i |> <| s_growth := <[i := mkGrowth 1 staked reward points scores None None]> (s_growth s) |>) ;;;
    trigger_outstanding (i - 1)
  else
    let g := mget growth_default (s_index s) (s_growth s) in
    modify (fun s => s <| s_growth := <[s_index s := g <| g_count := sat32 (g_count g) 1 |> <| g_stake := sat (g_stake g) staked |>
       <| g_reward := sat (g_reward g) reward |> <| g_points := sat32 (g_points g) points |> <| g_scores := add_scores (g_scores g) scores |>]> (s_growth s) |>).
(** lib.rs:1805-1843 [prepare_staking_payouts]. *)
Definition prepare_payouts (c : config) : M st unit :=
  s <-- get_st ;;
  if s_era s <=? c_delay c then mret_ tt else
  let era := s_era s - c_delay c in
  if points_of s era =? 0 then mret_ tt else
  modify (fun s => s <| s_staked := delete era (s_staked s) |>) ;;;
  reward <-- compute_total_reward c ;;
  modify (fun s => s <| s_delayed := <[era := reward]> (s_delayed s) |>) ;;;
  if c_growth c then update_collator_payout c era (mget 0 era (s_staked s)) reward (points_of s era) (awarded_in s era) else mret_ tt.

(** pallet-balances [deposit_into_existing]; an account exists when it has a balance entry. *)
Definition deposit_existing (who amount : N) : M st unit :=
  s <-- get_st ;;
  if amount =? 0 then mret_ tt else
  ensure (match s_free s !! who with Some _ => true | None => false end) "DeadAccount" ;;;
  ensure (free_of s who + amount <=? U128_MAX) "Overflow" ;;;
  modify (fun s => s <| s_free := <[who := free_of s who + amount]> (s_free s) |> <| s_issuance := sat (s_issuance s) amount |>).
(** lib.rs:2201-2224 [pay], over the list of shares; an error stops the payment. *)
Fixpoint pay_collators (period amount : N) (l : list (N * N)) : M st unit :=
  match l with
  | [] => mret_ tt
  | x :: r => deposit_existing x.1 (perbill_mul x.2 amount) ;;; emit (CollatorPaid x.1 (perbill_mul x.2 amount) period) ;;; pay_collators period amount r
  end.
Definition lsum (l : list N) : N := foldr N.add 0 l.
(** lib.rs:2226-2246 who is paid and which share. *)
Definition shares (s : st) (period : N) : list (N * N) :=
  match s_growth s !! period with
  | Some g => map (fun k => (k, perbill_ratio (mget 0 k (g_scores g)) (g_points g))) (keys (g_scores g))
  | None => map (fun k => (k, perbill_ratio 1 (N.of_nat (length (s_selected s))))) (s_selected s)
  end.
(** lib.rs:2193-2262 [payout_collators]; token-manager lib.rs:1189-1198 [handle_dust]. *)
Definition payout_collators (c : config) (amount period : N) : M st unit :=
  s <-- get_st ;;
  ensure (negb (bool_decide (period ∈ s_processed s))) "GrowthAlreadyProcessed" ;;;
  pay_collators period amount (shares s period) ;;;
  modify (fun s => s <| s_growth := delete period (s_growth s) |> <| s_processed := s_processed s ∪ {[period]} |>) ;;;
  let dust := amount - lsum (map (fun x => perbill_mul x.2 amount) (shares s period)) in
  fun s1 => if dust =? 0 then (s1, Ok tt) else
            match deposit_existing (c_treasury c) dust s1 with (s2, Ok _) => (s2, Ok tt) | _ => (s1, Ok tt) end.
(** lib.rs:2499-2509 [process_result]. *)
Definition process_result (tx : N) (succeeded : bool) : M st unit :=
  modify (fun s => match s_published s !! tx with
    | Some p => s <| s_growth := <[p := (mget growth_default p (s_growth s)) <| g_triggered := Some succeeded |>]> (s_growth s) |>
    | None => s end).

(** ** Blocks
    [NewBlock None]: no era change.  [NewBlock (Some (snaps, sel, staked))]: an era starts; selection, snapshots and
    total stake come from StakeModel.v (which proves that a snapshot's total is its bond plus its nominations).
    [Elsewhere]: balances change by everything else, except that nothing takes from the pot (its account has no key);
    the bridge's transaction ids go up.  [GrowthLifted] comes from the token manager, which does not roll back. *)
Inductive op :=
| NewBlock (start : option (gmap N snapshot * list N * N)) (order : N) | Author (who : N)
| GrowthLifted (amount period : N) | BridgeResult (tx : N) (succeeded : bool)
| Elsewhere (free : gmap N N) (issuance : N) (ok : bool) (next_tx : N).
(** lib.rs:458-479 [on_initialize], 1679-1712 [start_new_era]. *)
Definition start_era (c : config) (x : gmap N snapshot * list N * N) : M st unit :=
  modify (fun s => s <| s_era := sat32 (s_era s) 1 |>) ;;;
  (if c_enabled c then prepare_payouts c else mret_ tt) ;;;
  modify (fun s => s <| s_snaps := <[s_era s := x.1.1]> (s_snaps s) |> <| s_selected := x.1.2 |> <| s_staked := <[s_era s := x.2]> (s_staked s) |>).
Definition body (c : config) (o : op) : M st unit :=
  match o with
  | NewBlock start order =>
      match start with None => mret_ tt | Some x => start_era c x end ;;;
      if c_enabled c then handle_delayed_payouts c order else mret_ tt
  | Author who => note_author who
  | GrowthLifted amount period => payout_collators c amount period
  | BridgeResult tx ok => process_result tx ok
  | Elsewhere free issuance ok tx => modify (fun s =>
      if (free_of s (c_pot c) <=? mget 0 (c_pot c) free) && (s_next_tx s <=? tx)
      then s <| s_free := free |> <| s_issuance := issuance |> <| s_bridge_ok := ok |> <| s_next_tx := tx |> else s)
  end.
Definition step (c : config) (s : st) (o : op) : st := fst (body c o s).
Definition run (c : config) (s : st) (l : list op) : st := fold_left (step c) l s.
(** types.rs:1311 the first era is 1, whose collators are selected at genesis (lib.rs:690-790); nothing has been earned. *)
Definition genesis (free : gmap N N) (issuance : N) (x : gmap N snapshot * list N * N) (tx : N) : st :=
  mkSt 1 ∅ ∅ {[1 := x.1.1]} {[1 := x.2]} ∅ 0 free issuance x.1.2 0 0 ∅ ∅ 0 ∅ tx true [] [].
