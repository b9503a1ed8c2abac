(** Model of pallets/parachain-staking: candidates, nominations, scheduled requests, locks, the candidate pool and
    the selection of collators (lib.rs, calls.rs, types.rs, nomination_requests.rs, set.rs).  Balances are u128, eras
    and counts u32.  Rewards and growth are in RewardModel.v.  Events are not modelled.  A Rust [expect] on a missing
    storage item is the error "panic". *)
From Verif Require Import Base BaseLemmas CodecModel SigModel.
Notation "' x <-- m ;; k" := (mbind_ m (fun y => match y with x => k end)) (at level 100, x pattern, m at next level, right associativity).

(** lib.rs:155-226 [Config] constants; [c_staking] is [is_staking_enabled()] (lib.rs:76-82: false outside tests, so
    in production nothing new can be nominated; everything below holds for both values). *)
Record config := mkConfig {
  c_max_top : N; c_max_bot : N; c_max_per_nominator : N; c_min_per_collator : N; c_max_cands : N;
  c_min_selected : N; c_min_blocks : N; c_staking : bool }.
(** types.rs:51 [MaxNominations]; types.rs:44-49 [MaxCloneableNominations]. *)
Definition MAX_NOMINATIONS : N := 300.

(** ** types.rs: books of nominations *)

Notation bond := (N * N)%type (only parsing).        (* owner, amount *)
(** types.rs:171-174 [Nominations]. *)
Record noms := mkNoms { n_list : list (N * N); n_total : N }.
Inductive capacity := Full | Empty | Partial.
Inductive status := Active | Idle | Leaving (era : N).
(** types.rs:258-280 [CandidateMetadata]. *)
Record cand := mkCand {
  k_bond : N; k_count : N; k_counted : N; k_low_top : N; k_high_bot : N; k_low_bot : N;
  k_top_cap : capacity; k_bot_cap : capacity; k_req : option (N * N); k_status : status }.
#[export] Instance eta_cand : Settable _ :=
  settable! mkCand <k_bond; k_count; k_counted; k_low_top; k_high_bot; k_low_bot; k_top_cap; k_bot_cap; k_req; k_status>.
(** A candidate with its two lists. *)
Record book := mkBook { bk : cand; bt : noms; bb : noms }.
#[export] Instance eta_book : Settable _ := settable! mkBook <bk; bt; bb>.

Definition sat (a b : N) : N := saturating_add U128_MAX a b.
Definition sat32 (a b : N) : N := saturating_add U32_MAX a b.
(** types.rs:185-187 [sort_greatest_to_least] (Rust's stable sort), types.rs:191-220 the position found by
    [insert_sorted_greatest_to_least]: after every amount not smaller (for sorted lists, which these always are,
    C31; the Rust code finds it by bisection). *)
Fixpoint ins (x : N * N) (l : list (N * N)) : list (N * N) :=
  match l with [] => [x] | y :: r => if x.2 <=? y.2 then y :: ins x r else x :: l end.
Definition sort_desc (l : list (N * N)) : list (N * N) := fold_left (fun acc x => ins x acc) l [].
Definition insert_sorted (x : N * N) (n : noms) : noms :=
  mkNoms (if N.of_nat (length (n_list n)) <? MAX_NOMINATIONS then ins x (n_list n) else n_list n) (sat (n_total n) x.2).
(** types.rs:222-237 [top_capacity], [bottom_capacity]. *)
Definition cap_of (max : N) (l : list (N * N)) : capacity :=
  if max <=? N.of_nat (length l) then Full else match l with [] => Empty | _ => Partial end.
Definition is_full (x : capacity) : bool := match x with Full => true | _ => false end.
Definition is_empty (x : capacity) : bool := match x with Empty => true | _ => false end.
(** types.rs:239-245 [lowest_nomination_amount], [highest_nomination_amount]. *)
Definition lowest (l : list (N * N)) : N := match last l with Some x => x.2 | None => 0 end.
Definition highest (l : list (N * N)) : N := match l with x :: _ => x.2 | [] => 0 end.
(** [Vec::pop]. *)
Fixpoint pop {A} (l : list A) : option (list A * A) :=
  match l with
  | [] => None
  | x :: r => match pop r with Some (r', y) => Some (x :: r', y) | None => Some ([], x) end
  end.
(** The filters and maps over owners; owners do not repeat (C31), so the first match is the only one. *)
Definition amount_in (w : N) (l : list (N * N)) : option N :=
  match find (fun b => b.1 =? w) l with Some b => Some b.2 | None => None end.
Definition without (w : N) (l : list (N * N)) : list (N * N) := List.filter (fun b => negb (b.1 =? w)) l.
Definition update (w : N) (f : N -> N) (l : list (N * N)) : list (N * N) :=
  map (fun b => if b.1 =? w then (b.1, f b.2) else b) l.

(** types.rs:296-309 [CandidateMetadata::new]. *)
Definition new_cand (b : N) : cand := mkCand b 0 b 0 0 0 Empty Empty None Active.
Definition is_active (k : cand) : bool := match k_status k with Active => true | _ => false end.
Definition is_leaving (k : cand) : bool := match k_status k with Leaving _ => true | _ => false end.

(** types.rs:424-444 [reset_top_data] (the candidate pool is updated in [store_book]); 446-457 [reset_bottom_data]. *)
Definition reset_top (c : config) (t : noms) (k : cand) : cand :=
  k <| k_low_top := lowest (n_list t) |> <| k_top_cap := cap_of (c_max_top c) (n_list t) |> <| k_counted := sat (k_bond k) (n_total t) |>.
Definition reset_bot (c : config) (b : noms) (k : cand) : cand :=
  k <| k_low_bot := lowest (n_list b) |> <| k_high_bot := highest (n_list b) |> <| k_bot_cap := cap_of (c_max_bot c) (n_list b) |>.

(** types.rs:545-604 [add_bottom_nomination]; also returns the nomination it kicks. *)
Definition add_bottom (c : config) (from_top : bool) (x : N * N) (k : book) : res (book * option (N * N)) :=
  let done (b : noms) (inc : bool) (kicked : option (N * N)) :=
    let b' := insert_sorted x b in
    let m := if inc then bk k <| k_count := sat32 (k_count (bk k)) 1 |> else bk k in
    Ok (k <| bk := reset_bot c b' m |> <| bb := b' |>, kicked) in
  if N.of_nat (length (n_list (bb k))) =? c_max_bot c then
    match pop (n_list (bb k)) with
    | Some (l, y) => done (mkNoms l (saturating_sub (n_total (bb k)) y.2)) false (Some y)
    | None => Err "panic"
    end
  else done (bb k) (negb from_top) None.
(** types.rs:507-543 [add_top_nomination]; returns what the total staked loses, and the kicked nomination. *)
Definition add_top (c : config) (x : N * N) (k : book) : res (book * option N * option (N * N)) :=
  let done (k : book) (t : noms) (less : option N) (kicked : option (N * N)) :=
    let t' := insert_sorted x t in
    let m := reset_top c t' (bk k) in
    let m := match less with None => m <| k_count := sat32 (k_count m) 1 |> | Some _ => m end in
    Ok (k <| bk := m |> <| bt := t' |>, less, kicked) in
  if N.of_nat (length (n_list (bt k))) =? c_max_top c then
    match pop (n_list (bt k)) with
    | Some (l, y) =>
        let less := if is_full (k_bot_cap (bk k)) then Some (k_low_bot (bk k)) else None in
        match add_bottom c true y k with
        | Ok (k', kicked) => done k' (mkNoms l (saturating_sub (n_total (bt k)) y.2)) less kicked
        | Err e => Err e
        end
    | None => Err "panic"
    end
  else done k (bt k) None None.
(** types.rs:459-505 [add_nomination]. *)
Definition add_nomination (c : config) (x : N * N) (k : book) : res (book * option N * option (N * N)) :=
  if is_full (k_top_cap (bk k)) then
    if k_low_top (bk k) <? x.2 then add_top c x k
    else
      let full := is_full (k_bot_cap (bk k)) in
      if full && negb (k_low_bot (bk k) <? x.2) then Err "CannotNominateLessThanOrEqualToLowestBottomWhenFull"
      else match add_bottom c false x k with
           | Ok (k', kicked) => Ok (k', if full then Some (k_low_bot (bk k)) else None, kicked)
           | Err e => Err e
           end
  else match add_top c x k with Ok (k', _, kicked) => Ok (k', None, kicked) | Err e => Err e end.
(** types.rs:639-691 [rm_top_nomination]. *)
Definition rm_top (c : config) (w : N) (k : book) : res book :=
  match amount_in w (n_list (bt k)) with
  | None => Err "NominationDNE"
  | Some a =>
      let t := mkNoms (without w (n_list (bt k))) (saturating_sub (n_total (bt k)) a) in
      let fin (k : book) (t : noms) :=
        let m := reset_top c t (bk k) in Ok (k <| bk := m <| k_count := saturating_sub (k_count m) 1 |> |> <| bt := t |>) in
      if is_empty (k_bot_cap (bk k)) then fin k t
      else match n_list (bb k) with
           | [] => Err "panic"
           | h :: r =>
               let b := mkNoms r (saturating_sub (n_total (bb k)) h.2) in
               fin (k <| bk := reset_bot c b (bk k) |> <| bb := b |>) (insert_sorted h t)
           end
  end.
(** types.rs:693-727 [rm_bottom_nomination]. *)
Definition rm_bottom (c : config) (w : N) (k : book) : res book :=
  match amount_in w (n_list (bb k)) with
  | None => Err "NominationDNE"
  | Some a =>
      let b := mkNoms (without w (n_list (bb k))) (saturating_sub (n_total (bb k)) a) in
      let m := reset_bot c b (bk k) in
      Ok (k <| bk := m <| k_count := saturating_sub (k_count m) 1 |> |> <| bb := b |>)
  end.
(** The dispatch common to types.rs:606-637, 728-756 and 871-902: [try top, then bottom] depending on the amount. *)
Definition or_else (r : res book) (k : res book) : res book :=
  match r with Err e => if (e =? "NominationDNE")%string then k else Err e | _ => r end.
(** types.rs:606-637 [rm_nomination_if_exists]. *)
Definition rm_nomination_if_exists (c : config) (w amount : N) (k : book) : res book :=
  let geq := k_low_top (bk k) <=? amount in
  let eq := k_low_top (bk k) =? k_high_bot (bk k) in
  if negb (is_full (k_top_cap (bk k))) || (geq && negb eq) then rm_top c w k
  else if geq && eq then or_else (rm_top c w k) (rm_bottom c w k)
  else rm_bottom c w k.
(** types.rs:758-792 [increase_top_nomination]. *)
Definition increase_top (c : config) (w more : N) (k : book) : res book :=
  match amount_in w (n_list (bt k)) with
  | None => Err "NominationDNE"
  | Some _ =>
      let t := mkNoms (sort_desc (update w (fun a => sat a more) (n_list (bt k)))) (sat (n_total (bt k)) more) in
      Ok (k <| bk := reset_top c t (bk k) |> <| bt := t |>)
  end.
(** types.rs:794-870 [increase_bottom_nomination]. *)
Definition increase_bottom (c : config) (w amount more : N) (k : book) : res book :=
  match amount_in w (n_list (bb k)) with
  | None => Err "NominationDNE"
  | Some a =>
      if k_low_top (bk k) <? sat amount more then
        let b := mkNoms (without w (n_list (bb k))) (saturating_sub (n_total (bb k)) amount) in
        let fin (t b : noms) :=
          let t' := insert_sorted (w, sat a more) t in
          Ok (k <| bk := reset_bot c b (reset_top c t' (bk k)) |> <| bt := t' |> <| bb := b |>) in
        if is_full (cap_of (c_max_top c) (n_list (bt k))) then
          match pop (n_list (bt k)) with
          | Some (l, y) => fin (mkNoms l (saturating_sub (n_total (bt k)) y.2)) (insert_sorted y b)
          | None => Err "panic"
          end
        else fin (bt k) b
      else
        let b := mkNoms (sort_desc (update w (fun a => sat a more) (n_list (bb k)))) (sat (n_total (bb k)) more) in
        Ok (k <| bk := reset_bot c b (bk k) |> <| bb := b |>)
  end.
(** types.rs:728-756 [increase_nomination]. *)
Definition increase (c : config) (w amount more : N) (k : book) : res book :=
  let geq := k_low_top (bk k) <=? amount in
  let eq := k_low_top (bk k) =? k_high_bot (bk k) in
  if geq && negb eq then increase_top c w more k
  else if geq && eq then or_else (increase_top c w more k) (increase_bottom c w amount more k)
  else increase_bottom c w amount more k.
(** types.rs:904-985 [decrease_top_nomination]. *)
Definition decrease_top (c : config) (w amount less : N) (k : book) : res book :=
  match amount_in w (n_list (bt k)) with
  | None => Err "NominationDNE"
  | Some a =>
      if (saturating_sub amount less <? k_high_bot (bk k)) && (is_full (k_top_cap (bk k)) && negb (is_empty (k_bot_cap (bk k)))) then
        match n_list (bb k) with
        | [] => Err "panic"
        | h :: r =>
            let t := insert_sorted h (mkNoms (without w (n_list (bt k))) (saturating_sub (n_total (bt k)) a)) in
            let b := insert_sorted (w, saturating_sub a less) (mkNoms r (saturating_sub (n_total (bb k)) h.2)) in
            Ok (k <| bk := reset_top c t (reset_bot c b (bk k)) |> <| bt := t |> <| bb := b |>)
        end
      else
        let t := mkNoms (sort_desc (update w (fun a => saturating_sub a less) (n_list (bt k)))) (saturating_sub (n_total (bt k)) less) in
        Ok (k <| bk := reset_top c t (bk k) |> <| bt := t |>)
  end.
(** types.rs:986-1020 [decrease_bottom_nomination]: the total of the list is not adjusted. *)
Definition decrease_bottom (c : config) (w less : N) (k : book) : res book :=
  match amount_in w (n_list (bb k)) with
  | None => Err "NominationDNE"
  | Some _ =>
      let b := mkNoms (sort_desc (update w (fun a => saturating_sub a less) (n_list (bb k)))) (n_total (bb k)) in
      Ok (k <| bk := reset_bot c b (bk k) |> <| bb := b |>)
  end.
(** types.rs:871-902 [decrease_nomination]. *)
Definition decrease (c : config) (w amount less : N) (k : book) : res book :=
  let geq := k_low_top (bk k) <=? amount in
  let eq := k_low_top (bk k) =? k_high_bot (bk k) in
  if geq && negb eq then decrease_top c w amount less k
  else if geq && eq then or_else (decrease_top c w amount less k) (decrease_bottom c w less k)
  else decrease_bottom c w less k.

(** ** Storage *)

(** types.rs:1031-1043 [Nominator]; the ordered set of nominations is a map. *)
Record nominator := mkNominator { m_noms : gmap N N; m_total : N; m_less : N }.
#[export] Instance eta_nominator : Settable _ := settable! mkNominator <m_noms; m_total; m_less>.
(** nomination_requests.rs:28-57. *)
Inductive action := Revoke (amount : N) | Decrease (amount : N).
Definition action_amount (a : action) : N := match a with Revoke x | Decrease x => x end.
Definition is_revoke (a : action) : bool := match a with Revoke _ => true | _ => false end.
Record req := mkReq { r_who : N; r_when : N; r_action : action }.
(** types.rs:115-127 [CollatorSnapshot]. *)
Record snapshot := mkSnap { sn_bond : N; sn_noms : list (N * N); sn_total : N }.

(** lib.rs:481-668 storage; the native balances (free, held and the locks placed by this pallet), session keys. *)
Record st := mkSt {
  s_cands : gmap N cand; s_top : gmap N noms; s_bot : gmap N noms; s_nominators : gmap N nominator;
  s_reqs : gmap N (list req); s_pool : gmap N N; s_total : N;
  s_free : gmap N N; s_held : gmap N N; s_col_lock : gmap N N; s_nom_lock : gmap N N; s_registered : gset N;
  s_era : N; s_era_first : N; s_era_length : N; s_delay : N; s_min_col : N; s_min_nom : N; s_total_selected : N;
  s_selected : list N; s_snaps : gmap N (gmap N snapshot); s_block : N; s_nonces : gmap N N }.
#[export] Instance eta_st : Settable _ :=
  settable! mkSt <s_cands; s_top; s_bot; s_nominators; s_reqs; s_pool; s_total; s_free; s_held; s_col_lock; s_nom_lock;
                  s_registered; s_era; s_era_first; s_era_length; s_delay; s_min_col; s_min_nom; s_total_selected; s_selected; s_snaps; s_block; s_nonces>.
Definition free_of (s : st) (a : N) : N := mget 0 a (s_free s).
Definition held_of (s : st) (a : N) : N := mget 0 a (s_held s).
Definition reqs_of (s : st) (k : N) : list req := mget [] k (s_reqs s).

(** The keys of an ordered set, in order. *)
Definition keys {V} (m : gmap N V) : list N := merge_sort N.le (map fst (map_to_list m)).

Definition load (k : N) : M st book :=
  s <-- get_st ;;
  x <-- some_or (s_cands s !! k) "CandidateDNE" ;;
  t <-- some_or (s_top s !! k) "panic" ;;
  b <-- some_or (s_bot s !! k) "panic" ;;
  mret_ (mkBook x t b).
(** lib.rs:1742-1753 [update_active]. *)
Definition update_active (k total : N) : M st unit :=
  modify (fun s => s <| s_pool := <[k := total]> (s_pool s) |>).
(** Writing a book back; the pool follows the counted total (types.rs:436-443). *)
Definition store (k : N) (old new : book) : M st unit :=
  modify (fun s => s <| s_cands := <[k := bk new]> (s_cands s) |> <| s_top := <[k := bt new]> (s_top s) |> <| s_bot := <[k := bb new]> (s_bot s) |>) ;;;
  (if negb (k_counted (bk old) =? k_counted (bk new)) && is_active (bk new) then update_active k (k_counted (bk new)) else mret_ tt).
Definition set_nominator (w : N) (m : nominator) : M st unit := modify (fun s => s <| s_nominators := <[w := m]> (s_nominators s) |>).
Definition del_nominator (w : N) : M st unit := modify (fun s => s <| s_nominators := delete w (s_nominators s) |>).
Definition set_reqs (k : N) (l : list req) : M st unit := modify (fun s => s <| s_reqs := <[k := l]> (s_reqs s) |>).
(** types.rs:1245-1257 the lock of a nominator. *)
Definition set_nom_lock (w total : N) : M st unit :=
  modify (fun s => s <| s_nom_lock := if total =? 0 then delete w (s_nom_lock s) else <[w := total]> (s_nom_lock s) |>).
Definition set_col_lock (k b : N) : M st unit := modify (fun s => s <| s_col_lock := <[k := b]> (s_col_lock s) |>).
Definition add_total (x : N) : M st unit := modify (fun s => s <| s_total := sat (s_total s) x |>).
Definition sub_total (x : N) : M st unit := modify (fun s => s <| s_total := saturating_sub (s_total s) x |>).

(** lib.rs:1726-1741. *)
Definition nominator_stakable (s : st) (w : N) : N :=
  match s_nominators s !! w with Some m => saturating_sub (free_of s w) (m_total m) | None => free_of s w end.
Definition collator_stakable (s : st) (k : N) : N :=
  match s_cands s !! k with Some x => saturating_sub (free_of s k) (k_bond x) | None => free_of s k end.
(** types.rs:1219-1259 [adjust_bond_lock] with [Increase]. *)
Definition lock_more (w : N) (m : nominator) (amount : N) : M st unit :=
  s <-- get_st ;;
  ensure (amount <=? nominator_stakable s w) "InsufficientBalance" ;;;
  ensure (amount <=? m_total m) "Invalid additional_required_balance" ;;;
  set_nom_lock w (m_total m).
(** types.rs:1141-1171 [Nominator::rm_nomination]. *)
Definition rm_nomination (w k : N) (m : nominator) : M st (nominator * option N) :=
  match m_noms m !! k with
  | None => mret_ (m, None)
  | Some a =>
      let m' := m <| m_noms := delete k (m_noms m) |> <| m_total := saturating_sub (m_total m) a |> in
      set_nom_lock w (m_total m') ;;; mret_ (m', Some (m_total m'))
  end.
(** nomination_requests.rs:191-207 [cancel_request_with_state]; 487-505 [nomination_remove_request_with_state]. *)
Fixpoint take_req (p : req -> bool) (l : list req) : option (req * list req) :=
  match l with
  | [] => None
  | r :: l' => if p r then Some (r, l') else match take_req p l' with Some (x, l2) => Some (x, r :: l2) | None => None end
  end.
Definition of_nominator (w : N) (r : req) : bool := r_who r =? w.
Definition revoke_of (w : N) (r : req) : bool := (r_who r =? w) && is_revoke (r_action r).
Definition remove_request (k w : N) (m : nominator) : M st nominator :=
  s <-- get_st ;;
  match take_req (of_nominator w) (reqs_of s k) with
  | Some (r, l) => set_reqs k l ;;; mret_ (m <| m_less := saturating_sub (m_less m) (action_amount (r_action r)) |>)
  | None => mret_ m
  end.
(** types.rs:563-593: a nomination kicked out of a full book. *)
Definition kick (k : N) (x : N * N) : M st unit :=
  s <-- get_st ;;
  m <-- some_or (s_nominators s !! x.1) "panic" ;;
  let leaving := N.of_nat (size (m_noms m)) =? 1 in
  '(m1, _) <-- rm_nomination x.1 k m ;;
  m2 <-- remove_request k x.1 m1 ;;
  if leaving then del_nominator x.1 else set_nominator x.1 m2.

(** ** Nominators *)

(** calls.rs:4-72 [call_nominate]. *)
Definition call_nominate (c : config) (w k amount cand_hint nom_hint : N) : M st unit :=
  s <-- get_st ;;
  ensure (amount <=? nominator_stakable s w) "InsufficientBalance" ;;;
  m <-- match s_nominators s !! w with
        | Some m =>
            let n := N.of_nat (size (m_noms m)) in
            ensure (c_min_per_collator c <=? amount) "NominationBelowMin" ;;;
            ensure (n <=? nom_hint) "TooLowNominationCountToNominate" ;;;
            ensure (n <? c_max_per_nominator c) "ExceedMaxNominationsPerNominator" ;;;
            match m_noms m !! k with
            | Some _ => fail "AlreadyNominatedCandidate"
            | None =>
                ensure (n <? MAX_NOMINATIONS) "panic" ;;;
                mret_ (m <| m_noms := <[k := amount]> (m_noms m) |> <| m_total := sat (m_total m) amount |>)
            end
        | None =>
            ensure (s_min_nom s <=? amount) "NominatorBondBelowMin" ;;;
            ensure (match s_cands s !! w with None => true | _ => false end) "CandidateExists" ;;;
            mret_ (mkNominator {[k := amount]} amount 0)
        end ;;
  old <-- load k ;;
  ensure (k_count (bk old) <=? cand_hint) "TooLowCandidateNominationCountToNominate" ;;;
  '(new, less, kicked) <-- lift_res (add_nomination c (w, amount) old) ;;
  match kicked with Some x => kick k x | None => mret_ tt end ;;;
  lock_more w m amount ;;;
  add_total (match less with Some l => saturating_sub amount l | None => amount end) ;;;
  store k old new ;;;
  set_nominator w m.
(** nomination_requests.rs:507-521. *)
Definition revoke_exists (s : st) (k w : N) : bool := existsb (revoke_of w) (reqs_of s k).
Definition request_exists (s : st) (k w : N) : bool := existsb (of_nominator w) (reqs_of s k).
(** calls.rs:74-89 [call_bond_extra]; types.rs:1172-1217 [Nominator::increase_nomination]. *)
Definition call_bond_extra (c : config) (w k more : N) : M st unit :=
  s <-- get_st ;;
  ensure (negb (revoke_exists s k w)) "PendingNominationRevoke" ;;;
  m <-- some_or (s_nominators s !! w) "NominatorDNE" ;;
  a <-- some_or (m_noms m !! k) "NominationDNE" ;;
  let m' := m <| m_noms := <[k := sat a more]> (m_noms m) |> <| m_total := sat (m_total m) more |> in
  lock_more w m' more ;;;
  old <-- load k ;;
  new <-- lift_res (increase c w a more old) ;;
  store k old new ;;;
  add_total more ;;;
  set_nominator w m'.
(** lib.rs:1784-1803 [nominator_leaves_candidate]. *)
Definition nominator_leaves_candidate (c : config) (k w amount : N) : M st unit :=
  old <-- load k ;;
  new <-- lift_res (rm_nomination_if_exists c w amount old) ;;
  sub_total amount ;;;
  store k old new.

(** nomination_requests.rs:74-117 [nomination_schedule_revoke]; a full list of requests swallows the request. *)
Definition can_push (c : config) (l : list req) : bool := N.of_nat (length l) <? c_max_per_nominator c.
Definition schedule_revoke (c : config) (w k : N) : M st unit :=
  s <-- get_st ;;
  m <-- some_or (s_nominators s !! w) "NominatorDNE" ;;
  ensure (negb (request_exists s k w)) "PendingNominationRequestAlreadyExists" ;;;
  a <-- some_or (m_noms m !! k) "NominationDNE" ;;
  if can_push c (reqs_of s k) then
    set_reqs k (reqs_of s k ++ [mkReq w (sat32 (s_era s) (s_delay s)) (Revoke a)]) ;;;
    set_nominator w (m <| m_less := sat (m_less m) a |>)
  else mret_ tt.
(** nomination_requests.rs:119-167 [nomination_schedule_bond_decrease]. *)
Definition schedule_decrease (c : config) (w k less : N) : M st unit :=
  s <-- get_st ;;
  m <-- some_or (s_nominators s !! w) "NominatorDNE" ;;
  ensure (negb (request_exists s k w)) "PendingNominationRequestAlreadyExists" ;;;
  a <-- some_or (m_noms m !! k) "NominationDNE" ;;
  ensure (less <? a) "NominatorBondBelowMin" ;;;
  ensure (c_min_per_collator c <=? a - less) "NominationBelowMin" ;;;
  let net := saturating_sub (m_total m) (m_less m) in
  ensure (less <=? saturating_sub net (s_min_nom s)) "NominatorBondBelowMin" ;;;
  if can_push c (reqs_of s k) then
    set_reqs k (reqs_of s k ++ [mkReq w (sat32 (s_era s) (s_delay s)) (Decrease less)]) ;;;
    set_nominator w (m <| m_less := sat (m_less m) less |>)
  else mret_ tt.
(** nomination_requests.rs:169-189 [nomination_cancel_request]. *)
Definition cancel_request (w k : N) : M st unit :=
  s <-- get_st ;;
  m <-- some_or (s_nominators s !! w) "NominatorDNE" ;;
  '(r, l) <-- some_or (take_req (of_nominator w) (reqs_of s k)) "PendingNominationRequestDNE" ;;
  set_reqs k l ;;;
  set_nominator w (m <| m_less := saturating_sub (m_less m) (action_amount (r_action r)) |>).
(** nomination_requests.rs:209-309 [nomination_execute_scheduled_request]. *)
Definition execute_request (c : config) (w k : N) : M st unit :=
  s <-- get_st ;;
  m <-- some_or (s_nominators s !! w) "NominatorDNE" ;;
  '(r, l) <-- some_or (take_req (of_nominator w) (reqs_of s k)) "PendingNominationRequestDNE" ;;
  ensure (r_when r <=? s_era s) "PendingNominationRequestNotDueYet" ;;;
  let m1 := m <| m_less := saturating_sub (m_less m) (action_amount (r_action r)) |> in
  match r_action r with
  | Revoke amount =>
      let leaving := N.of_nat (size (m_noms m)) =? 1 in
      ensure (leaving || (amount <=? saturating_sub (m_total m) (s_min_nom s))) "NominatorBondBelowMin" ;;;
      '(m2, _) <-- rm_nomination w k m1 ;;
      nominator_leaves_candidate c k w amount ;;;
      set_reqs k l ;;;
      if leaving then del_nominator w else set_nominator w m2
  | Decrease amount =>
      a <-- some_or (m_noms m !! k) "NominationDNE" ;;
      ensure (amount <? a) "NominationBelowMin" ;;;
      old <-- load k ;;
      let total := saturating_sub (m_total m) amount in
      ensure (c_min_per_collator c <=? total) "NominationBelowMin" ;;;
      ensure (s_min_nom s <=? total) "NominatorBondBelowMin" ;;;
      set_nom_lock w total ;;;
      new <-- lift_res (decrease c w a amount old) ;;
      store k old new ;;;
      sub_total amount ;;;
      set_reqs k l ;;;
      set_nominator w (m1 <| m_noms := <[k := saturating_sub a amount]> (m_noms m) |> <| m_total := total |>)
  end.
(** nomination_requests.rs:311-371 [nominator_schedule_revoke_all]: the loop computes the new nominator, how many
    revocations existed already, and the lists to write. *)
Definition revoke_all_step (c : config) (s : st) (w when : N) (acc : nominator * N * list (N * list req)) (x : N * N)
  : nominator * N * list (N * list req) :=
  let '(m, existing, out) := acc in
  let '(k, a) := x in
  let found := take_req (of_nominator w) (reqs_of s k) in
  let m1 := match found with Some (r, _) => m <| m_less := saturating_sub (m_less m) (action_amount (r_action r)) |> | None => m end in
  let l := match found with Some (_, l) => l | None => reqs_of s k end in
  let keep := match found with Some (r, _) => is_revoke (r_action r) | None => false end in
  let r := match found with Some (r, _) => if keep then r else mkReq w when (Revoke a) | None => mkReq w when (Revoke a) end in
  let existing := if keep then existing + 1 else existing in
  if can_push c l then (m1 <| m_less := sat (m_less m1) a |>, existing, out ++ [(k, l ++ [r])]) else (m1, existing, out).
Definition nom_list (m : nominator) : list (N * N) := map (fun k => (k, mget 0 k (m_noms m))) (keys (m_noms m)).
Definition write_reqs (out : list (N * list req)) : M st unit :=
  modify (fun s => s <| s_reqs := fold_left (fun acc x => <[x.1 := x.2]> acc) out (s_reqs s) |>).
Definition schedule_revoke_all (c : config) (w : N) : M st unit :=
  s <-- get_st ;;
  m <-- some_or (s_nominators s !! w) "NominatorDNE" ;;
  let when := sat32 (s_era s) (s_delay s) in
  let '(m', existing, out) := fold_left (revoke_all_step c s w when) (nom_list m) (m, 0, []) in
  ensure (negb (existing =? N.of_nat (size (m_noms m)))) "NominatorAlreadyLeaving" ;;;
  write_reqs out ;;;
  set_nominator w m'.
(** nomination_requests.rs:373-417 [nominator_cancel_scheduled_revoke_all]. *)
Definition cancel_all_step (s : st) (w : N) (acc : nominator * list (N * list req)) (k : N) : nominator * list (N * list req) :=
  let '(m, out) := acc in
  match take_req (of_nominator w) (reqs_of s k) with
  | Some (r, l) => (m <| m_less := saturating_sub (m_less m) (action_amount (r_action r)) |>, out ++ [(k, l)])
  | None => (m, out ++ [(k, reqs_of s k)])
  end.
Definition cancel_revoke_all (w : N) : M st unit :=
  s <-- get_st ;;
  m <-- some_or (s_nominators s !! w) "NominatorDNE" ;;
  ensure (forallb (fun k => existsb (revoke_of w) (reqs_of s k)) (keys (m_noms m))) "NominatorNotLeaving" ;;;
  let '(m', out) := fold_left (cancel_all_step s w) (keys (m_noms m)) (m, []) in
  write_reqs out ;;;
  set_nominator w m'.
(** nomination_requests.rs:419-482 [nominator_execute_scheduled_revoke_all]; a failure to leave one candidate is only
    logged. *)
Fixpoint leave_loop (c : config) (w : N) (l : list (N * N)) : M st unit :=
  match l with
  | [] => mret_ tt
  | (k, a) :: r =>
      (fun s => match nominator_leaves_candidate c k w a s with (s', Ok _) => (s', Ok tt) | (_, Err _) => (s, Ok tt) end) ;;;
      leave_loop c w r
  end.
Definition execute_revoke_all (c : config) (w hint : N) : M st unit :=
  s <-- get_st ;;
  m <-- some_or (s_nominators s !! w) "NominatorDNE" ;;
  ensure (N.of_nat (size (m_noms m)) <=? hint) "TooLowNominationCountToLeaveNominators" ;;;
  ensure (forallb (fun k => match take_req (revoke_of w) (reqs_of s k) with Some (r, _) => r_when r <=? s_era s | None => false end)
            (keys (m_noms m))) "NominatorNotLeaving or NominatorCannotLeaveYet" ;;;
  leave_loop c w (nom_list m) ;;;
  set_nom_lock w 0 ;;;
  write_reqs (map (fun k => (k, match take_req (revoke_of w) (reqs_of s k) with Some (_, l) => l | None => reqs_of s k end)) (keys (m_noms m))) ;;;
  del_nominator w.

(** ** Candidates *)

Definition put_cand (k : N) (x : cand) : M st unit := modify (fun s => s <| s_cands := <[k := x]> (s_cands s) |>).
Definition pool_insert (c : config) (k total : N) (dup : string) : M st unit :=
  s <-- get_st ;;
  ensure (match s_pool s !! k with None => true | _ => false end) dup ;;;
  ensure (N.of_nat (size (s_pool s)) <? c_max_cands c) "CandidateLimitReached" ;;;
  update_active k total.
Definition pool_remove (k : N) : M st unit := modify (fun s => s <| s_pool := delete k (s_pool s) |>).
(** lib.rs:837-888 [join_candidates]. *)
Definition join_candidates (c : config) (k b hint : N) : M st unit :=
  s <-- get_st ;;
  ensure (match s_cands s !! k with None => true | _ => false end) "CandidateExists" ;;;
  ensure (match s_nominators s !! k with None => true | _ => false end) "NominatorExists" ;;;
  ensure (s_min_col s <=? b) "CandidateBondBelowMin" ;;;
  ensure (bool_decide (k ∈ s_registered s)) "CandidateSessionKeysNotFound" ;;;
  ensure (N.of_nat (size (s_pool s)) <=? hint) "TooLowCandidateCountWeightHintJoinCandidates" ;;;
  pool_insert c k b "CandidateExists" ;;;
  ensure (b <=? collator_stakable s k) "InsufficientBalance" ;;;
  set_col_lock k b ;;;
  put_cand k (new_cand b) ;;;
  modify (fun s => s <| s_top := <[k := mkNoms [] 0]> (s_top s) |> <| s_bot := <[k := mkNoms [] 0]> (s_bot s) |>) ;;;
  add_total b.
(** lib.rs:893-914 [schedule_leave_candidates]; types.rs:316-322 (u32 addition, wrapping in a release build). *)
Definition schedule_leave_candidates (k hint : N) : M st unit :=
  s <-- get_st ;;
  x <-- some_or (s_cands s !! k) "CandidateDNE" ;;
  ensure (negb (is_leaving x)) "CandidateAlreadyLeaving" ;;;
  ensure (N.of_nat (size (s_pool s)) <=? hint) "TooLowCandidateCountToLeaveCandidates" ;;;
  pool_remove k ;;;
  put_cand k (x <| k_status := Leaving ((s_era s + s_delay s) mod 2 ^ 32) |>).
(** lib.rs:935-965 [return_stake]. *)
Definition return_stake (k : N) (x : N * N) : M st unit :=
  s <-- get_st ;;
  m <-- some_or (s_nominators s !! x.1) "panic" ;;
  '(m1, rest) <-- rm_nomination x.1 k m ;;
  match rest with
  | Some remaining =>
      m2 <-- remove_request k x.1 m1 ;;
      if remaining =? 0 then del_nominator x.1 ;;; set_nom_lock x.1 0 else set_nominator x.1 m2
  | None => set_nom_lock x.1 0
  end.
Fixpoint return_all (k : N) (l : list (N * N)) : M st unit :=
  match l with [] => mret_ tt | x :: r => return_stake k x ;;; return_all k r end.
(** lib.rs:922-998 [execute_leave_candidates]; types.rs:323-330 [can_leave]. *)
Definition execute_leave_candidates (k hint : N) : M st unit :=
  s <-- get_st ;;
  o <-- load k ;;
  ensure (k_count (bk o) <=? hint) "TooLowCandidateNominationCountToLeaveCandidates" ;;;
  ensure (is_leaving (bk o)) "CandidateNotLeaving" ;;;
  ensure (match k_status (bk o) with Leaving when => when <=? s_era s | _ => false end) "CandidateCannotLeaveYet" ;;;
  return_all k (n_list (bt o)) ;;;
  return_all k (n_list (bb o)) ;;;
  modify (fun s => s <| s_col_lock := delete k (s_col_lock s) |> <| s_cands := delete k (s_cands s) |> <| s_reqs := delete k (s_reqs s) |>
                     <| s_top := delete k (s_top s) |> <| s_bot := delete k (s_bot s) |>) ;;;
  sub_total (sat (sat (k_bond (bk o)) (n_total (bt o))) (n_total (bb o))).
(** lib.rs:1002-1028 [cancel_leave_candidates]. *)
Definition cancel_leave_candidates (c : config) (k hint : N) : M st unit :=
  s <-- get_st ;;
  x <-- some_or (s_cands s !! k) "CandidateDNE" ;;
  ensure (is_leaving x) "CandidateNotLeaving" ;;;
  ensure (N.of_nat (size (s_pool s)) <=? hint) "TooLowCandidateCountWeightHintCancelLeaveCandidates" ;;;
  pool_insert c k (k_counted x) "AlreadyActive" ;;;
  put_cand k (x <| k_status := Active |>).
(** lib.rs:1032-1045 [go_offline]. *)
Definition go_offline (k : N) : M st unit :=
  s <-- get_st ;;
  x <-- some_or (s_cands s !! k) "CandidateDNE" ;;
  ensure (is_active x) "AlreadyOffline" ;;;
  pool_remove k ;;;
  put_cand k (x <| k_status := Idle |>).
(** lib.rs:1049-1066 [go_online]. *)
Definition go_online (c : config) (k : N) : M st unit :=
  s <-- get_st ;;
  x <-- some_or (s_cands s !! k) "CandidateDNE" ;;
  ensure (negb (is_active x)) "AlreadyActive" ;;;
  ensure (negb (is_leaving x)) "CannotGoOnlineIfLeaving" ;;;
  pool_insert c k (k_counted x) "AlreadyActive" ;;;
  put_cand k (x <| k_status := Active |>).
(** calls.rs:91-106 [call_candidate_bond_extra]; types.rs:337-362 [bond_extra]. *)
Definition candidate_bond_extra (k more : N) : M st unit :=
  s <-- get_st ;;
  x <-- some_or (s_cands s !! k) "CandidateDNE" ;;
  ensure (more <=? collator_stakable s k) "InsufficientBalance" ;;;
  let x' := x <| k_bond := sat (k_bond x) more |> <| k_counted := sat (k_counted x) more |> in
  add_total more ;;;
  set_col_lock k (k_bond x') ;;;
  put_cand k x' ;;;
  (if is_active x then update_active k (k_counted x') else mret_ tt).
(** calls.rs:108-122 [call_schedule_candidate_unbond]; types.rs:365-381 [schedule_unbond]. *)
Definition schedule_candidate_unbond (k less : N) : M st unit :=
  s <-- get_st ;;
  x <-- some_or (s_cands s !! k) "CandidateDNE" ;;
  ensure (match k_req x with None => true | _ => false end) "PendingCandidateRequestAlreadyExists" ;;;
  ensure (less <? k_bond x) "CandidateBondBelowMin" ;;;
  ensure (s_min_col s <=? k_bond x - less) "CandidateBondBelowMin" ;;;
  put_cand k (x <| k_req := Some (less, (s_era s + s_delay s) mod 2 ^ 32) |>).
(** calls.rs:124-131 [call_execute_candidate_unbond]; types.rs:384-416 [execute_unbond]. *)
Definition execute_candidate_unbond (k : N) : M st unit :=
  s <-- get_st ;;
  x <-- some_or (s_cands s !! k) "CandidateDNE" ;;
  '(less, when) <-- some_or (k_req x) "PendingCandidateRequestsDNE" ;;
  ensure (when <=? s_era s) "PendingCandidateRequestNotDueYet" ;;;
  let x' := x <| k_bond := saturating_sub (k_bond x) less |> <| k_counted := saturating_sub (k_counted x) less |> <| k_req := None |> in
  sub_total less ;;;
  set_col_lock k (k_bond x') ;;;
  (if is_active x then update_active k (k_counted x') else mret_ tt) ;;;
  put_cand k x'.
(** lib.rs:1169-1175 [cancel_candidate_unbond]. *)
Definition cancel_candidate_unbond (k : N) : M st unit :=
  s <-- get_st ;;
  x <-- some_or (s_cands s !! k) "CandidateDNE" ;;
  ensure (match k_req x with Some _ => true | _ => false end) "PendingCandidateRequestsDNE" ;;;
  put_cand k (x <| k_req := None |>).

(** ** Selection of collators *)

(** lib.rs:1952-1970 [compute_top_candidates]: a stable sort, least stake first, reversed. *)
Fixpoint ins_asc (x : N * N) (l : list (N * N)) : list (N * N) :=
  match l with [] => [x] | y :: r => if y.2 <=? x.2 then y :: ins_asc x r else x :: l end.
Definition sort_asc (l : list (N * N)) : list (N * N) := fold_left (fun acc x => ins_asc x acc) l [].
Definition pool_list (s : st) : list (N * N) := map (fun k => (k, mget 0 k (s_pool s))) (keys (s_pool s)).
Definition compute_top_candidates (s : st) : list N :=
  merge_sort N.le (map fst (List.filter (fun x => s_min_col s <=? x.2)
    (take (N.to_nat (s_total_selected s)) (reverse (sort_asc (pool_list s)))))).
(** lib.rs:2037-2086 [get_rewardable_nominators]. *)
Definition rewardable (rs : list req) (x : N * N) : N * N :=
  match find (of_nominator x.1) rs with
  | None => x
  | Some r => match r_action r with Revoke _ => (x.1, 0) | Decrease d => (x.1, saturating_sub x.2 d) end
  end.
Definition uncounted (rs : list req) (l : list (N * N)) : N :=
  fold_left (fun acc x =>
    match find (of_nominator x.1) rs with
    | None => acc
    | Some r => match r_action r with Revoke _ => sat acc x.2 | Decrease d => sat acc d end
    end) l 0.
Definition snapshot_of (s : st) (k : N) : option snapshot :=
  match s_cands s !! k, s_top s !! k with
  | Some x, Some t => Some (mkSnap (k_bond x) (map (rewardable (reqs_of s k)) (n_list t))
                              (saturating_sub (k_counted x) (uncounted (reqs_of s k) (n_list t))))
  | _, _ => None
  end.
(** lib.rs:1973-2034 [select_top_candidates] into era [now]; without candidates the previous selection stays. *)
Definition select_top_candidates (c : config) (now : N) : M st unit :=
  s <-- get_st ;;
  match compute_top_candidates s with
  | [] =>
      let last := mget ∅ (saturating_sub now 1) (s_snaps s) in
      modify (fun s => s <| s_snaps := <[now := last ∪ mget ∅ now (s_snaps s)]> (s_snaps s) |>) ;;;
      ensure (forallb (fun k => match last !! k with Some _ => true | None => false end) (s_selected s)) "panic"
  | sel =>
      ensure (forallb (fun k => match snapshot_of s k with Some _ => true | None => false end) sel) "panic" ;;;
      ensure (N.of_nat (length sel) <=? c_max_cands c) "panic" ;;;
      modify (fun s1 => s1 <| s_snaps := <[now := fold_left (fun acc k => match snapshot_of s k with Some v => <[k := v]> acc | None => acc end)
                                                    sel (mget ∅ now (s_snaps s))]> (s_snaps s1) |>
                           <| s_selected := sel |>)
  end.
(** lib.rs:458-479 [on_initialize], 1679-1712 [start_new_era], types.rs:1296-1304 (payouts are in RewardModel.v). *)
Definition on_initialize (c : config) : M st unit :=
  modify (fun s => s <| s_block := s_block s + 1 |>) ;;;
  s <-- get_st ;;
  if s_era_length s <=? s_block s - s_era_first s then
    select_top_candidates c (sat32 (s_era s) 1) ;;;
    modify (fun s => s <| s_era := sat32 (s_era s) 1 |> <| s_era_first := s_block s |>)
  else mret_ tt.

(** ** Administration (root) *)

(** lib.rs:796-810 [set_total_selected]. *)
Definition set_total_selected (c : config) (new : N) : M st unit :=
  s <-- get_st ;;
  ensure (c_min_selected c <=? new) "CannotSetBelowMin" ;;;
  ensure (negb (s_total_selected s =? new)) "NoWritingSameValue" ;;;
  ensure (new <=? s_era_length s) "EraLengthMustBeAtLeastTotalSelectedCollators" ;;;
  modify (fun s => s <| s_total_selected := new |>).
(** lib.rs:815-834 [set_blocks_per_era]. *)
Definition set_blocks_per_era (c : config) (new : N) : M st unit :=
  s <-- get_st ;;
  ensure (c_min_blocks c <=? new) "CannotSetBelowMin" ;;;
  ensure (negb (s_era_length s =? new)) "NoWritingSameValue" ;;;
  ensure (s_total_selected s <=? new) "EraLengthMustBeAtLeastTotalSelectedCollators" ;;;
  modify (fun s => s <| s_era_length := new |>).
(** lib.rs:1659-1675 [set_admin_setting]; types.rs:1423-1457. *)
Inductive setting := SetDelay (d : N) | SetMinCollator (x : N) | SetMinNominator (x : N).
Definition set_admin_setting (c : config) (v : setting) : M st unit :=
  ensure (match v with SetDelay d => 0 <? d | SetMinCollator _ => true | SetMinNominator x => c_min_per_collator c <=? x end)
    "AdminSettingsValueIsNotValid" ;;;
  modify (fun s => match v with
                   | SetDelay d => s <| s_delay := d |>
                   | SetMinCollator x => s <| s_min_col := x |>
                   | SetMinNominator x => s <| s_min_nom := x |>
                   end).
(** lib.rs:1633-1655 [hotfix_remove_nomination_requests_exited_candidates] (anyone). *)
Definition hotfix (l : list N) : M st unit :=
  s <-- get_st ;;
  ensure (N.of_nat (length l) <? 100) "InsufficientBalance" ;;;
  ensure (forallb (fun k => match s_cands s !! k with None => true | _ => false end && match reqs_of s k with [] => true | _ => false end) l)
    "CandidateNotLeaving" ;;;
  modify (fun s => s <| s_reqs := fold_left (fun acc k => delete k acc) l (s_reqs s) |>).

(** ** Relayed calls *)

(** sp_arithmetic [Perbill::from_rational(1, n)] (rounds down; n = 0 counts as 1) times a u128 (to nearest, half down). *)
Definition one_over (n x : N) : N :=
  let p := 1000000000 / N.max 1 n in
  let q := x * p / 1000000000 in
  if 500000000 <? x * p mod 1000000000 then q + 1 else q.
(** lib.rs:2264-2280 [collator_should_get_dust]. *)
Definition gets_dust (s : st) (dust n i : N) : bool := negb (dust =? 0) && (i =? s_block s mod n).
(** lib.rs:2331-2382 [split_and_nominate] (u128 products wrap in a release build). *)
Fixpoint nominate_each (c : config) (w per dust n i remaining count : N) (l : list N) : M st unit :=
  match l with
  | [] => mret_ tt
  | k :: r =>
      s <-- get_st ;;
      x <-- some_or (s_cands s !! k) "CandidateDNE" ;;
      let amount := N.min remaining (if gets_dust s dust n i then per + dust else per) in
      call_nominate c w k amount (k_count x) count ;;;
      nominate_each c w per dust n (i + 1) (remaining - amount) (count + 1) r
  end.
Definition split_and_nominate (c : config) (w : N) (targets : list N) (amount : N) : M st unit :=
  s <-- get_st ;;
  let n := N.of_nat (length targets) in
  ensure ((s_min_nom s * n) mod 2 ^ 128 <=? amount) "NominatorBondBelowMin" ;;;
  ensure (amount <=? nominator_stakable s w) "InsufficientBalance" ;;;
  let count := match s_nominators s !! w with Some m => N.of_nat (size (m_noms m)) | None => 0 end in
  let per := one_over n amount in
  nominate_each c w per (saturating_sub amount ((per * n) mod 2 ^ 128)) n 0 amount count targets.
(** lib.rs:1434-1490 the body of [signed_bond_extra]. *)
Fixpoint bond_extra_each (c : config) (w per dust n i remaining : N) (l : list N) : M st unit :=
  match l with
  | [] => mret_ tt
  | k :: r =>
      s <-- get_st ;;
      let amount := N.min remaining (if gets_dust s dust n i then per + dust else per) in
      call_bond_extra c w k amount ;;;
      bond_extra_each c w per dust n (i + 1) (remaining - amount) r
  end.
Definition bond_extra_all (c : config) (w extra : N) : M st unit :=
  s <-- get_st ;;
  ensure (extra <=? nominator_stakable s w) "InsufficientBalance" ;;;
  m <-- some_or (s_nominators s !! w) "NominatorDNE" ;;
  let n := N.of_nat (size (m_noms m)) in
  let per := one_over n extra in
  ensure (c_min_per_collator c <=? per) "NominationBelowMin" ;;;
  bond_extra_each c w per (saturating_sub extra ((per * n) mod 2 ^ 128)) n 0 extra (keys (m_noms m)).
(** lib.rs:2282-2329 [identify_collators_to_withdraw_from]: candidate, what more it could give, what it gives. *)
Fixpoint withdraw_from (c : config) (target : N) (l : list (N * N)) (out : N) : list (N * N * N) * N :=
  match l with
  | [] => ([], out)
  | (k, a) :: r =>
      let x := N.min out (saturating_sub a target) in
      let payer := (k, (a + 2 ^ 128 - (x + c_min_per_collator c)) mod 2 ^ 128, x) in
      if out - x =? 0 then ([payer], 0)
      else let '(p, o) := withdraw_from c target r (out - x) in (payer :: p, o)
  end.
(** lib.rs:1508-1555 the body of [signed_schedule_nominator_unbond]. *)
Fixpoint decrease_each (c : config) (w : N) (l : list (N * N * N)) (out : N) : M st unit :=
  match l with
  | [] => ensure (out =? 0) "FailedToWithdrawFullAmount"
  | (k, spare, x) :: r =>
      let more := N.min spare out in
      schedule_decrease c w k (x + more) ;;; decrease_each c w r (out - more)
  end.
Definition unbond_spread (c : config) (w less : N) : M st unit :=
  s <-- get_st ;;
  m <-- some_or (s_nominators s !! w) "NominatorDNE" ;;
  let net := saturating_sub (m_total m) (m_less m) in
  ensure ((s_min_nom s + less) mod 2 ^ 128 <=? net) "NominatorBondBelowMin" ;;;
  let target := one_over (N.of_nat (size (m_noms m))) (saturating_sub net less) in
  ensure (c_min_per_collator c <=? target) "NominationBelowMin" ;;;
  let '(payers, out) := withdraw_from c target (nom_list m) less in
  decrease_each c w payers out.
(** lib.rs:1596-1610 the body of [signed_execute_nomination_request]. *)
Fixpoint execute_each (c : config) (w : N) (l : list N) : M st unit :=
  match l with
  | [] => mret_ tt
  | k :: r =>
      s <-- get_st ;;
      q <-- some_or (find (of_nominator w) (reqs_of s k)) "PendingNominationRequestDNE" ;;
      (if r_when q <=? s_era s then execute_request c w k else mret_ tt) ;;;
      execute_each c w r
  end.
Definition execute_all (c : config) (w : N) : M st unit :=
  s <-- get_st ;;
  m <-- some_or (s_nominators s !! w) "NominatorDNE" ;;
  execute_each c w (keys (m_noms m)).

(** lib.rs:1082-1620 the ten relayed calls. *)
Inductive scall :=
| SNominate (targets : list N) (amount : N) | SBondExtra (extra : N) | SCandidateBondExtra (extra : N)
| SCandidateUnbond (less : N) | SNominatorUnbond (less : N) | SRevoke (k : N) | SLeaveNominators
| SExecuteLeaveNominators (w : N) | SExecuteRequests (w : N) | SExecuteCandidateUnbond (k : N).
Definition context (s : string) : list N := scale_bytes (ascii_bytes s).
(** proxy_methods.rs:17-36 and 138-232 the contexts and payloads; a target is the SCALE encoding of [MultiAddress::Id]. *)
Definition enc_target (k : N) : list N := 0 :: be_bytes 32 k.
Definition call_context (x : scall) : list N :=
  context (match x with
  | SNominate _ _ => "parachain authorization for nominate operation"
  | SBondExtra _ => "parachain authorization for nominator bond extra operation"
  | SCandidateBondExtra _ => "parachain authorization for candidate bond extra operation"
  | SNominatorUnbond _ => "parachain authorization for scheduling nominator unbond operation"
  | SCandidateUnbond _ => "parachain authorization for scheduling candidate unbond operation"
  | SRevoke _ => "parachain authorization for nominator remove bond operation"
  | SLeaveNominators => "parachain authorization for scheduling leaving nominators operation"
  | SExecuteLeaveNominators _ => "parachain authorization for executing leave nominators operation"
  | SExecuteRequests _ => "parachain authorization for executing nomination requests operation"
  | SExecuteCandidateUnbond _ => "parachain authorization for executing candidate unbond operation"
  end).
Definition call_args (x : scall) : list N :=
  match x with
  | SNominate l a => compact (N.of_nat (length l)) ++ concat (map enc_target l) ++ le_bytes 16 a
  | SBondExtra a | SCandidateBondExtra a | SNominatorUnbond a | SCandidateUnbond a => le_bytes 16 a
  | SRevoke k | SExecuteLeaveNominators k | SExecuteRequests k | SExecuteCandidateUnbond k => be_bytes 32 k
  | SLeaveNominators => []
  end.
Definition payload (relayer : N) (x : scall) (nonce : N) : list N :=
  call_context x ++ be_bytes 32 relayer ++ call_args x ++ le_bytes 8 nonce.
Definition nonce_of (s : st) (a : N) : N := mget 0 a (s_nonces s).
Definition call_body (c : config) (who : N) (x : scall) : M st unit :=
  match x with
  | SNominate l a => split_and_nominate c who l a
  | SBondExtra a => bond_extra_all c who a
  | SCandidateBondExtra a => candidate_bond_extra who a
  | SCandidateUnbond a => schedule_candidate_unbond who a
  | SNominatorUnbond a => unbond_spread c who a
  | SRevoke k => schedule_revoke c who k
  | SLeaveNominators => schedule_revoke_all c who
  | SExecuteLeaveNominators w =>
      s <-- get_st ;;
      m <-- some_or (s_nominators s !! w) "NominatorDNE" ;;
      execute_revoke_all c w (N.of_nat (size (m_noms m)))
  | SExecuteRequests w => execute_all c w
  | SExecuteCandidateUnbond k => execute_candidate_unbond k
  end.
Definition needs_staking (x : scall) : bool := match x with SNominate _ _ | SBondExtra _ => true | _ => false end.
Definition signed_call (c : config) (cr : crypto) (who : N) (p : proof) (x : scall) : M st unit :=
  ensure (negb (needs_staking x) || c_staking c) "StakingNotAllowed" ;;;
  ensure (who =? pf_signer p) "SenderIsNotSigner" ;;;
  nonce <-- gets (fun s => nonce_of s who) ;;
  ensure (verify_signature cr p (payload (pf_relayer p) x nonce)) "Unauthorized" ;;;
  call_body c who x ;;;
  modify (fun s => s <| s_nonces := <[who := (nonce_of s who + 1) mod 2 ^ 64]> (s_nonces s) |>).

(** ** Histories *)

Inductive op :=
| Join (who bond hint : N) | ScheduleLeave (who hint : N) | ExecuteLeave (caller k hint : N) | CancelLeave (who hint : N)
| GoOffline (who : N) | GoOnline (who : N)
| CandidateBondExtra (who more : N) | ScheduleCandidateUnbond (who less : N) | ExecuteCandidateUnbond (caller k : N) | CancelCandidateUnbond (who : N)
| Nominate (who k amount cand_hint nom_hint : N) | BondExtra (who k more : N)
| ScheduleLeaveNominators (who : N) | ExecuteLeaveNominators (caller w hint : N) | CancelLeaveNominators (who : N)
| ScheduleRevoke (who k : N) | ScheduleUnbond (who k less : N) | ExecuteRequest (caller w k : N) | CancelRequest (who k : N)
| Hotfix (caller : N) (l : list N)
| Signed (who : N) (p : proof) (x : scall)
| SetTotalSelected (new : N) | SetBlocksPerEra (new : N) | SetAdmin (v : setting)
| NewBlock
(** other parts of the runtime: balances move, session keys are registered *)
| EnvBalances (free held : gmap N N) | EnvSessions (keys : gset N).
(** What the balances pallet guarantees: frozen amounts stay covered by free and held balance, and the supply is a u128. *)
Definition balances_ok (s : st) (free held : gmap N N) : bool :=
  bool_decide (map_Forall (fun a l => l <= mget 0 a free + mget 0 a held) (s_col_lock s)) &&
  bool_decide (map_Forall (fun a l => l <= mget 0 a free + mget 0 a held) (s_nom_lock s)) &&
  (msum (fun _ x => x) free + msum (fun _ x => x) held <=? U128_MAX).
Definition body (c : config) (cr : crypto) (o : op) : M st unit :=
  match o with
  | Join w b h => join_candidates c w b h
  | ScheduleLeave w h => schedule_leave_candidates w h
  | ExecuteLeave _ k h => execute_leave_candidates k h
  | CancelLeave w h => cancel_leave_candidates c w h
  | GoOffline w => go_offline w
  | GoOnline w => go_online c w
  | CandidateBondExtra w x => candidate_bond_extra w x
  | ScheduleCandidateUnbond w x => schedule_candidate_unbond w x
  | ExecuteCandidateUnbond _ k => execute_candidate_unbond k
  | CancelCandidateUnbond w => cancel_candidate_unbond w
  | Nominate w k x h1 h2 => ensure (c_staking c) "StakingNotAllowed" ;;; call_nominate c w k x h1 h2
  | BondExtra w k x => ensure (c_staking c) "StakingNotAllowed" ;;; call_bond_extra c w k x
  | ScheduleLeaveNominators w => schedule_revoke_all c w
  | ExecuteLeaveNominators _ w h => execute_revoke_all c w h
  | CancelLeaveNominators w => cancel_revoke_all w
  | ScheduleRevoke w k => schedule_revoke c w k
  | ScheduleUnbond w k x => schedule_decrease c w k x
  | ExecuteRequest _ w k => execute_request c w k
  | CancelRequest w k => cancel_request w k
  | Hotfix _ l => hotfix l
  | Signed w p x => signed_call c cr w p x
  | SetTotalSelected x => set_total_selected c x
  | SetBlocksPerEra x => set_blocks_per_era c x
  | SetAdmin v => set_admin_setting c v
  | NewBlock => on_initialize c
  | EnvBalances f h => s <-- get_st ;; ensure (balances_ok s f h) "impossible" ;;; modify (fun s => s <| s_free := f |> <| s_held := h |>)
  | EnvSessions x => modify (fun s => s <| s_registered := x |>)
  end.
(** Every call is transactional (FRAME). *)
Definition exec (c : config) (cr : crypto) (o : op) : M st unit := dispatch (body c cr o).
Definition step (c : config) (cr : crypto) (s : st) (o : op) : st := fst (exec c cr o s).
Definition run (c : config) (cr : crypto) (s : st) (l : list op) : st := fold_left (step c cr) l s.
(** lib.rs:694-788 genesis, without initial candidates and nominators (they join by the same calls). *)
Definition genesis (c : config) (delay min_col min_nom : N) : st :=
  mkSt ∅ ∅ ∅ ∅ ∅ ∅ 0 ∅ ∅ ∅ ∅ ∅ 1 0 (c_min_blocks c + 2) delay min_col min_nom (c_min_selected c) [] ∅ 0 ∅.
