(** Model of who authors blocks: pallets/parachain-staking/src/session_handler.rs (the session manager), pallet-session
    (FRAME, not in /repo: [rotate_session], [set_keys], [purge_keys] of the release the runtime depends on) and the
    validator list of pallets/avn, composed with the staking pallet (StakeModel.v) and the departures that
    pallets/validators-manager completes at session changes.

    Simplifications.  [ForceNewEra] (session_handler.rs:61-74) is set by no call (only root writing raw storage could),
    so it is always false and its branch is not modelled.  A session key stands for the whole set of keys of an account;
    key ownership proofs and the deposit for keys are not modelled.  The session index is a u32, not reduced here. *)
From Verif Require Import Base BaseLemmas CodecModel SigModel AvnModel StakeModel.

(** pallet-session storage ([NextKeys], [Validators], [QueuedKeys], [QueuedChanged], [CurrentIndex]); pallets/avn
    [Validators]; [ch_exit]: the accounts whose deregistration has been actioned (validators-manager lib.rs:968-969). *)
Record chain := mkChain {
  ch_st : StakeModel.st; ch_keys : gmap N N; ch_validators : list N; ch_queued : list (N * N); ch_qchanged : bool;
  ch_index : N; ch_avn : list validator; ch_exit : gset N }.
#[export] Instance eta_chain : Settable _ :=
  settable! mkChain <ch_st; ch_keys; ch_validators; ch_queued; ch_qchanged; ch_index; ch_avn; ch_exit>.

(** session_handler.rs:47-78 [should_end_session], types.rs:1296-1304 [should_update], at the block after the current one. *)
Definition should_end_session (s : StakeModel.st) : bool := s_era_length s <=? s_block s + 1 - s_era_first s.
(** session_handler.rs:17-36 [new_session]. *)
Definition new_session (s : StakeModel.st) : option (list N) := match s_selected s with [] => None | l => Some l end.
(** pallet-session [load_keys] over the next validators: those without keys are dropped. *)
Definition with_keys (ks : gmap N N) (l : list N) : list (N * N) :=
  omap (fun a => match ks !! a with Some k => Some (a, k) | None => None end) l.
(** pallet-session [rotate_session], the closure [check_next_changed]: the new keys against the old ones in order. *)
Fixpoint keys_differ (old new : list (N * N)) : bool :=
  match old, new with
  | x :: o, y :: n => negb (x.2 =? y.2) || keys_differ o n
  | _, _ => false
  end.
(** pallets/validators-manager lib.rs:536-567 [exit_from_staking], 968-980: a deregistered account that is not in the
    session (nobody is ever disabled: runtime/avn/src/configs/mod.rs:381) leaves staking if the staking pallet lets it. *)
Definition exit_one (c : config) (cr : crypto) (active : list N) (ch : chain) (k : N) : chain :=
  if bool_decide (k ∈ active) then ch else
  match s_cands (ch_st ch) !! k with
  | None => ch
  | Some x =>
      match exec c cr (ExecuteLeave k k (k_count x)) (ch_st ch) with
      | (s', Ok _) => ch <| ch_st := s' |> <| ch_exit := ch_exit ch ∖ {[k]} |>
      | _ => ch
      end
  end.
(** pallet-session [rotate_session]; pallets/avn lib.rs:605-635 [on_new_session]. *)
Definition rotate_session (c : config) (cr : crypto) (ch : chain) : chain :=
  let active := map fst (ch_queued ch) in
  let next := match new_session (ch_st ch) with Some l => l | None => active end in
  let queued := with_keys (ch_keys ch) next in
  let changed := match new_session (ch_st ch) with Some _ => true | None => keys_differ (ch_queued ch) queued end in
  let ch1 := ch <| ch_validators := active |> <| ch_index := ch_index ch + 1 |> <| ch_queued := queued |> <| ch_qchanged := changed |>
                <| ch_avn := on_new_session (fun _ => false) (ch_qchanged ch) (map (fun x => mkValidator x.1 x.2) (ch_queued ch)) (ch_avn ch) |> in
  fold_left (exit_one c cr active) (elements (ch_exit ch)) ch1.
(** One block: pallet-session's hook runs before the staking pallet's (runtime/avn/src/lib.rs:274-284, in order of
    declaration).  The block number does not matter to what a rotation does.  A panic means that no such block exists. *)
Definition block (c : config) (cr : crypto) (ch : chain) : chain :=
  let ch1 := if should_end_session (ch_st ch) then rotate_session c cr ch else ch in
  match exec c cr NewBlock (ch_st ch1) with
  | (s', Ok _) => ch1 <| ch_st := s' |>
  | _ => ch
  end.
(** runtime/avn/src/lib.rs:212-229 [RestrictedEndpointFilter]: four calls are closed to users; blocks and session keys
    are below. *)
Definition users_may (o : StakeModel.op) : bool :=
  match o with
  | Join _ _ _ | ScheduleLeave _ _ | ExecuteLeave _ _ _ | CancelLeave _ _ | NewBlock | EnvSessions _ => false
  | _ => true
  end.
(** pallet-session [set_keys]: a key belongs to one account. *)
Definition key_free (ks : gmap N N) (a k : N) : bool := bool_decide (map_Forall (fun b k' => b = a \/ k' <> k) ks).
Definition register_keys (ch : chain) (ks : gmap N N) : chain :=
  ch <| ch_keys := ks |> <| ch_st := (ch_st ch) <| s_registered := dom ks |> |>.
(** [Register], [Resign]: what validators-manager does to staking once Ethereum has confirmed (lib.rs:714-729 and 787-828);
    its own conditions (ValModel.v) only make this rarer. *)
Inductive cop := Stake (o : StakeModel.op) | SetKeys (a k : N) | PurgeKeys (a : N) | Register (a bond : N) | Resign (a : N) | Block.
Definition pool_size (ch : chain) : N := N.of_nat (size (s_pool (ch_st ch))).
Definition cstep (c : config) (cr : crypto) (ch : chain) (o : cop) : chain :=
  match o with
  | Stake x => if users_may x then ch <| ch_st := step c cr (ch_st ch) x |> else ch
  | SetKeys a k => if key_free (ch_keys ch) a k then register_keys ch (<[a := k]> (ch_keys ch)) else ch
  | PurgeKeys a => register_keys ch (delete a (ch_keys ch))
  | Register a b => ch <| ch_st := step c cr (ch_st ch) (Join a b (pool_size ch)) |>
  | Resign a =>
      match exec c cr (ScheduleLeave a (pool_size ch)) (ch_st ch) with
      | (s', Ok _) => ch <| ch_st := s' |> <| ch_exit := ch_exit ch ∪ {[a]} |>
      | _ => ch
      end
  | Block => block c cr ch
  end.
Definition crun (c : config) (cr : crypto) (ch : chain) (l : list cop) : chain := fold_left (cstep c cr) l ch.
(** pallet-session genesis (the collators of the chain specification with their keys), pallets/avn lib.rs:588-603
    [on_genesis_session]; the staking pallet's genesis is any staking state with those keys registered. *)
Definition cgenesis (s : StakeModel.st) (l : list (N * N)) : chain :=
  mkChain s (list_to_map l) (map fst l) l false 0 (map (fun x => mkValidator x.1 x.2) l) ∅.
