(** Specification of collator management, stated on the calls accepted and the results reported. *)
From Verif Require Import Base ValModel.

(** A request waiting for Ethereum. *)
Inductive request := Adding (who deposit : N) | Removing (who : N).
(** What a user sees: the validators, each account's Ethereum key, the one request being decided (with the id under which it
    was sent to Ethereum), and the stake joined and withdrawn on behalf of validators (latest first). *)
Record view := mkView { v_list : list N; v_keys : gmap N N; v_pending : option (N * request); v_staking : list staking }.
#[export] Instance eta_view : Settable _ := settable! mkView <v_list; v_keys; v_pending; v_staking>.
(** An Ethereum result for the request. *)
Definition settle (r : request) (succeeded : bool) (v : view) : view :=
  let v := v <| v_pending := None |> in
  match r, succeeded with
  | Adding a d, true => v <| v_list := v_list v ++ [a] |> <| v_staking := Joined a d :: v_staking v |>
  | Adding a _, false => v <| v_keys := delete a (v_keys v) |>
  | Removing a, true => v <| v_list := filter (fun x => x <> a) (v_list v) |> <| v_keys := delete a (v_keys v) |> <| v_staking := Leaving a :: v_staking v |>
  | Removing _, false => v
  end.
(** An accepted operation; [tx] is the next Ethereum transaction id and [least] the least stake when it was made. *)
Definition advance (v : view) (h : N * N * op) : view :=
  let '(tx, least, o) := h in
  match o with
  | AddCollator _ a k d => v <| v_keys := <[a := k]> (v_keys v) |> <| v_pending := Some (tx, Adding a (default least d)) |>
  | RemoveValidator _ a => v <| v_pending := Some (tx, Removing a) |>
  | RotateKey _ a _ new => v <| v_keys := <[a := new]> (v_keys v) |>
  | Result t ok => match v_pending v with Some (t', r) => if t =? t' then settle r ok v else v | None => v end
  | NewSession _ _ _ | Elsewhere _ _ => v
  end.
Definition view0 (l : list (N * N)) : view := mkView (map fst l) (list_to_map l) None [].
(** The accepted operations of a run, oldest first. *)
Fixpoint history (c : config) (s : st) (l : list op) : list (N * N * op) :=
  match l with
  | [] => []
  | o :: r => (if accepted c s o then [(s_next s, e_min_stake (s_env s), o)] else []) ++ history c (step c s o) r
  end.
Definition replay (c : config) (g : list (N * N)) (e : env) (next : N) (l : list op) : view :=
  fold_left advance (history c (genesis g e next) l) (view0 g).
(** Genesis validators and keys are distinct, and their number is within the limits. *)
Definition good_genesis (c : config) (g : list (N * N)) : Prop :=
  NoDup (map fst g) /\ NoDup (map snd g) /\ c_min c <= N.of_nat (length g) <= MAX_VALIDATORS.
(** A staking call that ends a withdrawal (as opposed to a join or the start of a withdrawal). *)
Definition is_exit (x : staking) : bool := match x with Left_ _ => true | _ => false end.
Definition joins_and_leaves (l : list staking) : list staking := filter (fun x => is_exit x = false) l.
