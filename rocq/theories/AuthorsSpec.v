(** Specification of author management, stated on the calls accepted and the results reported. *)
From Verif Require Import Base AuthorsModel.

(** A request waiting for Ethereum. *)
Inductive request := Adding (who key : N) | Removing (who : N).
(** What a user sees: the authors, each account's current Ethereum key, the key it was last registered with, and the one request being decided
    (with the id under which it was sent to Ethereum). *)
Record view := mkView { v_list : list N; v_keys : gmap N N; v_registered : gmap N N; v_pending : option (N * request) }.
#[export] Instance eta_view : Settable _ := settable! mkView <v_list; v_keys; v_registered; v_pending>.
(** An Ethereum result for the request. *)
Definition settle (r : request) (succeeded : bool) (v : view) : view :=
  let v := v <| v_pending := None |> in
  match r, succeeded with
  | Adding a _, true => v <| v_list := v_list v ++ [a] |>
  | Adding a _, false => v <| v_keys := delete a (v_keys v) |> <| v_registered := delete a (v_registered v) |>
  | Removing a, true => v <| v_list := filter (fun x => x <> a) (v_list v) |> <| v_keys := delete a (v_keys v) |>
  | Removing _, false => v
  end.
(** An accepted operation; [tx] is the next Ethereum transaction id when it was made. *)
Definition advance (v : view) (h : N * op) : view :=
  let '(tx, o) := h in
  match o with
  | Add _ a k => v <| v_keys := <[a := k]> (v_keys v) |> <| v_registered := <[a := k]> (v_registered v) |> <| v_pending := Some (tx, Adding a k) |>
  | Remove _ a => v <| v_pending := Some (tx, Removing a) |>
  | RotateKey _ a _ new => v <| v_keys := <[a := new]> (v_keys v) |>
  | Result t ok => match v_pending v with Some (t', r) => if t =? t' then settle r ok v else v | None => v end
  | NewSession _ _ _ | Elsewhere _ _ => v
  end.
Definition view0 (l : list (N * N)) : view := mkView (map fst l) (list_to_map l) (list_to_map l) None.
(** The accepted operations of a run, oldest first. *)
Fixpoint history (c : config) (s : st) (l : list op) : list (N * op) :=
  match l with
  | [] => []
  | o :: r => (if accepted c s o then [(s_next s, o)] else []) ++ history c (step c s o) r
  end.
Definition replay (c : config) (g : list (N * N)) (e : env) (next : N) (l : list op) : view :=
  fold_left advance (history c (genesis g e next) l) (view0 g).
(** Genesis authors and keys are distinct, and their number is within the limits; storage iterates over each entry once. *)
Definition good_genesis (c : config) (g : list (N * N)) : Prop :=
  NoDup (map fst g) /\ NoDup (map snd g) /\ c_min c <= N.of_nat (length g) <= MAX_AUTHORS /\ (forall m, c_iter c m ≡ₚ map_to_list m).
(** An operation that does not upset the tables of keys: no key is rotated while a registration is being decided, and no session begins without an author
    whose removal is being decided. *)
Definition tame (v : view) (o : op) : Prop :=
  match o, v_pending v with
  | RotateKey _ _ _ _, Some (_, Adding _ _) => False
  | NewSession active disabled _, Some (_, Removing a) => a ∈ active \/ a ∈ disabled
  | _, _ => True
  end.
Definition tame_run (c : config) (g : list (N * N)) (e : env) (next : N) (l : list op) : Prop :=
  forall l1 o l2, l = l1 ++ o :: l2 -> tame (replay c g e next l1) o.
