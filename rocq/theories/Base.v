(** Shared vocabulary of all the models: results, the storage monad, machine integers.

    The pallets are Rust functions over FRAME storage.  A function that returns a [Result] and
    may write storage is modelled by a function [S -> S * res A]: the storage after the call is
    returned also when the call fails, because several callers of this code base swallow an error
    without rolling storage back.  [dispatch] below is the rollback FRAME puts around every
    extrinsic. *)
From stdpp Require Export prelude gmap list numbers sorting.
From Coq Require Export ZArith Lia ZifyBool ZifyNat ZifyN.
From stdpp Require Export strings.
Notation length := List.length.
From RecordUpdate Require Export RecordSet.
Export RecordSetNotations.
#[global] Open Scope N_scope.
#[global] Open Scope list_scope.

#[global] Arguments N.add : simpl never.
#[global] Arguments N.sub : simpl never.
#[global] Arguments N.mul : simpl never.
#[global] Arguments N.div : simpl never.
#[global] Arguments N.modulo : simpl never.
#[global] Arguments N.leb : simpl never.
#[global] Arguments N.ltb : simpl never.
#[global] Arguments N.eqb : simpl never.
#[global] Arguments N.pow : simpl never.
#[global] Arguments N.max : simpl never.
#[global] Arguments N.min : simpl never.
#[global] Arguments N.of_nat : simpl never.
#[global] Arguments N.to_nat : simpl never.

(** Rust's [Result<A, Error>]; errors are named by the Rust error variant. *)
Inductive res (A : Type) : Type := Ok (a : A) | Err (e : string).
#[global] Arguments Ok {A} a.
#[global] Arguments Err {A} e%string.

Definition is_ok {A} (r : res A) : bool := match r with Ok _ => true | Err _ => false end.

(** Computations over storage [S]. *)
Definition M (S A : Type) : Type := S -> S * res A.

Definition mret_ {S A} (a : A) : M S A := fun s => (s, Ok a).
Definition mbind_ {S A B} (m : M S A) (k : A -> M S B) : M S B :=
  fun s => match m s with
           | (s1, Ok a) => k a s1
           | (s1, Err e) => (s1, Err e)
           end.
Definition fail {S A} (e : string) : M S A := fun s => (s, Err e).
Definition ensure {S} (b : bool) (e : string) : M S unit :=
  fun s => if b then (s, Ok tt) else (s, Err e).
Definition gets {S A} (f : S -> A) : M S A := fun s => (s, Ok (f s)).
(** The whole storage (a read of several items). *)
Definition get_st {S} : M S S := fun s => (s, Ok s).
Definition modify {S} (f : S -> S) : M S unit := fun s => (f s, Ok tt).
(** [Option::ok_or(e)?] *)
Definition some_or {S A} (o : option A) (e : string) : M S A :=
  match o with Some a => mret_ a | None => fail e end.
(** [result?] for a pure result. *)
Definition lift_res {S A} (r : res A) : M S A :=
  match r with Ok a => mret_ a | Err e => fail e end.

Notation "x <-- m ;; k" := (mbind_ m (fun x => k)) (at level 100, m at next level, right associativity).
Notation "m ;;; k" := (mbind_ m (fun _ => k)) (at level 100, right associativity).

(** FRAME's transactional layer: a dispatchable that returns [Err] leaves storage unchanged. *)
Definition dispatch {S A} (m : M S A) : M S A :=
  fun s => match m s with
           | (s1, Ok a) => (s1, Ok a)
           | (_, Err e) => (s, Err e)
           end.

(** Machine integers. *)
Definition U8_MAX : N := 255.
Definition U32_MAX : N := 4294967295.
Definition U64_MAX : N := 18446744073709551615.
Definition U128_MAX : N := 340282366920938463463374607431768211455.

Definition checked_add (max a b : N) : option N := if a + b <=? max then Some (a + b) else None.
Definition checked_sub (a b : N) : option N := if b <=? a then Some (a - b) else None.
Definition saturating_add (max a b : N) : N := N.min max (a + b).
Definition saturating_sub (a b : N) : N := a - b. (* [N.sub] truncates at zero *)

(** A map read with a default ([ValueQuery] storage maps). *)
Definition mget {K V} `{Countable K} (d : V) (k : K) (m : gmap K V) : V :=
  match m !! k with Some v => v | None => d end.

(** Membership test by boolean equality ([Vec::contains] for account ids). *)
Definition memN (x : N) (l : list N) : bool := existsb (N.eqb x) l.
