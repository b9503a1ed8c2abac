(** SCALE (parity-scale-codec), for the types of the storage items that runtime upgrades translate.  A type is a value of [ty], so
    that one encoder, one decoder and one round-trip proof serve them all.  The codec is a dependency, not part of /repo; this
    file models its documented behaviour. *)
From Verif Require Import Base CodecModel.

(** Sets ([BTreeSet]) are written as vectors of their elements in order, and are [TVec] here.  [TEnum] is an enum of two
    variants, [TBytes] a fixed array of bytes ([u8; k], H256, AccountId32, signatures), [TInt] an integer of [k] bytes. *)
Inductive ty : Type :=
  | TInt (k : nat) | TBytes (k : nat) | TBool | TOpt (t : ty) | TVec (max : N) (t : ty) | TPair (a b : ty) | TEnum (a b : ty).
Fixpoint den (t : ty) : Type :=
  match t with
  | TInt _ => N | TBytes _ => list N | TBool => bool | TOpt a => option (den a) | TVec _ a => list (den a)
  | TPair a b => (den a * den b)%type | TEnum a b => (den a + den b)%type
  end.

(** The values a Rust variable of the type can have. *)
Definition byte (b : N) : Prop := b < 256.
Fixpoint valid (t : ty) : den t -> Prop :=
  match t with
  | TInt k => fun n => n < 256 ^ N.of_nat k
  | TBytes k => fun l => length l = k /\ Forall byte l
  | TBool => fun _ => True
  | TOpt a => fun o => match o with Some x => valid a x | None => True end
  | TVec m a => fun l => N.of_nat (length l) <= m /\ m < 2 ^ 32 /\ Forall (valid a) l
  | TPair a b => fun p => valid a p.1 /\ valid b p.2
  | TEnum a b => fun s => match s with inl x => valid a x | inr y => valid b y end
  end.

Fixpoint enc (t : ty) : den t -> list N :=
  match t with
  | TInt k => fun n => le_bytes k n
  | TBytes k => fun l => l
  | TBool => fun b => [if b then 1 else 0]
  | TOpt a => fun o => match o with Some x => 1 :: enc a x | None => [0] end
  | TVec m a => fun l => compact (N.of_nat (length l)) ++ concat (map (enc a) l)
  | TPair a b => fun p => enc a p.1 ++ enc b p.2
  | TEnum a b => fun s => match s with inl x => 0 :: enc a x | inr y => 1 :: enc b y end
  end.

(** A decoder takes what it needs from the front of the input and leaves the rest; [None] is an error. *)
Definition dec_bytes (k : nat) (b : list N) : option (list N * list N) :=
  if Nat.leb k (length b) then Some (take k b, drop k b) else None.
Definition le_value (l : list N) : N := fold_right (fun b acc => b + 256 * acc) 0 l.
Definition dec_int (k : nat) (b : list N) : option (N * list N) :=
  match dec_bytes k b with Some (x, r) => Some (le_value x, r) | None => None end.
(** [Compact<u32>]: the two low bits of the first byte are the mode; an encoding longer than needed is an error. *)
Definition dec_compact (b : list N) : option (N * list N) :=
  match b with
  | [] => None
  | p :: r =>
    let m := p mod 4 in
    if m =? 0 then Some (p / 4, r)
    else if m =? 1 then match dec_int 2 b with Some (x, r) => if 2 ^ 6 <=? x / 4 then Some (x / 4, r) else None | None => None end
    else if m =? 2 then match dec_int 4 b with Some (x, r) => if 2 ^ 14 <=? x / 4 then Some (x / 4, r) else None | None => None end
    else if p =? 3 then match dec_int 4 r with Some (x, r) => if 2 ^ 30 <=? x then Some (x, r) else None | None => None end
    else None
  end.
Fixpoint dec_many {A} (d : list N -> option (A * list N)) (n : nat) (b : list N) : option (list A * list N) :=
  match n with
  | O => Some ([], b)
  | S n => match d b with
           | Some (x, r) => match dec_many d n r with Some (l, r) => Some (x :: l, r) | None => None end
           | None => None
           end
  end.
(** A bounded vector whose length is over the bound is an error. *)
Fixpoint dec (t : ty) : list N -> option (den t * list N) :=
  match t with
  | TInt k => fun b => dec_int k b
  | TBytes k => fun b => dec_bytes k b
  | TBool => fun b => match b with 0 :: r => Some (false, r) | 1 :: r => Some (true, r) | _ => None end
  | TOpt a => fun b => match b with
      | 0 :: r => Some (None, r)
      | 1 :: r => match dec a r with Some (x, r) => Some (Some x, r) | None => None end
      | _ => None end
  | TVec m a => fun b => match dec_compact b with
      | Some (n, r) => if n <=? m then dec_many (dec a) (N.to_nat n) r else None
      | None => None end
  | TPair a b => fun i => match dec a i with
      | Some (x, r) => match dec b r with Some (y, r) => Some ((x, y), r) | None => None end
      | None => None end
  | TEnum a b => fun i => match i with
      | 0 :: r => match dec a r with Some (x, r) => Some (inl x, r) | None => None end
      | 1 :: r => match dec b r with Some (y, r) => Some (inr y, r) | None => None end
      | _ => None end
  end.

(** Reading a stored value ([StorageValue::get] and [StorageMap::get] with [OptionQuery]): bytes that do not decode read as no
    value; bytes left over are ignored. *)
Definition read (t : ty) (raw : option (list N)) : option (den t) :=
  match raw with Some b => match dec t b with Some (x, _) => Some x | None => None end | None => None end.
(** Bytes holding a value of the type. *)
Definition holds (t : ty) (x : den t) (raw : list N) : Prop := valid t x /\ raw = enc t x.

(** The fewest bytes a value of the type takes. *)
Fixpoint min_len (t : ty) : nat :=
  match t with
  | TInt k => k | TBytes k => k | TBool => 1 | TOpt _ => 1 | TVec _ _ => 1
  | TPair a b => min_len a + min_len b | TEnum a b => 1 + Nat.min (min_len a) (min_len b)
  end%nat.
