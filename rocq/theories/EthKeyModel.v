(** Ethereum keys of validators and authors: 33 bytes on this chain, 64 bytes for the contract. *)
From Verif Require Import Base CodecModel.

(** The field and the curve y^2 = x^3 + 7 of secp256k1. *)
Definition P : N := 2 ^ 256 - 2 ^ 32 - 977.
Fixpoint powm (a : N) (e : positive) : N :=
  match e with
  | xH => a mod P
  | xO e => let r := powm a e in r * r mod P
  | xI e => let r := powm a e in (r * r mod P) * a mod P
  end.
Definition root_of (c : N) : N := match (P + 1) / 4 with Npos e => powm c e | N0 => 1 end.
Definition curve (x : N) : N := ((x * x mod P) * x + 7) mod P.
(** primitives/avn-common/src/eth_key_actions.rs:3-19 [decompress_eth_public_key]; libsecp256k1's [parse_slice] for the
    compressed format (the standard decompression: x below the field's order, a root of x^3 + 7 by exponentiation, its
    negation if the parity is the other one, refused if it is no root) and [serialize] without its first byte. The
    library's source is not in the repository. *)
Definition decompress (k : list N) : option (list N) :=
  match k with
  | [] => None
  | t :: xb =>
    if Nat.eqb (length xb) 32 && ((t =? 2) || (t =? 3)) then
      let x := be_value xb in
      if x <? P then
        let r := root_of (curve x) in
        let y := if Bool.eqb (N.odd r) (t =? 3) then r else (P - r) mod P in
        if y * y mod P =? curve x then Some (be_bytes 32 x ++ be_bytes 32 y) else None
      else None
    else None
  end.
(** eth_key_actions.rs:22-34 [compress_eth_public_key]. *)
Definition compress (f : list N) : list N := (if nth 63 f 0 mod 2 =? 0 then 2 else 3) :: take 32 f.
(** pallets/validators-manager/src/lib.rs:593-604 and 651-663, pallets/authors-manager/src/lib.rs:507-519 and 565-577: what is
    published to add and to remove a validator or author. *)
Definition add_params (key account : list N) : option (list (string * list N)) :=
  match decompress key with Some f => Some [("bytes"%string, f); ("bytes32"%string, account)] | None => None end.
Definition remove_params (key account : list N) : option (list (string * list N)) :=
  match decompress key with Some f => Some [("bytes32"%string, account); ("bytes"%string, f)] | None => None end.
