(** Byte encodings used by the signed payloads and by the lower parameters.
    A byte is a number below 256; H160, H256 and AccountId32 values are represented by the number whose
    big-endian bytes they are. *)
From Verif Require Import Base.

(** [u32/u64/u128::to_be_bytes], and the bytes of a fixed-size hash: [k] bytes, most significant first. *)
Fixpoint be_bytes (k : nat) (n : N) : list N :=
  match k with O => [] | S k' => be_bytes k' (n / 256) ++ [n mod 256] end.
(** SCALE encoding of fixed-width integers (parity-scale-codec): [k] bytes, least significant first. *)
Fixpoint le_bytes (k : nat) (n : N) : list N :=
  match k with O => [] | S k' => n mod 256 :: le_bytes k' (n / 256) end.
(** [from_be_bytes] and [AlloyU256::try_from_be_slice] on a slice. *)
Definition be_value (l : list N) : N := fold_left (fun acc b => acc * 256 + b) l 0.

(** SCALE compact encoding of a length (parity-scale-codec compact.rs): modes 0, 1, 2 and 3 for a u32. *)
Definition compact (n : N) : list N :=
  if n <? 2 ^ 6 then [n * 4]
  else if n <? 2 ^ 14 then le_bytes 2 (n * 4 + 1)
  else if n <? 2 ^ 30 then le_bytes 4 (n * 4 + 2)
  else 3 :: le_bytes 4 n.
(** SCALE encoding of a byte vector or slice: compact length, then the bytes. *)
Definition scale_bytes (l : list N) : list N := compact (N.of_nat (length l)) ++ l.

(** The bytes of an ASCII string literal. *)
Fixpoint ascii_bytes (s : string) : list N :=
  match s with
  | EmptyString => []
  | String a r => N.of_nat (Ascii.nat_of_ascii a) :: ascii_bytes r
  end.

(** Slices and [copy_from_slice] at an offset. *)
Definition slice (a b : nat) (l : list N) : list N := take (b - a) (drop a l).
Definition put (a : nat) (bs l : list N) : list N := take a l ++ bs ++ drop (a + length bs) l.

(** primitives/avn-common/src/eth/mod.rs:184-192 [LowerData]. *)
Record lower_data := mkLowerData {
  ld_token : N; ld_amount : N; ld_recipient : N; ld_id : N; ld_sender : N; ld_time : N }.

(** eth/mod.rs:477-498 [concat_lower_data]; spans eth/mod.rs:18-28. *)
Definition concat_lower_data (d : lower_data) : list N :=
  let p := repeat 0 116 in
  let p := put 0 (be_bytes 20 (ld_token d)) p in
  let p := put 20 (repeat 0 16) p in
  let p := put 36 (be_bytes 16 (ld_amount d)) p in
  let p := put 52 (be_bytes 20 (ld_recipient d)) p in
  let p := put 72 (be_bytes 4 (ld_id d)) p in
  let p := put 76 (be_bytes 32 (ld_sender d)) p in
  put 108 (be_bytes 8 (ld_time d)) p.

(** eth/mod.rs:202-230 [LowerData::try_from]. *)
Definition decode_lower_data (p : list N) : option lower_data :=
  if Nat.eqb (length p) 116 then
    Some (mkLowerData (be_value (slice 0 20 p)) (be_value (slice 36 52 p)) (be_value (slice 52 72 p))
           (be_value (slice 72 76 p)) (be_value (slice 76 108 p)) (be_value (slice 108 116 p)))
  else None.
