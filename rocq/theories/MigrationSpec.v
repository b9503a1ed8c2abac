(** What an upgrade has to keep, said without the migrations. *)
From Verif Require Import Base CodecModel ScaleModel MigrationModel.

(** The storage holds the value [o] of type [t], written by code that had that type. *)
Definition stored (t : ty) (o : option (den t)) (raw : option (list N)) : Prop :=
  match o with Some x => exists b, raw = Some b /\ holds t x b | None => raw = None end.

(** Parameters of a lower, before (76 bytes) and after (116 bytes): the new fields are zero. *)
Definition same_params (p p' : list N) : Prop := p' = p ++ repeat 0 40.
Definition same_request (r : den (request_t 76)) (r' : den (request_t 116)) : Prop :=
  match r, r' with
  | inl x, inl y => y = x
  | inr (id, (p, caller)), inr (id', (p', caller')) => id' = id /\ same_params p p' /\ caller' = caller
  | _, _ => False
  end.
Definition same_active (a : den (active_t 76 tx_t)) (a' : den (active_t 116 tx_t)) : Prop :=
  same_request a.1 a'.1 /\ a'.2 = a.2.
(** A transaction as it was, never replayed. *)
Definition same_tx (x : den tx3_t) (y : den tx_t) : Prop :=
  exists fn ps sender expiry hash c1 c2 c3 c4 ok,
    x = (fn, (ps, (sender, (expiry, (hash, (c1, (c2, (c3, (c4, ok))))))))) /\
    y = (fn, (ps, (sender, (expiry, (hash, (c1, (c2, (c3, (c4, (ok, 0)))))))))).
Definition same_active3 (a : den (active_t 76 tx3_t)) (a' : den (active_t 116 tx_t)) : Prop :=
  same_request a.1 a'.1 /\ a'.2.1 = a.2.1 /\ option_Forall2 same_tx a.2.2.1 a'.2.2.1 /\ a'.2.2.2 = a.2.2.2.

(** A lower as version 1 wrote it: token, 16 zero bytes, amount, recipient, id. *)
Definition v1_params (token amount recipient id : N) : list N :=
  be_bytes 20 token ++ repeat 0 16 ++ be_bytes 16 amount ++ be_bytes 20 recipient ++ be_bytes 4 id.
Definition v1_range (token amount recipient id : N) : Prop :=
  token < 2 ^ 160 /\ amount < 2 ^ 128 /\ recipient < 2 ^ 160 /\ id < 2 ^ 32.
