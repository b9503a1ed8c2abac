(** C07: the lower parameters codec. *)
From Verif Require Import Base BaseLemmas CodecModel CodecProofs.

(** Every field in the range of its Rust type. *)
Definition typed (d : lower_data) : Prop :=
  ld_token d < 2 ^ 160 /\ ld_amount d < 2 ^ 128 /\ ld_recipient d < 2 ^ 160 /\ ld_id d < 2 ^ 32 /\
  ld_sender d < 2 ^ 256 /\ ld_time d < 2 ^ 64.
Definition ex_lower := mkLowerData (2 ^ 160 - 1) 100000000000000000000 77 10 (2 ^ 255 + 5) 1000000000.
Example typed_example : typed ex_lower /\ length (concat_lower_data ex_lower) = 116%nat /\
  decode_lower_data (concat_lower_data ex_lower) = Some ex_lower.
Proof. vm_compute. repeat split. Qed.

Theorem C07_roundtrip d : typed d -> decode_lower_data (concat_lower_data d) = Some d.
Proof. exact (lower_roundtrip d). Qed.
Print Assumptions C07_roundtrip.

Theorem C07_length d : length (concat_lower_data d) = 116%nat.
Proof. exact (lower_length d). Qed.
Print Assumptions C07_length.

Theorem C07_injective d d' : typed d -> typed d' -> concat_lower_data d = concat_lower_data d' -> d = d'.
Proof. exact (lower_injective d d'). Qed.
Print Assumptions C07_injective.

(** Decoding succeeds exactly on 116-byte inputs. *)
Theorem C07_decode_total p : (exists d, decode_lower_data p = Some d) <-> length p = 116%nat.
Proof. exact (decode_total p). Qed.
Print Assumptions C07_decode_total.

(** A payload is the encoding of what it decodes to exactly when its padding bytes 20..36 are zero;
    other payloads decode as well, ignoring the padding. *)
Theorem C07_canonical_iff_zero_padding p d :
  Forall (fun b => b < 256) p -> decode_lower_data p = Some d ->
  (concat_lower_data d = p <-> slice 20 36 p = repeat 0 16).
Proof. exact (lower_reencode p d). Qed.
Print Assumptions C07_canonical_iff_zero_padding.
Theorem C07_padding_ignored_refuted :
  exists p p', length p = 116%nat /\ length p' = 116%nat /\ p <> p' /\ decode_lower_data p = decode_lower_data p' /\
    Forall (fun b => b < 256) p /\ Forall (fun b => b < 256) p'.
Proof.
  exists (repeat 0 116), (put 20 [1] (repeat 0 116)). split; [reflexivity|]. split; [reflexivity|].
  split; [discriminate|]. split; [reflexivity|]. split; (apply Forall_forall; intros x Hx; apply elem_of_list_In in Hx; cbn in Hx; intuition lia).
Qed.
Print Assumptions C07_padding_ignored_refuted.
