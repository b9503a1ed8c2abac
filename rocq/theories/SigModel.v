(** Verification of the signatures that users attach to relayed ("proxied") instructions. *)
From Verif Require Import Base CodecModel.

(** sp_runtime::MultiSignature: the three schemes; the code base accepts two of them. *)
Inductive multisig := SigSr25519 (sig : N) | SigEcdsa (sig : N) | SigEd25519 (sig : N).
#[global] Instance multisig_eq_dec : EqDecision multisig.
Proof. solve_decision. Defined.

(** primitives/avn-common/src/lib.rs [Proof]. *)
Record proof := mkProof { pf_signer : N; pf_relayer : N; pf_sig : multisig }.

(** The cryptography is a parameter: [cr_sr account message sig] is sr25519 verification,
    [cr_recover sig message] is the account derived (keccak) from the Ethereum address that
    ECDSA recovery yields for the Ethereum-prefixed hash of the message
    (primitives/avn-common/src/lib.rs:205-283 [recover_ethereum_address_from_ecdsa_signature],
    [keccak_256] of it at 336-337), or [None] when recovery fails. *)
Record crypto := mkCrypto {
  cr_sr : N -> list N -> N -> bool;
  cr_recover : N -> list N -> option N }.

(** primitives/avn-common/src/lib.rs: [OPEN_BYTES_TAG], [CLOSE_BYTES_TAG]. *)
Definition OPEN_BYTES_TAG : list N := ascii_bytes "<Bytes>".
Definition CLOSE_BYTES_TAG : list N := ascii_bytes "</Bytes>".
Definition wrapped (payload : list N) : list N := OPEN_BYTES_TAG ++ payload ++ CLOSE_BYTES_TAG.

(** primitives/avn-common/src/lib.rs:285-375 [verify_sr_signature], [verify_multi_signature],
    [verify_signature] (the test-only branch under cfg(test-utils) is not part of the runtime). *)
Definition verify_signature (cr : crypto) (p : proof) (payload : list N) : bool :=
  match pf_sig p with
  | SigSr25519 sg => cr_sr cr (pf_signer p) (wrapped payload) sg || cr_sr cr (pf_signer p) payload sg
  | SigEcdsa sg => match cr_recover cr sg payload with Some a => a =? pf_signer p | None => false end
  | SigEd25519 _ => false
  end.
