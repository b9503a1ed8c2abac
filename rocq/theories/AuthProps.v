(** C104: a user's signature authorises one kind of call, across all pallets that take relayed calls: the payloads of
    token-manager/src/lib.rs:854-892, nft-manager/src/lib.rs:1037-1085 and batch_nft.rs:84-137, parachain-staking/src/proxy_methods.rs:138-232,
    ethereum-events/src/lib.rs:1593-1607, avn-proxy/src/lib.rs:209-218, avn-anchor/src/lib.rs:608-639, as modelled for those pallets. *)
From Verif Require Import Base BaseLemmas CodecModel CodecProofs SigModel.
From Verif Require TokenModel NftModel StakeModel LogModel ProxyModel AnchorModel.

(** Everything a user signs for somebody else to relay, with the arguments of the pallets' own payload functions. *)
Inductive signed_message :=
| TokenTransfer (relayer from to token amount nonce : N)
| TokenLower (relayer from token amount t1 nonce : N)
| NftMint (relayer : N) (reference : list N) (l : list NftModel.royalty) (authority : N)
| NftList (relayer id : N) (m : NftModel.market) (nonce : N)
| NftTransfer (relayer id recipient nonce : N)
| NftCancel (relayer id nonce : N)
| NftCreateBatch (relayer supply : N) (l : list NftModel.royalty) (authority nonce : N)
| NftMintBatch (relayer batch index : N) (reference : list N) (owner : N)
| NftListBatch (relayer batch : N) (m : NftModel.market) (nonce : N)
| NftEndBatch (relayer batch nonce : N)
| Staking (relayer : N) (x : StakeModel.scall) (nonce : N)
| AddEthereumLog (relayer kind tx nonce : N)
| ProxyPayment (p : proof) (recipient amount token nonce : N)
| RegisterHandler (relayer handler : N) (name : list N)
| UpdateHandler (relayer old new chain nonce : N)
| SubmitCheckpoint (relayer handler hash chain nonce origin_id : N).

(** The bytes the signature is checked against. *)
Definition signed_bytes (m : signed_message) : list N :=
  match m with
  | TokenTransfer r f t k a n => TokenModel.transfer_payload r f t k a n
  | TokenLower r f k a t n => TokenModel.lower_payload r f k a t n
  | NftMint r u l a => NftModel.mint_single_payload r u l a
  | NftList r i m n => NftModel.list_payload r i m n
  | NftTransfer r i o n => NftModel.transfer_payload r i o n
  | NftCancel r i n => NftModel.cancel_payload r i n
  | NftCreateBatch r s l a n => NftModel.create_batch_payload r s l a n
  | NftMintBatch r b i u o => NftModel.mint_batch_payload r b i u o
  | NftListBatch r b m n => NftModel.list_batch_payload r b m n
  | NftEndBatch r b n => NftModel.end_batch_payload r b n
  | Staking r x n => StakeModel.payload r x n
  | AddEthereumLog r k t n => LogModel.add_payload r k t n
  | ProxyPayment p o a t n => ProxyModel.payment_payload p o a t n
  | RegisterHandler r h n => AnchorModel.register_payload r h n
  | UpdateHandler r o n c k => AnchorModel.update_payload r o n c k
  | SubmitCheckpoint r h x c k o => AnchorModel.submit_payload r h x c k o
  end.

(** The kinds of call: pallet and call, numbered for this file only. *)
Definition kind_of (m : signed_message) : nat :=
  match m with
  | TokenTransfer _ _ _ _ _ _ => 0 | TokenLower _ _ _ _ _ _ => 1
  | NftMint _ _ _ _ => 2 | NftList _ _ _ _ => 3 | NftTransfer _ _ _ _ => 4 | NftCancel _ _ _ => 5
  | NftCreateBatch _ _ _ _ _ => 6 | NftMintBatch _ _ _ _ _ => 7 | NftListBatch _ _ _ _ => 8 | NftEndBatch _ _ _ => 9
  | Staking _ x _ =>
      match x with
      | StakeModel.SNominate _ _ => 10 | StakeModel.SBondExtra _ => 11 | StakeModel.SCandidateBondExtra _ => 12
      | StakeModel.SCandidateUnbond _ => 13 | StakeModel.SNominatorUnbond _ => 14 | StakeModel.SRevoke _ => 15
      | StakeModel.SLeaveNominators => 16 | StakeModel.SExecuteLeaveNominators _ => 17
      | StakeModel.SExecuteRequests _ => 18 | StakeModel.SExecuteCandidateUnbond _ => 19
      end
  | AddEthereumLog _ _ _ _ => 20 | ProxyPayment _ _ _ _ _ => 21
  | RegisterHandler _ _ _ => 22 | UpdateHandler _ _ _ _ _ => 23 | SubmitCheckpoint _ _ _ _ _ _ => 24
  end%nat.

Definition contexts : list (list N) := map (fun s => ascii_bytes s)
  [ "authorization for transfer operation"; "authorization for lower operation";
    "authorization for mint single nft operation"; "authorization for list nft open for sale operation";
    "authorization for transfer fiat nft operation"; "authorization for cancel list fiat nft for sale operation";
    "authorization for create batch operation"; "authorization for mint batch nft operation";
    "authorization for list batch for sale operation"; "authorization for end batch sale operation";
    "parachain authorization for nominate operation"; "parachain authorization for nominator bond extra operation";
    "parachain authorization for candidate bond extra operation";
    "parachain authorization for scheduling candidate unbond operation";
    "parachain authorization for scheduling nominator unbond operation";
    "parachain authorization for nominator remove bond operation";
    "parachain authorization for scheduling leaving nominators operation";
    "parachain authorization for executing leave nominators operation";
    "parachain authorization for executing nomination requests operation";
    "parachain authorization for executing candidate unbond operation";
    "authorization for add ethereum log operation"; "authorization for proxy payment";
    "register_chain_handler"; "update_chain_handler"; "submit_checkpoint" ]%string.

Lemma bytes_shape m : exists rest, signed_bytes m = scale_bytes (nth (kind_of m) contexts []) ++ rest.
Proof. destruct m as [| | | | | | | | | | r [] n | | | | |]; eexists; reflexivity. Qed.
Lemma contexts_short i : N.of_nat (length (nth i contexts [])) < 2 ^ 32.
Proof.
  assert (H : forallb (fun l => N.of_nat (length l) <? 2 ^ 32) contexts = true) by (vm_compute; reflexivity).
  rewrite forallb_forall in H. destruct (Nat.lt_ge_cases i (length contexts)) as [L|L].
  - apply N.ltb_lt, H, nth_In, L.
  - rewrite nth_overflow by exact L. reflexivity.
Qed.
Lemma contexts_nodup : NoDup contexts.
Proof. apply (bool_decide_unpack _). vm_compute. exact I. Qed.
Lemma kind_bound m : (kind_of m < length contexts)%nat.
Proof. destruct m as [| | | | | | | | | | r [] n | | | | |]; cbn; lia. Qed.

(** Whatever the arguments, relayers and nonces, bytes signed for one kind of call are not the bytes of another kind:
    a signature given for one call cannot be presented with a different one, in the same pallet or in another. *)
Theorem C104_one_kind_of_call m m' : signed_bytes m = signed_bytes m' -> kind_of m = kind_of m'.
Proof.
  intros E. destruct (bytes_shape m) as [x Hx], (bytes_shape m') as [y Hy]. rewrite Hx, Hy in E.
  apply scale_bytes_prefix in E as [E _]; [|apply contexts_short..].
  pose proof contexts_nodup as ND. rewrite NoDup_ListNoDup in ND.
  eapply (proj1 (List.NoDup_nth contexts [])); [exact ND|apply kind_bound..|exact E].
Qed.

(** So a verified relayed call whose proof also verifies for other bytes needs a second signature: the bytes differ. *)
Theorem C104_other_kind_other_bytes m m' : kind_of m <> kind_of m' -> signed_bytes m <> signed_bytes m'.
Proof. intros H E. by apply H, C104_one_kind_of_call. Qed.

(** Not vacuous: a transfer and a lower of the same tokens by the same user with the same nonce; and equal bytes exist. *)
Example C104_case :
  signed_bytes (TokenTransfer 1 2 3 4 5 6) <> signed_bytes (TokenLower 1 2 4 5 3 6) /\
  signed_bytes (Staking 1 (StakeModel.SBondExtra 5) 6) <> signed_bytes (Staking 1 (StakeModel.SCandidateBondExtra 5) 6) /\
  signed_bytes (NftTransfer 1 2 3 4) = signed_bytes (NftTransfer (1 + 2 ^ 256) 2 3 4).
Proof.
  split_and!; [| |vm_compute; reflexivity]; apply C104_other_kind_other_bytes; discriminate.
Qed.
