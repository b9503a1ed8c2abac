(** Vocabulary of the NFT properties C24 - C28. *)
From Verif Require Import Base CodecModel SigModel NftModel.

(** What the deposited events say: ids minted, ids minted from a batch, batches created. *)
Definition minted_ids (evs : list event) : list N :=
  omap (fun e => match e with SingleNftMinted id _ _ | BatchNftMinted id _ _ _ => Some id | _ => None end) evs.
Definition minted_from (b : N) (evs : list event) : list N :=
  omap (fun e => match e with BatchNftMinted id b' _ _ => if b' =? b then Some id else None | _ => None end) evs.
Definition created (evs : list event) : list N :=
  omap (fun e => match e with BatchCreated b _ _ _ => Some b | _ => None end) evs.

(** An instruction [i] reaches the chain: the signer submits it himself, or the relayer named in the proof does. *)
Definition submitted (o : op) (i : call) : Prop :=
  o = OpSigned (pf_signer (call_proof i)) i \/ o = OpProxy (pf_relayer (call_proof i)) i.

(** [owner] lists NFT [id] on market [m]: directly, or by a signature over the NFT's current nonce. *)
Definition lists (cr : crypto) (n : nft) (id : N) (m : market) (o : op) : Prop :=
  o = OpList (n_owner n) id m \/
  exists p, submitted o (CList p id m) /\ pf_signer p = n_owner n /\
    verify_signature cr p (list_payload (pf_relayer p) id m (n_nonce n)) = true.
(** The owner's fiat sale of [id] to [to], signed over the current nonce. *)
Definition fiat_sale (cr : crypto) (n : nft) (id to : N) (o : op) : Prop :=
  exists p, submitted o (CTransfer p id to) /\ pf_signer p = n_owner n /\
    verify_signature cr p (transfer_payload (pf_relayer p) id to (n_nonce n)) = true.
(** A processed Ethereum event that announces the sale of [id] to [to] at the current nonce. *)
Definition eth_sale (s : st) (n : nft) (id to : N) (o : op) : Prop :=
  exists e, o = OpEthEvent e (LogNftTransferTo id to (n_nonce n)) /\ e ∈ s_processed s.

(** Mints from batch [b] of reference [r] to [owner]: signed by the batch's creator, or by a processed event. *)
Definition creator_mints (cr : crypto) (creator b index owner : N) (r : list N) (o : op) : Prop :=
  exists p, submitted o (CMintBatch p b index owner r) /\ pf_signer p = creator /\
    verify_signature cr p (mint_batch_payload (pf_relayer p) b index r owner) = true.
Definition eth_mints (s : st) (b index owner : N) (r : list N) (o : op) : Prop :=
  exists e, o = OpEthEvent e (LogNftMinted b owner index r) /\ e ∈ s_processed s.

(** ** Replay *)
Definition call_of (o : op) : option call :=
  match o with OpSigned _ i => Some i | OpProxy _ i => Some i | _ => None end.
(** The operation is a signed instruction and it takes effect in [s]. *)
Definition accepted (c : config) (cr : crypto) (s : st) (o : op) : option call :=
  match call_of o, snd (exec c cr o s) with Some i, Ok _ => Some i | _, _ => None end.
Definition nft_nonce (s : st) (id : N) : N := match s_nfts s !! id with Some n => n_nonce n | None => 0 end.
(** The bytes the signature is checked against in state [s]. *)
Definition payload_of (s : st) (i : call) : list N :=
  match i with
  | CMint p r l a => mint_single_payload (pf_relayer p) r l a
  | CList p id m => list_payload (pf_relayer p) id m (nft_nonce s id)
  | CTransfer p id to => transfer_payload (pf_relayer p) id to (nft_nonce s id)
  | CCancel p id => cancel_payload (pf_relayer p) id (nft_nonce s id)
  | CCreateBatch p n l a => create_batch_payload (pf_relayer p) n l a (bnonce_of s (pf_signer p))
  | CMintBatch p b ix o r => mint_batch_payload (pf_relayer p) b ix r o
  | CListBatch p b m => list_batch_payload (pf_relayer p) b m (bnonce_of s (pf_signer p))
  | CEndBatch p b => end_batch_payload (pf_relayer p) b (bnonce_of s (pf_signer p))
  end.
(** Signer and bytes of the instructions that took effect along a history. *)
Fixpoint accepted_payloads (c : config) (cr : crypto) (s : st) (ops : list op) : list (N * list N) :=
  match ops with
  | [] => []
  | o :: r =>
      match accepted c cr s o with Some i => [(pf_signer (call_proof i), payload_of s i)] | None => [] end
      ++ accepted_payloads c cr (step c cr s o) r
  end.
(** Arguments in the ranges of their types. *)
Definition typed_royalty (r : royalty) : Prop := ro_recipient r < 2 ^ 160 /\ ro_rate r < 2 ^ 32.
Definition typed_call (i : call) : Prop :=
  pf_relayer (call_proof i) < 2 ^ 256 /\
  match i with
  | CMint p r l a => N.of_nat (length r) < 2 ^ 32 /\ N.of_nat (length l) < 2 ^ 32 /\ Forall typed_royalty l /\ a < 2 ^ 160
  | CList p id m => id < 2 ^ 256
  | CTransfer p id to => id < 2 ^ 256 /\ to < 2 ^ 256
  | CCancel p id => id < 2 ^ 256
  | CCreateBatch p n l a => n < 2 ^ 64 /\ N.of_nat (length l) < 2 ^ 32 /\ Forall typed_royalty l /\ a < 2 ^ 160
  | CMintBatch p b ix o r => b < 2 ^ 256 /\ ix < 2 ^ 64 /\ o < 2 ^ 256 /\ N.of_nat (length r) < 2 ^ 32
  | CListBatch p b m => b < 2 ^ 256
  | CEndBatch p b => b < 2 ^ 256
  end.
Definition typed_op (o : op) : Prop := match call_of o with Some i => typed_call i | None => True end.

(** Sum of royalty rates, exact. *)
Definition total_rate (l : list royalty) : N := fold_right (fun r acc => ro_rate r + acc) 0 l.

(** A signature is good for one message only (what unforgeability gives for honest keys). *)
Definition one_message (cr : crypto) : Prop :=
  (forall a sg m m', cr_sr cr a m sg = true -> cr_sr cr a m' sg = true -> m = m') /\
  (forall a sg m m', cr_recover cr sg m = Some a -> cr_recover cr sg m' = Some a -> m = m').
(** NFT and nonce named by an Ethereum event about a listed NFT. *)
Definition eth_target (d : eth_data) : option (N * N) :=
  match d with LogNftTransferTo id _ k => Some (id, k) | LogNftCancelListing id k => Some (id, k) | _ => None end.

(** Everything a signature over an instruction stands for. *)
Inductive meaning :=
| MeansMint (relayer : N) (r : list N) (l : list royalty) (authority : N)
| MeansList (relayer id : N) (m : market) (nonce : N)
| MeansTransfer (relayer id to nonce : N)
| MeansCancel (relayer id nonce : N)
| MeansCreateBatch (relayer supply : N) (l : list royalty) (authority nonce : N)
| MeansMintBatch (relayer b index owner : N) (r : list N)
| MeansListBatch (relayer b : N) (m : market) (nonce : N)
| MeansEndBatch (relayer b nonce : N).
Definition meaning_of (s : st) (i : call) : meaning :=
  match i with
  | CMint p r l a => MeansMint (pf_relayer p) r l a
  | CList p id m => MeansList (pf_relayer p) id m (nft_nonce s id)
  | CTransfer p id to => MeansTransfer (pf_relayer p) id to (nft_nonce s id)
  | CCancel p id => MeansCancel (pf_relayer p) id (nft_nonce s id)
  | CCreateBatch p n l a => MeansCreateBatch (pf_relayer p) n l a (bnonce_of s (pf_signer p))
  | CMintBatch p b ix o r => MeansMintBatch (pf_relayer p) b ix o r
  | CListBatch p b m => MeansListBatch (pf_relayer p) b m (bnonce_of s (pf_signer p))
  | CEndBatch p b => MeansEndBatch (pf_relayer p) b (bnonce_of s (pf_signer p))
  end.
