(** Model of pallets/nft-manager (lib.rs, batch_nft.rs, nft_data.rs). *)
From Verif Require Import Base CodecModel SigModel.

(** nft_data.rs:126-130 [NftSaleType]. *)
Inductive market := Unknown | Ethereum | Fiat.
#[global] Instance market_eq_dec : EqDecision market.
Proof. solve_decision. Defined.

(** nft_data.rs:23-44 [Royalty], [RoyaltyRate] (parts per million, u32). *)
Record royalty := mkRoyalty { ro_recipient : N; ro_rate : N }.
(** nft_data.rs:46-81 [Nft] (its own id is the key under which it is stored). *)
Record nft := mkNft { n_info : N; n_ref : list N; n_nonce : N; n_owner : N; n_locked : bool }.
#[global] Instance eta_nft : Settable _ := settable! mkNft <n_info; n_ref; n_nonce; n_owner; n_locked>.
(** nft_data.rs:83-124 [NftInfo]. *)
Record info := mkInfo {
  i_batch : option N; i_royalties : list royalty; i_supply : N; i_authority : N; i_creator : option N }.

(** lib.rs:130-222 [Event]. *)
Inductive event :=
| SingleNftMinted (nft_id owner authority : N)
| BatchNftMinted (nft_id batch_id authority owner : N)
| NftOpenForSale (nft_id : N) (m : market)
| EthNftTransfer (nft_id new_owner : N) (m : market) (op_id eth_event : N)
| FiatNftTransfer (nft_id sender new_owner : N) (m : market) (op_id : N)
| CancelSingleEthNftListing (nft_id : N) (m : market) (op_id eth_event : N)
| CancelSingleFiatNftListing (nft_id : N) (m : market) (op_id : N)
| BatchCreated (batch_id supply creator authority : N)
| BatchOpenForSale (batch_id : N) (m : market)
| BatchSaleEnded (batch_id : N) (m : market)
| CallDispatched (relayer : N).

(** lib.rs:283-341 storage.  [s_processed]: the events that [T::ProcessedEventsChecker] reports. *)
Record st := mkSt {
  s_nfts : gmap N nft; s_infos : gmap N info; s_batches : gmap N (list N); s_binfo : gmap N N;
  s_used : gmap (list N) bool; s_next_info : N; s_next_unique : N; s_sale : gmap N market;
  s_bnonce : gmap N N; s_bsale : gmap N market; s_processed : gset N; s_events : list event }.
#[global] Instance eta_st : Settable _ := settable! mkSt
  <s_nfts; s_infos; s_batches; s_binfo; s_used; s_next_info; s_next_unique; s_sale; s_bnonce; s_bsale;
   s_processed; s_events>.

(** lib.rs:101-128 [Config]: [c_batch_bound] is [T::BatchBound]; [c_keccak] is keccak-256 read as a
    number. *)
Record config := mkConfig { c_batch_bound : N; c_keccak : list N -> N }.

Definition emit (e : event) : M st unit := modify (fun s => s <| s_events := e :: s_events s |>).

(** ** Validation *)

(** lib.rs:76-78, primitives/avn-common/src/lib.rs:76 bounds. *)
Definition MAX_ROYALTIES : N := 16.
Definition REF_BOUND : N := 1024.
(** nft_data.rs:21 [ROYALTY_RATE_DENOMINATOR]. *)
Definition RATE_DENOMINATOR : N := 1000000.

(** lib.rs:807-819 [validate_external_ref]. *)
Definition validate_external_ref (r : list N) : M st unit :=
  ensure (match r with [] => false | _ => true end) "ExternalRefIsMandatory" ;;;
  s <-- get_st ;;
  ensure (negb (mget false r (s_used s))) "ExternalRefIsAlreadyInUse".

(** [iter().sum::<u32>()] wraps in a release build. *)
Fixpoint rate_sum (l : list royalty) : N :=
  match l with [] => 0 | r :: rest => (ro_rate r + rate_sum rest) mod 2 ^ 32 end.
(** lib.rs:821-831 [validate_royalties]; nft_data.rs:39-43 [is_valid]. *)
Definition validate_royalties (l : list royalty) : M st unit :=
  ensure (negb (existsb (fun r => negb (ro_rate r <=? RATE_DENOMINATOR)) l)) "RoyaltyRateIsNotValid" ;;;
  ensure (rate_sum l <=? 1000000) "TotalRoyaltyRateIsNotValid".

(** lib.rs:794-805 [validate_mint_single_nft_request]. *)
Definition validate_mint_single (r : list N) (l : list royalty) (authority : N) : M st unit :=
  ensure (negb (authority =? 0)) "T1AuthorityIsMandatory" ;;;
  validate_external_ref r ;;;
  validate_royalties l.

(** [BoundedVec::try_from] for references and royalties. *)
Definition bounded_ref (r : list N) : M st unit :=
  ensure (N.of_nat (length r) <=? REF_BOUND) "ExternalRefOutOfBounds".
Definition bounded_royalties (l : list royalty) : M st unit :=
  ensure (N.of_nat (length l) <=? MAX_ROYALTIES) "RoyaltiesOutOfBounds".

(** lib.rs:1175-1183 [try_get_nft]. *)
Definition try_get_nft (id : N) : M st nft := s <-- get_st ;; some_or (s_nfts s !! id) "NftIdDoesNotExist".

(** lib.rs:833-848 [validate_open_for_sale_request]. *)
Definition validate_open_for_sale (sender id : N) (m : market) : M st unit :=
  ensure (negb (bool_decide (m = Unknown))) "UnsupportedMarket" ;;;
  s <-- get_st ;;
  ensure (bool_decide (is_Some (s_nfts s !! id))) "NftIdDoesNotExist" ;;;
  ensure (negb (bool_decide (is_Some (s_sale s !! id)))) "NftAlreadyListed" ;;;
  n <-- try_get_nft id ;;
  ensure (n_owner n =? sender) "SenderIsNotOwner" ;;;
  ensure (negb (n_locked n)) "NftIsLocked".

(** lib.rs:850-864 [validate_nft_open_for_fiat_sale]. *)
Definition validate_fiat_sale (sender id : N) : M st unit :=
  s <-- get_st ;;
  ensure (bool_decide (is_Some (s_sale s !! id))) "NftNotListedForSale" ;;;
  ensure (bool_decide (mget Unknown id (s_sale s) = Fiat)) "NftNotListedForFiatSale" ;;;
  n <-- try_get_nft id ;;
  ensure (n_owner n =? sender) "SenderIsNotOwner" ;;;
  ensure (negb (n_locked n)) "NftIsLocked".

(** lib.rs:866-880 [get_info_id_and_advance], [get_unique_id_and_advance]; [U256 += 1] panics on
    overflow, which aborts the call. *)
Definition next_info : M st N :=
  id <-- gets s_next_info ;;
  ensure (id + 1 <? 2 ^ 256) "Panic" ;;;
  modify (fun s => s <| s_next_info := id + 1 |>) ;;; mret_ id.
Definition next_unique : M st N :=
  id <-- gets s_next_unique ;;
  ensure (id + 1 <? 2 ^ 256) "Panic" ;;;
  modify (fun s => s <| s_next_unique := id + 1 |>) ;;; mret_ id.

(** lib.rs:900-914 [generate_nft_id_single_mint]; batch_nft.rs:35-61 [generate_batch_id],
    [generate_batch_nft_id]. *)
Definition single_nft_id (c : config) (authority unique : N) : N :=
  c_keccak c (ascii_bytes "A" ++ be_bytes 20 authority ++ be_bytes 32 unique).
Definition gen_batch_id (c : config) (unique : N) : N := c_keccak c (ascii_bytes "G" ++ be_bytes 32 unique).
Definition batch_nft_id (c : config) (batch index : N) : N :=
  c_keccak c (ascii_bytes "B" ++ be_bytes 32 batch ++ be_bytes 8 index).

(** lib.rs:959-962 [add_nft]; nft_data.rs:64-80 [Nft::new]. *)
Definition add_nft (id info_id : N) (r : list N) (owner : N) : M st unit :=
  modify (fun s => s <| s_nfts := <[id := mkNft info_id r 0 owner false]> (s_nfts s) |>) ;;;
  modify (fun s => s <| s_used := <[r := true]> (s_used s) |>).

(** lib.rs:882-898 [insert_single_nft_into_chain]. *)
Definition insert_single (info_id : N) (l : list royalty) (authority id : N) (r : list N) (owner : N) : M st unit :=
  modify (fun s => s <| s_infos := <[info_id := mkInfo None l 1 authority None]> (s_infos s) |>) ;;;
  add_nft id info_id r owner.

(** ** Signed payloads (lib.rs:1037-1085, batch_nft.rs:84-137), SCALE encoded.  U256 is 32 bytes,
    least significant first; H160, H256 and AccountId are their bytes; enums their index. *)
Definition market_byte (m : market) : N := match m with Unknown => 0 | Ethereum => 1 | Fiat => 2 end.
Definition enc_royalty (r : royalty) : list N := be_bytes 20 (ro_recipient r) ++ le_bytes 4 (ro_rate r).
Definition enc_royalties (l : list royalty) : list N :=
  compact (N.of_nat (length l)) ++ concat (map enc_royalty l).
Definition context (s : string) : list N := scale_bytes (ascii_bytes s).
Definition mint_single_payload (relayer : N) (r : list N) (l : list royalty) (authority : N) : list N :=
  context "authorization for mint single nft operation" ++ be_bytes 32 relayer ++ scale_bytes r ++
  enc_royalties l ++ be_bytes 20 authority.
Definition list_payload (relayer id : N) (m : market) (nonce : N) : list N :=
  context "authorization for list nft open for sale operation" ++ be_bytes 32 relayer ++ le_bytes 32 id ++
  [market_byte m] ++ le_bytes 8 nonce.
Definition transfer_payload (relayer id recipient nonce : N) : list N :=
  context "authorization for transfer fiat nft operation" ++ be_bytes 32 relayer ++ le_bytes 32 id ++
  be_bytes 32 recipient ++ le_bytes 8 nonce.
Definition cancel_payload (relayer id nonce : N) : list N :=
  context "authorization for cancel list fiat nft for sale operation" ++ be_bytes 32 relayer ++
  le_bytes 32 id ++ le_bytes 8 nonce.
Definition create_batch_payload (relayer supply : N) (l : list royalty) (authority nonce : N) : list N :=
  context "authorization for create batch operation" ++ be_bytes 32 relayer ++ le_bytes 8 supply ++
  enc_royalties l ++ be_bytes 20 authority ++ le_bytes 8 nonce.
Definition mint_batch_payload (relayer batch index : N) (r : list N) (owner : N) : list N :=
  context "authorization for mint batch nft operation" ++ be_bytes 32 relayer ++ le_bytes 32 batch ++
  le_bytes 8 index ++ scale_bytes r ++ be_bytes 32 owner.
Definition list_batch_payload (relayer batch : N) (m : market) (nonce : N) : list N :=
  context "authorization for list batch for sale operation" ++ be_bytes 32 relayer ++ le_bytes 32 batch ++
  [market_byte m] ++ le_bytes 8 nonce.
Definition end_batch_payload (relayer batch nonce : N) : list N :=
  context "authorization for end batch sale operation" ++ be_bytes 32 relayer ++ le_bytes 32 batch ++
  le_bytes 8 nonce.

(** ** Single NFTs *)

(** The part of lib.rs:364-390 and 422-442 common to both ways of minting. *)
Definition do_mint_single (c : config) (r : list N) (l : list royalty) (authority owner : N) : M st unit :=
  u <-- next_unique ;;
  let id := single_nft_id c authority u in
  s <-- get_st ;;
  ensure (negb (bool_decide (is_Some (s_nfts s !! id)))) "NftAlreadyExists" ;;;
  info_id <-- next_info ;;
  bounded_royalties l ;;;
  insert_single info_id l authority id r owner ;;;
  emit (SingleNftMinted id owner authority).

(** lib.rs:345-390 [mint_single_nft]. *)
Definition mint_single_nft (c : config) (sender : N) (r : list N) (l : list royalty) (authority : N) : M st unit :=
  bounded_ref r ;;;
  validate_mint_single r l authority ;;;
  do_mint_single c r l authority sender.

(** lib.rs:392-444 [signed_mint_single_nft]. *)
Definition signed_mint_single_nft (c : config) (cr : crypto) (sender : N) (p : proof) (r : list N) (l : list royalty)
    (authority : N) : M st unit :=
  ensure (sender =? pf_signer p) "SenderIsNotSigner" ;;;
  bounded_ref r ;;;
  validate_mint_single r l authority ;;;
  ensure (verify_signature cr p (mint_single_payload (pf_relayer p) r l authority))
    "UnauthorizedSignedMintSingleNftTransaction" ;;;
  do_mint_single c r l authority (pf_signer p).

(** [nft.nonce += 1u64], wrapping in a release build. *)
Definition bump (n : nft) : nft := n <| n_nonce := (n_nonce n + 1) mod 2 ^ 64 |>.
(** [<Nfts<T>>::mutate(id, |maybe| maybe.as_mut().map(f))]. *)
Definition mutate_nft (id : N) (f : nft -> nft) : M st unit :=
  modify (fun s => s <| s_nfts := alter f id (s_nfts s) |>).

(** lib.rs:900-903 [open_nft_for_sale]. *)
Definition open_nft_for_sale (id : N) (m : market) : M st unit :=
  modify (fun s => s <| s_sale := <[id := m]> (s_sale s) |>) ;;; mutate_nft id bump.

(** lib.rs:446-460 [list_nft_open_for_sale]. *)
Definition list_nft_open_for_sale (sender id : N) (m : market) : M st unit :=
  validate_open_for_sale sender id m ;;;
  open_nft_for_sale id m ;;;
  emit (NftOpenForSale id m).

(** lib.rs:462-486 [signed_list_nft_open_for_sale]. *)
Definition signed_list_nft (cr : crypto) (sender : N) (p : proof) (id : N) (m : market) : M st unit :=
  ensure (sender =? pf_signer p) "SenderIsNotSigner" ;;;
  validate_open_for_sale sender id m ;;;
  n <-- try_get_nft id ;;
  ensure (verify_signature cr p (list_payload (pf_relayer p) id m (n_nonce n)))
    "UnauthorizedSignedLiftNftOpenForSaleTransaction" ;;;
  open_nft_for_sale id m ;;;
  emit (NftOpenForSale id m).

(** lib.rs:916-920 [remove_listing_from_open_for_sale]. *)
Definition remove_listing (id : N) : M st unit :=
  s <-- get_st ;;
  ensure (bool_decide (is_Some (s_sale s !! id))) "NftNotListedForSale" ;;;
  modify (fun s => s <| s_sale := delete id (s_sale s) |>).

(** lib.rs:940-957 [transfer_nft], [update_owner_for_transfer]. *)
Definition transfer_nft (id new_owner : N) : M st unit :=
  remove_listing id ;;;
  mutate_nft id (fun n => bump (n <| n_owner := new_owner |>)).

(** lib.rs:990-995 [unlist_nft_for_sale]. *)
Definition unlist_nft (id : N) : M st unit := remove_listing id ;;; mutate_nft id bump.

(** lib.rs:488-528 [signed_transfer_fiat_nft]. *)
Definition signed_transfer_fiat_nft (cr : crypto) (sender : N) (p : proof) (id to : N) : M st unit :=
  ensure (sender =? pf_signer p) "SenderIsNotSigner" ;;;
  ensure (negb (to =? 0)) "TransferToIsMandatory" ;;;
  validate_fiat_sale sender id ;;;
  n <-- try_get_nft id ;;
  ensure (verify_signature cr p (transfer_payload (pf_relayer p) id to (n_nonce n)))
    "UnauthorizedSignedTransferFiatNftTransaction" ;;;
  m <-- gets (fun s => mget Unknown id (s_sale s)) ;;
  transfer_nft id to ;;;
  emit (FiatNftTransfer id sender to m (n_nonce n)).

(** lib.rs:530-560 [signed_cancel_list_fiat_nft]. *)
Definition signed_cancel_list_fiat_nft (cr : crypto) (sender : N) (p : proof) (id : N) : M st unit :=
  ensure (sender =? pf_signer p) "SenderIsNotSigner" ;;;
  validate_fiat_sale sender id ;;;
  n <-- try_get_nft id ;;
  ensure (verify_signature cr p (cancel_payload (pf_relayer p) id (n_nonce n)))
    "UnauthorizedSignedCancelListFiatNftTransaction" ;;;
  m <-- gets (fun s => mget Unknown id (s_sale s)) ;;
  unlist_nft id ;;;
  emit (CancelSingleFiatNftListing id m (n_nonce n)).

(** [T::ProcessedEventsChecker::processed_event_exists]. *)
Definition event_known (e : N) : M st unit :=
  s <-- get_st ;; ensure (bool_decide (e ∈ s_processed s)) "NoTier1EventForNftOperation".

(** lib.rs:922-938 [transfer_eth_nft]. *)
Definition transfer_eth_nft (e id to op_id : N) : M st unit :=
  m <-- gets (fun s => mget Unknown id (s_sale s)) ;;
  ensure (bool_decide (m = Ethereum)) "NftNotListedForEthereumSale" ;;;
  n <-- try_get_nft id ;;
  ensure (op_id =? n_nonce n) "NftNonceMismatch" ;;;
  event_known e ;;;
  transfer_nft id to ;;;
  emit (EthNftTransfer id to m op_id e).

(** lib.rs:964-988 [cancel_eth_nft_listing]. *)
Definition cancel_eth_nft_listing (e id op_id : N) : M st unit :=
  m <-- gets (fun s => mget Unknown id (s_sale s)) ;;
  n <-- try_get_nft id ;;
  ensure (bool_decide (m = Ethereum)) "NftNotListedForEthereumSale" ;;;
  ensure (op_id =? n_nonce n) "NftNonceMismatch" ;;;
  event_known e ;;;
  unlist_nft id ;;;
  emit (CancelSingleEthNftListing id m op_id e).

(** ** Batches *)

Definition bnonce_of (s : st) (a : N) : N := mget 0 a (s_bnonce s).
Definition bump_bnonce (a : N) : M st unit :=
  modify (fun s => s <| s_bnonce := <[a := (bnonce_of s a + 1) mod 2 ^ 64]> (s_bnonce s) |>).

(** batch_nft.rs:63-70 [get_nft_info_for_batch]; returns the info and its id. *)
Definition get_batch_info (b : N) : M st (N * info) :=
  s <-- get_st ;;
  let i := mget 0 b (s_binfo s) in
  x <-- some_or (s_infos s !! i) "NftInfoMissing" ;;
  mret_ (i, x).

Definition batch_nfts (s : st) (b : N) : list N := mget [] b (s_batches s).

(** lib.rs:592-650 [signed_create_batch], batch_nft.rs:72-82 [create_batch]. *)
Definition signed_create_batch (c : config) (cr : crypto) (sender : N) (p : proof) (supply : N) (l : list royalty)
    (authority : N) : M st unit :=
  ensure (sender =? pf_signer p) "SenderIsNotSigner" ;;;
  ensure (negb (authority =? 0)) "T1AuthorityIsMandatory" ;;;
  ensure (0 <? supply) "TotalSupplyZero" ;;;
  ensure (supply <=? c_batch_bound c) "BatchOutOfBounds" ;;;
  validate_royalties l ;;;
  nonce <-- gets (fun s => bnonce_of s sender) ;;
  ensure (verify_signature cr p (create_batch_payload (pf_relayer p) supply l authority nonce))
    "UnauthorizedSignedCreateBatchTransaction" ;;;
  u <-- next_unique ;;
  let b := gen_batch_id c u in
  s <-- get_st ;;
  ensure (negb (bool_decide (is_Some (s_binfo s !! b)))) "BatchAlreadyExists" ;;;
  i <-- next_info ;;
  bounded_royalties l ;;;
  modify (fun s => s <| s_binfo := <[b := i]> (s_binfo s) |>) ;;;
  modify (fun s => s <| s_infos := <[i := mkInfo (Some b) l supply authority (Some sender)]> (s_infos s) |>) ;;;
  bump_bnonce sender ;;;
  emit (BatchCreated b supply sender authority).

(** batch_nft.rs:163-181 [validate_mint_batch_nft_request]. *)
Definition validate_mint_batch (b : N) (r : list N) : M st (N * info) :=
  ensure (negb (b =? 0)) "BatchIdIsMandatory" ;;;
  s <-- get_st ;;
  ensure (bool_decide (is_Some (s_binfo s !! b))) "BatchDoesNotExist" ;;;
  ensure (bool_decide (is_Some (s_bsale s !! b))) "BatchNotListed" ;;;
  x <-- get_batch_info b ;;
  ensure (N.of_nat (length (batch_nfts s b)) <? i_supply (snd x)) "TotalSupplyExceeded" ;;;
  validate_external_ref r ;;;
  mret_ x.

(** batch_nft.rs:183-208 [mint_batch_nft]. *)
Definition mint_batch_nft (c : config) (b owner index : N) (r : list N) : M st unit :=
  x <-- validate_mint_batch b r ;;
  let id := batch_nft_id c b index in
  s <-- get_st ;;
  ensure (negb (bool_decide (is_Some (s_nfts s !! id)))) "NftAlreadyExists" ;;;
  add_nft id (fst x) r owner ;;;
  ids <-- gets (fun s => batch_nfts s b) ;;
  ensure (N.of_nat (length ids) <? c_batch_bound c) "BatchOutOfBounds" ;;;
  modify (fun s => s <| s_batches := <[b := ids ++ [id]]> (s_batches s) |>) ;;;
  emit (BatchNftMinted id b (i_authority (snd x)) owner).

(** lib.rs:652-693 [signed_mint_batch_nft]. *)
Definition signed_mint_batch_nft (c : config) (cr : crypto) (sender : N) (p : proof) (b index owner : N) (r : list N) : M st unit :=
  ensure (sender =? pf_signer p) "SenderIsNotSigner" ;;;
  bounded_ref r ;;;
  x <-- validate_mint_batch b r ;;
  s <-- get_st ;;
  ensure (bool_decide (mget Unknown b (s_bsale s) = Fiat)) "BatchNotListedForFiatSale" ;;;
  ensure (bool_decide (i_creator (snd x) = Some sender)) "SenderIsNotBatchCreator" ;;;
  ensure (verify_signature cr p (mint_batch_payload (pf_relayer p) b index r owner))
    "UnauthorizedSignedMintBatchNftTransaction" ;;;
  mint_batch_nft c b owner index r.

(** lib.rs:695-738 [signed_list_batch_for_sale]. *)
Definition signed_list_batch_for_sale (cr : crypto) (sender : N) (p : proof) (b : N) (m : market) : M st unit :=
  ensure (sender =? pf_signer p) "SenderIsNotSigner" ;;;
  ensure (negb (b =? 0)) "BatchIdIsMandatory" ;;;
  s <-- get_st ;;
  ensure (bool_decide (is_Some (s_binfo s !! b))) "BatchDoesNotExist" ;;;
  ensure (negb (bool_decide (m = Unknown))) "UnsupportedMarket" ;;;
  let nonce := bnonce_of s sender in
  x <-- get_batch_info b ;;
  ensure (bool_decide (i_creator (snd x) = Some sender)) "SenderIsNotBatchCreator" ;;;
  ensure (N.of_nat (length (batch_nfts s b)) <? i_supply (snd x)) "NoNftsToSell" ;;;
  ensure (negb (bool_decide (is_Some (s_bsale s !! b)))) "BatchAlreadyListed" ;;;
  ensure (verify_signature cr p (list_batch_payload (pf_relayer p) b m nonce))
    "UnauthorizedSignedListBatchForSaleTransaction" ;;;
  modify (fun s => s <| s_bsale := <[b := m]> (s_bsale s) |>) ;;;
  bump_bnonce sender ;;;
  emit (BatchOpenForSale b m).

(** batch_nft.rs:238-244 [validate_end_batch_listing_request]. *)
Definition validate_end_batch (b : N) : M st unit :=
  ensure (negb (b =? 0)) "BatchIdIsMandatory" ;;;
  s <-- get_st ;;
  ensure (bool_decide (is_Some (s_binfo s !! b))) "BatchDoesNotExist" ;;;
  ensure (bool_decide (is_Some (s_bsale s !! b))) "BatchNotListed".
(** batch_nft.rs:226-236 [end_batch_listing]. *)
Definition end_batch_listing (b : N) (m : market) : M st unit :=
  validate_end_batch b ;;;
  modify (fun s => s <| s_bsale := delete b (s_bsale s) |>) ;;;
  emit (BatchSaleEnded b m).

(** lib.rs:740-772 [signed_end_batch_sale]. *)
Definition signed_end_batch_sale (cr : crypto) (sender : N) (p : proof) (b : N) : M st unit :=
  ensure (sender =? pf_signer p) "SenderIsNotSigner" ;;;
  validate_end_batch b ;;;
  s <-- get_st ;;
  ensure (bool_decide (mget Unknown b (s_bsale s) = Fiat)) "BatchNotListedForFiatSale" ;;;
  let nonce := bnonce_of s sender in
  x <-- get_batch_info b ;;
  ensure (bool_decide (i_creator (snd x) = Some sender)) "SenderIsNotBatchCreator" ;;;
  ensure (verify_signature cr p (end_batch_payload (pf_relayer p) b nonce))
    "UnauthorizedSignedEndBatchSaleTransaction" ;;;
  m <-- gets (fun s => mget Unknown b (s_bsale s)) ;;
  end_batch_listing b m ;;;
  bump_bnonce sender.

(** batch_nft.rs:139-161 [process_mint_batch_nft_event]. *)
Definition process_mint_batch_event (c : config) (e b owner index : N) (r : list N) : M st unit :=
  event_known e ;;;
  s <-- get_st ;;
  ensure (bool_decide (mget Unknown b (s_bsale s) = Ethereum)) "BatchNotListedForEthereumSale" ;;;
  mint_batch_nft c b owner index r.

(** batch_nft.rs:210-224 [process_end_batch_listing_event]. *)
Definition process_end_batch_event (e b : N) : M st unit :=
  event_known e ;;;
  m <-- gets (fun s => mget Unknown b (s_bsale s)) ;;
  ensure (bool_decide (m = Ethereum)) "BatchNotListedForEthereumSale" ;;;
  end_batch_listing b m.

(** ** Entry points *)

(** The calls that carry a user's proof. *)
Inductive call :=
| CMint (p : proof) (r : list N) (l : list royalty) (authority : N)
| CList (p : proof) (id : N) (m : market)
| CTransfer (p : proof) (id to : N)
| CCancel (p : proof) (id : N)
| CCreateBatch (p : proof) (supply : N) (l : list royalty) (authority : N)
| CMintBatch (p : proof) (b index owner : N) (r : list N)
| CListBatch (p : proof) (b : N) (m : market)
| CEndBatch (p : proof) (b : N).
(** lib.rs:1221-1242 [get_proof]. *)
Definition call_proof (i : call) : proof :=
  match i with
  | CMint p _ _ _ => p | CList p _ _ => p | CTransfer p _ _ => p | CCancel p _ => p
  | CCreateBatch p _ _ _ => p | CMintBatch p _ _ _ _ => p | CListBatch p _ _ => p | CEndBatch p _ => p
  end.
Definition run_call (c : config) (cr : crypto) (sender : N) (i : call) : M st unit :=
  match i with
  | CMint p r l a => signed_mint_single_nft c cr sender p r l a
  | CList p id m => signed_list_nft cr sender p id m
  | CTransfer p id to => signed_transfer_fiat_nft cr sender p id to
  | CCancel p id => signed_cancel_list_fiat_nft cr sender p id
  | CCreateBatch p n l a => signed_create_batch c cr sender p n l a
  | CMintBatch p b ix o r => signed_mint_batch_nft c cr sender p b ix o r
  | CListBatch p b m => signed_list_batch_for_sale cr sender p b m
  | CEndBatch p b => signed_end_batch_sale cr sender p b
  end.
(** lib.rs:562-590 [proxy]. *)
Definition proxy (c : config) (cr : crypto) (relayer : N) (i : call) : M st unit :=
  ensure (relayer =? pf_relayer (call_proof i)) "UnauthorizedProxyTransaction" ;;;
  dispatch (run_call c cr (pf_signer (call_proof i)) i) ;;;
  emit (CallDispatched relayer).

(** primitives/avn-common/src/event_types.rs: the data of the NFT events. *)
Inductive eth_data :=
| LogNftTransferTo (id to op_id : N)
| LogNftCancelListing (id op_id : N)
| LogNftMinted (b owner index : N) (r : list N)
| LogNftEndBatchListing (b : N).
(** lib.rs:1185-1195 [processed_event_handler]. *)
Definition processed_event_handler (c : config) (e : N) (d : eth_data) : M st unit :=
  match d with
  | LogNftTransferTo id to op_id => transfer_eth_nft e id to op_id
  | LogNftCancelListing id op_id => cancel_eth_nft_listing e id op_id
  | LogNftMinted b owner index r => process_mint_batch_event c e b owner index r
  | LogNftEndBatchListing b => process_end_batch_event e b
  end.

Inductive op :=
| OpMint (sender : N) (r : list N) (l : list royalty) (authority : N)
| OpList (sender id : N) (m : market)
| OpSigned (sender : N) (i : call)     (* also how avn-proxy dispatches a call, with the proof's signer *)
| OpProxy (relayer : N) (i : call)
| OpEthEvent (e : N) (d : eth_data)    (* the bridge's notification; its errors are not rolled back *)
| EnvProcessed (e : N) | EnvForget (e : N).

Definition exec (c : config) (cr : crypto) (o : op) : M st unit :=
  match o with
  | OpMint sender r l a => dispatch (mint_single_nft c sender r l a)
  | OpList sender id m => dispatch (list_nft_open_for_sale sender id m)
  | OpSigned sender i => dispatch (run_call c cr sender i)
  | OpProxy relayer i => dispatch (proxy c cr relayer i)
  | OpEthEvent e d => processed_event_handler c e d
  | EnvProcessed e => modify (fun s => s <| s_processed := {[e]} ∪ s_processed s |>)
  | EnvForget e => modify (fun s => s <| s_processed := s_processed s ∖ {[e]} |>)
  end.
Definition step (c : config) (cr : crypto) (s : st) (o : op) : st := fst (exec c cr o s).
Definition run (c : config) (cr : crypto) (s : st) (ops : list op) : st := fold_left (step c cr) ops s.

(** The pallet has no genesis configuration: everything starts empty. *)
Definition genesis : st := mkSt ∅ ∅ ∅ ∅ ∅ 0 0 ∅ ∅ ∅ ∅ [].
