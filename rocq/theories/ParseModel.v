(** Model of the decoding of Ethereum logs: primitives/avn-common/src/event_types.rs (line numbers are of this file unless
    another is named).  A byte is a number below 256; H160, H256, H512 and U256 are the numbers whose big-endian bytes they are. *)
From Verif Require Import Base CodecModel.

(** A Rust function that returns a [Result] and may panic (index or slice out of bounds). *)
Inductive parsed (A : Type) := Parsed (a : A) | Refused (e : string) | Panics.
#[global] Arguments Parsed {A} a.
#[global] Arguments Refused {A} e%string.
#[global] Arguments Panics {A}.
Definition pbind {A B} (p : parsed A) (k : A -> parsed B) : parsed B :=
  match p with Parsed a => k a | Refused e => Refused e | Panics => Panics end.
Definition pmap {A B} (f : A -> B) (p : parsed A) : parsed B := pbind p (fun a => Parsed (f a)).
Notation "'let!' x := p 'in' k" := (pbind p (fun x => k)) (at level 200, x binder, p at level 100, k at level 200).
Notation "'refuse_if' b 'as' e 'in' k" := (if b then Refused e%string else k) (at level 200, b at level 100, e at level 0, k at level 200).

(** [v[i]]. *)
Definition index {A} (l : list A) (i : nat) : parsed A := match nth_error l i with Some a => Parsed a | None => Panics end.
(** [v[a..b]]. *)
Definition sub (l : list N) (a b : nat) : parsed (list N) := if Nat.leb b (length l) then Parsed (slice a b l) else Panics.
(** [H160::from_slice], [H256::from_slice], [H512::from_slice]: panic unless the length is exact. *)
Definition hash_from (k : nat) (l : list N) : parsed N := if Nat.eqb (length l) k then Parsed (be_value l) else Panics.
(** [<U256 as From<&[u8]>>::from]: panics if longer than 32 bytes. *)
Definition u256_from (l : list N) : parsed N := if Nat.leb (length l) 32 then Parsed (be_value l) else Panics.
(** [uN::from_be_bytes(slice.try_into()...)] with an error, or with [expect]. *)
Definition int_from (k : nat) (e : string) (l : list N) : parsed N := if Nat.eqb (length l) k then Parsed (be_value l) else Refused e.
Definition int_expect (k : nat) (l : list N) : parsed N := if Nat.eqb (length l) k then Parsed (be_value l) else Panics.
(** [iter().any(|byte| byte > &0)]. *)
Definition any_positive (l : list N) : bool := existsb (fun b => 0 <? b) l.
Definition len_is (k : nat) (l : list N) : bool := Nat.eqb (length l) k.

(** 96-119 [ValidEvents], in order. *)
Inductive kind :=
| AddedValidator | Lifted | NftMint | NftTransferTo | NftCancelListing | NftEndBatchListing | AvtGrowthLifted
| AvtLowerClaimed | LiftedToPredictionMarket | Erc20DirectTransfer | LowerReverted.
#[export] Instance kind_eq : EqDecision kind. Proof. solve_decision. Defined.
(** 184-186 [values] (strum's order is that of declaration). *)
Definition kinds : list kind :=
  [AddedValidator; Lifted; NftMint; NftTransferTo; NftCancelListing; NftEndBatchListing; AvtGrowthLifted; AvtLowerClaimed;
   LiftedToPredictionMarket; Erc20DirectTransfer; LowerReverted].
(** 122-173 [signature]. *)
Definition signature (k : kind) : N :=
  match k with
  | AddedValidator => 0xff083a6e395a67771f3c9108922bc274c27b38b48c210b0f6a8c5f4710c0494b
  | Lifted => 0x418da8f85cfa851601f87634c6950491b6b8785a6445c8584f5658048d512cae
  | LiftedToPredictionMarket => 0x2bf8107bf8c15cdcd8d6360f4a02ee97d7098a46b18fccd32df8796775552fc0
  | NftMint => 0x242e8a2c5335295f6294a23543699a458e6d5ed7a5839f93cc420116e0a31f99
  | NftTransferTo => 0xfff226ba128aca9718a568817388f3711cfeedd8c81cec4d02dcefc50f3c67bb
  | NftCancelListing => 0xeb0a71ca01b1505be834cafcd54b651d77eafd1ca915d21c0898575bcab53358
  | NftEndBatchListing => 0x20c46236a16e176bc83a795b3a64ad94e5db8bc92afc8cc6d3fd4a3864211f8f
  | AvtGrowthLifted => 0x3ad58a8dc1110baa37ad88a68db14181b4ef0c69192dfa7699a9588960eca7fd
  | AvtLowerClaimed => 0x9853e4c075911a10a89a0f7a46bac6f8a246c4e9152480d16d86aa6a2391a4f1
  | Erc20DirectTransfer => 0xddf252ad1be2c89b69c2b068fc378daa952ba7f163c4a11628f55a4df523b3ef
  | LowerReverted => 0x3a534ee35b9cf37cfa5e5aac24f8d0d3a2a2841b1ff92db68501d3c46956daa8
  end.
(** 17-20 [LEGACY_LIFT_SIGNATURE]. *)
Definition legacy_lift_signatures : list N :=
  [0x8964776336bc2fa8ecaaf70b6f8e8450807efb1ff78f8b87980707aa821f0ec0; 0x53dbd0621188344e69521ce5392debdff038d57d0ebd39536df06b20d9142bc0].
(** 175-183 [is_nft_event], 189-194 [is_primary]. *)
Definition is_nft (k : kind) : bool := match k with NftMint | NftTransferTo | NftCancelListing | NftEndBatchListing => true | _ => false end.
Definition is_primary (k : kind) : bool := match k with Erc20DirectTransfer => false | _ => true end.
(** 197-207 [TryFrom<&H256>]. *)
Definition kind_of (s : N) : option kind := List.find (fun k => signature k =? s) kinds.

(** 209-214, 274-281, 418-428 (the two deprecated fields are always 0), 500-505, 553-557, 605-608, 644-648, 702-705, 733-740; 817-831 [EventData]. *)
Record validator_data := mkValidatorData { vd_key : N; vd_t2 : N; vd_id : N }.
Record lifted_data := mkLiftedData { li_token : N; li_sender : N; li_receiver : N; li_amount : N }.
Record mint_data := mkMintData { mi_batch : N; mi_owner : N; mi_sale : N; mi_ref : list N }.
Record reverted_data := mkRevertedData { re_token : N; re_receiver : N; re_recipient : N; re_amount : N; re_lower : N }.
Inductive event_data :=
| LogAddedValidator (d : validator_data)
| LogLifted (d : lifted_data)
| EmptyEvent
| LogNftMinted (d : mint_data)
| LogNftTransferTo (nft to op : N)
| LogNftCancelListing (nft op : N)
| LogNftEndBatchListing (batch : N)
| LogAvtGrowthLifted (amount period : N)
| LogLowerClaimed (id : N)
| LogLowerReverted (d : reverted_data)
| LogLiftedToPredictionMarket (d : lifted_data)
| LogErc20Transfer (d : lifted_data).

(** 227-269 [AddedValidatorData::parse_bytes]. *)
Definition parse_added_validator (data : option (list N)) (topics : list (list N)) : parsed validator_data :=
  match data with None => Refused "AddedValidatorEventMissingData" | Some data =>
  refuse_if negb (len_is 32 data) as "AddedValidatorEventBadDataLength" in
  refuse_if negb (Nat.eqb (length topics) 4) as "AddedValidatorEventWrongTopicCount" in
  let! t1 := index topics 1 in let! t2 := index topics 2 in let! t3 := index topics 3 in
  refuse_if negb (len_is 32 t1) || negb (len_is 32 t2) || negb (len_is 32 t3) as "AddedValidatorEventBadTopicLength" in
  let! key := hash_from 64 (t1 ++ t2) in
  let! addr := hash_from 32 t3 in
  let! id := u256_from data in
  Parsed (mkValidatorData key addr id)
  end.
(** 301-352 [LiftedData::parse_bytes]. *)
Definition parse_lifted (data : option (list N)) (topics : list (list N)) : parsed lifted_data :=
  match data with None => Refused "LiftedEventMissingData" | Some data =>
  refuse_if negb (len_is 32 data) as "LiftedEventBadDataLength" in
  refuse_if negb (Nat.eqb (length topics) 3) as "LiftedEventWrongTopicCount" in
  let! t1 := index topics 1 in let! t2 := index topics 2 in
  refuse_if negb (len_is 32 t1) || negb (len_is 32 t2) as "LiftedEventBadTopicLength" in
  let! b := sub t1 12 32 in let! token := hash_from 20 b in
  let! receiver := hash_from 32 t2 in
  let! high := sub data 0 16 in
  refuse_if any_positive high as "LiftedEventDataOverflow" in
  let! low := sub data 16 32 in let! amount := int_expect 16 low in
  Parsed (mkLiftedData token 0 receiver amount)
  end.
(** 359-415 [LiftedData::from_erc_20_contract_transfer_bytes]; the receiver is the bridge contract, padded. *)
Definition parse_erc20 (data : option (list N)) (topics : list (list N)) : parsed lifted_data :=
  match data with None => Refused "LiftedEventMissingData" | Some data =>
  refuse_if negb (len_is 32 data) as "LiftedEventBadDataLength" in
  refuse_if negb (Nat.eqb (length topics) 3) as "LiftedEventWrongTopicCount" in
  let! t2 := index topics 2 in let! t1 := index topics 1 in
  refuse_if negb (len_is 32 t2) || negb (len_is 32 t1) as "LiftedEventBadTopicLength" in
  let! b := sub t2 12 32 in let! bridge := hash_from 20 b in
  let! b := sub t1 12 32 in let! sender := hash_from 20 b in
  let! high := sub data 0 16 in
  refuse_if any_positive high as "LiftedEventDataOverflow" in
  let! low := sub data 16 32 in let! amount := int_expect 16 low in
  Parsed (mkLiftedData 0 sender bridge amount)
  end.
(** 441-497 [NftMintData::parse_bytes]; the bound of the reference is 1024 (primitives/avn-common/src/lib.rs:76). *)
Definition parse_mint (data : option (list N)) (topics : list (list N)) : parsed mint_data :=
  match data with None => Refused "NftMintedEventMissingData" | Some data =>
  refuse_if negb (len_is 128 data) as "NftMintedEventBadDataLength" in
  refuse_if negb (Nat.eqb (length topics) 4) as "NftMintedEventWrongTopicCount" in
  let! t1 := index topics 1 in let! t3 := index topics 3 in let! t2 := index topics 2 in
  refuse_if negb (len_is 32 t1) || negb (len_is 32 t3) || negb (len_is 32 t2) as "NftMintedEventBadTopicLength" in
  let! batch := u256_from t1 in
  let! b := sub t2 24 32 in let! sale := int_from 8 "NftMintedEventSaleIndexConversion" b in
  let! owner := hash_from 32 t3 in
  let! r := sub data 64 100 in
  refuse_if negb (Nat.leb (length r) 1024) as "NftMintedEventBadRefLength" in
  Parsed (mkMintData batch owner sale r)
  end.
(** 516-549 [NftTransferToData::parse_bytes]. *)
Definition parse_transfer (data : option (list N)) (topics : list (list N)) : parsed (N * N * N) :=
  match data with Some _ => Refused "NftTransferToEventShouldOnlyContainTopics" | None =>
  refuse_if negb (Nat.eqb (length topics) 4) as "NftTransferToEventWrongTopicCount" in
  let! t1 := index topics 1 in let! t2 := index topics 2 in let! t3 := index topics 3 in
  refuse_if negb (len_is 32 t1) || negb (len_is 32 t2) || negb (len_is 32 t3) as "NftTransferToEventBadTopicLength" in
  let! nft := u256_from t1 in
  let! to := hash_from 32 t2 in
  let! b := sub t3 24 32 in let! op := int_from 8 "NftTransferToEventTranferNonceConversion" b in
  Parsed (nft, to, op)
  end.
(** 567-602 [NftCancelListingData::parse_bytes]: the length of the second topic is not checked. *)
Definition parse_cancel (data : option (list N)) (topics : list (list N)) : parsed (N * N) :=
  match data with Some _ => Refused "NftCancelListingEventShouldOnlyContainTopics" | None =>
  refuse_if negb (Nat.eqb (length topics) 3) as "NftCancelListingEventWrongTopicCount" in
  let! t1 := index topics 1 in
  refuse_if negb (len_is 32 t1) as "NftCancelListingEventBadTopicLength" in
  let! t2 := index topics 2 in
  let! high := sub t2 0 24 in
  refuse_if any_positive high as "NftCancelListingEventDataOverflow" in
  let! nft := u256_from t1 in
  let! b := sub t2 24 32 in let! op := int_from 8 "NftCancelListingEventTranferNonceConversion" b in
  Parsed (nft, op)
  end.
(** 617-640 [NftEndBatchListingData::parse_bytes]. *)
Definition parse_end_batch (data : option (list N)) (topics : list (list N)) : parsed N :=
  match data with Some _ => Refused "NftEndBatchListingEventShouldOnlyContainTopics" | None =>
  refuse_if negb (Nat.eqb (length topics) 2) as "NftEndBatchListingEventWrongTopicCount" in
  let! t1 := index topics 1 in
  refuse_if negb (len_is 32 t1) as "NftEndBatchListingEventBadTopicLength" in
  u256_from t1
  end.
(** 658-698 [AvtGrowthLiftedData::parse_bytes]. *)
Definition parse_growth (data : option (list N)) (topics : list (list N)) : parsed (N * N) :=
  match data with Some _ => Refused "AvtGrowthLiftedEventShouldOnlyContainTopics" | None =>
  refuse_if negb (Nat.eqb (length topics) 3) as "AvtGrowthLiftedEventWrongTopicCount" in
  let! t1 := index topics 1 in let! t2 := index topics 2 in
  refuse_if negb (len_is 32 t1) || negb (len_is 32 t2) as "AvtGrowthLiftedEventBadTopicLength" in
  let! high := sub t1 0 16 in
  refuse_if any_positive high as "AvtGrowthLiftedEventDataOverflow" in
  let! low := sub t1 16 32 in let! amount := int_expect 16 low in
  let! b := sub t2 28 32 in let! period := int_from 4 "AvtGrowthLiftedEventPeriodConversion" b in
  Parsed (amount, period)
  end.
(** 710-730 [AvtLowerClaimedData::parse_bytes]. *)
Definition parse_claimed (data : option (list N)) (topics : list (list N)) : parsed N :=
  match data with Some _ => Refused "AvtLowerClaimedEventMissingData" | None =>
  refuse_if negb (Nat.eqb (length topics) 2) as "AvtLowerClaimedEventWrongTopicCount" in
  let! t1 := index topics 1 in
  refuse_if negb (len_is 32 t1) as "AvtLowerClaimedEventBadTopicLength" in
  let! b := sub t1 28 32 in int_from 4 "AvtLowerClaimedEventIdConversion" b
  end.
(** 751-814 [LowerRevertedData::parse_bytes]. *)
Definition parse_reverted (data : option (list N)) (topics : list (list N)) : parsed reverted_data :=
  match data with None => Refused "LowerRevertedEventMissingData" | Some data =>
  refuse_if negb (len_is 64 data) as "LowerRevertedEventBadDataLength" in
  refuse_if negb (Nat.eqb (length topics) 4) as "LowerRevertedEventWrongTopicCount" in
  let! t1 := index topics 1 in let! t2 := index topics 2 in let! t3 := index topics 3 in
  refuse_if negb (len_is 32 t1) || negb (len_is 32 t2) || negb (len_is 32 t3) as "LowerRevertedEventBadTopicLength" in
  let! b := sub t1 12 32 in let! token := hash_from 20 b in
  let! receiver := hash_from 32 t2 in
  let! b := sub t3 12 32 in let! recipient := hash_from 20 b in
  let! amount_bytes := sub data 0 32 in
  let! high := sub amount_bytes 0 16 in
  refuse_if any_positive high as "LowerRevertedEventAmountOverflow" in
  let! low := sub amount_bytes 16 32 in let! amount := int_expect 16 low in
  let! id_bytes := sub data 32 64 in
  let! b := sub id_bytes 28 32 in let! id := int_from 4 "LowerRevertedEventLowerIdConversion" b in
  Parsed (mkRevertedData token receiver recipient amount id)
  end.

(** client/external-service/src/ethereum_events_handler.rs:66-190 [EventRegistry]: the parser of each kind. *)
Definition parse_event (k : kind) (data : option (list N)) (topics : list (list N)) : parsed event_data :=
  match k with
  | AddedValidator => pmap LogAddedValidator (parse_added_validator data topics)
  | Lifted => pmap LogLifted (parse_lifted data topics)
  | NftMint => pmap LogNftMinted (parse_mint data topics)
  | NftTransferTo => pmap (fun r => LogNftTransferTo r.1.1 r.1.2 r.2) (parse_transfer data topics)
  | NftCancelListing => pmap (fun r => LogNftCancelListing r.1 r.2) (parse_cancel data topics)
  | NftEndBatchListing => pmap LogNftEndBatchListing (parse_end_batch data topics)
  | AvtGrowthLifted => pmap (fun r => LogAvtGrowthLifted r.1 r.2) (parse_growth data topics)
  | AvtLowerClaimed => pmap LogLowerClaimed (parse_claimed data topics)
  | LiftedToPredictionMarket => pmap LogLiftedToPredictionMarket (parse_lifted data topics)
  | Erc20DirectTransfer => pmap LogErc20Transfer (parse_erc20 data topics)
  | LowerReverted => pmap LogLowerReverted (parse_reverted data topics)
  end.
(** ethereum_events_handler.rs:428-439 [parse_event_data]. *)
Definition parse_by_registry (s : N) (data : option (list N)) (topics : list (list N)) : parsed event_data :=
  match kind_of s with Some k => parse_event k data topics | None => Refused "ErrorParsingEventLogs" end.
(** pallets/ethereum-events/src/lib.rs:1071-1140 [parse_tier1_event] (errors are all mapped to one). *)
Definition parse_by_pallet (s : N) (data : option (list N)) (topics : list (list N)) : parsed event_data :=
  let p k := match parse_event k data topics with Refused _ => Refused "EventParsingFailed" | r => r end in
  if s =? signature AddedValidator then p AddedValidator else
  if s =? signature Lifted then p Lifted else
  if s =? signature LiftedToPredictionMarket then p LiftedToPredictionMarket else
  if s =? signature NftMint then p NftMint else
  if s =? signature NftTransferTo then p NftTransferTo else
  if s =? signature NftCancelListing then p NftCancelListing else
  if s =? signature NftEndBatchListing then p NftEndBatchListing else
  if s =? signature AvtGrowthLifted then p AvtGrowthLifted else
  if s =? signature AvtLowerClaimed then p AvtLowerClaimed else
  if s =? signature LowerReverted then p LowerReverted else
  Refused "UnrecognizedEventSignature".

(** 221-225, 287-289, 435-439, 512-514, 563-565, 613-615, 654-656, 747-749; 835-851 [EventData::is_valid]. *)
Definition nz (n : N) : bool := negb (n =? 0).
Definition lifted_valid (d : lifted_data) : bool := nz (li_token d) && nz (li_receiver d).
Definition event_valid (e : event_data) : bool :=
  match e with
  | LogAddedValidator d => nz (vd_key d) && nz (vd_t2 d) && nz (vd_id d)
  | LogLifted d | LogLiftedToPredictionMarket d | LogErc20Transfer d => lifted_valid d
  | LogNftMinted d => nz (mi_batch d) && nz (mi_owner d) && negb (Nat.eqb (length (mi_ref d)) 0)
  | LogNftTransferTo _ to _ => nz to
  | LogNftCancelListing _ _ | LogNftEndBatchListing _ => true
  | LogAvtGrowthLifted amount _ => 0 <? amount
  | LogLowerReverted d => nz (re_token d) && nz (re_receiver d) && (0 <? re_amount d)
  | EmptyEvent => true
  | LogLowerClaimed _ => false
  end.
