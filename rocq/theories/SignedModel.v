(** Everything authors sign with their AvN keys, as bytes: the messages of pallets/ethereum-events and the partitions of events of the bridge, written out
    in full, next to those of the summary pallet (SummaryOcwModel.message) and of the bridge (BridgeOcwModel.subject_bytes). *)
From Verif Require Import Base CodecModel ScaleModel AvnModel SigModel.
From Verif Require LogModel SummaryOcwModel BridgeModel BridgeOcwModel.

(** ** Event data *)
(** primitives/avn-common/src/event_types.rs:209-214, 274-281, 418-428, 500-505, 553-557, 605-608, 644-648, 702-705, 733-740: the fields in order.  H160, H256, H512 are arrays of
    bytes, U256 is a little-endian integer of 32 bytes. *)
Definition t_validator : ty := TPair (TBytes 64) (TPair (TBytes 32) (TInt 32)).
Definition t_lifted : ty := TPair (TBytes 20) (TPair (TBytes 20) (TPair (TBytes 32) (TPair (TInt 16) (TInt 32)))).
Definition t_mint : ty := TPair (TInt 32) (TPair (TBytes 32) (TPair (TInt 8) (TPair (TBytes 20) (TPair (TInt 8) (TVec 1024 (TInt 1)))))).
Definition t_transfer : ty := TPair (TInt 32) (TPair (TBytes 32) (TInt 8)).
Definition t_cancel : ty := TPair (TInt 32) (TInt 8).
Definition t_batch : ty := TInt 32.
Definition t_growth : ty := TPair (TInt 16) (TInt 4).
Definition t_claimed : ty := TInt 4.
Definition t_reverted : ty := TPair (TBytes 20) (TPair (TBytes 32) (TPair (TBytes 20) (TPair (TInt 16) (TInt 4)))).
(** event_types.rs:817-831 [EventData] *)
Inductive edata :=
| DValidator (x : den t_validator) | DLifted (x : den t_lifted) | DEmpty | DMint (x : den t_mint) | DTransfer (x : den t_transfer) | DCancel (x : den t_cancel)
| DBatch (x : den t_batch) | DGrowth (x : den t_growth) | DClaimed (x : den t_claimed) | DReverted (x : den t_reverted) | DPrediction (x : den t_lifted) | DErc20 (x : den t_lifted).
Definition edata_bytes (d : edata) : list N :=
  match d with
  | DValidator x => 0 :: enc t_validator x | DLifted x => 1 :: enc t_lifted x | DEmpty => [2] | DMint x => 3 :: enc t_mint x | DTransfer x => 4 :: enc t_transfer x
  | DCancel x => 5 :: enc t_cancel x | DBatch x => 6 :: enc t_batch x | DGrowth x => 7 :: enc t_growth x | DClaimed x => 8 :: enc t_claimed x | DReverted x => 9 :: enc t_reverted x
  | DPrediction x => 10 :: enc t_lifted x | DErc20 x => 11 :: enc t_lifted x
  end.
Definition wf_edata (d : edata) : Prop :=
  match d with
  | DValidator x => valid t_validator x | DLifted x | DPrediction x | DErc20 x => valid t_lifted x | DEmpty => True | DMint x => valid t_mint x | DTransfer x => valid t_transfer x
  | DCancel x => valid t_cancel x | DBatch x => valid t_batch x | DGrowth x => valid t_growth x | DClaimed x => valid t_claimed x | DReverted x => valid t_reverted x
  end.

(** ** ethereum-events *)
(** pallets/ethereum-events/src/lib.rs:136-138 *)
Definition ctx_check : list N := ascii_bytes "submit_checkevent_result".
Definition ctx_challenge : list N := ascii_bytes "challenge_event".
Definition ctx_process : list N := ascii_bytes "process_event".
(** event_types.rs:897-903 [EthEventId], 911-926 [EthEvent], [EthEventCheckResult] (result: 862-874 [CheckResult] by index), 961-966 [Challenge] (reason: 951-959 by index). *)
Inductive emsg :=
| ECheck (sig tx : N) (data : edata) (result by_ at_ ready min counter : N)
| EProcess (sig tx counter : N)
| EChallenge (sig tx reason by_ counter : N).
(** lib.rs:886-890, 917-921, 958-962 (verified) and 1233, 1272, 1311 (signed); the slice of the context is a vector in SCALE. *)
Definition emsg_bytes (m : emsg) : list N :=
  match m with
  | ECheck sig tx data result by_ at_ ready min counter =>
      BridgeOcwModel.short_vec ctx_check ++ be_bytes 32 sig ++ be_bytes 32 tx ++ edata_bytes data ++ [result] ++ be_bytes 32 by_ ++ le_bytes 4 at_ ++ le_bytes 4 ready ++ le_bytes 4 min ++ le_bytes 8 counter
  | EProcess sig tx counter => BridgeOcwModel.short_vec ctx_process ++ be_bytes 32 sig ++ be_bytes 32 tx ++ le_bytes 8 counter
  | EChallenge sig tx reason by_ counter => BridgeOcwModel.short_vec ctx_challenge ++ be_bytes 32 sig ++ be_bytes 32 tx ++ [reason] ++ be_bytes 32 by_ ++ le_bytes 8 counter
  end.
Definition wf_emsg (m : emsg) : Prop :=
  match m with
  | ECheck sig tx data result by_ at_ ready min counter =>
      sig < 256 ^ 32 /\ tx < 256 ^ 32 /\ wf_edata data /\ result < 5 /\ by_ < 256 ^ 32 /\ at_ < 2 ^ 32 /\ ready < 2 ^ 32 /\ min < 2 ^ 32 /\ counter < 2 ^ 64
  | EProcess sig tx counter => sig < 256 ^ 32 /\ tx < 256 ^ 32 /\ counter < 2 ^ 64
  | EChallenge sig tx reason by_ counter => sig < 256 ^ 32 /\ tx < 256 ^ 32 /\ reason < 3 /\ by_ < 256 ^ 32 /\ counter < 2 ^ 64
  end.
(** The messages of LogModel.v, in which event data and event signatures are numbered: [S] and [D] give the signature and the data. *)
Definition result_index (r : LogModel.result) : N :=
  match r with LogModel.ROk => 0 | LogModel.RInvalid => 1 | LogModel.RHttp => 2 | LogModel.RYoung => 3 | LogModel.RUnknown => 4 end.
Definition reason_index (r : LogModel.reason) : N :=
  match r with LogModel.IncorrectResult => 0 | LogModel.IncorrectEventData => 1 | LogModel.UnknownReason => 2 end.
Definition of_log (S : N -> N) (D : N -> edata) (m : LogModel.message) : emsg :=
  match m with
  | LogModel.MCheck r counter => ECheck (S (fst (LogModel.ck_id r))) (snd (LogModel.ck_id r)) (D (LogModel.ck_data r)) (result_index (LogModel.ck_result r)) (LogModel.ck_by r)
      (LogModel.ck_at r) (LogModel.ck_ready r) (LogModel.ck_min r) counter
  | LogModel.MProcess id counter => EProcess (S (fst id)) (snd id) counter
  | LogModel.MChallenge ch counter => EChallenge (S (fst (LogModel.ch_id ch))) (snd (LogModel.ch_id ch)) (reason_index (LogModel.ch_reason ch)) (LogModel.ch_by ch) counter
  end.

(** ** Partitions of discovered events *)
(** primitives/avn-common/src/event_discovery.rs:16-23 [EthBlockRange], 39-43 [DiscoveredEvent], 62-68 [EthereumEventsPartition]; the set is written in its order, here a list. *)
Record found := mkFound { f_sig : N; f_tx : N; f_data : edata; f_block : N }.
Record partition := mkPartition { p_start : N; p_length : N; p_number : N; p_last : bool; p_events : list found }.
Definition found_bytes (f : found) : list N := be_bytes 32 (f_sig f) ++ be_bytes 32 (f_tx f) ++ edata_bytes (f_data f) ++ le_bytes 8 (f_block f).
Definition partition_bytes (p : partition) : list N :=
  le_bytes 4 (p_start p) ++ le_bytes 4 (p_length p) ++ le_bytes 2 (p_number p) ++ [BridgeOcwModel.bool_byte (p_last p)] ++
  compact (N.of_nat (length (p_events p))) ++ concat (map found_bytes (p_events p)).
Definition wf_found (f : found) : Prop := f_sig f < 256 ^ 32 /\ f_tx f < 256 ^ 32 /\ wf_edata (f_data f) /\ f_block f < 2 ^ 64.
(** event_discovery.rs:12-13: at most 32 events. *)
Definition wf_partition (p : partition) : Prop :=
  p_start p < 2 ^ 32 /\ p_length p < 2 ^ 32 /\ p_number p < 2 ^ 16 /\ (length (p_events p) <= 32)%nat /\ Forall wf_found (p_events p).

(** ** All together *)
Inductive signed :=
| ForSummary (inst slot : N) (cl : SummaryOcwModel.call)
| ForBridge (x : BridgeOcwModel.subject)
| ForEvents (m : emsg).
Definition signed_bytes (x : signed) : list N :=
  match x with
  | ForSummary inst slot cl => SummaryOcwModel.message inst slot cl
  | ForBridge x => BridgeOcwModel.subject_bytes x
  | ForEvents m => emsg_bytes m
  end.
