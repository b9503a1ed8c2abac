(** Offchain workers of one node that share the node's persistent offchain storage: recording that a block was run, and locks.
    primitives/avn-common/src/ocw_lock.rs ("ocw_lock.rs"), pallets/avn/src/lib.rs:231-275, 565-577, and the users of the locks in
    pallets/eth-bridge, pallets/summary.

    Workers of several blocks run at the same time, each on its own thread.  What is atomic is one read, one compare-and-set, one removal
    of one key (sp_io::offchain); everything between is a step of its own.  The node may be killed at any point: threads end, the store stays.
    From sp_runtime::offchain (not in /repo): [StorageValueRef::mutate] reads the raw value, decodes it, calls the closure and stores the result by
    compare-and-set on the raw value; [StorageLock::try_lock] computes the deadline first and then mutates; a guard that is dropped removes the
    key whatever it holds, a guard that is forgotten leaves it. *)
From Verif Require Import Base CodecModel BridgeModel AbiModel.

Definition le_value (l : list N) : N := be_value (rev l).

(** ** Keys *)
(** pallets/eth-bridge/src/lib.rs:833-835 (the hexadecimal of a hash of the instance), pallets/summary/src/lib.rs:1558-1560,
    pallets/ethereum-events/src/lib.rs:70, 813. *)
Inductive caller := BridgeWorker (instance_hash : list N) | SummaryWorker (instance : N) | EventsWorker.
Definition caller_bytes (c : caller) : list N :=
  match c with
  | BridgeWorker h => ascii_bytes "EthBridge" ++ h
  | SummaryWorker i => ascii_bytes "summary-" ++ [i]
  | EventsWorker => ascii_bytes "eth_events::last_run"
  end.
(** ocw_lock.rs:21. *)
Definition run_key (c : caller) : list N := caller_bytes c ++ ascii_bytes "::last_run".

(** The locks: eth-bridge/src/lib.rs:916-918; summary/src/vote.rs:113-121, summary/src/lib.rs:1053-1063, summary/src/challenge.rs:183-189.  The pallets
    have instances; a lock is asked for by an instance, and its name does not contain it. *)
Inductive lock_id :=
  | SendLock (instance : list N) (tx : N)
  | VoteLock (instance : N) (from to counter : N)
  | RootLock (instance : N) (block : N)
  | SlotLock (instance : N) (slot : N)
  | ChallengeLock (instance : N) (slot challenger challengee : N).
Definition lock_name (l : lock_id) : list N :=
  match l with
  | SendLock _ tx => ascii_bytes "eth_bridge_ocw::send::" ++ dec_bytes tx
  | VoteLock _ from to counter => ascii_bytes "vote_summary::hash::" ++ le_bytes 4 from ++ le_bytes 4 to ++ le_bytes 8 counter
  | RootLock _ block => ascii_bytes "create_summary::" ++ le_bytes 4 block
  | SlotLock _ slot => ascii_bytes "advance_slot::" ++ le_bytes 4 slot
  | ChallengeLock _ slot c d => ascii_bytes "challenge_summary::slot::" ++ [0] ++ le_bytes 4 slot ++ be_bytes 32 c ++ be_bytes 32 d
  end.

(** ** Values *)
(** A block number is a u32. *)
Definition decode_block (raw : list N) : option N := if Nat.leb 4 (length raw) then Some (le_value (take 4 raw)) else None.
(** [BlockAndTimeDeadline]: a block number and a timestamp in milliseconds; with_block_deadline allows 20 s and the given number of blocks. *)
Record deadline := mkDeadline { dl_block : N; dl_time : N }.
Definition enc_deadline (d : deadline) : list N := le_bytes 4 (dl_block d) ++ le_bytes 8 (dl_time d).
Definition decode_deadline (raw : list N) : option deadline :=
  if Nat.leb 12 (length raw) then Some (mkDeadline (le_value (take 4 raw)) (le_value (take 8 (drop 4 raw)))) else None.
(** The deadline of a worker of block [block] that asks at time [asked]; u32 addition, [Timestamp::add] saturates. *)
Definition deadline_of (block expiry asked : N) : deadline :=
  mkDeadline ((block + expiry) mod 2 ^ 32) (N.min (asked + 20000) (2 ^ 64 - 1)).
(** [BlockAndTime::has_expired], by a worker of block [block] at time [now]. *)
Definition has_expired (d : deadline) (block now : N) : bool := (dl_time d <? now) && (dl_block d <? block).

(** pallets/avn/src/lib.rs:79, 270-275 [get_default_ocw_lock_expiry]; ocw_lock.rs:53 ([is_locked] asks for one block). *)
Definition default_expiry : N := 300000 / 12000 + 5.
Definition query_expiry : N := 1.

(** ** Threads *)
(** What a worker of a block does on a thread: ocw_lock.rs:16-43 [record_block_run]; 45-50 [get_offchain_worker_locker] and try_lock, with the work that
    the lock protects.  [is_locked] (52-61) is a lock with an expiry of one block and no work. *)
Inductive job := RecordRun (c : caller) (block : N) | Locked (l : lock_id) (block expiry : N).
Inductive phase :=
  | Start
  | Asked (asked : N)
  | Looked (asked : N) (raw : option (list N))
  | Trying (asked : N) (raw : option (list N))
  | Holding (asked : N)
  | Ended.
Record thread := mkThread { th_job : job; th_phase : phase }.
Record node := mkNode { nd_store : gmap (list N) (list N); nd_clock : N; nd_threads : gmap N thread }.
#[global] Instance eta_node : Settable node := settable! mkNode <nd_store; nd_clock; nd_threads>.

(** What can be seen.  Run recording: the look at the stored block, and the three answers of [record_block_run].  Locks, by name: taken (by a worker of
    which block, asking for how many blocks, asked at and obtained at what time), refused, work done under the lock, lock kept for good
    (guard.forget), lock released (guard dropped). *)
Inductive obs :=
  | Looking (t : N) (c : caller) (block : N)
  | Ran (t : N) (c : caller) (block : N)
  | AlreadyRun (t : N) (c : caller) (block : N)
  | Clash (t : N) (c : caller) (block : N)
  | Acquired (t : N) (name : list N) (block expiry asked now : N)
  | Busy (t : N) (name : list N)
  | Worked (t : N) (name : list N) (now : N)
  | Kept (t : N) (name : list N)
  | Released (t : N) (name : list N).

Inductive ev :=
  | EvSpawn (t : N) (j : job)
  | EvStep (t : N)
  | EvWork (t : N)
  | EvFinish (t : N) (ok : bool)
  | EvTick (ms : N)
  | EvRestart.

Definition goto (t : N) (j : job) (p : phase) (n : node) : node := n <| nd_threads ::= insert t (mkThread j p) |>.

(** ocw_lock.rs:25-34: the closure of [record_block_run]; a value that cannot be decoded counts as absent. *)
Definition has_run (raw : option (list N)) (block : N) : bool :=
  match raw with Some r => match decode_block r with Some last => block <=? last | None => false end | None => false end.
(** The closure of [try_lock]. *)
Definition is_free (raw : option (list N)) (block now : N) : bool :=
  match raw with Some r => match decode_deadline r with Some d => has_expired d block now | None => true end | None => true end.

(** The next atomic action of a thread. *)
Definition step_thread (n : node) (t : N) (th : thread) : node * list obs :=
  let j := th_job th in
  match j, th_phase th with
  | RecordRun c block, Start =>
      let raw := nd_store n !! run_key c in
      if has_run raw block then (goto t j Ended n, [Looking t c block; AlreadyRun t c block]) else (goto t j (Trying 0 raw) n, [Looking t c block])
  | RecordRun c block, Trying _ raw =>
      if decide (nd_store n !! run_key c = raw) then (goto t j Ended n <| nd_store ::= insert (run_key c) (le_bytes 4 block) |>, [Ran t c block])
      else (goto t j Ended n, [Clash t c block])
  | Locked l block expiry, Start => (goto t j (Asked (nd_clock n)) n, [])
  | Locked l block expiry, Asked a => (goto t j (Looked a (nd_store n !! lock_name l)) n, [])
  | Locked l block expiry, Looked a raw =>
      if is_free raw block (nd_clock n) then (goto t j (Trying a raw) n, []) else (goto t j Ended n, [Busy t (lock_name l)])
  | Locked l block expiry, Trying a raw =>
      if decide (nd_store n !! lock_name l = raw)
      then (goto t j (Holding a) n <| nd_store ::= insert (lock_name l) (enc_deadline (deadline_of block expiry a)) |>,
            [Acquired t (lock_name l) block expiry a (nd_clock n)])
      else (goto t j Ended n, [Busy t (lock_name l)])
  | _, _ => (n, [])
  end.

(** One event.  [EvWork]: the holder does what the lock protects (a request to the local service, an unsigned transaction).  [EvFinish]: it
    ends, forgetting the guard if all went well and dropping it otherwise (eth-bridge/src/lib.rs:921-924, summary/src/vote.rs:147-180,
    summary/src/lib.rs:1086-1101, 1123-1143); [is_locked] always drops it. *)
Definition step (n : node) (e : ev) : node * list obs :=
  match e with
  | EvSpawn t j => match nd_threads n !! t with None => (goto t j Start n, []) | Some _ => (n, []) end
  | EvStep t => match nd_threads n !! t with Some th => step_thread n t th | None => (n, []) end
  | EvWork t =>
      match nd_threads n !! t with
      | Some (mkThread (Locked l _ _) (Holding _)) => (n, [Worked t (lock_name l) (nd_clock n)])
      | _ => (n, [])
      end
  | EvFinish t ok =>
      match nd_threads n !! t with
      | Some (mkThread (Locked l b e) (Holding _)) =>
          if (ok : bool) then (goto t (Locked l b e) Ended n, [Kept t (lock_name l)])
          else (goto t (Locked l b e) Ended n <| nd_store ::= delete (lock_name l) |>, [Released t (lock_name l)])
      | _ => (n, [])
      end
  | EvTick ms => (n <| nd_clock ::= N.add ms |>, [])
  | EvRestart => (n <| nd_threads ::= fmap (fun th => mkThread (th_job th) Ended) |>, [])
  end.

Fixpoint exec (n : node) (es : list ev) : node * list obs :=
  match es with
  | [] => (n, [])
  | e :: r => let (n1, o1) := step n e in let (n2, o2) := exec n1 r in (n2, o1 ++ o2)
  end.
