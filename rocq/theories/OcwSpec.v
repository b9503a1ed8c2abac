(** What the offchain-worker properties (C72-C74) say. *)
From Verif Require Import Base CodecModel BridgeModel AbiModel OcwModel.

(** Numbers that fit their types: block numbers u32, ingress counters u64, accounts 32 bytes. *)
Definition lock_ok (l : lock_id) : Prop :=
  match l with
  | SendLock _ tx => tx < 2 ^ 32
  | VoteLock _ from to counter => from < 2 ^ 32 /\ to < 2 ^ 32 /\ counter < 2 ^ 64
  | RootLock _ block => block < 2 ^ 32
  | SlotLock _ slot => slot < 2 ^ 32
  | ChallengeLock _ slot c d => slot < 2 ^ 32 /\ c < 2 ^ 256 /\ d < 2 ^ 256
  end.
Definition job_ok (j : job) : Prop :=
  match j with RecordRun _ b => b < 2 ^ 32 | Locked l b e => lock_ok l /\ b + e < 2 ^ 32 end.
Definition ev_ok (e : ev) : Prop := match e with EvSpawn _ j => job_ok j | _ => True end.

(** A schedule of a node that starts with no threads, with anything in its store; the clock fits in 64 bits of milliseconds. *)
Definition history (n0 : node) (es : list ev) (n : node) (log : list obs) : Prop :=
  nd_threads n0 = ∅ /\ Forall ev_ok es /\ exec n0 es = (n, log) /\ nd_clock n + 20000 < 2 ^ 64.

(** The blocks for which the workers of [c] ran, in order. *)
Definition runs (c : caller) (log : list obs) : list N :=
  omap (fun o => match o with Ran _ c' b => if decide (caller_bytes c' = caller_bytes c) then Some b else None | _ => None end) log.
(** The last block that the store records for [c]. *)
Definition last_run (n : node) (c : caller) : option N := nd_store n !! run_key c ≫= decode_block.

Definition acquires (name : list N) (o : obs) : Prop := match o with Acquired _ m _ _ _ _ => m = name | _ => False end.
Definition releases (name : list N) (o : obs) : Prop := match o with Released _ m => m = name | _ => False end.
(** Thread [t] holds the lock [name], as a worker of block [b] that asked for [e] blocks at time [a]. *)
Definition holds (n : node) (t : N) (name : list N) (b e a : N) : Prop :=
  exists l, nd_threads n !! t = Some (mkThread (Locked l b e) (Holding a)) /\ lock_name l = name.
(** Someone holds the lock longer than it may: both its 20 seconds and its blocks are over, the latter for a worker that still wants the lock. *)
Definition overdue (n : node) (name : list N) : Prop :=
  exists t b e a, holds n t name b e a /\ a + 20000 < nd_clock n /\
  exists u l b' e' p, nd_threads n !! u = Some (mkThread (Locked l b' e') p) /\ p <> Ended /\ lock_name l = name /\ b + e < b'.
Definition punctual (n0 : node) (es : list ev) (name : list N) : Prop :=
  forall es1 es2, es = es1 ++ es2 -> ~ overdue (exec n0 es1).1 name.
