(** The summary pallet's offchain worker, what validators sign, and many nodes and chains together.
    pallets/summary/src/lib.rs ("lib.rs"), vote.rs and challenge.rs of the same directory, pallets/avn/src/vote.rs, pallets/avn/src/lib.rs:349-362.
    The on-chain half of the pallet is SummaryModel.v.  The worker only reads the chain's state and submits calls; the calls are dispatched later,
    if ever, by anyone who has seen them. *)
From Verif Require Import Base CodecModel BridgeModel HttpModel OcwModel AvnModel SummaryModel.

(** ** What is signed *)
(** The five unsigned calls of the pallet (lib.rs:495-690), without the validator and the signature. *)
Inductive call :=
| CRecord (new_block hash ingress : N)
| CVote (rid : root_id) (agree : bool)
| CEnd (rid : root_id)
| CAdvance
| CChallenge (reason : option N) (challenger challengee : N).
#[export] Instance call_eq : EqDecision call.
Proof. solve_decision. Defined.

(** SCALE of a byte vector shorter than 64: one byte of length, then the bytes. *)
Definition short_vec (b : list N) : list N := 4 * N.of_nat (length b) :: b.
(** lib.rs:58-59, vote.rs:21-22, challenge.rs:19. *)
Definition ctx_record : list N := ascii_bytes "update_last_processed_block_number".
Definition ctx_advance : list N := ascii_bytes "advance_slot".
Definition ctx_vote : list N := ascii_bytes "root_casting_vote".
Definition ctx_end : list N := ascii_bytes "root_end_voting_period".
Definition ctx_challenge : list N := ascii_bytes "root_challenge".
(** primitives/avn-common/src/lib.rs:432-457 [RootId::session_id]: the SCALE encoding of the id (two u32 and a u64). *)
Definition session_id (rid : root_id) : list N := le_bytes 4 (fst (fst rid)) ++ le_bytes 4 (snd (fst rid)) ++ le_bytes 8 (snd rid).
(** challenge.rs:24-38: the derived encoding of [SummaryChallenge]. *)
Definition challenge_bytes (reason : option N) (challenger challengee : N) : list N :=
  match reason with Some slot => 0 :: le_bytes 4 slot | None => [1] end ++ be_bytes 32 challenger ++ be_bytes 32 challengee.

(** The bytes that are signed and, on receipt, verified: lib.rs:894-906 (contexts, which begin with the instance), 1235-1245 and 1467-1473 (record), 1274-1277
    and 1516-1517 (advance: the slot is the current one); vote.rs:268-270, 299-302 and avn/src/vote.rs:214-216, 257-259 (votes), vote.rs:208-210 and avn/src/vote.rs:173-175
    (end); challenge.rs:83, 146 (challenge).  [inst] is the instance's [InstanceId], [slot] the chain's current slot. *)
Definition message (inst slot : N) (cl : call) : list N :=
  match cl with
  | CRecord nb hash ingress => short_vec (inst :: ctx_record) ++ be_bytes 32 hash ++ le_bytes 8 ingress ++ le_bytes 4 nb
  | CVote rid agree => short_vec ctx_vote ++ short_vec (session_id rid) ++ [if agree then 1 else 0]
  | CEnd rid => short_vec ctx_end ++ short_vec (session_id rid)
  | CAdvance => short_vec (inst :: ctx_advance) ++ le_bytes 4 slot
  | CChallenge r ch ce => short_vec ctx_challenge ++ challenge_bytes r ch ce
  end.

(** The call, sent by validator [who], as an operation of SummaryModel.v; [sig_ok] is the outcome of the signature's verification. *)
Definition op_of (cl : call) (who : N) (sig_ok : bool) : op :=
  match cl with
  | CRecord nb h ic => OpRecord nb h ic who sig_ok
  | CVote rid agree => OpVote rid who agree sig_ok
  | CEnd rid => OpEnd rid who sig_ok
  | CAdvance => OpAdvanceSlot who sig_ok
  | CChallenge r ch ce => OpChallenge r ch ce who sig_ok
  end.

(** ** The worker *)
(** A node as the worker meets it: the keys in its keystore; the answer of the node's service to roothash/from/to ([None]: an error); whether signing works;
    which submissions the transaction pool takes; which locks are held (by name); the order in which storage iterates over the pending roots. *)
Record node := mkNode {
  n_keys : list N;
  n_service : N -> N -> option (list N);
  n_can_sign : bool;
  n_submit : call -> bool;
  n_locked : list N -> bool;
  n_iter : gmap range N -> list (range * N) }.
(** runtime/*/src/configs: [InstanceId] and [MinBlockAge]; the other constants are in SummaryModel.config. *)
Record wconfig := mkWconfig { wc_instance : N; wc_min_age : N; wc_pallet : config }.

(** pallets/avn/src/lib.rs:349-362 [get_validator_for_current_node]: the first validator whose key is local. *)
Definition local_validator (n : node) (s : st) : option validator :=
  List.find (fun v => memN (v_key v) (n_keys n)) (s_validators s).

(** lib.rs:1302-1327 [validate_response]; hex::decode_to_slice refuses whatever is not hexadecimal, so also what is not UTF-8. *)
Definition validate_response (r : list N) : option N :=
  if Nat.eqb (length r) 64 then be_value <$> hex_decode r else None.
(** lib.rs:1022-1051 [compute_root_hash] *)
Definition compute_root (n : node) (from to : N) : option N :=
  match n_service n from to with Some r => validate_response r | None => None end.

(** What a run leaves behind: the calls that were signed, those that went to the pool, the locks that were kept. *)
Record out := mkOut { o_signed : list call; o_sent : list call; o_locks : list (list N) }.
Definition out_nil : out := mkOut [] [] [].
Definition out_app (a b : out) : out := mkOut (o_signed a ++ o_signed b) (o_sent a ++ o_sent b) (o_locks a ++ o_locks b).

(** Sign and submit one call; the lock is kept only if both work (guard.forget), otherwise it is released. *)
Definition attempt (n : node) (cl : call) (lock : list N) : out :=
  if negb (n_can_sign n) then out_nil
  else if n_submit n cl then mkOut [cl] [cl] [lock] else mkOut [cl] [] [].

(** lib.rs:1065-1103 [advance_slot_if_required], 1271-1285 [dispatch_advance_slot] *)
Definition advance_if_required (w : wconfig) (n : node) (me : N) (s : st) : out :=
  match s_slot_validator s with
  | None => out_nil
  | Some v =>
    if (me =? v) && (s_next_slot_at s <=? s_block s) then
      let lock := lock_name (SlotLock (wc_instance w) (s_slot s)) in
      if n_locked n lock then out_nil else attempt n CAdvance lock
    else out_nil
  end.

(** lib.rs:1176-1213 [can_process_summary] *)
Definition can_process (w : wconfig) (n : node) (me to : N) (s : st) : bool :=
  if n_locked n (lock_name (RootLock (wc_instance w) to)) then false
  else match safe_add to (wc_min_age w) with
       | None => false
       | Some old =>
         match s_slot_validator s with Some v => me =? v | None => false end &&
         (s_block s <? s_next_slot_at s) && (old <? s_block s) && neither_pending_nor_approved s (s_next_block s, to)
       end.
(** lib.rs:1106-1144 [process_summary_if_required], 1216-1226 [process_summary], 1228-1269 [record_summary].  The addition of one to the u64 counter is not
    checked and wraps. *)
Definition process_if_required (w : wconfig) (n : node) (me : N) (s : st) : out :=
  match target_block (s_next_block s) (s_schedule s) with
  | None => out_nil
  | Some to =>
    if can_process w n me to s then
      match compute_root n (s_next_block s) to with
      | None => out_nil
      | Some h => attempt n (CRecord to h ((s_ingress s + 1) mod 2 ^ 64)) (lock_name (RootLock (wc_instance w) to))
      end
    else out_nil
  end.

Definition vote_lock (w : wconfig) (rid : root_id) : list N :=
  lock_name (VoteLock (wc_instance w) (fst (fst rid)) (snd (fst rid)) (snd rid)).
(** vote.rs:235-248 [root_can_be_voted_on] *)
Definition can_vote (w : wconfig) (n : node) (me : N) (s : st) (rid : root_id) : bool :=
  match s_votes s !! rid with
  | Some v => negb (has_voted v me) && negb (n_locked n (vote_lock w rid)) && session_is_active s rid
  | None => false
  end.
(** vote.rs:146-186: the loop of [cast_votes_if_required]; vote.rs:250-353 [send_approve_vote], [send_reject_vote].  It stops after the first vote that was sent. *)
Fixpoint cast_first (w : wconfig) (n : node) (s : st) (rids : list root_id) : out :=
  match rids with
  | [] => out_nil
  | rid :: rest =>
    if n_locked n (vote_lock w rid) then cast_first w n s rest
    else match compute_root n (fst (fst rid)) (snd (fst rid)), s_roots s !! rid, s_votes s !! rid with
         | Some h, Some d, Some _ =>
           let cl := CVote rid (h =? rd_hash d) in
           if negb (n_can_sign n) then cast_first w n s rest
           else if n_submit n cl then mkOut [cl] [cl] [vote_lock w rid]
           else out_app (mkOut [cl] [] []) (cast_first w n s rest)
         | _, _, _ => cast_first w n s rest
         end
  end.
(** vote.rs:23, 133-144 *)
Definition MAX_SESSIONS : nat := 5.
Definition cast_if_required (w : wconfig) (n : node) (me : N) (s : st) : out :=
  cast_first w n s (take MAX_SESSIONS (List.filter (can_vote w n me s) (n_iter n (s_pending s)))).

(** vote.rs:189-233 [end_voting_if_required]; a session that cannot be read or signed ends the loop, a refused submission does not. *)
Fixpoint end_all (n : node) (s : st) (rids : list root_id) : out :=
  match rids with
  | [] => out_nil
  | rid :: rest =>
    match s_votes s !! rid with
    | None => out_nil
    | Some _ =>
      if negb (n_can_sign n) then out_nil
      else out_app (mkOut [CEnd rid] (if n_submit n (CEnd rid) then [CEnd rid] else []) []) (end_all n s rest)
    end
  end.
Definition end_if_required (n : node) (s : st) : out :=
  end_all n s (take MAX_SESSIONS (List.filter (fun rid => ss_end (mget session_default rid (s_votes s)) <? s_block s) (n_iter n (s_pending s)))).

(** challenge.rs:98-181 [challenge_slot_if_required], [can_challenge], [send_challenge_transaction]; [is_primary_for_block] is an equality with
    [calculate_primary_validator_for_block] (pallets/avn/src/lib.rs:295-313). *)
Definition challenge_if_required (w : wconfig) (n : node) (me : N) (s : st) : out :=
  match s_slot_validator s with
  | None => out_nil
  | Some sv =>
    let lock := lock_name (ChallengeLock (wc_instance w) (s_slot s) me sv) in
    if n_locked n lock then out_nil
    else if match primary_for_block (s_validators s) (s_block s) with Ok p => p =? me | Err _ => false end &&
            grace_elapsed (wc_pallet w) s (s_block s)
         then attempt n (CChallenge (Some (s_slot s)) me sv) lock
         else out_nil
  end.

(** lib.rs:789-815 [offchain_worker], after a successful [pre_run_setup] (OcwModel.v), on the state of the block it runs for.  [None]: no local validator.
    The locks of one run have different names, so none changes another part's view of them. *)
Definition worker (w : wconfig) (n : node) (s : st) : option (validator * out) :=
  match local_validator n s with
  | None => None
  | Some v =>
    let me := v_account v in
    Some (v, out_app (advance_if_required w n me s) (out_app (process_if_required w n me s)
            (out_app (cast_if_required w n me s) (out_app (end_if_required n s) (challenge_if_required w n me s)))))
  end.

(** ** Nodes, chains and signatures together *)
(** Chains are numbered: several instances of the pallet on one chain, or several forks of one chain.  Signatures are symbolic: the list says which key has signed
    which bytes.  Whoever has a signature may submit it, to any chain, at any time, with any call. *)
Record world := mkWorld { w_chain : N -> st; w_sigs : list (N * list N) }.
Inductive wop :=
| WWorker (i : N) (n : node)                   (* the worker of node n runs on chain i *)
| WSign (k : N) (m : list N)                   (* the holder of key k signs something *)
| WSubmit (i : N) (cl : call) (v : validator)  (* an unsigned call, in the name of v, is included in a block of chain i *)
| WChain (i : N) (o : op).                     (* anything else that happens on chain i *)

Definition set_chain (f : N -> st) (i : N) (s : st) : N -> st := fun j => if j =? i then s else f j.
Definition signed_by (v : validator) (ms : list (list N)) : list (N * list N) := map (fun m => (v_key v, m)) ms.

(** pallets/avn/src/lib.rs:417-440 [signature_is_valid]: the signature is verified under the key that the submission names. *)
Definition wstep (cfg : N -> wconfig) (w : world) (o : wop) : world :=
  match o with
  | WWorker i n =>
    let s := w_chain w i in
    match worker (cfg i) n s with
    | None => w
    | Some (v, r) => mkWorld (w_chain w) (signed_by v (map (message (wc_instance (cfg i)) (s_slot s)) (o_signed r)) ++ w_sigs w)
    end
  | WSign k m => mkWorld (w_chain w) ((k, m) :: w_sigs w)
  | WSubmit i cl v =>
    let s := w_chain w i in
    let sig_ok := bool_decide ((v_key v, message (wc_instance (cfg i)) (s_slot s) cl) ∈ w_sigs w) in
    mkWorld (set_chain (w_chain w) i (step (wc_pallet (cfg i)) s (op_of cl (v_account v) sig_ok))) (w_sigs w)
  | WChain i o =>
    mkWorld (set_chain (w_chain w) i (step (wc_pallet (cfg i)) (w_chain w i) o)) (w_sigs w)
  end.
Definition wrun (cfg : N -> wconfig) (w : world) (ops : list wop) : world := fold_left (wstep cfg) ops w.
