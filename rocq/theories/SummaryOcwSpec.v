(** What the properties about the summary workers talk about: what it means that nodes are honest, and on how many chains a history plays. *)
From Verif Require Import Base CodecModel HttpModel AvnModel SummaryModel SummarySpec SummaryOcwModel.

(** [truth from to] is the root of the blocks from..to (a 32-byte number).  A node is truthful if its service, when it answers with a text of the right length at all,
    answers with the hexadecimal text of the true root. *)
Definition truthful (truth : N -> N -> N) (n : node) : Prop :=
  forall from to r, n_service n from to = Some r -> length r = 64%nat -> r = hex_encode (be_bytes 32 (truth from to)).
Definition roots_are_words (truth : N -> N -> N) : Prop := forall from to, truth from to < 256 ^ 32.

(** The arguments of a call are of their Rust types: u32 block and slot numbers, u64 counters, 32-byte hashes and accounts. *)
Definition wf_rid (rid : root_id) : Prop := fst (fst rid) < 2 ^ 32 /\ snd (fst rid) < 2 ^ 32 /\ snd rid < 2 ^ 64.
Definition wf_call (cl : call) : Prop :=
  match cl with
  | CRecord nb h ic => nb < 2 ^ 32 /\ h < 256 ^ 32 /\ ic < 2 ^ 64
  | CVote rid _ | CEnd rid => wf_rid rid
  | CAdvance => True
  | CChallenge r ch ce => (forall x, r = Some x -> x < 2 ^ 32) /\ ch < 256 ^ 32 /\ ce < 256 ^ 32
  end.

(** Calls that need a validator's signature. *)
Definition unsigned (o : op) : bool :=
  match o with OpRecord _ _ _ _ _ | OpVote _ _ _ _ | OpEnd _ _ _ | OpAdvanceSlot _ _ | OpChallenge _ _ _ _ _ => true | _ => false end.

(** [A]: the honest accounts; [K]: the keys that only honest workers sign with.  The keys of honest accounts are such keys. *)
Definition keys_of_honest (A K : N -> Prop) (vs : list validator) : Prop := forall v, In v vs -> A (v_account v) -> K (v_key v).

(** What may happen: workers that use an honest key are truthful; an honest key signs nothing else; calls carry the registered key of the validator they name
    (the code does not check this, C23) and arguments of their types; other operations are not unsigned calls, and new validator sets keep honest keys with
    honest accounts.  Everybody else may sign and submit whatever they like, whenever they like. *)
Definition allowed (A K : N -> Prop) (truth : N -> N -> N) (w : world) (o : wop) : Prop :=
  match o with
  | WWorker i n => forall v, local_validator n (w_chain w i) = Some v -> K (v_key v) -> truthful truth n
  | WSign k _ => ~ K k
  | WSubmit i cl v => In v (s_validators (w_chain w i)) /\ wf_call cl
  | WChain _ o => unsigned o = false /\ forall vs, o = EnvValidators vs -> keys_of_honest A K vs
  end.
Fixpoint honest_history (cfg : N -> wconfig) (A K : N -> Prop) (truth : N -> N -> N) (w : world) (ops : list wop) : Prop :=
  match ops with
  | [] => True
  | o :: r => allowed A K truth w o /\ honest_history cfg A K truth (wstep cfg w o) r
  end.

(** The history is about one chain (and one instance of the pallet) only. *)
Definition on_chain (i : N) (o : wop) : Prop :=
  match o with WWorker j _ | WSubmit j _ _ | WChain j _ => j = i | WSign _ _ => True end.

(** The schedule period is only changed while no root is awaiting approval. *)
Fixpoint calm_world (cfg : N -> wconfig) (i : N) (w : world) (ops : list wop) : Prop :=
  match ops with
  | [] => True
  | o :: r => (forall o', o = WChain i o' -> changes_schedule o' = true -> s_pending (w_chain w i) = ∅) /\ calm_world cfg i (wstep cfg w o) r
  end.

(** A node whose key store and transaction pool work. *)
Definition able (n : node) : Prop := n_can_sign n = true /\ forall cl, n_submit n cl = true.
(** Iterating over a storage map yields each of its entries once, in some order. *)
Definition faithful_iter (n : node) : Prop := forall m, Permutation (n_iter n m) (map_to_list m).
Definition is_vote (cl : call) : bool := match cl with CVote _ _ => true | _ => false end.

(** An approved root can be handed over: it is empty, or the external validation takes it, or the bridge does, or there is a free anchor number. *)
Definition hand_over_ok (c : config) (s : st) (d : root_data) : Prop :=
  rd_hash d = 0 \/
  if c_ext_enabled c then s_ext_threshold s <> None /\ s_env_submit s = true
  else if c_auto_submit c then s_env_publish s <> None else s_anchor_counter s + 1 <= U32_MAX.
