(** Theorems about what is signed for Ethereum and sent there: C69 - C71. *)
From Verif Require Import Base BaseLemmas AvnModel CodecModel CodecProofs MerkleModel BridgeModel BridgeProofs BridgeSpec BridgeProofs2 BridgeProofs3 BridgeProofs4 BridgeProps
  AbiModel AbiSpec AbiProofs AbiProofs2 AbiProofs3.

(** ** C69: what is sent to Ethereum is what was signed *)

(** For every order of a pallet with values of their Rust types, every id and expiry, and whatever confirmations there are: the parameters pass
    the checks; the hash that authors sign is computed without error or panic, and it is the one that the configured contract computes for the call
    of that order; the call data are computed without error or panic, and the contract decodes them to that call and to those confirmations. *)
Theorem C69_sent_is_signed K lossy utf8 i o caller id expiry confs : order_typed o -> id < 2 ^ 32 -> expiry < 2 ^ 64 ->
  Forall (fun c => c < 2 ^ 520) confs -> len confs <= CONFIRMATIONS_LIMIT -> utf8 (order_name o) = true -> selectors_differ K ->
  let r := mkSend id (order_name o) (order_params o) caller in let ps := extended r expiry in
  bound_params ps = Ok tt /\
  confirmation_hash K (domain_of lossy i) (sr_fn r) ps = Gives (call_digest K (contract_of lossy i) (call_of o expiry id)) /\
  exists cd, send_calldata K utf8 (sr_fn r) ps confs = Gives cd /\ receive K cd = Some (call_of o expiry id, confs).
Proof.
  intros T Hi He F Hc U D r ps. split; [by apply order_bounded|]. split; [by apply order_hash|]. by apply order_call.
Qed.
Print Assumptions C69_sent_is_signed.

(** The bridge, with the hashes of the code; [inst n] is the instance with number [n]. *)
Definition hashes_with (K : list N -> N) (lossy : list N -> list N) (inst : N -> instance) (c : config) : Prop :=
  (forall fn ps n, c_hash_send c fn ps n = match confirmation_hash K (domain_of lossy (inst n)) fn ps with Gives h => Some h | _ => None end) /\
  (forall l n, c_hash_lower c l n = lower_proof_hash K (domain_of lossy (inst n)) l).
(** In every state of every history in which pallets publish orders: the call data of the active transaction are those of a call of its order, with
    the confirmations that have been stored, each of which recovers to a key over the digest that the contract of the current instance computes
    for this very call. *)
Theorem C69_history K lossy inst c verify next life n vs ops a r : hashes_with K lossy inst c -> next < 2 ^ 32 -> (forall o, In o ops -> typed_op o) ->
  selectors_differ K -> (forall o, c_utf8 c (order_name o) = true) ->
  let s := run c verify (genesis next life n vs) ops in s_active s = Some a -> ac_req a = RSend r ->
  exists o t cd, order_typed o /\ sr_fn r = order_name o /\ sr_params r = order_params o /\ ac_tx a = Some t /\
    send_calldata K (c_utf8 c) (sr_fn r) (tx_params t) (ac_confirmations a) = Gives cd /\
    receive K cd = Some (call_of o (tx_expiry t) (sr_id r), ac_confirmations a) /\
    forall x, In x (ac_confirmations a) -> exists key, c_recover c x (call_digest K (contract_of lossy (inst (s_instance s))) (call_of o (tx_expiry t) (sr_id r))) = Some key.
Proof.
  intros [Hs _] Hn T D U s Ha Er. destruct (run_Inv c verify next life n vs ops Hn T) as [_ A]. fold s in A.
  destruct (A a Ha) as (A1 & A2 & A3). destruct (A3 r Er) as ((o & O1 & O2 & O3 & O4) & t & B1 & B2 & B3 & B4).
  destruct (C69_sent_is_signed K lossy (c_utf8 c) (inst (s_instance s)) o (sr_caller r) (sr_id r) (tx_expiry t) (ac_confirmations a) O1 O4 B3 A1 A2 (U o) D) as (_ & H2 & cd & H3 & H4).
  assert (X : mkSend (sr_id r) (order_name o) (order_params o) (sr_caller r) = r) by (destruct r; cbn in *; congruence). rewrite X in H2, H3.
  exists o, t, cd. rewrite B2. repeat split; try done. intros x Hx.
  destruct (C13_confirmations_partial c verify next life n vs ops a Ha) as (_ & pre & post & _ & _ & Hc).
  destruct (Hc x Hx) as (w & q & op' & rest & _ & v & sig & key & _ & _ & _ & Hr & _). exists key.
  rewrite B2 in B4. rewrite Hs, H2 in B4. injection B4 as ->. exact Hr.
Qed.
Print Assumptions C69_history.

(** The question about the outcome names the transaction and its expiry. *)
Theorem C69_corroborate_asks K utf8 id expiry : id < 2 ^ 32 -> expiry < 2 ^ 64 -> utf8 (ascii_bytes "corroborate") = true ->
  exists cd, corroborate_calldata K utf8 id expiry = Gives cd /\ receive_corroborate K cd = Some (id, expiry).
Proof. intros. by apply corroborate_call. Qed.
Print Assumptions C69_corroborate_asks.

(** A toy hash with four different selectors. *)
Definition toy (l : list N) : N := fold_left (fun acc b => (acc * 1000003 + b * b + 77) mod 2 ^ 256) l 12345678901234567890123456789012345678901234567890123456789012345678901234567.
Example toy_selectors : selectors_differ toy.
Proof. apply (bool_decide_unpack _). by vm_compute. Qed.
Definition ex_inst (n : N) : instance := mkInstance (network_of n) (1000 + n) (ascii_bytes "Avn") (ascii_bytes "1") None.
Definition toy_c : config := mkConfig 3
  (fun fn ps n => match confirmation_hash toy (domain_of id (ex_inst n)) fn ps with Gives h => Some h | _ => None end)
  (fun l n => lower_proof_hash toy (domain_of id (ex_inst n)) l)
  (fun sig msg => if sig / 1000 =? msg then Some (sig mod 1000 / 10) else None) (fun _ => true) 20.
Definition ex_order : order := AddAuthorOf (repeat 9 64) 77.
Example ex_order_typed : order_typed ex_order.
Proof. split; [done|]. split; [apply (bool_decide_unpack _); by vm_compute|done]. Qed.
Definition ex_sig2 (msg key x : N) : N := 1000 * msg + 10 * key + x.
(** An author is to be added on Ethereum; validator 1 confirms. *)
Definition ex_pub : list op := [EnvKeys ex_keys; EnvBlock 5 1000; OpPublish true (order_name ex_order) (order_params ex_order) [7]].
Definition ex_msg : N := match s_active (run toy_c ex_verify ex_g ex_pub) with Some a => ac_msg a | None => 0 end.
Definition ex_confirmed : list op := ex_pub ++ [OpConfirm 100 (ex_sig2 ex_msg 1 0) (mkValidator 1 11) 11].
Example C69_reached : hashes_with toy id ex_inst toy_c /\ (forall o, In o ex_confirmed -> typed_op o) /\
  exists a r t cd, let s := run toy_c ex_verify ex_g ex_confirmed in s_active s = Some a /\ ac_req a = RSend r /\ ac_tx a = Some t /\
    ac_confirmations a = [ex_sig2 ex_msg 1 0] /\ 0 < ex_msg /\
    send_calldata toy (c_utf8 toy_c) (sr_fn r) (tx_params t) (ac_confirmations a) = Gives cd /\ length cd = 388%nat /\
    receive toy cd = Some (CallAddAuthor (repeat 9 64) 77 1600 100, [ex_sig2 ex_msg 1 0]).
Proof.
  split; [done|]. split.
  { intros o H. destruct H as [<-|[<-|[<-|[<-|[]]]]]; [done|done| |apply N.ltb_lt; by vm_compute]. exists ex_order. split; [apply ex_order_typed|done]. }
  do 4 eexists. cbv zeta. split; [vm_compute; reflexivity|]. split; [vm_compute; reflexivity|]. split; [vm_compute; reflexivity|]. split; [vm_compute; reflexivity|].
  split; [apply N.ltb_lt; by vm_compute|]. split; [vm_compute; reflexivity|]. split; [vm_compute; reflexivity|]. vm_compute. reflexivity.
Qed.

(** But the confirmations, and with them the call data that other authors compare the sent ones with, can still change after sending: here
    transaction 100 has enough confirmations and was sent, the set of validators grows, and one more confirmation is accepted. *)
Theorem C69_calldata_fixed_when_sent_refuted K : selectors_differ K ->
  exists ops o a t a' t' cd cd', let s := run ex_c ex_verify ex_g ops in let s' := step ex_c ex_verify s o in
    s_active s = Some a /\ ac_tx a = Some t /\ tx_hash t = 555 /\ has_enough_confirmations (run ex_c ex_verify ex_g (firstn 4 ops)) a = true /\
    s_active s' = Some a' /\ ac_tx a' = Some t' /\ ac_req a' = ac_req a /\ tx_hash t' = 555 /\
    send_calldata K (c_utf8 ex_c) (order_name ex_order) (tx_params t) (ac_confirmations a) = Gives cd /\
    send_calldata K (c_utf8 ex_c) (order_name ex_order) (tx_params t') (ac_confirmations a') = Gives cd' /\ cd <> cd'.
Proof.
  intros D. set (ops := ex_pub ++ [ex_conf 100 71 1 0; OpEthTxHash 100 555 (mkValidator 2 12) 12; EnvValidators ex_vs11]). set (o := ex_conf 100 71 3 0).
  destruct (order_call K (c_utf8 ex_c) ex_order 1600 100 [ex_sig 71 1 0] ex_order_typed) as (cd & C1 & C2); try done; [by repeat constructor|].
  destruct (order_call K (c_utf8 ex_c) ex_order 1600 100 [ex_sig 71 1 0; ex_sig 71 3 0] ex_order_typed) as (cd' & C1' & C2'); try done; [by repeat constructor|].
  exists ops, o. do 4 eexists. exists cd, cd'. cbv zeta. split; [vm_compute; reflexivity|]. split; [cbn; reflexivity|]. split; [reflexivity|]. split; [vm_compute; reflexivity|].
  split; [vm_compute; reflexivity|]. split; [cbn; reflexivity|]. split; [reflexivity|]. split; [reflexivity|]. split; [exact C1|]. split; [exact C1'|].
  intros ->. rewrite C2 in C2'. discriminate C2'.
Qed.
Print Assumptions C69_calldata_fixed_when_sent_refuted.
(** Parameters of the wrong form are accepted by [publish] but not refused when hashed: the node panics. *)
Theorem C69_malformed_panics_refuted K d : exists fn ps, bound_params (extended (mkSend 1 fn ps []) 5) = Ok tt /\
  confirmation_hash K d fn (extended (mkSend 1 fn ps []) 5) = Panics.
Proof. exists (ascii_bytes "publishRoot"), [(ascii_bytes "bytes32", repeat 1 31)]. split; vm_compute; reflexivity. Qed.
Print Assumptions C69_malformed_panics_refuted.

(** ** C70: a signature is good for one request on one contract only *)

Definition instance_typed (i : instance) : Prop := chain_id (in_network i) < 2 ^ 64 /\ in_contract i < 2 ^ 160.
(** If what is signed for two orders is the same, they are the same order with the same expiry and id, for the same contract (name, version,
    chain, address) - or two different messages hashed on the way have the same keccak hash. *)
Theorem C70_one_order_one_contract K lossy i i' o o' caller caller' id id' expiry expiry' h : instance_typed i -> instance_typed i' ->
  order_typed o -> order_typed o' -> id < 2 ^ 32 -> id' < 2 ^ 32 -> expiry < 2 ^ 64 -> expiry' < 2 ^ 64 ->
  confirmation_hash K (domain_of lossy i) (order_name o) (extended (mkSend id (order_name o) (order_params o) caller) expiry) = Gives h ->
  confirmation_hash K (domain_of lossy i') (order_name o') (extended (mkSend id' (order_name o') (order_params o') caller') expiry') = Gives h ->
  (o = o' /\ id = id' /\ expiry = expiry' /\ contract_of lossy i = contract_of lossy i') \/
  collide K (hashed K (contract_of lossy i) (SCall (call_of o expiry id))) (hashed K (contract_of lossy i') (SCall (call_of o' expiry' id'))).
Proof.
  intros Ti Ti' T T' Hi Hi' He He' H H'. unfold extended in H, H'. cbn [sr_params sr_id] in H, H'. rewrite order_hash in H, H' by done. injection H as H. injection H' as H'.
  assert (TT : forall o e i, order_typed o -> e < 2 ^ 64 -> i < 2 ^ 32 -> signed_typed (SCall (call_of o e i))).
  { clear. intros [] e i T He Hi; cbn [order_typed call_of signed_typed] in *; destruct_and?; repeat split; lia. }
  assert (E : signed_digest K (contract_of lossy i) (SCall (call_of o expiry id)) = signed_digest K (contract_of lossy i') (SCall (call_of o' expiry' id'))).
  { unfold call_digest in H, H'. by rewrite H, H'. }
  apply digest_determines in E; [|done|done|by apply TT|by apply TT]. destruct E as [[Ec Ex]|C]; [left|by right].
  injection Ex as Ex. destruct o, o'; cbn [call_of] in Ex; try discriminate Ex; injection Ex; intros; subst; done.
Qed.
Print Assumptions C70_one_order_one_contract.
(** The same for lower proofs. *)
Theorem C70_one_lower_one_contract K lossy i i' d d' h : instance_typed i -> instance_typed i' -> in_range d -> in_range d' ->
  lower_proof_hash K (domain_of lossy i) (concat_lower_data d) = Some h -> lower_proof_hash K (domain_of lossy i') (concat_lower_data d') = Some h ->
  (d = d' /\ contract_of lossy i = contract_of lossy i') \/
  collide K (hashed K (contract_of lossy i) (SClaim (claim_of d))) (hashed K (contract_of lossy i') (SClaim (claim_of d'))).
Proof.
  intros Ti Ti' R R' H H'. rewrite lower_hash in H, H' by done. injection H as H. injection H' as H'.
  assert (TT : forall d, in_range d -> signed_typed (SClaim (claim_of d))).
  { clear. intros [x1 x2 x3 x4 x5 x6] (H1 & H2 & H3 & H4 & H5 & H6). cbn [ld_token ld_amount ld_recipient ld_id ld_sender ld_time] in *. unfold signed_typed, claim_of.
    cbn [cl_token cl_amount cl_recipient cl_id cl_sender cl_time ld_token ld_amount ld_recipient ld_id ld_sender ld_time]. repeat split; lia. }
  assert (E : signed_digest K (contract_of lossy i) (SClaim (claim_of d)) = signed_digest K (contract_of lossy i') (SClaim (claim_of d'))).
  { unfold claim_digest in H, H'. by rewrite H, H'. }
  apply digest_determines in E; [|done|done|by apply TT|by apply TT]. destruct E as [[Ec Ex]|C]; [left|by right].
  split; [|done]. destruct d as [x1 x2 x3 x4 x5 x6], d' as [y1 y2 y3 y4 y5 y6]. unfold claim_of in Ex. cbn [ld_token ld_amount ld_recipient ld_id ld_sender ld_time] in Ex. by injection Ex as -> -> -> -> -> ->.
Qed.
Print Assumptions C70_one_lower_one_contract.
(** And what is signed for a call is never what is signed for a lower proof. *)
Theorem C70_call_is_no_claim K lossy i i' o caller id expiry d h : instance_typed i -> instance_typed i' -> order_typed o -> id < 2 ^ 32 -> expiry < 2 ^ 64 -> in_range d ->
  confirmation_hash K (domain_of lossy i) (order_name o) (extended (mkSend id (order_name o) (order_params o) caller) expiry) = Gives h ->
  lower_proof_hash K (domain_of lossy i') (concat_lower_data d) = Some h ->
  collide K (hashed K (contract_of lossy i) (SCall (call_of o expiry id))) (hashed K (contract_of lossy i') (SClaim (claim_of d))).
Proof.
  intros Ti Ti' T Hi He R H H'. unfold extended in H. cbn [sr_params sr_id] in H. rewrite order_hash in H by done. rewrite lower_hash in H' by done. injection H as H. injection H' as H'.
  assert (E : signed_digest K (contract_of lossy i) (SCall (call_of o expiry id)) = signed_digest K (contract_of lossy i') (SClaim (claim_of d))).
  { unfold call_digest in H. unfold claim_digest in H'. by rewrite H, H'. }
  apply digest_determines in E; [|done|done| |].
  - destruct E as [[_ Ex]|C]; [discriminate Ex|done].
  - destruct o; cbn [order_typed call_of signed_typed] in *; destruct_and?; repeat split; lia.
  - destruct d as [x1 x2 x3 x4 x5 x6], R as (H1 & H2 & H3 & H4 & H5 & H6). cbn [ld_token ld_amount ld_recipient ld_id ld_sender ld_time] in *. unfold signed_typed, claim_of.
    cbn [cl_token cl_amount cl_recipient cl_id cl_sender cl_time ld_token ld_amount ld_recipient ld_id ld_sender ld_time]. repeat split; lia.
Qed.
Print Assumptions C70_call_is_no_claim.
(** An instance is more than a contract: one with another salt, or with its chain named in another way, is another instance (authors' payloads for
    the parachain carry the hash of the whole instance), but what is signed for Ethereum is the same. *)
Theorem C70_instance_refuted K lossy : exists i j k, instance_typed i /\ instance_valid i = true /\ instance_valid j = true /\ instance_valid k = true /\
  i <> j /\ i <> k /\ j <> k /\
  forall fn ps, confirmation_hash K (domain_of lossy i) fn ps = confirmation_hash K (domain_of lossy j) fn ps /\
                confirmation_hash K (domain_of lossy i) fn ps = confirmation_hash K (domain_of lossy k) fn ps.
Proof.
  exists (mkInstance Ethereum 7 [65] [49] None), (mkInstance Ethereum 7 [65] [49] (Some 3)), (mkInstance (Custom 1) 7 [65] [49] None).
  split; [by split; vm_compute|]. repeat (split; [done|]). done.
Qed.
Print Assumptions C70_instance_refuted.
(** Reading a chain number and writing it back changes nothing; a network is found again unless it is a known one given by number. *)
Theorem C70_chain_numbers : (forall n, chain_id (network_of n) = n) /\
  (forall w, network_of (chain_id w) = w <-> match w with Custom n => ~ In n [1; 246; 11155111; 17000; 73799] | _ => True end).
Proof.
  assert (G : forall n, chain_id (network_of n) = n).
  { intros n. unfold network_of. destruct (N.eqb_spec n 1); [by subst|]. destruct (N.eqb_spec n 246); [by subst|]. destruct (N.eqb_spec n 11155111); [by subst|].
    destruct (N.eqb_spec n 17000); [by subst|]. destruct (N.eqb_spec n 73799); by subst. }
  split; [done|]. intros [| | | | |n]; try (split; intros; [exact I|reflexivity]). cbn [chain_id]. unfold network_of.
  destruct (N.eqb_spec n 1); [subst; split; [discriminate|intros H; exfalso; apply H; cbn; auto]|].
  destruct (N.eqb_spec n 246); [subst; split; [discriminate|intros H; exfalso; apply H; cbn; auto]|].
  destruct (N.eqb_spec n 11155111); [subst; split; [discriminate|intros H; exfalso; apply H; cbn; auto]|].
  destruct (N.eqb_spec n 17000); [subst; split; [discriminate|intros H; exfalso; apply H; cbn; auto]|].
  destruct (N.eqb_spec n 73799); [subst; split; [discriminate|intros H; exfalso; apply H; cbn; auto 10]|].
  split; [|done]. intros _ H. cbn in H. intuition congruence.
Qed.
Print Assumptions C70_chain_numbers.
Definition ex_hash (n id : N) : out N :=
  confirmation_hash toy (domain_of Datatypes.id (ex_inst n)) (order_name ex_order) (extended (mkSend id (order_name ex_order) (order_params ex_order) []) 5).
Example C70_digests_differ : match ex_hash 1 100, ex_hash 2 100, ex_hash 1 101 with Gives h, Gives h', Gives h'' => negb (h =? h') && negb (h =? h'') | _, _, _ => false end = true.
Proof. vm_compute. reflexivity. Qed.

(** ** C71: a lower proof is a claim of the lower *)

(** For every lower: the hash that authors sign is the one that the configured contract computes for a claim of that lower, and the proof that the
    user is given is read by the contract as that claim with the signatures. *)
Theorem C71_proof_is_claim K lossy i d confs : in_range d -> Forall (fun c => c < 2 ^ 520) confs ->
  lower_proof_hash K (domain_of lossy i) (concat_lower_data d) = Some (claim_digest K (contract_of lossy i) (claim_of d)) /\
  claim_lower (encoded_lower_proof (concat_lower_data d) confs) = Some (claim_of d, confs).
Proof. intros R F. split; [by apply lower_hash|by apply lower_claim]. Qed.
Print Assumptions C71_proof_is_claim.
(** In every history: when the proof of a lower is completed, the proof that is handed out - the lower's data, the stored confirmations and the one
    just submitted - is a claim of that lower with these signatures, each of which recovers to a key over the digest that a contract computes for
    this claim: the contract that was configured when the proof was started. *)
Theorem C71_history K lossy inst c verify next life n vs ops o : let g := genesis next life n vs in hashes_with K lossy inst c -> next < 2 ^ 32 ->
  (forall o, In o ops -> typed_op o) -> typed_op o -> let s := run c verify g ops in
  exists nn, s_notices (step c verify s o) = nn ++ s_notices s /\ forall id caller, In (NProof id caller true) nn ->
    exists a r conf w, s_active s = Some a /\ ac_req a = RLower r /\ lr_id r = id /\ lr_caller r = caller /\ confirms c verify id (ac_msg a) conf w s o /\
      forall d, in_range d -> lr_params r = concat_lower_data d -> exists l m, ops = l ++ m /\
        let sigs := ac_confirmations a ++ [conf] in let k := contract_of lossy (inst (s_instance (run c verify g l))) in
        claim_lower (encoded_lower_proof (lr_params r) sigs) = Some (claim_of d, sigs) /\
        forall x, In x sigs -> exists key, c_recover c x (claim_digest K k (claim_of d)) = Some key.
Proof.
  intros g [_ Hl] Hn T To s. destruct (effect_good _ _ _ _ _ (step_effect c verify s o)) as (nn & E & Hg). exists nn. split; [exact E|].
  intros id caller Hin. destruct (Hg _ Hin I) as [(r & d & En & _)|(r & a & conf & v & sig & En & Ha & Hr & Ho & Hc & Hnew & Hq)]; [discriminate|].
  injection En as -> ->. exists a, r, conf, (v_account v). repeat (split; [done|]). intros d R Ep.
  destruct (run_lower c verify g ops eq_refl a r Ha Hr) as (l & m & Eo & Hh). exists l, m. split; [done|]. cbv zeta.
  destruct (run_Inv c verify next life n vs ops Hn T) as [_ A]. destruct (A a Ha) as (A1 & _ & _).
  assert (Ef : conf < 2 ^ 520). { rewrite Ho in To. exact To. }
  rewrite Hl, Ep, lower_hash in Hh by done. injection Hh as Hh. rewrite Ep. split.
  - apply lower_claim; [done|]. apply Forall_app. split; [done|by constructor].
  - intros x Hx. apply in_app_or in Hx as [Hx|[<-|[]]].
    + destruct (C13_confirmations_partial c verify next life n vs ops a Ha) as (_ & pre & post & _ & _ & Hcs).
      destruct (Hcs x Hx) as (w & q & op' & rest & _ & v' & sig' & key & _ & _ & _ & Hrec & _). exists key. rewrite Hh. exact Hrec.
    + destruct Hc as (v' & sig' & key & _ & _ & _ & Hrec & _). exists key. rewrite Hh. exact Hrec.
Qed.
Print Assumptions C71_history.
(** But not always the one configured now: a transaction that is being confirmed is started anew when the instance is changed, a lower proof is not,
    and its signatures are for the old contract. *)
Definition ex_lower : lower_data := mkLowerData 5 1000 6 9 77 123.
Definition ex_lower_ops : list op := [EnvKeys ex_keys; OpLowerProof true 9 (concat_lower_data ex_lower) [9]; OpSetInstance 2].
Theorem C71_current_instance_refuted : in_range ex_lower /\ exists a, let s := run toy_c ex_verify ex_g ex_lower_ops in s_active s = Some a /\ s_instance s = 2 /\
  ac_msg a = claim_digest toy (contract_of id (ex_inst 1)) (claim_of ex_lower) /\
  ac_msg a <> claim_digest toy (contract_of id (ex_inst 2)) (claim_of ex_lower).
Proof.
  split; [repeat split; by vm_compute|]. eexists. cbv zeta. split; [vm_compute; reflexivity|]. split; [vm_compute; reflexivity|].
  split; [vm_compute; reflexivity|]. vm_compute. discriminate.
Qed.
Print Assumptions C71_current_instance_refuted.
(** A lower is proved with the confirmations of three validators out of five. *)
Definition ex_claim : N := claim_digest toy (contract_of id (ex_inst 1)) (claim_of ex_lower).
Definition ex_lc (k : N) : op := OpConfirm 9 (ex_sig2 ex_claim k 0) (mkValidator k (10 + k)) (10 + k).
Example C71_reached : let s := run toy_c ex_verify ex_g (firstn 2 ex_lower_ops ++ [ex_lc 1; ex_lc 2]) in
  (forall o, In o (firstn 2 ex_lower_ops ++ [ex_lc 1; ex_lc 2; ex_lc 3]) -> typed_op o) /\
  s_notices s = [] /\ s_notices (step toy_c ex_verify s (ex_lc 3)) = [NProof 9 [9] true].
Proof.
  cbv zeta. split; [|split; vm_compute; reflexivity]. intros o H. repeat (destruct H as [<-|H]; [first [exact I | apply N.ltb_lt; by vm_compute]|]). destruct H.
Qed.
