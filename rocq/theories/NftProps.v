(** Theorems about the NFT manager: C24 - C28. *)
From Verif Require Import Base BaseLemmas CodecModel CodecProofs SigModel NftModel NftSpec NftProofs NftProofs2 NftProofs3.

(** A concrete world: toy hash and signatures; accounts 1 (seller), 2 (buyer), 3 (batch creator), relayer 9. *)
Definition ex_cr : crypto := mkCrypto (fun a m sg => sg =? a + fold_left N.add m 0) (fun _ _ => None).
Definition ex_c : config := mkConfig 4 (fun l => fold_left (fun acc b => acc * 3 + b) l 0).
Definition ex_sign (who : N) (payload : list N) : proof := mkProof who 9 (SigSr25519 (who + fold_left N.add payload 0)).
Definition ex_id : N := single_nft_id ex_c 77 0.
Definition ex_batch : N := gen_batch_id ex_c 1.
Definition ex_royalties : list royalty := [mkRoyalty 5 1000000].
Definition ex_transfer : call := CTransfer (ex_sign 1 (transfer_payload 9 ex_id 2 1)) ex_id 2.
Definition ex_mint_batch (ix : N) (r : list N) : call := CMintBatch (ex_sign 3 (mint_batch_payload 9 ex_batch ix r 2)) ex_batch ix 2 r.
Definition ex_ops : list op :=
  [OpMint 1 [1; 2] ex_royalties 77; OpMint 2 [1; 2] [] 78;                       (* the reference is taken *)
   OpList 1 ex_id Fiat; OpProxy 9 ex_transfer; OpProxy 9 ex_transfer;            (* the replay fails *)
   OpList 2 ex_id Ethereum; EnvProcessed 50; OpEthEvent 50 (LogNftTransferTo ex_id 1 3); OpEthEvent 50 (LogNftTransferTo ex_id 2 3);
   OpSigned 3 (CCreateBatch (ex_sign 3 (create_batch_payload 9 2 ex_royalties 77 0)) 2 ex_royalties 77);
   OpProxy 9 (ex_mint_batch 0 [8]);                                              (* not listed yet *)
   OpSigned 3 (CListBatch (ex_sign 3 (list_batch_payload 9 ex_batch Fiat 1)) ex_batch Fiat);
   OpProxy 9 (ex_mint_batch 0 [8]); OpProxy 9 (ex_mint_batch 1 [9]); OpProxy 9 (ex_mint_batch 2 [10])].  (* supply 2 *)
Example ex_history :
  let s := run ex_c ex_cr genesis ex_ops in
  s_nfts s !! ex_id = Some (mkNft 0 [1; 2] 4 1 false) /\ s_sale s !! ex_id = None /\
  minted_ids (s_events s) = [batch_nft_id ex_c ex_batch 1; batch_nft_id ex_c ex_batch 0; ex_id] /\
  minted_from ex_batch (s_events s) = [batch_nft_id ex_c ex_batch 1; batch_nft_id ex_c ex_batch 0] /\
  created (s_events s) = [ex_batch] /\ length (accepted_payloads ex_c ex_cr genesis ex_ops) = 5%nat.
Proof. vm_compute. auto 20. Qed.

(** ** C24: references and ids are unique *)

(** NFTs are permanent: an NFT keeps its reference and its royalty record for ever. *)
Theorem C24_permanent c cr ops ops' id n : s_nfts (run c cr genesis ops) !! id = Some n ->
  exists n', s_nfts (run c cr genesis (ops ++ ops')) !! id = Some n' /\ n_ref n' = n_ref n /\ n_info n' = n_info n.
Proof.
  intros Hn. unfold run. rewrite fold_left_app. fold (run c cr genesis ops). generalize (inv_reach c cr ops). revert Hn.
  generalize (run c cr genesis ops) as s. clear ops. intros s. revert s n. induction ops' as [|o ops IH]; intros s n Hn HI; [cbn; eauto|].
  cbn. destruct (step_fate c cr s o id n (inv_roomy _ _ HI) Hn) as (oa & F & _).
  assert (exists n1, s_nfts (step c cr s o) !! id = Some n1 /\ n_ref n1 = n_ref n /\ n_info n1 = n_info n) as (n1 & H1 & H2 & H3)
    by (destruct F; eauto). destruct (IH _ _ H1 (inv_step _ _ _ _ HI)) as (n' & H4 & H5 & H6). exists n'. split; [exact H4|]. split; congruence.
Qed.

(** At no two moments of any history do two different NFTs carry the same external reference. *)
Theorem C24_references_unique c cr ops ops' id id' n n' :
  s_nfts (run c cr genesis ops) !! id = Some n -> s_nfts (run c cr genesis (ops ++ ops')) !! id' = Some n' ->
  n_ref n = n_ref n' -> id = id'.
Proof.
  intros H H' E. destruct (C24_permanent c cr ops ops' id n H) as (n1 & H1 & H2 & _).
  eapply (iv_refs c _ (inv_reach c cr (ops ++ ops'))); [exact H1|exact H'|congruence].
Qed.

(** No id is announced as minted twice, and the ids announced are exactly the NFTs that exist. *)
Theorem C24_ids_minted_once c cr ops : let s := run c cr genesis ops in
  NoDup (minted_ids (s_events s)) /\ forall id, In id (minted_ids (s_events s)) <-> is_Some (s_nfts s !! id).
Proof. exact (iv_minted c _ (inv_reach c cr ops)). Qed.

(** A reference that some NFT carries, or that is empty, cannot be minted: the operation changes nothing. *)
Definition mints_ref (o : op) : option (list N) :=
  match o with
  | OpMint _ r _ _ => Some r
  | OpSigned _ (CMint _ r _ _) | OpProxy _ (CMint _ r _ _) => Some r
  | OpSigned _ (CMintBatch _ _ _ _ r) | OpProxy _ (CMintBatch _ _ _ _ r) => Some r
  | OpEthEvent _ (LogNftMinted _ _ _ r) => Some r
  | _ => None
  end.
Theorem C24_taken_reference_rejected c cr ops o r id n : let s := run c cr genesis ops in
  mints_ref o = Some r -> (s_nfts s !! id = Some n /\ n_ref n = r) \/ r = [] -> step c cr s o = s /\ is_ok (snd (exec c cr o s)) = false.
Proof.
  intros s Ho Hr. pose proof (inv_reach c cr ops) as HI. fold s in HI.
  assert (Hu : ~ unused s r). { intros [U1 U2]. destruct Hr as [[Hn <-]|Hr]; [|done]. apply (iv_nft _ _ HI) in Hn as [Hn _]. congruence. }
  assert (Hc : forall i a, call_auth c cr s i a -> pre c s a ->
     match i with CMint _ r' _ _ => r' = r | CMintBatch _ _ _ _ r' => r' = r | _ => False end -> False).
  { intros i a [_ Ha] Hp E. destruct i; try done; subst.
    - destruct Hp as (Hp & _). done.
    - destruct Ha as [(i & au & ->) _]. destruct Hp as (Hp & _). done. }
  assert (Hno : forall a, auth c cr s o a -> pre c s a -> False).
  { intros a Ha Hp. destruct o as [sender r0 l au|sender id0 m|sender i|relayer i|e d|e|e]; cbn in Ho; try discriminate.
    - injection Ho as ->. cbn in Ha. subst a. destruct Hp as (Hp & _). done.
    - destruct Ha as [_ Ha]. eapply Hc; [exact Ha|exact Hp|]. destruct i; try discriminate; congruence.
    - destruct Ha as [_ Ha]. eapply Hc; [exact Ha|exact Hp|]. destruct i; try discriminate; congruence.
    - destruct d; try discriminate. injection Ho as ->. destruct Ha as [_ [(i & au & ->) _]]. destruct Hp as (Hp & _). done. }
  destruct (snd (exec c cr o s)) as [[]|er] eqn:Eo.
  - exfalso. pose proof (step_cases c cr s o (inv_roomy _ _ HI)) as [(ps & _ & E)|(a & Hp & _ & Ha & _)]; [|eauto].
    assert (exists a, auth c cr s o a /\ pre c s a) as (a & H1 & H2); [|eauto].
    clear E ps. destruct o as [sender r0 l au|sender id0 m|sender i|relayer i|e d|e|e]; cbn in Ho; try discriminate; cbn [exec] in Eo.
    + destruct (dispatch _ s) as [s' r'] eqn:E. cbn in Eo. subst r'. apply dispatch_ok in E. unfold mint_single_nft, bounded_ref in E. minv E. clean.
      match goal with X : validate_mint_single _ _ _ _ = _ |- _ => apply validate_mint_single_ok in X as (-> & ? & ? & ? & ?) end.
      eapply do_mint_single_ok in E; [|done..]. destruct E as [Hp _]. eexists. split; [|exact Hp]. done.
    + destruct (dispatch _ s) as [s' r'] eqn:E. cbn in Eo. subst r'. apply dispatch_ok in E. apply run_call_ok in E as (-> & a & Hp & _ & Ha).
      exists a. done.
    + destruct (dispatch _ s) as [s' r'] eqn:E. cbn in Eo. subst r'. apply dispatch_ok in E. unfold proxy, emit in E. minv E. clean.
      match goal with X : dispatch _ _ = _ |- _ => apply dispatch_ok, run_call_ok in X as (_ & a & Hp & _ & Ha) end. exists a. done.
    + destruct (processed_event_handler c e d s) as [s' r'] eqn:E. cbn in Eo. subst r'. apply eth_ok in E as (a & Hp & _ & Ha). exists a. done.
  - split; [|done]. destruct (step_cases c cr s o (inv_roomy _ _ HI)) as [(ps & E & [E'|E'])|(a & Hp & _ & Ha & _)].
    + exact E'.
    + destruct o; try done; discriminate.
    + exfalso. eauto.
Qed.
Example C24_example : let s := run ex_c ex_cr genesis [OpMint 1 [1; 2] ex_royalties 77] in
  s_nfts s !! ex_id = Some (mkNft 0 [1; 2] 0 1 false) /\ snd (exec ex_c ex_cr (OpMint 2 [1; 2] [] 78) s) = Err "ExternalRefIsAlreadyInUse".
Proof. vm_compute. auto. Qed.

(** ** C25: batches *)

(** However many NFTs the chain says were minted from a batch, they are no more than the supply announced
    when the batch was created; they are all different. *)
Theorem C25_supply c cr ops b n creator authority : let s := run c cr genesis ops in
  In (BatchCreated b n creator authority) (s_events s) ->
  N.of_nat (length (minted_from b (s_events s))) <= n /\ n <= c_batch_bound c.
Proof.
  intros s Hin. pose proof (inv_reach c cr ops) as HI. fold s in HI.
  apply (proj2 (iv_created _ _ HI)) in Hin as (i & x & H1 & H2 & H3 & _).
  destruct (iv_batch _ _ HI _ _ H1) as (y & H4 & _ & H5 & H6). assert (y = x) as -> by congruence.
  rewrite (iv_from _ _ HI), rev_length. subst n. lia.
Qed.
(** A batch is created once, and only created batches are minted from. *)
Theorem C25_created_once c cr ops : let s := run c cr genesis ops in
  NoDup (created (s_events s)) /\ forall id b authority owner, In (BatchNftMinted id b authority owner) (s_events s) -> In b (created (s_events s)).
Proof.
  intros s. pose proof (inv_reach c cr ops) as HI. fold s in HI. split; [apply (iv_created _ _ HI)|].
  intros id b au ow Hin. assert (Hm : In id (minted_from b (s_events s))).
  { unfold minted_from. apply elem_of_list_In, elem_of_list_omap. exists (BatchNftMinted id b au ow). split; [apply elem_of_list_In; exact Hin|]. cbn. now rewrite N.eqb_refl. }
  rewrite (iv_from _ _ HI), <- in_rev in Hm. apply (iv_member _ _ HI) in Hm as (m & _ & Hb).
  destruct (iv_batch _ _ HI _ _ Hb) as (x & Hx & _). apply created_in.
  destruct (i_creator x) as [a|] eqn:Ec.
  - exists (i_supply x), a, (i_authority x). apply (proj2 (iv_created _ _ HI)). eauto 10.
  - exfalso. clear - Hb Hx Ec. revert Hb Hx Ec. unfold s. generalize (n_info m) as i. intros i Hb Hx Ec.
    assert (Hall : forall b i x, s_binfo (run c cr genesis ops) !! b = Some i -> s_infos (run c cr genesis ops) !! i = Some x -> is_Some (i_creator x)).
    2: { destruct (Hall _ _ _ Hb Hx) as [? E]. congruence. }
    clear. unfold run. assert (G : forall s, Inv c s -> (forall b i x, s_binfo s !! b = Some i -> s_infos s !! i = Some x -> is_Some (i_creator x)) ->
      forall b i x, s_binfo (fold_left (step c cr) ops s) !! b = Some i -> s_infos (fold_left (step c cr) ops s) !! i = Some x -> is_Some (i_creator x)).
    2: { apply G; [apply inv_genesis|]. intros b i x H. cbn in H. now rewrite lookup_empty in H. }
    induction ops as [|o ops IH]; intros s HI Hs; [exact Hs|]. cbn. apply IH; [now apply inv_step|]. clear IH.
    destruct (step_cases c cr s o (inv_roomy _ _ HI)) as [(ps & -> & _)|(a & Hp & -> & _)]; [exact Hs|].
    destruct (wrap_same o (post s a)) as (_ & _ & _ & _ & _ & -> & ->).
    destruct a as [id' i r l au ow|id' m|id' to e|id' e|b i k l au sd|b i id' ow r au|b m sd|b m [sd|]]; cbn; try exact Hs.
    + destruct Hp as (_ & _ & _ & -> & _). intros b i x Hb Hx. rewrite lookup_insert_ne in Hx; [eauto|].
      intros E. destruct (iv_batch _ _ HI _ _ Hb) as (y & Hy & _). apply (iv_info _ _ HI) in Hy as [Hy _]. lia.
    + destruct Hp as (_ & _ & -> & _). intros b' i x Hb Hx. destruct (decide (b' = b)) as [->|Hne].
      * rewrite lookup_insert in Hb. injection Hb as <-. rewrite lookup_insert in Hx. injection Hx as <-. cbn. eauto.
      * rewrite lookup_insert_ne in Hb by done. rewrite lookup_insert_ne in Hx; [eauto|].
        intros E. destruct (iv_batch _ _ HI _ _ Hb) as (y & Hy & _). apply (iv_info _ _ HI) in Hy as [Hy _]. lia.
Qed.

(** An NFT is minted from a batch only while the batch is listed, by an instruction that its creator signed if
    it is listed for fiat sale and by a processed Ethereum event if it is listed on Ethereum; one at a time. *)
Theorem C25_mint_only_while_listed c cr ops o b : let s := run c cr genesis ops in let s' := step c cr s o in
  minted_from b (s_events s') <> minted_from b (s_events s) ->
  exists id index owner r, minted_from b (s_events s') = id :: minted_from b (s_events s) /\
    s_nfts s !! id = None /\ (exists n, s_nfts s' !! id = Some n /\ n_ref n = r /\ n_owner n = owner) /\
    ((s_bsale s !! b = Some Fiat /\ exists creator n authority, In (BatchCreated b n creator authority) (s_events s) /\ creator_mints cr creator b index owner r o) \/
     (s_bsale s !! b = Some Ethereum /\ eth_mints s b index owner r o)).
Proof.
  intros s s' Hne. pose proof (inv_reach c cr ops) as HI. fold s in HI. pose proof (inv_step c cr s o HI) as HI'. fold s' in HI'.
  destruct (step_cases c cr s o (inv_roomy _ _ HI)) as [(ps & E & _)|(a & Hp & E & Ha & _)].
  { exfalso. apply Hne. unfold s'. rewrite E. reflexivity. }
  assert (Ew : minted_from b (s_events s') = minted_from b (s_events (post s a))).
  { unfold s'. rewrite E. now destruct o. }
  assert (En : s_nfts s' = s_nfts (post s a)) by (unfold s'; rewrite E; now destruct o).
  destruct (auth_quiet _ _ _ _ _ Ha) as [Q1 Q2].
  destruct a as [id' i r l au ow|id' m|id' to e|id' e|b' i k l au sd|b' i id' ow r au|b' m sd|b' m sd];
    try (exfalso; apply Hne; rewrite Ew; cbn; first [reflexivity | apply quiet_from; eauto | destruct sd; reflexivity]).
  assert (Em : minted_from b (s_events s') = (if b' =? b then [id'] else []) ++ minted_from b (s_events s)).
  { rewrite Ew. unfold minted_from. cbn. destruct (b' =? b); done. }
  destruct (N.eqb_spec b' b) as [->|Hb]; [|exfalso; apply Hne; exact Em]. cbn in Em.
  destruct Hp as (Hu & Hn & Hb & Hl & x & Hx & Hlen).
  assert (Hnew : exists n, s_nfts s' !! id' = Some n /\ n_ref n = r /\ n_owner n = ow).
  { eexists. rewrite En. cbn. rewrite lookup_insert. done. }
  assert (Hcall : forall j, submitted o j -> call_auth c cr s j (AMintBatch b i id' ow r au) ->
    exists id index owner r, minted_from b (s_events s') = id :: minted_from b (s_events s) /\
    s_nfts s !! id = None /\ (exists n, s_nfts s' !! id = Some n /\ n_ref n = r /\ n_owner n = owner) /\
    ((s_bsale s !! b = Some Fiat /\ exists creator n authority, In (BatchCreated b n creator authority) (s_events s) /\ creator_mints cr creator b index owner r o) \/
     (s_bsale s !! b = Some Ethereum /\ eth_mints s b index owner r o))).
  { intros j Hsub [Hv Hj]. destruct j as [p r0 l au0|p id0 m|p id0 to|p id0|p n l au0|p b0 ix ow0 r0|p b0 m|p b0]; cbn in Hj; try discriminate;
      try (destruct Hj as [Hj _]; discriminate).
    destruct Hj as ((i0 & au0 & Ej) & Hs & i1 & x1 & Hi1 & Hx1 & Hc). injection Ej as <- <- -> <- <- <-.
    exists (batch_nft_id c b ix), ix, ow, r. split; [exact Em|]. split; [exact Hn|]. split; [exact Hnew|]. left. split; [exact Hs|].
    exists (pf_signer p), (i_supply x1), (i_authority x1). split; [apply (proj2 (iv_created _ _ HI)); eauto 10|].
    exists p. split; [exact Hsub|]. split; [reflexivity|exact Hv]. }
  destruct o as [sender r0 l au0|sender id0 m|sender j|relayer j|e d|e|e]; cbn in Ha; try done.
  - now destruct Ha.
  - destruct Ha as [-> Ha]. apply (Hcall j); [now left|exact Ha].
  - destruct Ha as [-> Ha]. apply (Hcall j); [now right|exact Ha].
  - destruct Ha as [He Ha]. destruct d as [id0 to k|id0 k|b0 ow0 ix r0|b0]; cbn in Ha; try (destruct Ha as [Ha _]; discriminate); try discriminate.
    destruct Ha as ((i0 & au0 & Ej) & Hs). injection Ej as <- <- -> <- <- <-.
    exists (batch_nft_id c b ix), ix, ow, r. split; [exact Em|]. split; [exact Hn|]. split; [exact Hnew|]. right. split; [exact Hs|]. exists e. done.
Qed.

(** A batch becomes listed only by its creator's instruction, signed over his current nonce. *)
Theorem C25_listed_by_creator c cr ops o b m : let s := run c cr genesis ops in
  s_bsale s !! b <> Some m -> s_bsale (step c cr s o) !! b = Some m ->
  s_bsale s !! b = None /\ m <> Unknown /\ exists p n authority, In (BatchCreated b n (pf_signer p) authority) (s_events s) /\
    submitted o (CListBatch p b m) /\ verify_signature cr p (list_batch_payload (pf_relayer p) b m (bnonce_of s (pf_signer p))) = true.
Proof.
  intros s Hn Hs. pose proof (inv_reach c cr ops) as HI. fold s in HI.
  destruct (step_cases c cr s o (inv_roomy _ _ HI)) as [(ps & E & _)|(a & Hp & E & Ha & _)]; rewrite E in Hs; [done|].
  destruct (wrap_same o (post s a)) as (_ & _ & _ & _ & Eb & _). rewrite Eb in Hs.
  destruct a as [id' i r l au ow|id' m'|id' to e|id' e|b' i k l au sd|b' i id' ow r au|b' m' sd|b' m' sd]; cbn in Hs; try done.
  2: { destruct sd; cbn in Hs; apply lookup_delete_Some in Hs as [_ Hs]; done. }
  destruct (decide (b' = b)) as [->|Hne]; [|rewrite lookup_insert_ne in Hs; done]. rewrite lookup_insert in Hs. injection Hs as ->.
  destruct Hp as (Hm & Hb & i & x & Hi & Hx & Hc & _). split; [done|]. split; [done|].
  assert (Hcall : forall j, submitted o j -> call_auth c cr s j (AListBatch b m sd) ->
    exists p n authority, In (BatchCreated b n (pf_signer p) authority) (s_events s) /\
    submitted o (CListBatch p b m) /\ verify_signature cr p (list_batch_payload (pf_relayer p) b m (bnonce_of s (pf_signer p))) = true).
  { intros j Hsub [Hv Hj]. destruct j as [p r0 l au0|p id0 m0|p id0 to|p id0|p n l au0|p b0 ix ow0 r0|p b0 m0|p b0]; cbn in Hj; try discriminate;
      try (destruct Hj as [Hj _]; discriminate).
    - destruct Hj as ((? & ? & Hj) & _). discriminate.
    - injection Hj as <- <- ->. exists p, (i_supply x), (i_authority x). split; [apply (proj2 (iv_created _ _ HI)); eauto 10|]. done. }
  destruct o as [sender r0 l au0|sender id0 m0|sender j|relayer j|e d|e|e]; cbn in Ha; try done.
  - now destruct Ha.
  - destruct Ha as [-> Ha]. apply (Hcall j); [now left|exact Ha].
  - destruct Ha as [-> Ha]. apply (Hcall j); [now right|exact Ha].
  - destruct Ha as [_ Ha]. destruct d; cbn in Ha; try (destruct Ha as [Ha _]; discriminate); try discriminate.
    destruct Ha as ((? & ? & Ha) & _). discriminate.
Qed.

(** A batch mint that an Ethereum event asks for and that fails leaves no trace, although the bridge does not
    roll back a failing handler. *)
Theorem C25_failed_event_changes_nothing c cr ops e d er : let s := run c cr genesis ops in
  snd (exec c cr (OpEthEvent e d) s) = Err er -> step c cr s (OpEthEvent e d) = s.
Proof.
  intros s H. unfold step. cbn in *. destruct (processed_event_handler c e d s) as [s' r] eqn:E. cbn in *. subst r.
  eapply eth_err; [|exact E]. apply inv_roomy with (c := c), inv_reach.
Qed.
Example C25_example : let s := run ex_c ex_cr genesis ex_ops in
  In (BatchCreated ex_batch 2 3 77) (s_events s) /\ length (minted_from ex_batch (s_events s)) = 2%nat /\
  snd (exec ex_c ex_cr (OpProxy 9 (ex_mint_batch 2 [10])) s) = Err "TotalSupplyExceeded".
Proof. vm_compute. auto 10. Qed.

(** ** C26: ownership *)

(** The owner of an NFT changes only while it is listed: on the fiat market by a transfer that its owner signed
    over its current nonce, on the Ethereum market by a processed sale event with its current nonce; the new
    owner is the one named there, and the listing is gone. *)
Theorem C26_owner_change c cr ops o id n n' : let s := run c cr genesis ops in let s' := step c cr s o in
  s_nfts s !! id = Some n -> s_nfts s' !! id = Some n' -> n_owner n' <> n_owner n ->
  s_sale s' !! id = None /\
  ((s_sale s !! id = Some Fiat /\ fiat_sale cr n id (n_owner n') o) \/
   (s_sale s !! id = Some Ethereum /\ eth_sale s n id (n_owner n') o)).
Proof.
  intros s s' Hn Hn' Hne. pose proof (inv_reach c cr ops) as HI. fold s in HI.
  destruct (step_fate c cr s o id n (inv_roomy _ _ HI) Hn) as (oa & F & Hoa). fold s' in F.
  destruct F as [oa H1 H2|m H1 H2 H3 H4|to e H1 H2 H3|e H1 H2 H3]; rewrite Hn' in H1; injection H1 as ->; try done.
  split; [exact H3|]. destruct Hoa as (Hp & Ha & _). cbn.
  assert (Hk : nft_nonce s id = n_nonce n) by (unfold nft_nonce; now rewrite Hn).
  assert (Hcall : forall j, submitted o j -> call_auth c cr s j (AMove id to e) ->
    (s_sale s !! id = Some Fiat /\ fiat_sale cr n id to o) \/ (s_sale s !! id = Some Ethereum /\ eth_sale s n id to o)).
  { intros j Hsub [Hv Hj]. destruct j as [p r0 l au0|p id0 m0|p id0 to0|p id0|p k l au0|p b0 ix ow0 r0|p b0 m0|p b0]; cbn in Hj; try discriminate;
      try (destruct Hj as [Hj _]; discriminate).
    - destruct Hj as (Hj & (n0 & Hn0 & Ho) & Hs). injection Hj as <- <- ->. left. split; [exact Hs|]. exists p. split; [exact Hsub|].
      assert (n0 = n) as -> by congruence. split; [done|]. cbn in Hv. now rewrite Hk in Hv.
    - destruct Hj as ((? & ? & Hj) & _). discriminate. }
  destruct o as [sender r0 l au0|sender id0 m0|sender j|relayer j|e0 d|e0|e0]; cbn in Ha; try done.
  - now destruct Ha.
  - destruct Ha as [-> Ha]. apply (Hcall j); [now left|exact Ha].
  - destruct Ha as [-> Ha]. apply (Hcall j); [now right|exact Ha].
  - destruct Ha as [He Ha]. destruct d as [id0 to0 k|id0 k|b0 ow0 ix r0|b0]; cbn in Ha; try (destruct Ha as [Ha _]; discriminate); try discriminate.
    + destruct Ha as (Hj & (n0 & Hn0 & <-) & Hs). injection Hj as <- <- ->. right. split; [exact Hs|]. exists e0. split; [|done].
      assert (n0 = n) as -> by congruence. reflexivity.
    + destruct Ha as ((? & ? & Ha) & _). discriminate.
Qed.

(** A listed NFT exists. *)
Theorem C26_listed_exists c cr ops id m : s_sale (run c cr genesis ops) !! id = Some m ->
  m <> Unknown /\ is_Some (s_nfts (run c cr genesis ops) !! id).
Proof. intros H. exact (iv_sale c _ (inv_reach c cr ops) _ _ H). Qed.

(** A listed NFT was listed, on that market, by the account that owns it now: directly, or by its signature
    over the nonce of that time; nothing has happened to the NFT since. *)
Theorem C26_listed_by_owner c cr ops id m n : let s := run c cr genesis ops in
  s_sale s !! id = Some m -> s_nfts s !! id = Some n ->
  exists q o r n0, ops = q ++ o :: r /\ s_nfts (run c cr genesis q) !! id = Some n0 /\ n_owner n0 = n_owner n /\
    s_sale (run c cr genesis q) !! id = None /\ n_nonce n = (n_nonce n0 + 1) mod 2 ^ 64 /\ lists cr n0 id m o.
Proof.
  intros s. subst s. revert n. induction ops as [|o ops IH] using rev_ind; intros n Hs Hn.
  { cbn in Hs. now rewrite lookup_empty in Hs. }
  unfold run in Hs, Hn. rewrite fold_left_app in Hs, Hn. cbn in Hs, Hn. fold (run c cr genesis ops) in Hs, Hn.
  pose proof (inv_reach c cr ops) as HI. set (s := run c cr genesis ops) in *.
  destruct (s_nfts s !! id) as [n1|] eqn:Hn1.
  2: { exfalso. (* a fresh NFT is not listed *)
       assert (s_sale s !! id = None) as Hns. { destruct (s_sale s !! id) eqn:E; [|done]. apply (iv_sale _ _ HI) in E as [_ [? E]]. congruence. }
       destruct (step_cases c cr s o (inv_roomy _ _ HI)) as [(ps & E & _)|(a & Hp & E & Ha & _)]; rewrite E in Hs; [cbn in Hs; congruence|].
       destruct (wrap_same o (post s a)) as (_ & Es & _). rewrite Es in Hs.
       destruct a as [id' i r l au ow|id' m'|id' to e|id' e|b' i k l au sd|b' i id' ow r au|b' m' sd|b' m' sd]; cbn in Hs; try congruence.
       - destruct Hp as (_ & _ & [? Hp]). rewrite lookup_insert_ne in Hs; congruence.
       - apply lookup_delete_Some in Hs as [_ Hs]. congruence.
       - apply lookup_delete_Some in Hs as [_ Hs]. congruence.
       - destruct sd; cbn in Hs; congruence. }
  destruct (step_fate c cr s o id n1 (inv_roomy _ _ HI) Hn1) as (oa & F & Hoa).
  destruct F as [oa H1 H2|m' H1 H2 H3 H4|to e H1 H2 H3|e H1 H2 H3]; rewrite Hn in H1; injection H1 as ->; try congruence.
  - rewrite H2 in Hs. destruct (IH _ Hs eq_refl) as (q & o' & r & n0 & -> & Hrest). exists q, o', (r ++ [o]), n0. split; [|exact Hrest]. now rewrite <- app_assoc.
  - assert (m' = m) as -> by congruence. exists ops, o, [], n1. split; [reflexivity|]. fold s. split; [exact Hn1|]. split; [reflexivity|]. split; [exact H2|].
    split; [reflexivity|]. destruct Hoa as (Hp & Ha & _).
    assert (Hk : nft_nonce s id = n_nonce n1) by (unfold nft_nonce; now rewrite Hn1).
    assert (Hcall : forall j, submitted o j -> call_auth c cr s j (AList id m) -> lists cr n1 id m o).
    { intros j Hsub [Hv Hj]. destruct j as [p r0 l au0|p id0 m0|p id0 to0|p id0|p k l au0|p b0 ix ow0 r0|p b0 m0|p b0]; cbn in Hj; try discriminate;
        try (destruct Hj as [Hj _]; discriminate).
      - destruct Hj as (Hj & (n0 & Hn0 & Ho)). injection Hj as <- <-. right. exists p. split; [exact Hsub|].
        assert (n0 = n1) as -> by congruence. split; [done|]. cbn in Hv. now rewrite Hk in Hv.
      - destruct Hj as ((? & ? & Hj) & _). discriminate. }
    destruct o as [sender r0 l au0|sender id0 m0|sender j|relayer j|e0 d|e0|e0]; cbn in Ha; try done.
    + destruct Ha as (Hj & (n0 & Hn0 & <-)). injection Hj as <- <-. assert (n0 = n1) as -> by congruence. now left.
    + destruct Ha as [-> Ha]. apply (Hcall j); [now left|exact Ha].
    + destruct Ha as [-> Ha]. apply (Hcall j); [now right|exact Ha].
    + destruct Ha as [He Ha]. destruct d as [id0 to0 k|id0 k|b0 ow0 ix r0|b0]; cbn in Ha; try (destruct Ha as [Ha _]; discriminate); try discriminate.
      destruct Ha as ((? & ? & Ha) & _). discriminate.
Qed.
Example C26_example : let s := run ex_c ex_cr genesis (take 3 ex_ops) in
  s_sale s !! ex_id = Some Fiat /\ option_map n_owner (s_nfts s !! ex_id) = Some 1 /\
  option_map n_owner (s_nfts (step ex_c ex_cr s (OpProxy 9 ex_transfer)) !! ex_id) = Some 2.
Proof. vm_compute. auto. Qed.

(** ** C27: nonces *)

(** In every step an NFT either keeps its nonce, owner and listing, or its nonce goes up by one (u64) and it
    becomes listed or stops being listed. *)
Theorem C27_nonce_counts_changes c cr ops o id n n' : let s := run c cr genesis ops in let s' := step c cr s o in
  s_nfts s !! id = Some n -> s_nfts s' !! id = Some n' ->
  (n' = n /\ s_sale s' !! id = s_sale s !! id) \/
  (n_nonce n' = (n_nonce n + 1) mod 2 ^ 64 /\
   ((s_sale s !! id = None /\ is_Some (s_sale s' !! id)) \/ (is_Some (s_sale s !! id) /\ s_sale s' !! id = None))).
Proof.
  intros s s' Hn Hn'. pose proof (inv_reach c cr ops) as HI. fold s in HI.
  destruct (step_fate c cr s o id n (inv_roomy _ _ HI) Hn) as (oa & F & Hoa). fold s' in F.
  destruct F as [oa H1 H2|m H1 H2 H3 H4|to e H1 H2 H3|e H1 H2 H3]; rewrite Hn' in H1; injection H1 as ->.
  - now left.
  - right. split; [reflexivity|]. left. rewrite H3. eauto.
  - right. split; [reflexivity|]. right. done.
  - right. split; [reflexivity|]. right. done.
Qed.

(** A signed instruction takes effect only with a signature of its signer over the current nonces, submitted by
    the signer or by the relayer named in the proof. *)
Theorem C27_needs_signature c cr ops o i : let s := run c cr genesis ops in accepted c cr s o = Some i ->
  submitted o i /\ verify_signature cr (call_proof i) (payload_of s i) = true.
Proof.
  intros s H. apply accepted_inv in H as (H1 & _ & a & _ & [H2 _] & _); [done|]. apply inv_roomy with (c := c), inv_reach.
Qed.
(** No signer's payload takes effect twice in a history of fewer than 2^64 operations: this covers listing,
    cancelling, transferring, creating and ending batches (by their nonces) and minting (by its reference). *)
Theorem C27_no_payload_twice c cr ops : Forall typed_op ops -> N.of_nat (length ops) < 2 ^ 64 ->
  NoDup (accepted_payloads c cr genesis ops).
Proof. intros Ht Hb. apply payloads_nodup; [apply inv_genesis|exact Ht|now apply low_genesis]. Qed.

Lemma accepted_payloads_app c cr a : forall b s,
  accepted_payloads c cr s (a ++ b) = accepted_payloads c cr s a ++ accepted_payloads c cr (run c cr s a) b.
Proof. induction a as [|o a IH]; intros b s; [reflexivity|]. cbn. rewrite IH. now rewrite app_assoc. Qed.
Lemma wrapped_not_payload x s i : wrapped x <> payload_of s i.
Proof.
  rewrite payload_shape. unfold wrapped. intros E. apply (f_equal (hd 0)) in E. cbn in E. destruct i; vm_compute in E; discriminate.
Qed.
Lemma wrapped_same x y : wrapped x = wrapped y -> x = y.
Proof.
  unfold wrapped. intros E. apply app_inv_head in E. now apply app_inv_tail in E.
Qed.
(** The bytes that are signed determine the instruction completely: its kind, every argument, the relayer and
    the nonce.  A signature for one instruction is no signature for another. *)
Theorem C27_payload_unambiguous c cr ops ops' i j :
  N.of_nat (length ops) < 2 ^ 64 -> N.of_nat (length ops') < 2 ^ 64 -> typed_call i -> typed_call j ->
  let s := run c cr genesis ops in let t := run c cr genesis ops' in
  payload_of s i = payload_of t j -> meaning_of s i = meaning_of t j.
Proof.
  intros H1 H2 Hi Hj s t E. apply payload_meaning; try assumption; apply run_low; try apply inv_genesis; apply low_genesis; lia.
Qed.
(** Hence no signature takes effect twice, when a signature is good for one message only. *)
Theorem C27_no_signature_twice c cr ops1 o1 ops2 o2 ops3 i1 i2 :
  let ops := ops1 ++ o1 :: ops2 ++ o2 :: ops3 in
  let s1 := run c cr genesis ops1 in let s2 := run c cr s1 (o1 :: ops2) in
  one_message cr -> Forall typed_op ops -> N.of_nat (length ops) < 2 ^ 64 ->
  accepted c cr s1 o1 = Some i1 -> accepted c cr s2 o2 = Some i2 ->
  pf_signer (call_proof i1) = pf_signer (call_proof i2) -> pf_sig (call_proof i1) = pf_sig (call_proof i2) -> False.
Proof.
  intros ops s1 s2 [Hsr Hec] Ht Hb Ha1 Ha2 Hsg Hsig.
  assert (Hnd : NoDup (accepted_payloads c cr genesis ops)) by (now apply C27_no_payload_twice).
  unfold ops in Hnd. rewrite accepted_payloads_app in Hnd. fold s1 in Hnd. apply NoDup_app in Hnd as (_ & _ & Hnd).
  change (o1 :: ops2 ++ o2 :: ops3) with ((o1 :: ops2) ++ o2 :: ops3) in Hnd. rewrite accepted_payloads_app in Hnd. fold s2 in Hnd.
  cbn [accepted_payloads] in Hnd. rewrite Ha1, Ha2 in Hnd. cbn [app] in Hnd. apply NoDup_cons in Hnd as [Hnd _].
  destruct (C27_needs_signature c cr ops1 o1 i1 Ha1) as [_ Hv1].
  assert (E2 : s2 = run c cr genesis (ops1 ++ o1 :: ops2)) by (unfold s2, s1, run; now rewrite fold_left_app).
  rewrite E2 in Ha2. destruct (C27_needs_signature c cr _ o2 i2 Ha2) as [_ Hv2]. rewrite <- E2 in Hv2. fold s1 in Hv1.
  assert (Em : payload_of s1 i1 = payload_of s2 i2).
  { unfold verify_signature in Hv1, Hv2. rewrite <- Hsig, <- Hsg in Hv2. destruct (pf_sig (call_proof i1)) as [sg|sg|sg].
    - apply orb_true_iff in Hv1, Hv2. destruct Hv1 as [H1|H1], Hv2 as [H2|H2]; pose proof (Hsr _ _ _ _ H1 H2) as E.
      + now apply wrapped_same.
      + now apply wrapped_not_payload in E.
      + symmetry in E. now apply wrapped_not_payload in E.
      + exact E.
    - destruct (cr_recover cr sg (payload_of s1 i1)) as [a1|] eqn:E1; [|discriminate].
      destruct (cr_recover cr sg (payload_of s2 i2)) as [a2|] eqn:E3; [|discriminate].
      apply N.eqb_eq in Hv1, Hv2. subst a1 a2. eapply Hec; eassumption.
    - discriminate. }
  apply Hnd. rewrite Em, Hsg. apply elem_of_app. right. left.
Qed.

(** A sale or cancellation event for a nonce of an NFT takes effect at most once: afterwards every event for
    that NFT and nonce fails and changes nothing. *)
Theorem C27_sale_event_once c cr ops1 e d ops2 e' d' id k :
  N.of_nat (length (ops1 ++ OpEthEvent e d :: ops2)) < 2 ^ 64 ->
  eth_target d = Some (id, k) -> eth_target d' = Some (id, k) ->
  snd (exec c cr (OpEthEvent e d) (run c cr genesis ops1)) = Ok tt ->
  let s := run c cr genesis (ops1 ++ OpEthEvent e d :: ops2) in
  is_ok (snd (exec c cr (OpEthEvent e' d') s)) = false /\ step c cr s (OpEthEvent e' d') = s.
Proof.
  intros Hb Hd Hd' Hok s.
  set (s1 := run c cr genesis ops1) in *. set (o := OpEthEvent e d) in *.
  assert (Hs : s = run c cr (step c cr s1 o) ops2) by (unfold s, run; now rewrite fold_left_app).
  rewrite app_length in Hb. cbn [length] in Hb.
  assert (HI1 : Inv c s1) by apply inv_reach.
  assert (HL1 : low s1 (N.of_nat (length ops2) + 1)).
  { apply run_low; [apply inv_genesis|]. apply low_genesis. lia. }
  assert (G : grows s1 (step c cr s1 o)) by (apply step_grows; [now apply inv_roomy|]; eapply low_le; [exact HL1|lia]).
  assert (Hk : k < nft_nonce (step c cr s1 o) id).
  { unfold step, o in *. cbn [exec] in *. destruct (processed_event_handler c e d s1) as [s' r] eqn:E. cbn in Hok. subst r.
    apply eth_ok in E as (a & Hp & -> & _ & Ha). cbn [fst]. destruct d as [id0 to0 k0|id0 k0|b0 ow0 ix r0|b0]; cbn in Hd; try discriminate; injection Hd as -> ->;
      destruct Ha as (-> & (n & Hn & <-) & _); destruct HL1 as [HL1 _]; specialize (HL1 id); unfold nft_nonce in HL1 |- *; rewrite Hn in HL1; cbn;
      rewrite lookup_alter, Hn; cbn; rewrite N.mod_small by lia; lia. }
  assert (Hk2 : k < nft_nonce s id).
  { eapply N.lt_le_trans; [exact Hk|]. rewrite Hs. apply nonce_run_mono; [now apply inv_step|]. eapply grows_low; [exact G|]. eapply low_le; [exact HL1|lia]. }
  assert (HI : Inv c s) by apply inv_reach.
  assert (Hno : is_ok (snd (exec c cr (OpEthEvent e' d') s)) = false).
  { cbn. destruct (processed_event_handler c e' d' s) as [s' [[]|er]] eqn:E; [exfalso|done].
    apply eth_ok in E as (a & Hp & -> & _ & Ha). destruct d' as [id0 to0 k0|id0 k0|b0 ow0 ix r0|b0]; cbn in Hd'; try discriminate; injection Hd' as -> ->;
      destruct Ha as (-> & (n & Hn & <-) & _); unfold nft_nonce in Hk2; rewrite Hn in Hk2; lia. }
  split; [exact Hno|]. destruct (snd (exec c cr (OpEthEvent e' d') s)) as [|er] eqn:E; [discriminate|].
  exact (C25_failed_event_changes_nothing c cr _ e' d' er E).
Qed.
Example C27_example : Forall typed_op ex_ops /\
  let s := run ex_c ex_cr genesis (take 7 ex_ops) in
  snd (exec ex_c ex_cr (OpEthEvent 50 (LogNftTransferTo ex_id 1 3)) s) = Ok tt /\
  accepted ex_c ex_cr (run ex_c ex_cr genesis (take 3 ex_ops)) (OpProxy 9 ex_transfer) = Some ex_transfer /\
  accepted ex_c ex_cr (run ex_c ex_cr genesis (take 4 ex_ops)) (OpProxy 9 ex_transfer) = None.
Proof. split; [|vm_compute; auto]. repeat constructor. Qed.

(** ** C28: royalties *)
Lemma rate_sum_exact l : N.of_nat (length l) <= 16 -> (forall r, In r l -> ro_rate r <= 1000000) -> rate_sum l = total_rate l.
Proof.
  intros Hl Hr. assert (H : rate_sum l = total_rate l /\ total_rate l <= N.of_nat (length l) * 1000000).
  { induction l as [|r l IH]; [cbn; lia|]. destruct IH as [IH1 IH2]; [cbn [length] in Hl; lia|intros x Hx; apply Hr; now right|].
    specialize (Hr r (or_introl eq_refl)). cbn [rate_sum total_rate fold_right length] in *. fold (total_rate l). rewrite IH1.
    split; [|lia]. apply N.mod_small. change (2 ^ 32) with 4294967296. lia. }
  apply H.
Qed.
(** Every NFT has a royalty record, and in every royalty record (of a single NFT or of a batch) there are at
    most 16 rates, each at most 100%, and their exact sum is at most 100%. *)
Theorem C28_royalties_bounded c cr ops i x : s_infos (run c cr genesis ops) !! i = Some x ->
  N.of_nat (length (i_royalties x)) <= 16 /\ (forall r, In r (i_royalties x) -> ro_rate r <= 1000000) /\ total_rate (i_royalties x) <= 1000000.
Proof.
  intros H. apply (iv_info c _ (inv_reach c cr ops)) in H as [_ (H1 & H2 & H3)]. split; [exact H1|]. split; [exact H2|].
  now rewrite <- rate_sum_exact.
Qed.
Theorem C28_every_nft_has_royalties c cr ops id n : s_nfts (run c cr genesis ops) !! id = Some n ->
  is_Some (s_infos (run c cr genesis ops) !! n_info n).
Proof. intros H. now apply (iv_nft c _ (inv_reach c cr ops)) in H as (_ & _ & H). Qed.
(** What is stored for a new NFT is the list given by the minter, and it is never changed. *)
Theorem C28_royalties_as_given c cr ops sender r l authority : let s := run c cr genesis ops in
  let s' := step c cr s (OpMint sender r l authority) in snd (exec c cr (OpMint sender r l authority) s) = Ok tt ->
  exists id n x, s_nfts s !! id = None /\ s_nfts s' !! id = Some n /\ n_owner n = sender /\ n_ref n = r /\
    s_infos s' !! n_info n = Some x /\ i_royalties x = l /\ i_authority x = authority.
Proof.
  intros s s' Hok. destruct (step_cases c cr s (OpMint sender r l authority) (inv_roomy _ _ (inv_reach c cr ops))) as [(ps & E & [E'|[]])|(a & Hp & E & Ha & _)].
  - exfalso. unfold step in E'. cbn [exec] in *. destruct (dispatch _ s) as [s2 r2] eqn:Ed. cbn in Hok, E'. subst r2 s2. apply dispatch_ok in Ed.
    unfold mint_single_nft, bounded_ref in Ed. minv Ed. clean.
    match goal with X : validate_mint_single _ _ _ _ = _ |- _ => apply validate_mint_single_ok in X as (-> & ? & ? & ? & ?) end.
    eapply do_mint_single_ok in Ed; [|done..]. destruct Ed as [_ Ed]. apply (f_equal s_next_unique) in Ed. cbn in Ed. lia.
  - cbn in Ha. subst a. destruct Hp as (_ & _ & Hn & _). unfold s'. rewrite E. cbn.
    do 3 eexists. split; [exact Hn|]. rewrite lookup_insert. split; [reflexivity|]. cbn. rewrite lookup_insert. done.
Qed.
Theorem C28_royalties_never_change c cr ops ops' i x : s_infos (run c cr genesis ops) !! i = Some x ->
  s_infos (run c cr genesis (ops ++ ops')) !! i = Some x.
Proof.
  intros Hn. unfold run. rewrite fold_left_app. fold (run c cr genesis ops). generalize (inv_reach c cr ops). revert Hn.
  generalize (run c cr genesis ops) as s. clear ops. intros s. revert s. induction ops' as [|o ops IH]; intros s Hn HI; [exact Hn|].
  cbn. apply IH; [|now apply inv_step].
  destruct (step_cases c cr s o (inv_roomy _ _ HI)) as [(ps & -> & _)|(a & Hp & -> & _)]; [exact Hn|].
  destruct (wrap_same o (post s a)) as (_ & _ & _ & _ & _ & -> & _). pose proof (proj1 (iv_info _ _ HI _ _ Hn)) as Hlt.
  destruct a as [id' i' r l au ow|id' m|id' to e|id' e|b i' k l au sd|b i' id' ow r au|b m sd|b m [sd|]]; cbn; try exact Hn; cbn in Hp.
  - destruct Hp as (_ & _ & _ & -> & _). rewrite lookup_insert_ne; [exact Hn|lia].
  - destruct Hp as (_ & _ & -> & _). rewrite lookup_insert_ne; [exact Hn|lia].
Qed.
Example C28_example : let s := run ex_c ex_cr genesis ex_ops in
  s_infos s !! 0 = Some (mkInfo None ex_royalties 1 77 None) /\ s_infos s !! 1 = Some (mkInfo (Some ex_batch) ex_royalties 2 77 (Some 3)) /\
  snd (exec ex_c ex_cr (OpMint 1 [5] [mkRoyalty 1 600000; mkRoyalty 2 600000] 77) s) = Err "TotalRoyaltyRateIsNotValid".
Proof. vm_compute. auto. Qed.
