(** The effect of every operation of the NFT manager. *)
From Verif Require Import Base BaseLemmas CodecModel SigModel NftModel NftSpec.

Definition add_event (e : event) (s : st) : st := s <| s_events := e :: s_events s |>.

(** What a successful operation does. *)
Inductive act :=
| AMint (id info_id : N) (r : list N) (l : list royalty) (authority owner : N)
| AList (id : N) (m : market)
| AMove (id to : N) (e : event)
| ACancel (id : N) (e : event)
| ACreate (b i supply : N) (l : list royalty) (authority sender : N)
| AMintBatch (b i id owner : N) (r : list N) (authority : N)
| AListBatch (b : N) (m : market) (sender : N)
| AEndBatch (b : N) (m : market) (sender : option N).

Definition unused (s : st) (r : list N) : Prop := r <> [] /\ mget false r (s_used s) = false.
Definition good_royalties (l : list royalty) : Prop :=
  N.of_nat (length l) <= 16 /\ (forall r, In r l -> ro_rate r <= 1000000) /\ rate_sum l <= 1000000.
Definition bn_up (a : N) (s : st) : gmap N N := <[a := (bnonce_of s a + 1) mod 2 ^ 64]> (s_bnonce s).

Definition pre (c : config) (s : st) (a : act) : Prop :=
  match a with
  | AMint id i r l au ow => unused s r /\ good_royalties l /\ s_nfts s !! id = None /\ i = s_next_info s /\ au <> 0
  | AList id m => m <> Unknown /\ s_sale s !! id = None /\ is_Some (s_nfts s !! id)
  | AMove id to e => is_Some (s_sale s !! id) /\ is_Some (s_nfts s !! id)
  | ACancel id e => is_Some (s_sale s !! id) /\ is_Some (s_nfts s !! id)
  | ACreate b i n l au a => good_royalties l /\ s_binfo s !! b = None /\ i = s_next_info s /\ 0 < n <= c_batch_bound c
  | AMintBatch b i id ow r au => unused s r /\ s_nfts s !! id = None /\ s_binfo s !! b = Some i /\ is_Some (s_bsale s !! b) /\
      exists x, s_infos s !! i = Some x /\ N.of_nat (length (batch_nfts s b)) < i_supply x
  | AListBatch b m a => m <> Unknown /\ s_bsale s !! b = None /\ exists i x, s_binfo s !! b = Some i /\ s_infos s !! i = Some x /\
      i_creator x = Some a /\ N.of_nat (length (batch_nfts s b)) < i_supply x
  | AEndBatch b m a => s_bsale s !! b = Some m /\ is_Some (s_binfo s !! b)
  end.

Definition post (s : st) (a : act) : st :=
  match a with
  | AMint id i r l au ow =>
      add_event (SingleNftMinted id ow au)
       (s <| s_next_unique := s_next_unique s + 1 |> <| s_next_info := i + 1 |>
          <| s_infos := <[i := mkInfo None l 1 au None]> (s_infos s) |>
          <| s_nfts := <[id := mkNft i r 0 ow false]> (s_nfts s) |> <| s_used := <[r := true]> (s_used s) |>)
  | AList id m =>
      add_event (NftOpenForSale id m) (s <| s_sale := <[id := m]> (s_sale s) |> <| s_nfts := alter bump id (s_nfts s) |>)
  | AMove id to e =>
      add_event e (s <| s_sale := delete id (s_sale s) |>
        <| s_nfts := alter (fun n => bump (n <| n_owner := to |>)) id (s_nfts s) |>)
  | ACancel id e => add_event e (s <| s_sale := delete id (s_sale s) |> <| s_nfts := alter bump id (s_nfts s) |>)
  | ACreate b i n l au a =>
      add_event (BatchCreated b n a au)
       (s <| s_next_unique := s_next_unique s + 1 |> <| s_next_info := i + 1 |>
          <| s_binfo := <[b := i]> (s_binfo s) |> <| s_infos := <[i := mkInfo (Some b) l n au (Some a)]> (s_infos s) |>
          <| s_bnonce := bn_up a s |>)
  | AMintBatch b i id ow r au =>
      add_event (BatchNftMinted id b au ow)
       (s <| s_nfts := <[id := mkNft i r 0 ow false]> (s_nfts s) |> <| s_used := <[r := true]> (s_used s) |>
          <| s_batches := <[b := batch_nfts s b ++ [id]]> (s_batches s) |>)
  | AListBatch b m a => add_event (BatchOpenForSale b m) (s <| s_bsale := <[b := m]> (s_bsale s) |> <| s_bnonce := bn_up a s |>)
  | AEndBatch b m a =>
      let s1 := add_event (BatchSaleEnded b m) (s <| s_bsale := delete b (s_bsale s) |>) in
      match a with Some x => s1 <| s_bnonce := bn_up x s |> | None => s1 end
  end.

Lemma validate_external_ref_ok r s s' : validate_external_ref r s = (s', Ok tt) -> s' = s /\ unused s r.
Proof.
  unfold validate_external_ref. intros H. minv H. split; [done|]. unfold unused.
  split; [now destruct r|]. now destruct (mget false r _).
Qed.
Lemma validate_external_ref_err r s s' e : validate_external_ref r s = (s', Err e) -> s' = s.
Proof. unfold validate_external_ref, mbind_, ensure, get_st. destruct r; cbn; [congruence|]. destruct (negb _); congruence. Qed.
Lemma validate_royalties_ok l s s' : validate_royalties l s = (s', Ok tt) ->
  s' = s /\ (forall r, In r l -> ro_rate r <= 1000000) /\ rate_sum l <= 1000000.
Proof.
  unfold validate_royalties, RATE_DENOMINATOR. intros H. minv H. split; [done|]. split; [|lia].
  intros r Hr. destruct (N.leb_spec (ro_rate r) 1000000); [done|]. exfalso.
  match goal with X : negb (existsb ?f l) = true |- _ => assert (existsb f l = true) as Y; [|rewrite Y in X; discriminate] end.
  apply existsb_exists. exists r. split; [done|]. destruct (N.leb_spec (ro_rate r) 1000000); [lia|done].
Qed.
Lemma bounded_royalties_ok l s s' : bounded_royalties l s = (s', Ok tt) -> s' = s /\ N.of_nat (length l) <= 16.
Proof. unfold bounded_royalties, MAX_ROYALTIES. intros H. minv H. split; [done|lia]. Qed.
Lemma validate_mint_single_ok r l au s s' : validate_mint_single r l au s = (s', Ok tt) ->
  s' = s /\ unused s r /\ (forall x, In x l -> ro_rate x <= 1000000) /\ rate_sum l <= 1000000 /\ au <> 0.
Proof.
  unfold validate_mint_single. intros H. minv H. repeat match goal with u : unit |- _ => destruct u end.
  match goal with X : validate_external_ref _ _ = _ |- _ => apply validate_external_ref_ok in X as [-> ?] end. apply validate_royalties_ok in H as (-> & ? & ?).
  repeat (split; [done|]). lia.
Qed.
Lemma try_get_nft_ok id s s' n : try_get_nft id s = (s', Ok n) -> s' = s /\ s_nfts s !! id = Some n.
Proof. unfold try_get_nft. intros H. now minv H. Qed.

Lemma do_mint_single_ok c r l au ow s s' : do_mint_single c r l au ow s = (s', Ok tt) ->
  unused s r -> (forall x, In x l -> ro_rate x <= 1000000) -> rate_sum l <= 1000000 -> au <> 0 ->
  let a := AMint (single_nft_id c au (s_next_unique s)) (s_next_info s) r l au ow in pre c s a /\ s' = post s a.
Proof.
  intros H Hu Hr Hs Ha. unfold do_mint_single, next_unique, next_info, insert_single, add_nft, emit in H. minv H.
  repeat match goal with u : unit |- _ => destruct u end.
  match goal with X : bounded_royalties _ _ = _ |- _ => apply bounded_royalties_ok in X as [? ?] end. subst. cbn in *.
  split; [|reflexivity].
  split; [done|]. split; [split; [done|]; split; [done|done]|]. split; [|done].
  match goal with X : negb (bool_decide (is_Some (_ !! single_nft_id _ _ _))) = true |- _ => rename X into Hne end.
  destruct (_ !! single_nft_id _ _ _) eqn:E; [|done]. exfalso. rewrite bool_decide_eq_true_2 in Hne; [done|eauto].
Qed.

Lemma validate_open_ok sender id m s s' : validate_open_for_sale sender id m s = (s', Ok tt) ->
  s' = s /\ m <> Unknown /\ s_sale s !! id = None /\ exists n, s_nfts s !! id = Some n /\ n_owner n = sender /\ n_locked n = false.
Proof.
  unfold validate_open_for_sale. intros H. minv H.
  match goal with X : try_get_nft _ _ = _ |- _ => apply try_get_nft_ok in X as [-> ?] end. minv H.
  match goal with X : negb (bool_decide (m = Unknown)) = true |- _ => apply negb_true_iff, bool_decide_eq_false in X end.
  match goal with X : negb (bool_decide (is_Some _)) = true |- _ => apply negb_true_iff, bool_decide_eq_false in X; rename X into Hns end.
  split; [done|]. split; [done|]. split; [destruct (s_sale _ !! id); [exfalso; eauto|done]|].
  eexists. split; [done|]. split; [lia|]. now destruct (n_locked _).
Qed.
Lemma validate_fiat_ok sender id s s' : validate_fiat_sale sender id s = (s', Ok tt) ->
  s' = s /\ s_sale s !! id = Some Fiat /\ exists n, s_nfts s !! id = Some n /\ n_owner n = sender /\ n_locked n = false.
Proof.
  unfold validate_fiat_sale, mget. intros H. minv H.
  match goal with X : try_get_nft _ _ = _ |- _ => apply try_get_nft_ok in X as [-> ?] end. minv H.
  repeat match goal with X : bool_decide _ = true |- _ => apply bool_decide_eq_true in X end.
  split; [done|]. split; [destruct (s_sale _ !! id); congruence|].
  eexists. split; [done|]. split; [lia|]. now destruct (n_locked _).
Qed.
Lemma remove_listing_ok id s s' : remove_listing id s = (s', Ok tt) ->
  is_Some (s_sale s !! id) /\ s' = s <| s_sale := delete id (s_sale s) |>.
Proof. unfold remove_listing. intros H. minv H. apply bool_decide_eq_true in Hens. done. Qed.
Lemma event_known_ok e s s' : event_known e s = (s', Ok tt) -> s' = s /\ e ∈ s_processed s.
Proof. intros H. unfold event_known in H. minv H. apply bool_decide_eq_true in Hens. auto. Qed.
Lemma get_batch_info_ok b s s' x : get_batch_info b s = (s', Ok x) -> s' = s /\ fst x = mget 0 b (s_binfo s) /\ s_infos s !! fst x = Some (snd x).
Proof. unfold get_batch_info. intros H. minv H. done. Qed.
Lemma validate_mint_batch_ok b r s s' x : validate_mint_batch b r s = (s', Ok x) ->
  s' = s /\ b <> 0 /\ unused s r /\ s_binfo s !! b = Some (fst x) /\ is_Some (s_bsale s !! b) /\ s_infos s !! fst x = Some (snd x) /\
  N.of_nat (length (batch_nfts s b)) < i_supply (snd x).
Proof.
  unfold validate_mint_batch. intros H. minv H. repeat match goal with u : unit |- _ => destruct u end.
  match goal with X : get_batch_info _ _ = _ |- _ => apply get_batch_info_ok in X as (-> & ? & ?) end.
  match goal with X : validate_external_ref _ _ = _ |- _ => apply validate_external_ref_ok in X as (-> & ?) end.
  repeat match goal with X : bool_decide _ = true |- _ => apply bool_decide_eq_true in X end.
  split; [done|]. split; [lia|]. split; [done|]. split; [|split; [done|split; [done|lia]]].
  match goal with X : fst _ = mget _ _ _, Y : is_Some (s_binfo _ !! _) |- _ => unfold mget in X; destruct Y as [y Y]; rewrite Y in *; congruence end.
Qed.

Lemma mint_batch_nft_ok c b owner index r s s' : mint_batch_nft c b owner index r s = (s', Ok tt) ->
  exists i au, let a := AMintBatch b i (batch_nft_id c b index) owner r au in pre c s a /\ s' = post s a.
Proof.
  unfold mint_batch_nft, add_nft, emit. intros H. minv H. repeat match goal with u : unit |- _ => destruct u end.
  match goal with X : validate_mint_batch _ _ _ = _ |- _ => apply validate_mint_batch_ok in X as (-> & ? & ? & ? & ? & ? & ?) end.
  match goal with X : negb (bool_decide (is_Some _)) = true |- _ => apply negb_true_iff, bool_decide_eq_false in X; rename X into Hns end.
  do 2 eexists. split; [|reflexivity]. split; [done|]. split; [destruct (_ !! batch_nft_id _ _ _); [exfalso; eauto|done]|].
  split; [done|]. split; [done|]. eauto.
Qed.
(** When the batch has room within the bound, a failing mint changes nothing. *)
Definition roomy (c : config) (s : st) : Prop :=
  forall b i x, s_binfo s !! b = Some i -> s_infos s !! i = Some x -> i_supply x <= c_batch_bound c.
Lemma mint_batch_nft_err c b owner index r s s' e : roomy c s -> mint_batch_nft c b owner index r s = (s', Err e) -> s' = s.
Proof.
  intros Hr H. unfold mint_batch_nft in H.
  apply mbind_inv in H as [(s1 & x & Hv & H)|(e' & Hv & _)].
  2: { symmetry. assert (Hp : preserves (eq s) (validate_mint_batch b r)); [|exact (Hp _ _ _ eq_refl Hv)].
       unfold validate_mint_batch, get_batch_info, validate_external_ref.
       repeat first [apply preserves_bind; [|intros ?] | apply preserves_ensure | apply preserves_get_st | apply preserves_some_or | apply preserves_ret]. }
  apply validate_mint_batch_ok in Hv as (-> & ? & ? & ? & ? & ? & ?).
  unfold mbind_, get_st, ensure at 1 in H.
  destruct (negb _); [|congruence]. cbn in H. unfold batch_nfts in H; cbn in H. fold (batch_nfts s b) in H.
  destruct (N.ltb_spec (N.of_nat (length (batch_nfts s b))) (c_batch_bound c)); [discriminate|].
  specialize (Hr _ _ _ ltac:(eassumption) ltac:(eassumption)). lia.
Qed.

Lemma validate_end_ok b s s' : validate_end_batch b s = (s', Ok tt) -> s' = s /\ b <> 0 /\ is_Some (s_binfo s !! b) /\ is_Some (s_bsale s !! b).
Proof.
  unfold validate_end_batch. intros H. minv H.
  repeat match goal with X : bool_decide _ = true |- _ => apply bool_decide_eq_true in X end. repeat split; try done. lia.
Qed.

(** Who may cause an act: conditions on the state, the caller (the signer of the proof) and the proof. *)
Definition nft_at (s : st) (id : N) (P : nft -> Prop) : Prop := exists n, s_nfts s !! id = Some n /\ P n.

Definition call_auth (c : config) (cr : crypto) (s : st) (i : call) (a : act) : Prop :=
  verify_signature cr (call_proof i) (payload_of s i) = true /\
  match i with
  | CMint p r l au => a = AMint (single_nft_id c au (s_next_unique s)) (s_next_info s) r l au (pf_signer p)
  | CList p id m => a = AList id m /\ nft_at s id (fun n => n_owner n = pf_signer p)
  | CTransfer p id to => a = AMove id to (FiatNftTransfer id (pf_signer p) to Fiat (nft_nonce s id)) /\
      nft_at s id (fun n => n_owner n = pf_signer p) /\ s_sale s !! id = Some Fiat
  | CCancel p id => a = ACancel id (CancelSingleFiatNftListing id Fiat (nft_nonce s id)) /\
      nft_at s id (fun n => n_owner n = pf_signer p) /\ s_sale s !! id = Some Fiat
  | CCreateBatch p n l au => a = ACreate (gen_batch_id c (s_next_unique s)) (s_next_info s) n l au (pf_signer p)
  | CMintBatch p b ix ow r => (exists i au, a = AMintBatch b i (batch_nft_id c b ix) ow r au) /\ s_bsale s !! b = Some Fiat /\
      exists i x, s_binfo s !! b = Some i /\ s_infos s !! i = Some x /\ i_creator x = Some (pf_signer p)
  | CListBatch p b m => a = AListBatch b m (pf_signer p)
  | CEndBatch p b => a = AEndBatch b Fiat (Some (pf_signer p)) /\
      exists i x, s_binfo s !! b = Some i /\ s_infos s !! i = Some x /\ i_creator x = Some (pf_signer p)
  end.

Ltac clean := repeat match goal with
  | u : unit |- _ => destruct u
  | X : bool_decide _ = true |- _ => apply bool_decide_eq_true in X
  | X : negb (bool_decide _) = true |- _ => apply negb_true_iff, bool_decide_eq_false in X
  | X : (_ =? _) = true |- _ => apply N.eqb_eq in X; subst
  end.

Lemma run_call_ok c cr sender i s s' : run_call c cr sender i s = (s', Ok tt) ->
  sender = pf_signer (call_proof i) /\ exists a, pre c s a /\ s' = post s a /\ call_auth c cr s i a.
Proof.
  destruct i as [p r l au|p id m|p id to|p id|p n l au|p b ix ow r|p b m|p b]; cbn [run_call call_proof]; intros H; unfold call_auth; cbn [call_proof payload_of].
  - unfold signed_mint_single_nft, bounded_ref in H. minv H. clean. split; [done|].
    match goal with X : validate_mint_single _ _ _ _ = _ |- _ => apply validate_mint_single_ok in X as (-> & ? & ? & ? & ?) end.
    eapply do_mint_single_ok in H; [|done..]. destruct H as [Hp ->]. eauto.
  - unfold signed_list_nft, open_nft_for_sale, mutate_nft, emit in H. minv H. clean. split; [done|].
    match goal with X : validate_open_for_sale _ _ _ _ = _ |- _ => apply validate_open_ok in X as (-> & ? & ? & n & Hn & ? & ?) end.
    match goal with X : try_get_nft _ _ = _ |- _ => apply try_get_nft_ok in X as [-> Hn'] end.
    rewrite Hn in Hn'; injection Hn' as <-.
    exists (AList id m). split; [split; [done|]; split; [done|]; eauto|]. split; [reflexivity|]. unfold nft_nonce. rewrite Hn. split; [done|].
    split; [done|]. exists n. done.
  - unfold signed_transfer_fiat_nft, transfer_nft, mutate_nft, emit in H. minv H. clean. split; [done|].
    match goal with X : validate_fiat_sale _ _ _ = _ |- _ => apply validate_fiat_ok in X as (-> & Hs & n & Hn & ? & ?) end.
    match goal with X : try_get_nft _ _ = _ |- _ => apply try_get_nft_ok in X as [-> Hn'] end.
    match goal with X : remove_listing _ _ = _ |- _ => apply remove_listing_ok in X as [Hl ->] end.
    rewrite Hn in Hn'; injection Hn' as <-.
    exists (AMove id to (FiatNftTransfer id (pf_signer p) to Fiat (nft_nonce s id))).
    split; [split; [done|]; eauto|]. unfold nft_nonce, mget. rewrite Hn, Hs. split; [reflexivity|]. split; [done|].
    split; [done|]. split; [exists n; done|done].
  - unfold signed_cancel_list_fiat_nft, unlist_nft, mutate_nft, emit in H. minv H. clean. split; [done|].
    match goal with X : validate_fiat_sale _ _ _ = _ |- _ => apply validate_fiat_ok in X as (-> & Hs & n & Hn & ? & ?) end.
    match goal with X : try_get_nft _ _ = _ |- _ => apply try_get_nft_ok in X as [-> Hn'] end.
    match goal with X : remove_listing _ _ = _ |- _ => apply remove_listing_ok in X as [Hl ->] end.
    rewrite Hn in Hn'; injection Hn' as <-.
    exists (ACancel id (CancelSingleFiatNftListing id Fiat (nft_nonce s id))).
    split; [split; [done|]; eauto|]. unfold nft_nonce, mget. rewrite Hn, Hs. split; [reflexivity|]. split; [done|].
    split; [done|]. split; [exists n; done|done].
  - unfold signed_create_batch, next_unique, next_info, bump_bnonce, emit in H. minv H. clean. split; [done|].
    match goal with X : validate_royalties _ _ = _ |- _ => apply validate_royalties_ok in X as (-> & ? & ?) end.
    match goal with X : bounded_royalties _ _ = _ |- _ => apply bounded_royalties_ok in X as [-> ?] end. cbn in *.
    eexists. split; [|split; [|split; [done|reflexivity]]].
    + split; [split; [done|]; split; done|]. split; [|split; [reflexivity|lia]].
      match goal with X : ~ is_Some (_ !! gen_batch_id _ _) |- _ => rename X into Hne end.
      destruct (_ !! gen_batch_id _ _); [exfalso; eauto|done].
    + reflexivity.
  - unfold signed_mint_batch_nft, bounded_ref in H. minv H. clean. split; [done|].
    match goal with X : validate_mint_batch _ _ _ = _ |- _ => apply validate_mint_batch_ok in X as (-> & ? & ? & ? & ? & ? & ?) end.
    apply mint_batch_nft_ok in H as (i & a & Hp & ->). eexists. split; [exact Hp|]. split; [reflexivity|]. split; [done|].
    split; [eauto|]. split; [|do 2 eexists; done].
    match goal with X : mget Unknown _ _ = Fiat |- _ => unfold mget in X; destruct (s_bsale _ !! b); congruence end.
  - unfold signed_list_batch_for_sale, bump_bnonce, emit in H. minv H. clean. split; [done|].
    match goal with X : get_batch_info _ _ = _ |- _ => apply get_batch_info_ok in X as (-> & Hf & ?) end.
    exists (AListBatch b m (pf_signer p)). split; [|split; [reflexivity|split; [done|reflexivity]]].
    split; [done|]. split; [destruct (s_bsale _ !! b); [exfalso; eauto|done]|].
    do 2 eexists. split; [|split; [eassumption|split; [done|lia]]].
    unfold mget in Hf. match goal with Y : is_Some (s_binfo _ !! _) |- _ => destruct Y as [y Y]; rewrite Y in * end. congruence.
  - unfold signed_end_batch_sale, end_batch_listing, bump_bnonce, emit in H. minv H. clean. split; [done|].
    match goal with X : get_batch_info _ _ = _ |- _ => apply get_batch_info_ok in X as (-> & Hf & ?) end.
    repeat match goal with X : validate_end_batch _ _ = _ |- _ => apply validate_end_ok in X as (-> & ? & ? & ?) end.
    match goal with X : mget Unknown _ _ = Fiat |- _ => rename X into Hm end. rewrite Hm.
    exists (AEndBatch b Fiat (Some (pf_signer p))). split; [|split; [reflexivity|split; [done|]]].
    + split; [|done]. unfold mget in Hm. destruct (s_bsale _ !! b); congruence.
    + split; [done|]. do 2 eexists. split; [|split; done].
      unfold mget in Hf. match goal with Y : is_Some (s_binfo _ !! _) |- _ => destruct Y as [y Y]; rewrite Y in * end. congruence.
Qed.

Definition eth_auth (c : config) (s : st) (e : N) (d : eth_data) (a : act) : Prop :=
  e ∈ s_processed s /\
  match d with
  | LogNftTransferTo id to k => a = AMove id to (EthNftTransfer id to Ethereum k e) /\ nft_at s id (fun n => n_nonce n = k) /\ s_sale s !! id = Some Ethereum
  | LogNftCancelListing id k => a = ACancel id (CancelSingleEthNftListing id Ethereum k e) /\ nft_at s id (fun n => n_nonce n = k) /\ s_sale s !! id = Some Ethereum
  | LogNftMinted b ow ix r => (exists i au, a = AMintBatch b i (batch_nft_id c b ix) ow r au) /\ s_bsale s !! b = Some Ethereum
  | LogNftEndBatchListing b => a = AEndBatch b Ethereum None
  end.
Lemma eth_ok c e d s s' : processed_event_handler c e d s = (s', Ok tt) ->
  exists a, pre c s a /\ s' = post s a /\ eth_auth c s e d a.
Proof.
  destruct d as [id to k|id k|b ow ix r|b]; cbn [processed_event_handler]; intros H; unfold eth_auth.
  - unfold transfer_eth_nft, transfer_nft, mutate_nft, emit in H. minv H. clean.
    match goal with X : event_known _ _ = _ |- _ => apply event_known_ok in X as [-> ?] end.
    match goal with X : try_get_nft _ _ = _ |- _ => apply try_get_nft_ok in X as [-> Hn] end.
    match goal with X : remove_listing _ _ = _ |- _ => apply remove_listing_ok in X as [Hl ->] end.
    match goal with X : mget Unknown _ _ = Ethereum |- _ => rename X into Hm; rewrite Hm end.
    eexists. split; [|split; [|split; [done|split; [reflexivity|]]]]; [|reflexivity|].
    + split; [done|]. eauto.
    + split; [eexists; done|]. unfold mget in Hm. destruct (s_sale _ !! id); congruence.
  - unfold cancel_eth_nft_listing, unlist_nft, mutate_nft, emit in H. minv H. clean.
    match goal with X : event_known _ _ = _ |- _ => apply event_known_ok in X as [-> ?] end.
    match goal with X : try_get_nft _ _ = _ |- _ => apply try_get_nft_ok in X as [-> Hn] end.
    match goal with X : remove_listing _ _ = _ |- _ => apply remove_listing_ok in X as [Hl ->] end.
    match goal with X : mget Unknown _ _ = Ethereum |- _ => rename X into Hm; rewrite Hm end.
    eexists. split; [|split; [|split; [done|split; [reflexivity|]]]]; [|reflexivity|].
    + split; [done|]. eauto.
    + split; [eexists; done|]. unfold mget in Hm. destruct (s_sale _ !! id); congruence.
  - unfold process_mint_batch_event in H. minv H. clean.
    match goal with X : event_known _ _ = _ |- _ => apply event_known_ok in X as [-> ?] end.
    apply mint_batch_nft_ok in H as (i & a & Hp & ->). eexists. split; [exact Hp|]. split; [reflexivity|]. split; [done|]. split; [eauto|].
    match goal with X : mget Unknown _ _ = Ethereum |- _ => unfold mget in X; destruct (s_bsale _ !! b); congruence end.
  - unfold process_end_batch_event, end_batch_listing, emit in H. minv H. clean.
    match goal with X : event_known _ _ = _ |- _ => apply event_known_ok in X as [-> ?] end.
    match goal with X : validate_end_batch _ _ = _ |- _ => apply validate_end_ok in X as (-> & ? & ? & ?) end.
    match goal with X : mget Unknown _ _ = Ethereum |- _ => rename X into Hm; rewrite Hm end.
    eexists. split; [|split; [|split; [done|reflexivity]]]; [|reflexivity].
    split; [|done]. unfold mget in Hm. destruct (s_bsale _ !! b); congruence.
Qed.
Lemma remove_listing_err id s s' e : remove_listing id s = (s', Err e) -> s' = s.
Proof. unfold remove_listing, mbind_, get_st, ensure, modify. destruct (bool_decide _); congruence. Qed.
Lemma eth_err c e d s s' er : roomy c s -> processed_event_handler c e d s = (s', Err er) -> s' = s.
Proof.
  intros Hr. destruct d as [id to k|id k|b ow ix r|b]; cbn [processed_event_handler]; intros H.
  - unfold transfer_eth_nft, transfer_nft, try_get_nft, event_known, mbind_, gets, get_st, ensure, some_or in H.
    destruct (bool_decide (_ = Ethereum)); [|congruence]. destruct (s_nfts s !! id); cbn in H; [|congruence].
    destruct (k =? _); [|congruence]. destruct (bool_decide (e ∈ _)); [|congruence].
    unfold mbind_, ensure, mutate_nft, emit, modify in H. destruct (bool_decide _); congruence.
  - unfold cancel_eth_nft_listing, unlist_nft, try_get_nft, event_known, mbind_, gets, get_st, ensure, some_or in H.
    destruct (s_nfts s !! id); cbn in H; [|congruence]. destruct (bool_decide (_ = Ethereum)); [|congruence].
    destruct (k =? _); [|congruence]. destruct (bool_decide (e ∈ _)); [|congruence].
    unfold mbind_, ensure, mutate_nft, emit, modify in H. destruct (bool_decide _); congruence.
  - unfold process_mint_batch_event, event_known, mbind_, get_st, ensure in H.
    destruct (bool_decide (e ∈ _)); [|congruence]. destruct (bool_decide (_ = Ethereum)); [|congruence].
    eapply mint_batch_nft_err; eauto.
  - unfold process_end_batch_event, end_batch_listing, validate_end_batch, event_known, mbind_, get_st, gets, ensure in H.
    unfold modify, emit, modify in H.
    repeat match type of H with context [if ?b then _ else _] => destruct b end; congruence.
Qed.

(** Every operation: nothing, an environment change, or an act with its authority. *)
Definition auth (c : config) (cr : crypto) (s : st) (o : op) (a : act) : Prop :=
  match o with
  | OpMint sender r l au => a = AMint (single_nft_id c au (s_next_unique s)) (s_next_info s) r l au sender
  | OpList sender id m => a = AList id m /\ nft_at s id (fun n => n_owner n = sender)
  | OpSigned sender i => sender = pf_signer (call_proof i) /\ call_auth c cr s i a
  | OpProxy relayer i => relayer = pf_relayer (call_proof i) /\ call_auth c cr s i a
  | OpEthEvent e d => eth_auth c s e d a
  | _ => False
  end.
Definition wrap (o : op) (s : st) : st := match o with OpProxy relayer _ => add_event (CallDispatched relayer) s | _ => s end.
Definition envs (o : op) (s s' : st) : Prop :=
  exists ps, s' = s <| s_processed := ps |> /\ (s' = s \/ match o with EnvProcessed _ => True | EnvForget _ => True | _ => False end).

Lemma step_cases c cr s o : roomy c s ->
  (envs o s (step c cr s o)) \/
  (exists a, pre c s a /\ step c cr s o = wrap o (post s a) /\ auth c cr s o a /\ snd (exec c cr o s) = Ok tt).
Proof.
  intros Hr. unfold step.
  assert (Hn : envs o s s). { exists (s_processed s). split; [now destruct s|now left]. }
  destruct (exec c cr o s) as [s' res] eqn:E. cbn [fst snd]. destruct o as [sender r l au|sender id m|sender i|relayer i|e d|e|e]; cbn [exec] in E.
  - destruct res as [[]|er]; [|apply dispatch_err in E; subst; now left]. apply dispatch_ok in E. right.
    unfold mint_single_nft, bounded_ref in E. minv E. clean.
    match goal with X : validate_mint_single _ _ _ _ = _ |- _ => apply validate_mint_single_ok in X as (-> & ? & ? & ? & ?) end.
    eapply do_mint_single_ok in E; [|done..]. destruct E as [Hp ->]. eexists. split; [exact Hp|]. split; [reflexivity|]. done.
  - destruct res as [[]|er]; [|apply dispatch_err in E; subst; now left]. apply dispatch_ok in E. right.
    unfold list_nft_open_for_sale, open_nft_for_sale, mutate_nft, emit in E. minv E. clean.
    match goal with X : validate_open_for_sale _ _ _ _ = _ |- _ => apply validate_open_ok in X as (-> & ? & ? & n & Hn' & ? & ?) end.
    exists (AList id m). split; [split; [done|]; split; [done|]; eauto|]. split; [reflexivity|]. split; [|done]. split; [done|]. exists n. done.
  - destruct res as [[]|er]; [|apply dispatch_err in E; subst; now left]. apply dispatch_ok in E. right.
    apply run_call_ok in E as (-> & a & Hp & -> & Ha). exists a. done.
  - destruct res as [[]|er]; [|apply dispatch_err in E; subst; now left]. apply dispatch_ok in E. right.
    unfold proxy, emit in E. minv E. clean.
    match goal with X : dispatch _ _ = _ |- _ => apply dispatch_ok, run_call_ok in X as (_ & a & Hp & -> & Ha) end. exists a. done.
  - destruct res as [[]|er]; [|apply eth_err in E; [subst; now left|done]]. right. apply eth_ok in E as (a & Hp & -> & Ha). exists a. done.
  - left. unfold modify in E. injection E as <- <-. eexists. split; [reflexivity|]. now right.
  - left. unfold modify in E. injection E as <- <-. eexists. split; [reflexivity|]. now right.
Qed.
