(** Invariants of the NFT manager. *)
From Verif Require Import Base BaseLemmas CodecModel SigModel NftModel NftSpec NftProofs.

Record Inv (c : config) (s : st) : Prop := {
  iv_batch : forall b i, s_binfo s !! b = Some i -> exists x, s_infos s !! i = Some x /\ i_batch x = Some b /\
      0 < i_supply x <= c_batch_bound c /\ N.of_nat (length (batch_nfts s b)) <= i_supply x;
  iv_nobatch : forall b, s_binfo s !! b = None -> batch_nfts s b = [] /\ s_bsale s !! b = None;
  iv_info : forall i x, s_infos s !! i = Some x -> i < s_next_info s /\ good_royalties (i_royalties x);
  iv_nft : forall id n, s_nfts s !! id = Some n -> mget false (n_ref n) (s_used s) = true /\ n_ref n <> [] /\ is_Some (s_infos s !! n_info n);
  iv_refs : forall id id' n n', s_nfts s !! id = Some n -> s_nfts s !! id' = Some n' -> n_ref n = n_ref n' -> id = id';
  iv_sale : forall id m, s_sale s !! id = Some m -> m <> Unknown /\ is_Some (s_nfts s !! id);
  iv_minted : NoDup (minted_ids (s_events s)) /\ forall id, In id (minted_ids (s_events s)) <-> is_Some (s_nfts s !! id);
  iv_from : forall b, minted_from b (s_events s) = rev (batch_nfts s b);
  iv_member : forall b id, In id (batch_nfts s b) -> exists n, s_nfts s !! id = Some n /\ s_binfo s !! b = Some (n_info n);
  iv_created : NoDup (created (s_events s)) /\ forall b n a au, In (BatchCreated b n a au) (s_events s) <->
      exists i x, s_binfo s !! b = Some i /\ s_infos s !! i = Some x /\ i_supply x = n /\ i_creator x = Some a /\ i_authority x = au
}.

Lemma inv_roomy c s : Inv c s -> roomy c s.
Proof. intros HI b i x Hb Hx. destruct (iv_batch _ _ HI _ _ Hb) as (y & Hy & _ & H & _). assert (y = x) as -> by congruence. lia. Qed.

Lemma inv_genesis c : Inv c genesis.
Proof.
  constructor; unfold genesis, batch_nfts, mget; cbn; intros; repeat (rewrite lookup_empty in *); try done.
  - split; [constructor|]. intros id. rewrite lookup_empty. split; [done|]. now intros [? ?].
  - split; [constructor|]. intros. split; [done|]. intros (? & ? & H & _). rewrite lookup_empty in H. done.
Qed.

Lemma created_in b evs : In b (created evs) <-> exists n a au, In (BatchCreated b n a au) evs.
Proof.
  induction evs as [|e evs IH]; [split; [done|]; now intros (?&?&?&?)|].
  assert (E : created (e :: evs) = match e with BatchCreated b' _ _ _ => [b'] | _ => [] end ++ created evs) by now destruct e.
  rewrite E, in_app_iff, IH. split.
  - intros [H|(n & a & au & H)]; [destruct e; cbn in H; try done; destruct H as [->|[]]; do 3 eexists; left; reflexivity|exists n, a, au; right; exact H].
  - intros (n & a & au & [->|H]); [left; now left|right; eauto].
Qed.

(** Events that say nothing about mints and creations. *)
Definition quiet (e : event) : Prop :=
  match e with SingleNftMinted _ _ _ => False | BatchNftMinted _ _ _ _ => False | BatchCreated _ _ _ _ => False | _ => True end.
Lemma quiet_minted e evs : quiet e -> minted_ids (e :: evs) = minted_ids evs.
Proof. now destruct e. Qed.
Lemma quiet_from b e evs : quiet e -> minted_from b (e :: evs) = minted_from b evs.
Proof. now destruct e. Qed.
Lemma quiet_created e evs : quiet e -> created (e :: evs) = created evs.
Proof. now destruct e. Qed.

(** Changes that leave mints, infos and batches alone: events, nonces, listings and owners. *)
Lemma inv_frame c s s' : Inv c s ->
  s_infos s' = s_infos s -> s_binfo s' = s_binfo s -> s_batches s' = s_batches s -> s_next_info s' = s_next_info s -> s_used s' = s_used s ->
  (forall id n', s_nfts s' !! id = Some n' -> exists n, s_nfts s !! id = Some n /\ n_ref n' = n_ref n /\ n_info n' = n_info n) ->
  (forall id, is_Some (s_nfts s !! id) -> is_Some (s_nfts s' !! id)) ->
  (exists new, s_events s' = new ++ s_events s /\ Forall quiet new) ->
  (forall id m, s_sale s' !! id = Some m -> m <> Unknown /\ is_Some (s_nfts s !! id)) ->
  (forall b, s_binfo s !! b = None -> s_bsale s' !! b = None) ->
  Inv c s'.
Proof.
  intros HI E1 E2 E3 E4 E5 Hn Hn' (new & Ee & Hq) Hs Hb.
  assert (Hb' : forall b, batch_nfts s' b = batch_nfts s b) by (intros b; unfold batch_nfts; now rewrite E3).
  assert (Em : minted_ids (s_events s') = minted_ids (s_events s)).
  { rewrite Ee. clear Ee. induction Hq; cbn [app]; [done|]. now rewrite quiet_minted. }
  assert (Ef : forall b, minted_from b (s_events s') = minted_from b (s_events s)).
  { intros b. rewrite Ee. clear Ee. induction Hq; cbn [app]; [done|]. now rewrite quiet_from. }
  assert (Ec : created (s_events s') = created (s_events s)).
  { rewrite Ee. clear Ee. induction Hq; cbn [app]; [done|]. now rewrite quiet_created. }
  constructor; rewrite ?E1, ?E2, ?E4, ?E5, ?Em, ?Ec.
  - intros b i H. rewrite Hb'. now apply (iv_batch _ _ HI).
  - intros b H. rewrite Hb'. split; [now apply (iv_nobatch _ _ HI)|auto].
  - apply (iv_info _ _ HI).
  - intros id n' H. apply Hn in H as (n & H & -> & ->). now apply (iv_nft _ _ HI) in H.
  - intros id id' n n' H H' E. apply Hn in H as (m & H & F1 & _). apply Hn in H' as (m' & H' & F2 & _).
    eapply (iv_refs _ _ HI); eauto; congruence.
  - intros id m H. apply Hs in H as [? ?]. auto.
  - split; [apply (iv_minted _ _ HI)|]. intros id. rewrite (proj2 (iv_minted _ _ HI) id). split; [auto|].
    intros [n' H]. apply Hn in H as (n & H & _). eauto.
  - intros b. rewrite Hb', Ef. apply (iv_from _ _ HI).
  - intros b id. rewrite Hb'. intros H. apply (iv_member _ _ HI) in H as (n & H & ?).
    destruct (Hn' id) as [n' Hn2]; [eauto|]. destruct (Hn _ _ Hn2) as (n0 & Hn0 & _ & Hi). exists n'. split; [done|]. congruence.
  - split; [apply (iv_created _ _ HI)|]. intros b n a au. rewrite Ee, in_app_iff.
    rewrite <- (proj2 (iv_created _ _ HI) b n a au). split; [|auto]. intros [H|H]; [|done].
    rewrite Forall_forall in Hq. exfalso. apply (Hq (BatchCreated b n a au)). now apply elem_of_list_In.
Qed.

Lemma alter_ref (f : nft -> nft) id0 (m : gmap N nft) : (forall n, n_ref (f n) = n_ref n /\ n_info (f n) = n_info n) ->
  (forall id n', alter f id0 m !! id = Some n' -> exists n, m !! id = Some n /\ n_ref n' = n_ref n /\ n_info n' = n_info n).
Proof.
  intros Hf id n' H. destruct (decide (id0 = id)) as [->|Hne].
  - rewrite lookup_alter in H. destruct (m !! id) as [n|]; [|done]. injection H as <-. exists n. destruct (Hf n). auto.
  - rewrite lookup_alter_ne in H by done. eauto.
Qed.
Lemma alter_some (f : nft -> nft) id0 (m : gmap N nft) id : is_Some (m !! id) -> is_Some (alter f id0 m !! id).
Proof.
  intros [n H]. destruct (decide (id0 = id)) as [->|Hne]; [rewrite lookup_alter, H; eauto|rewrite lookup_alter_ne by done; eauto].
Qed.

(** The common part of the two kinds of mint. *)
Lemma used_insert (r r' : list N) (m : gmap (list N) bool) : mget false r m = true -> mget false r (<[r' := true]> m) = true.
Proof. unfold mget. destruct (decide (r' = r)) as [->|Hne]; [now rewrite lookup_insert|now rewrite lookup_insert_ne by done]. Qed.
Lemma used_self (r : list N) (m : gmap (list N) bool) : mget false r (<[r := true]> m) = true.
Proof. unfold mget. now rewrite lookup_insert. Qed.

Lemma inv_post c s a : Inv c s -> pre c s a -> (forall id to e, a = AMove id to e -> quiet e) -> (forall id e, a = ACancel id e -> quiet e) -> Inv c (post s a).
Proof.
  intros HI Hp Hq1 Hq2. destruct a as [id i r l au ow|id m|id to e|id e|b i n l au sd|b i id ow r au|b m sd|b m sd]; cbn [pre post] in *.
  - destruct Hp as ([Hr Hu] & Hg & Hn & -> & Hau).
    assert (Hfresh : forall id' n', s_nfts s !! id' = Some n' -> n_ref n' <> r).
    { intros id' n' H E. apply (iv_nft _ _ HI) in H as [H _]. congruence. }
    assert (Hni : s_infos s !! s_next_info s = None).
    { destruct (s_infos s !! s_next_info s) eqn:E; [|done]. apply (iv_info _ _ HI) in E as [E _]. lia. }
    constructor; unfold batch_nfts; cbn [s_nfts s_infos s_batches s_binfo s_used s_next_info s_next_unique s_sale s_bnonce s_bsale s_events add_event set].
    + intros b i Hb. destruct (iv_batch _ _ HI _ _ Hb) as (x & Hx & Hrest). exists x. split; [|done].
      rewrite lookup_insert_ne; [done|]. intros E. rewrite E in Hni. congruence.
    + apply (iv_nobatch _ _ HI).
    + intros i x H. destruct (decide (i = s_next_info s)) as [->|Hne].
      * rewrite lookup_insert in H. injection H as <-. split; [lia|done].
      * rewrite lookup_insert_ne in H by done. apply (iv_info _ _ HI) in H as [? ?]. split; [lia|done].
    + intros id' n' H. destruct (decide (id' = id)) as [->|Hne].
      * rewrite lookup_insert in H. injection H as <-. cbn. split; [apply used_self|]. split; [done|]. rewrite lookup_insert. eauto.
      * rewrite lookup_insert_ne in H by done. apply (iv_nft _ _ HI) in H as (H1 & H2 & H3). split; [now apply used_insert|]. split; [done|].
        destruct (decide (n_info n' = s_next_info s)) as [->|]; [rewrite lookup_insert; eauto|now rewrite lookup_insert_ne by done].
    + intros id1 id2 n1 n2 H1 H2 E. destruct (decide (id1 = id)) as [->|Hne1]; destruct (decide (id2 = id)) as [->|Hne2]; [done|..].
      * rewrite lookup_insert in H1. injection H1 as <-. rewrite lookup_insert_ne in H2 by done. cbn in E. exfalso. eapply Hfresh; [exact H2|done].
      * rewrite lookup_insert in H2. injection H2 as <-. rewrite lookup_insert_ne in H1 by done. cbn in E. exfalso. eapply Hfresh; [exact H1|done].
      * rewrite lookup_insert_ne in H1, H2 by done. eapply (iv_refs _ _ HI); eauto.
    + intros id' m H. apply (iv_sale _ _ HI) in H as [? [n' H']]. split; [done|].
      destruct (decide (id' = id)) as [->|]; [rewrite lookup_insert; eauto|rewrite lookup_insert_ne by done; eauto].
    + change (minted_ids (SingleNftMinted id ow au :: s_events s)) with (id :: minted_ids (s_events s)).
      destruct (iv_minted _ _ HI) as [Hnd Hin]. split.
      * constructor; [|done]. intros H. apply elem_of_list_In, Hin in H as [? H]. congruence.
      * intros id'. cbn. rewrite Hin. split.
        -- intros [->|[n' H]]; [rewrite lookup_insert; eauto|]. destruct (decide (id' = id)) as [->|]; [rewrite lookup_insert; eauto|rewrite lookup_insert_ne by done; eauto].
        -- intros [n' H]. destruct (decide (id' = id)) as [->|]; [now left|]. rewrite lookup_insert_ne in H by done. right. eauto.
    + apply (iv_from _ _ HI).
    + intros b id' H. apply (iv_member _ _ HI) in H as (n' & H & ?). exists n'. split; [|done]. rewrite lookup_insert_ne; [done|congruence].
    + destruct (iv_created _ _ HI) as [Hnd Hin]. split; [done|]. intros b n' a' au'. cbn. rewrite Hin. split.
      * intros [H|(i & x & H1 & H2 & H3)]; [done|]. exists i, x. split; [done|]. rewrite lookup_insert_ne; [done|]. intros E. rewrite E in Hni. congruence.
      * intros (i & x & H1 & H2 & H3). right. exists i, x. split; [done|].
        destruct (iv_batch _ _ HI _ _ H1) as (y & Hy & _). rewrite lookup_insert_ne in H2; [done|]. intros E. rewrite E in Hni. congruence.
  - destruct Hp as (Hm & Hs & Hn).
    eapply inv_frame; [exact HI|reflexivity..| | | | |]; cbn.
    + apply alter_ref. now intros n.
    + apply alter_some.
    + exists [NftOpenForSale id m]. split; [done|]. repeat constructor.
    + intros id' m' H. destruct (decide (id' = id)) as [->|]; [rewrite lookup_insert in H; injection H as <-; done|].
      rewrite lookup_insert_ne in H by done. now apply (iv_sale _ _ HI) in H.
    + intros b H. now apply (iv_nobatch _ _ HI).
  - destruct Hp as (Hs & Hn).
    eapply inv_frame; [exact HI|reflexivity..| | | | |]; cbn.
    + apply alter_ref. now intros n.
    + apply alter_some.
    + exists [e]. split; [done|]. constructor; [eauto|constructor].
    + intros id' m' H. apply lookup_delete_Some in H as [_ H]. now apply (iv_sale _ _ HI) in H.
    + intros b H. now apply (iv_nobatch _ _ HI).
  - destruct Hp as (Hs & Hn).
    eapply inv_frame; [exact HI|reflexivity..| | | | |]; cbn.
    + apply alter_ref. now intros n.
    + apply alter_some.
    + exists [e]. split; [done|]. constructor; [eauto|constructor].
    + intros id' m' H. apply lookup_delete_Some in H as [_ H]. now apply (iv_sale _ _ HI) in H.
    + intros b H. now apply (iv_nobatch _ _ HI).
  - destruct Hp as (Hg & Hb & -> & Hn).
    assert (Hni : s_infos s !! s_next_info s = None).
    { destruct (s_infos s !! s_next_info s) eqn:E; [|done]. apply (iv_info _ _ HI) in E as [E _]. lia. }
    constructor; unfold batch_nfts; cbn [s_nfts s_infos s_batches s_binfo s_used s_next_info s_next_unique s_sale s_bnonce s_bsale s_events add_event set].
    + intros b' i H. destruct (decide (b' = b)) as [->|Hne].
      * rewrite lookup_insert in H. injection H as <-. eexists. rewrite lookup_insert. split; [reflexivity|]. cbn. split; [done|]. split; [done|].
        destruct (iv_nobatch _ _ HI _ Hb) as [E _]. unfold batch_nfts in E. rewrite E. cbn. lia.
      * rewrite lookup_insert_ne in H by done. destruct (iv_batch _ _ HI _ _ H) as (x & Hx & Hrest). exists x. split; [|done].
        rewrite lookup_insert_ne; [done|]. intros E. rewrite E in Hni. congruence.
    + intros b' H. destruct (decide (b' = b)) as [->|Hne]; [rewrite lookup_insert in H; done|]. rewrite lookup_insert_ne in H by done. now apply (iv_nobatch _ _ HI).
    + intros i x H. destruct (decide (i = s_next_info s)) as [->|Hne].
      * rewrite lookup_insert in H. injection H as <-. split; [lia|done].
      * rewrite lookup_insert_ne in H by done. apply (iv_info _ _ HI) in H as [? ?]. split; [lia|done].
    + intros id' n' H. apply (iv_nft _ _ HI) in H as (H1 & H2 & H3). split; [done|]. split; [done|].
      destruct (decide (n_info n' = s_next_info s)) as [->|]; [rewrite lookup_insert; eauto|now rewrite lookup_insert_ne by done].
    + apply (iv_refs _ _ HI).
    + apply (iv_sale _ _ HI).
    + apply (iv_minted _ _ HI).
    + apply (iv_from _ _ HI).
    + intros b' id' H. apply (iv_member _ _ HI) in H as (n' & H & ?). exists n'. split; [done|]. rewrite lookup_insert_ne; [done|congruence].
    + destruct (iv_created _ _ HI) as [Hnd Hin]. split.
      * change (created (BatchCreated b n sd au :: s_events s)) with (b :: created (s_events s)). constructor; [|done].
        intros H. apply elem_of_list_In, created_in in H as (? & ? & ? & H). apply Hin in H as (? & ? & H & _). congruence.
      * intros b' n' a' au'. cbn. rewrite Hin. split.
        -- intros [H|(i & x & H1 & H2 & H3)].
           ++ injection H as <- <- <- <-. exists (s_next_info s). eexists. rewrite !lookup_insert. done.
           ++ exists i, x. rewrite !lookup_insert_ne; [done|..]; [intros E; rewrite E in Hni; congruence|congruence].
        -- intros (i & x & H1 & H2 & H3 & H4 & H5). destruct (decide (b' = b)) as [->|Hne].
           ++ rewrite lookup_insert in H1. injection H1 as <-. rewrite lookup_insert in H2. injection H2 as <-. cbn in *. left. congruence.
           ++ rewrite lookup_insert_ne in H1 by done. right. exists i, x. split; [done|].
              destruct (iv_batch _ _ HI _ _ H1) as (y & Hy & _). rewrite lookup_insert_ne in H2; [done|]. intros E. rewrite E in Hni. congruence.
  - destruct Hp as ([Hr Hu] & Hn & Hb & Hsale & x & Hx & Hlen).
    assert (Hfresh : forall id' n', s_nfts s !! id' = Some n' -> n_ref n' <> r).
    { intros id' n' H E. apply (iv_nft _ _ HI) in H as [H _]. congruence. }
    assert (Hbn : forall b', batch_nfts (post s (AMintBatch b i id ow r au)) b' = if b' =? b then batch_nfts s b ++ [id] else batch_nfts s b').
    { intros b'. unfold batch_nfts, mget; cbn. destruct (N.eqb_spec b' b) as [->|Hne]; [now rewrite lookup_insert|now rewrite lookup_insert_ne by done]. }
    constructor.
    + intros b' i' H. rewrite Hbn. cbn in H |- *. destruct (N.eqb_spec b' b) as [->|Hne].
      * assert (i' = i) as -> by congruence. destruct (iv_batch _ _ HI _ _ Hb) as (y & Hy & H1 & H2 & H3). assert (y = x) as -> by congruence.
        exists x. split; [done|]. split; [done|]. split; [done|]. rewrite app_length. cbn. lia.
      * now apply (iv_batch _ _ HI).
    + intros b' H. rewrite Hbn. cbn in H |- *. destruct (N.eqb_spec b' b) as [->|Hne]; [congruence|now apply (iv_nobatch _ _ HI)].
    + apply (iv_info _ _ HI).
    + cbn. intros id' n' H. destruct (decide (id' = id)) as [->|Hne].
      * rewrite lookup_insert in H. injection H as <-. cbn. split; [apply used_self|]. split; [done|]. eauto.
      * rewrite lookup_insert_ne in H by done. apply (iv_nft _ _ HI) in H as (H1 & H2 & H3). split; [now apply used_insert|]. done.
    + cbn. intros id1 id2 n1 n2 H1 H2 E. destruct (decide (id1 = id)) as [->|Hne1]; destruct (decide (id2 = id)) as [->|Hne2]; [done|..].
      * rewrite lookup_insert in H1. injection H1 as <-. rewrite lookup_insert_ne in H2 by done. cbn in E. exfalso. eapply Hfresh; [exact H2|done].
      * rewrite lookup_insert in H2. injection H2 as <-. rewrite lookup_insert_ne in H1 by done. cbn in E. exfalso. eapply Hfresh; [exact H1|done].
      * rewrite lookup_insert_ne in H1, H2 by done. eapply (iv_refs _ _ HI); eauto.
    + cbn. intros id' m H. apply (iv_sale _ _ HI) in H as [? [n' H']]. split; [done|].
      destruct (decide (id' = id)) as [->|]; [rewrite lookup_insert; eauto|rewrite lookup_insert_ne by done; eauto].
    + cbn [post s_events add_event set s_nfts].
      change (minted_ids (BatchNftMinted id b au ow :: s_events s)) with (id :: minted_ids (s_events s)).
      destruct (iv_minted _ _ HI) as [Hnd Hin]. split.
      * constructor; [|done]. intros H. apply elem_of_list_In, Hin in H as [? H]. congruence.
      * intros id'. cbn. rewrite Hin. split.
        -- intros [->|[n' H]]; [rewrite lookup_insert; eauto|]. destruct (decide (id' = id)) as [->|]; [rewrite lookup_insert; eauto|rewrite lookup_insert_ne by done; eauto].
        -- intros [n' H]. destruct (decide (id' = id)) as [->|]; [now left|]. rewrite lookup_insert_ne in H by done. right. eauto.
    + intros b'. rewrite Hbn. cbn [post s_events add_event set].
      assert (E : minted_from b' (BatchNftMinted id b au ow :: s_events s) = (if b =? b' then [id] else []) ++ minted_from b' (s_events s)).
      { unfold minted_from. cbn. destruct (b =? b'); done. }
      rewrite E, (iv_from _ _ HI b'). rewrite (N.eqb_sym b b'). destruct (N.eqb_spec b' b) as [->|]; [now rewrite rev_unit|done].
    + intros b' id' H. rewrite Hbn in H. cbn. destruct (decide (id' = id)) as [->|Hne].
      * destruct (N.eqb_spec b' b) as [E|E]; [subst b'; eexists; rewrite lookup_insert; split; [reflexivity|done]|].
        apply (iv_member _ _ HI) in H as (n' & H & ?). congruence.
      * rewrite lookup_insert_ne by done. apply (iv_member _ _ HI). destruct (N.eqb_spec b' b) as [E|E]; [subst b'|done].
        apply in_app_or in H as [H|[H|[]]]; [done|congruence].
    + destruct (iv_created _ _ HI) as [Hnd Hin]. split; [done|]. intros b' n' a' au'. cbn. rewrite Hin. split; [intros [H|H]; [done|done]|auto].
  - destruct Hp as (Hm & Hs & i & x & Hi & Hx & Hc & Hlen).
    eapply inv_frame; [exact HI|reflexivity..| | | | |]; cbn.
    + eauto.
    + auto.
    + exists [BatchOpenForSale b m]. split; [done|]. repeat constructor.
    + apply (iv_sale _ _ HI).
    + intros b' H. rewrite lookup_insert_ne; [now apply (iv_nobatch _ _ HI)|congruence].
  - destruct Hp as (Hs & Hi).
    eapply inv_frame; [exact HI|try (destruct sd; reflexivity)..]; destruct sd; cbn.
    all: try (eauto; fail).
    all: try (exists [BatchSaleEnded b m]; split; [done|]; repeat constructor).
    all: try (apply (iv_sale _ _ HI)).
    all: intros b' H; apply lookup_delete_None; right; now apply (iv_nobatch _ _ HI).
Qed.

Lemma auth_quiet c cr s o a : auth c cr s o a -> (forall id to e, a = AMove id to e -> quiet e) /\ (forall id e, a = ACancel id e -> quiet e).
Proof.
  intros H.
  assert (Hc : forall i, call_auth c cr s i a -> (forall id to e, a = AMove id to e -> quiet e) /\ (forall id e, a = ACancel id e -> quiet e)).
  { intros i [_ Hi]. destruct i; cbn in Hi; split; intros; subst;
      repeat match goal with X : _ /\ _ |- _ => destruct X | X : exists _, _ |- _ => destruct X end; try discriminate;
      match goal with X : _ = _ |- _ => injection X as; subst; exact I | _ => idtac end; congruence. }
  destruct o as [sender r l au|sender id m|sender i|relayer i|e d|e|e]; cbn in H; try done.
  - subst. split; discriminate.
  - destruct H as [-> _]. split; discriminate.
  - now apply (Hc i).
  - now apply (Hc i).
  - destruct H as [_ H]. destruct d; cbn in H; split; intros; subst;
      repeat match goal with X : _ /\ _ |- _ => destruct X | X : exists _, _ |- _ => destruct X end; try discriminate;
      match goal with X : _ = _ |- _ => injection X as; subst; exact I | _ => idtac end; congruence.
Qed.

Lemma inv_wrap c s o : Inv c s -> Inv c (wrap o s).
Proof.
  intros HI. destruct o; cbn; try done.
  eapply inv_frame; [exact HI|reflexivity..| | | | |]; cbn; eauto.
  - eexists [_]. split; [reflexivity|]. repeat constructor.
  - apply (iv_sale _ _ HI).
  - intros b H. now apply (iv_nobatch _ _ HI).
Qed.
Lemma inv_step c cr s o : Inv c s -> Inv c (step c cr s o).
Proof.
  intros HI. destruct (step_cases c cr s o (inv_roomy _ _ HI)) as [(ps & -> & _)|(a & Hp & -> & Ha & _)].
  - eapply inv_frame; [exact HI|reflexivity..| | | | |]; cbn; eauto.
    + exists []. split; [done|constructor].
    + apply (iv_sale _ _ HI).
    + intros b H. now apply (iv_nobatch _ _ HI).
  - apply inv_wrap. apply auth_quiet in Ha as [? ?]. now apply inv_post.
Qed.
Lemma inv_run c cr s ops : Inv c s -> Inv c (run c cr s ops).
Proof. revert s. induction ops as [|o ops IH]; intros s HI; [done|]. cbn. apply IH. now apply inv_step. Qed.
Lemma inv_reach c cr ops : Inv c (run c cr genesis ops).
Proof. apply inv_run, inv_genesis. Qed.
