(** Nonces and replay in the NFT manager. *)
From Verif Require Import Base BaseLemmas CodecModel CodecProofs SigModel NftModel NftSpec NftProofs NftProofs2.

(** ** What a step does to one NFT *)
Definition touched (s s' : st) (id : N) (f : nft -> nft) : Prop :=
  forall n, s_nfts s !! id = Some n -> s_nfts s' !! id = Some (f n).

Lemma wrap_same o s : s_nfts (wrap o s) = s_nfts s /\ s_sale (wrap o s) = s_sale s /\ s_bnonce (wrap o s) = s_bnonce s /\
  s_used (wrap o s) = s_used s /\ s_bsale (wrap o s) = s_bsale s /\ s_infos (wrap o s) = s_infos s /\ s_binfo (wrap o s) = s_binfo s.
Proof. now destruct o. Qed.

(** The fate of NFT [id]. *)
Inductive fate (s s' : st) (id : N) (n : nft) : option act -> Prop :=
| FSame oa : s_nfts s' !! id = Some n -> s_sale s' !! id = s_sale s !! id -> fate s s' id n oa
| FList m : s_nfts s' !! id = Some (bump n) -> s_sale s !! id = None -> s_sale s' !! id = Some m -> m <> Unknown -> fate s s' id n (Some (AList id m))
| FMove to e : s_nfts s' !! id = Some (bump (n <| n_owner := to |>)) -> is_Some (s_sale s !! id) -> s_sale s' !! id = None -> fate s s' id n (Some (AMove id to e))
| FCancel e : s_nfts s' !! id = Some (bump n) -> is_Some (s_sale s !! id) -> s_sale s' !! id = None -> fate s s' id n (Some (ACancel id e)).

Lemma post_fate c s a id n : pre c s a -> s_nfts s !! id = Some n -> fate s (post s a) id n (Some a).
Proof.
  intros Hp Hn. destruct a as [id' i r l au ow|id' m|id' to e|id' e|b i k l au sd|b i id' ow r au|b m sd|b m sd]; cbn in Hp.
  - destruct Hp as (_ & _ & Hf & _). apply FSame; cbn; [|done]. rewrite lookup_insert_ne; [done|congruence].
  - destruct Hp as (Hm & Hs & _). destruct (decide (id' = id)) as [->|Hne].
    + apply FList; cbn; [now rewrite lookup_alter, Hn|done|apply lookup_insert|done].
    + apply FSame; cbn; [now rewrite lookup_alter_ne|now rewrite lookup_insert_ne].
  - destruct Hp as (Hs & _). destruct (decide (id' = id)) as [->|Hne].
    + apply FMove; cbn; [now rewrite lookup_alter, Hn|done|apply lookup_delete].
    + apply FSame; cbn; [now rewrite lookup_alter_ne|now rewrite lookup_delete_ne].
  - destruct Hp as (Hs & _). destruct (decide (id' = id)) as [->|Hne].
    + apply FCancel; cbn; [now rewrite lookup_alter, Hn|done|apply lookup_delete].
    + apply FSame; cbn; [now rewrite lookup_alter_ne|now rewrite lookup_delete_ne].
  - apply FSame; done.
  - destruct Hp as (_ & Hf & _). apply FSame; cbn; [|done]. rewrite lookup_insert_ne; [done|congruence].
  - apply FSame; done.
  - apply FSame; destruct sd; done.
Qed.
Lemma fate_wrap o s s' id n oa : fate s s' id n oa -> fate s (wrap o s') id n oa.
Proof.
  destruct (wrap_same o s') as (E1 & E2 & _). intros [oa' H1 H2|m H1 H2 H3 H4|to e H1 H2 H3|e H1 H2 H3].
  - apply FSame; now rewrite ?E1, ?E2.
  - apply FList; now rewrite ?E1, ?E2.
  - apply FMove; now rewrite ?E1, ?E2.
  - apply FCancel; now rewrite ?E1, ?E2.
Qed.
Lemma step_fate c cr s o id n : roomy c s -> s_nfts s !! id = Some n ->
  exists oa, fate s (step c cr s o) id n oa /\ match oa with Some a => pre c s a /\ auth c cr s o a /\ snd (exec c cr o s) = Ok tt | None => True end.
Proof.
  intros Hr Hn. destruct (step_cases c cr s o Hr) as [(ps & -> & _)|(a & Hp & -> & Ha & Hok)].
  - exists None. split; [|done]. apply FSame; done.
  - exists (Some a). split; [|done]. apply fate_wrap. eapply post_fate; eauto.
Qed.

(** ** Counters *)
Lemma post_nonce c s a id : pre c s a -> nft_nonce (post s a) id = nft_nonce s id \/ nft_nonce (post s a) id = (nft_nonce s id + 1) mod 2 ^ 64.
Proof.
  intros Hp. unfold nft_nonce. destruct (s_nfts s !! id) as [n|] eqn:Hn.
  - destruct (post_fate c s a id n Hp Hn) as [oa H1 H2|m H1 H2 H3|to e H1 H2 H3|e H1 H2 H3]; rewrite H1; auto.
  - left. destruct a as [id' i r l au ow|id' m|id' to e|id' e|b i k l au sd|b i id' ow r au|b m sd|b m sd]; cbn; rewrite ?Hn; try done.
    + destruct (decide (id' = id)) as [->|Hne]; [now rewrite lookup_insert|now rewrite lookup_insert_ne, Hn by done].
    + destruct (decide (id' = id)) as [->|Hne]; [now rewrite lookup_alter, Hn|now rewrite lookup_alter_ne, Hn by done].
    + destruct (decide (id' = id)) as [->|Hne]; [now rewrite lookup_alter, Hn|now rewrite lookup_alter_ne, Hn by done].
    + destruct (decide (id' = id)) as [->|Hne]; [now rewrite lookup_alter, Hn|now rewrite lookup_alter_ne, Hn by done].
    + destruct (decide (id' = id)) as [->|Hne]; [now rewrite lookup_insert|now rewrite lookup_insert_ne, Hn by done].
    + destruct sd; cbn; now rewrite Hn.
Qed.
Lemma bn_up_at a s x : mget 0 x (bn_up a s) = if x =? a then (bnonce_of s a + 1) mod 2 ^ 64 else bnonce_of s x.
Proof.
  unfold mget, bn_up. destruct (N.eqb_spec x a) as [->|]; [now rewrite lookup_insert|rewrite lookup_insert_ne by done; reflexivity].
Qed.
Definition act_sender (a : act) : option N :=
  match a with ACreate _ _ _ _ _ x => Some x | AListBatch _ _ x => Some x | AEndBatch _ _ x => x | _ => None end.
Lemma post_bnonce s a x : bnonce_of (post s a) x =
  match act_sender a with Some y => if x =? y then (bnonce_of s x + 1) mod 2 ^ 64 else bnonce_of s x | None => bnonce_of s x end.
Proof.
  destruct a as [id' i r l au ow|id' m|id' to e|id' e|b i k l au sd|b i id' ow r au|b m sd|b m [sd|]]; try reflexivity;
    unfold bnonce_of at 1; cbn; rewrite bn_up_at; destruct (N.eqb_spec x sd) as [->|]; reflexivity.
Qed.
Lemma post_used s a r : mget false r (s_used s) = true -> mget false r (s_used (post s a)) = true.
Proof.
  intros H. destruct a as [id' i r' l au ow|id' m|id' to e|id' e|b i k l au sd|b i id' ow r' au|b m sd|b m [sd|]]; try exact H; cbn; now apply used_insert.
Qed.

(** The counters that grow along a history, and stay below 2^64 for [k] more steps. *)
Definition low (s : st) (k : N) : Prop := (forall id, nft_nonce s id + k < 2 ^ 64) /\ (forall a, bnonce_of s a + k < 2 ^ 64).
Record grows (s s' : st) : Prop := {
  gr_nft : forall id, nft_nonce s id <= nft_nonce s' id <= nft_nonce s id + 1;
  gr_b : forall a, bnonce_of s a <= bnonce_of s' a <= bnonce_of s a + 1;
  gr_used : forall r, mget false r (s_used s) = true -> mget false r (s_used s') = true }.

Lemma step_grows c cr s o : roomy c s -> low s 1 -> grows s (step c cr s o).
Proof.
  intros Hr [L1 L2]. destruct (step_cases c cr s o Hr) as [(ps & -> & _)|(a & Hp & -> & Ha & _)].
  - constructor; intros; cbn; unfold nft_nonce, bnonce_of; cbn; try lia. done.
  - destruct (wrap_same o (post s a)) as (E1 & _ & E3 & E4 & _). constructor.
    + intros id. unfold nft_nonce at 2 3. rewrite E1. fold (nft_nonce (post s a) id). specialize (L1 id).
      destruct (post_nonce c s a id Hp) as [->| ->]; [lia|]. rewrite N.mod_small by lia. lia.
    + intros x. unfold bnonce_of at 2 3. rewrite E3. fold (bnonce_of (post s a) x). specialize (L2 x). rewrite post_bnonce.
      destruct (act_sender a) as [y|]; [|lia]. destruct (x =? y); [|lia]. rewrite N.mod_small by lia. lia.
    + intros r H. rewrite E4. now apply post_used.
Qed.
Lemma grows_low s s' k : grows s s' -> low s (k + 1) -> low s' k.
Proof.
  intros [G1 G2 _] [L1 L2]. split; intros x; [specialize (G1 x); specialize (L1 x)|specialize (G2 x); specialize (L2 x)]; lia.
Qed.
Lemma low_le s k k' : low s k -> k' <= k -> low s k'.
Proof. intros [L1 L2] H. split; intros x; [specialize (L1 x)|specialize (L2 x)]; lia. Qed.

(** ** What a payload is about *)
Inductive key := KRef (kind : N) (r : list N) | KNft (kind id nonce : N) | KBatch (kind nonce : N).
Definition key_of (s : st) (i : call) : key :=
  match i with
  | CMint p r l a => KRef 0 r
  | CMintBatch p b ix o r => KRef 1 r
  | CList p id m => KNft 0 id (nft_nonce s id)
  | CTransfer p id to => KNft 1 id (nft_nonce s id)
  | CCancel p id => KNft 2 id (nft_nonce s id)
  | CCreateBatch p n l a => KBatch 0 (bnonce_of s (pf_signer p))
  | CListBatch p b m => KBatch 1 (bnonce_of s (pf_signer p))
  | CEndBatch p b => KBatch 2 (bnonce_of s (pf_signer p))
  end.
Definition context_of (i : call) : string :=
  match i with
  | CMint _ _ _ _ => "authorization for mint single nft operation"
  | CList _ _ _ => "authorization for list nft open for sale operation"
  | CTransfer _ _ _ => "authorization for transfer fiat nft operation"
  | CCancel _ _ => "authorization for cancel list fiat nft for sale operation"
  | CCreateBatch _ _ _ _ => "authorization for create batch operation"
  | CMintBatch _ _ _ _ _ => "authorization for mint batch nft operation"
  | CListBatch _ _ _ => "authorization for list batch for sale operation"
  | CEndBatch _ _ => "authorization for end batch sale operation"
  end.
Definition body_of (s : st) (i : call) : list N :=
  match i with
  | CMint p r l a => scale_bytes r ++ enc_royalties l ++ be_bytes 20 a
  | CList p id m => le_bytes 32 id ++ [market_byte m] ++ le_bytes 8 (nft_nonce s id)
  | CTransfer p id to => le_bytes 32 id ++ be_bytes 32 to ++ le_bytes 8 (nft_nonce s id)
  | CCancel p id => le_bytes 32 id ++ le_bytes 8 (nft_nonce s id)
  | CCreateBatch p n l a => le_bytes 8 n ++ enc_royalties l ++ be_bytes 20 a ++ le_bytes 8 (bnonce_of s (pf_signer p))
  | CMintBatch p b ix o r => le_bytes 32 b ++ le_bytes 8 ix ++ scale_bytes r ++ be_bytes 32 o
  | CListBatch p b m => le_bytes 32 b ++ [market_byte m] ++ le_bytes 8 (bnonce_of s (pf_signer p))
  | CEndBatch p b => le_bytes 32 b ++ le_bytes 8 (bnonce_of s (pf_signer p))
  end.
Lemma payload_shape s i : payload_of s i = context (context_of i) ++ be_bytes 32 (pf_relayer (call_proof i)) ++ body_of s i.
Proof. destruct i; reflexivity. Qed.

Definition shorts : list string := [
  "authorization for mint single nft operation"; "authorization for list nft open for sale operation"; "authorization for transfer fiat nft operation";
  "authorization for cancel list fiat nft for sale operation"; "authorization for create batch operation"; "authorization for mint batch nft operation";
  "authorization for list batch for sale operation"; "authorization for end batch sale operation"]%string.
Lemma context_short i : N.of_nat (length (ascii_bytes (context_of i))) < 2 ^ 32.
Proof. destruct i; vm_compute; reflexivity. Qed.
Lemma context_kind i j : ascii_bytes (context_of i) = ascii_bytes (context_of j) -> context_of i = context_of j.
Proof. destruct i, j; try reflexivity; intros H; exfalso; revert H; vm_compute; discriminate. Qed.

#[global] Opaque scale_bytes compact le_bytes be_bytes enc_royalty.

Lemma enc_royalties_prefix l l' x y : N.of_nat (length l) < 2 ^ 32 -> N.of_nat (length l') < 2 ^ 32 ->
  enc_royalties l ++ x = enc_royalties l' ++ y -> length l = length l' /\ x = y.
Proof.
  intros H1 H2 E. unfold enc_royalties in E. rewrite <- !app_assoc in E. apply compact_prefix in E as [E1 E2]; [|done..].
  assert (Hl : length l = length l') by lia. split; [done|].
  assert (Hc : forall k, length (concat (map enc_royalty k)) = (24 * length k)%nat).
  { induction k as [|r k IH]; [done|]. cbn [map concat]. rewrite app_length, IH.
    Transparent enc_royalty. unfold enc_royalty. Opaque enc_royalty.
    rewrite app_length, be_bytes_length, le_bytes_length. cbn [length]. lia. }
  apply app_split in E2 as [_ E2]; [done|]. rewrite !Hc. lia.
Qed.

Lemma le_prefix k n m x y : le_bytes k n ++ x = le_bytes k m ++ y -> n < 256 ^ N.of_nat k -> m < 256 ^ N.of_nat k -> n = m /\ x = y.
Proof. intros E H1 H2. apply app_split in E as [E1 E2]; [|now rewrite !le_bytes_length]. apply le_bytes_inj in E1; auto. Qed.
Lemma le_exact k n m : le_bytes k n = le_bytes k m -> n < 256 ^ N.of_nat k -> m < 256 ^ N.of_nat k -> n = m.
Proof. intros E H1 H2. now apply le_bytes_inj in E. Qed.
Lemma p8 n : n < 2 ^ 64 -> n < 256 ^ N.of_nat 8. Proof. intros H. exact H. Qed.
Lemma p32 n : n < 2 ^ 256 -> n < 256 ^ N.of_nat 32. Proof. intros H. exact H. Qed.

Lemma payload_key s t i j : low s 0 -> low t 0 -> typed_call i -> typed_call j ->
  payload_of s i = payload_of t j -> key_of s i = key_of t j.
Proof.
  intros [Ls Ls'] [Lt Lt'] [Ri Ti] [Rj Tj] E. rewrite !payload_shape in E.
  unfold context in E. apply scale_bytes_prefix in E as [E1 E2]; [|apply context_short..]. apply context_kind in E1.
  apply app_split in E2 as [_ E2]; [|now rewrite !be_bytes_length].
  assert (Q1 : forall id, nft_nonce s id < 256 ^ N.of_nat 8) by (intros id; apply p8; specialize (Ls id); lia).
  assert (Q2 : forall id, nft_nonce t id < 256 ^ N.of_nat 8) by (intros id; apply p8; specialize (Lt id); lia).
  assert (Q3 : forall a, bnonce_of s a < 256 ^ N.of_nat 8) by (intros a; apply p8; specialize (Ls' a); lia).
  assert (Q4 : forall a, bnonce_of t a < 256 ^ N.of_nat 8) by (intros a; apply p8; specialize (Lt' a); lia).
  destruct i as [p r l a|p id m|p id to|p id|p n l a|p b ix o r|p b m|p b];
  destruct j as [p' r' l' a'|p' id' m'|p' id' to'|p' id'|p' n' l' a'|p' b' ix' o' r'|p' b' m'|p' b']; try discriminate E1; clear E1; cbn [body_of key_of] in *.
  - destruct Ti as (T1 & _), Tj as (T2 & _). apply scale_bytes_prefix in E2 as [-> _]; done.
  - apply le_prefix in E2 as [-> E2]; [|now apply p32..]. apply (app_split [_] [_]) in E2 as [_ E2]; [|done]. apply le_exact in E2; [|done..]. now rewrite E2.
  - destruct Ti, Tj. apply le_prefix in E2 as [-> E2]; [|now apply p32..]. apply app_split in E2 as [_ E2]; [|now rewrite !be_bytes_length].
    apply le_exact in E2; [|done..]. now rewrite E2.
  - apply le_prefix in E2 as [-> E2]; [|now apply p32..]. apply le_exact in E2; [|done..]. now rewrite E2.
  - destruct Ti as (T1 & T2 & _), Tj as (T3 & T4 & _). apply le_prefix in E2 as [_ E2]; [|now apply p8..].
    apply enc_royalties_prefix in E2 as [_ E2]; [|done..]. apply app_split in E2 as [_ E2]; [|now rewrite !be_bytes_length].
    apply le_exact in E2; [|done..]. now rewrite E2.
  - destruct Ti as (T1 & T2 & T3 & T4), Tj as (T5 & T6 & T7 & T8). apply le_prefix in E2 as [_ E2]; [|now apply p32..].
    apply le_prefix in E2 as [_ E2]; [|now apply p8..]. apply scale_bytes_prefix in E2 as [-> _]; done.
  - apply le_prefix in E2 as [-> E2]; [|now apply p32..]. apply (app_split [_] [_]) in E2 as [_ E2]; [|done]. apply le_exact in E2; [|done..]. now rewrite E2.
  - apply le_prefix in E2 as [-> E2]; [|now apply p32..]. apply le_exact in E2; [|done..]. now rewrite E2.
Qed.

(** The payload determines the whole instruction. *)
Lemma enc_royalties_inj l : forall l', length l = length l' -> Forall typed_royalty l -> Forall typed_royalty l' ->
  concat (map enc_royalty l) = concat (map enc_royalty l') -> l = l'.
Proof.
  induction l as [|r l IH]; intros [|r' l'] Hl H1 H2 E; try discriminate Hl; [done|]. injection Hl as Hl.
  apply Forall_cons in H1 as [[A1 A2] H1]. apply Forall_cons in H2 as [[B1 B2] H2]. cbn [map concat] in E.
  Transparent enc_royalty. unfold enc_royalty in E at 1 3. Opaque enc_royalty. rewrite <- !app_assoc in E.
  apply app_split in E as [E1 E]; [|now rewrite !be_bytes_length]. apply be_bytes_inj in E1; [|exact A1|exact B1].
  apply le_prefix in E as [E2 E]; [|exact A2|exact B2]. f_equal; [|now apply IH]. destruct r, r'; cbn in *; congruence.
Qed.
Lemma enc_royalties_full l l' x y : N.of_nat (length l) < 2 ^ 32 -> N.of_nat (length l') < 2 ^ 32 -> Forall typed_royalty l -> Forall typed_royalty l' ->
  enc_royalties l ++ x = enc_royalties l' ++ y -> l = l' /\ x = y.
Proof.
  intros H1 H2 T1 T2 E. pose proof (enc_royalties_prefix _ _ _ _ H1 H2 E) as [Hl ->]. split; [|done].
  apply app_inv_tail in E. unfold enc_royalties in E. rewrite Hl in E. apply app_inv_head in E. now apply enc_royalties_inj.
Qed.
Lemma market_byte_inj m m' x y : [market_byte m] ++ x = [market_byte m'] ++ y -> m = m' /\ x = y.
Proof. intros E. apply (app_split [_] [_]) in E as [E ->]; [|done]. split; [|done]. destruct m, m'; cbn in E; congruence. Qed.
Lemma be_prefix k n m x y : be_bytes k n ++ x = be_bytes k m ++ y -> n < 256 ^ N.of_nat k -> m < 256 ^ N.of_nat k -> n = m /\ x = y.
Proof. intros E H1 H2. apply app_split in E as [E1 E2]; [|now rewrite !be_bytes_length]. apply be_bytes_inj in E1; auto. Qed.
Lemma p20 n : n < 2 ^ 160 -> n < 256 ^ N.of_nat 20. Proof. intros H. exact H. Qed.

Lemma payload_meaning s t i j : low s 0 -> low t 0 -> typed_call i -> typed_call j ->
  payload_of s i = payload_of t j -> meaning_of s i = meaning_of t j.
Proof.
  intros [Ls Ls'] [Lt Lt'] [Ri Ti] [Rj Tj] E. rewrite !payload_shape in E.
  unfold context in E. apply scale_bytes_prefix in E as [E1 E2]; [|apply context_short..]. apply context_kind in E1.
  apply be_prefix in E2 as [Er E2]; [|now apply p32..].
  assert (Q1 : forall id, nft_nonce s id < 256 ^ N.of_nat 8) by (intros id; apply p8; specialize (Ls id); lia).
  assert (Q2 : forall id, nft_nonce t id < 256 ^ N.of_nat 8) by (intros id; apply p8; specialize (Lt id); lia).
  assert (Q3 : forall a, bnonce_of s a < 256 ^ N.of_nat 8) by (intros a; apply p8; specialize (Ls' a); lia).
  assert (Q4 : forall a, bnonce_of t a < 256 ^ N.of_nat 8) by (intros a; apply p8; specialize (Lt' a); lia).
  destruct i as [p r l a|p id m|p id to|p id|p n l a|p b ix o r|p b m|p b];
  destruct j as [p' r' l' a'|p' id' m'|p' id' to'|p' id'|p' n' l' a'|p' b' ix' o' r'|p' b' m'|p' b']; try discriminate E1; clear E1; cbn [body_of meaning_of call_proof] in *; rewrite Er.
  - destruct Ti as (T1 & T2 & T3 & T4), Tj as (T5 & T6 & T7 & T8). apply scale_bytes_prefix in E2 as [-> E2]; [|done..].
    apply enc_royalties_full in E2 as [-> E2]; [|done..]. apply be_bytes_inj in E2 as ->; [done|now apply p20..].
  - apply le_prefix in E2 as [-> E2]; [|now apply p32..]. apply market_byte_inj in E2 as [-> E2]. apply le_exact in E2; [|done..]. now rewrite E2.
  - destruct Ti, Tj. apply le_prefix in E2 as [-> E2]; [|now apply p32..]. apply be_prefix in E2 as [-> E2]; [|now apply p32..].
    apply le_exact in E2; [|done..]. now rewrite E2.
  - apply le_prefix in E2 as [-> E2]; [|now apply p32..]. apply le_exact in E2; [|done..]. now rewrite E2.
  - destruct Ti as (T1 & T2 & T3 & T4), Tj as (T5 & T6 & T7 & T8). apply le_prefix in E2 as [-> E2]; [|now apply p8..].
    apply enc_royalties_full in E2 as [-> E2]; [|done..]. apply be_prefix in E2 as [-> E2]; [|now apply p20..].
    apply le_exact in E2; [|done..]. now rewrite E2.
  - destruct Ti as (T1 & T2 & T3 & T4), Tj as (T5 & T6 & T7 & T8). apply le_prefix in E2 as [-> E2]; [|now apply p32..].
    apply le_prefix in E2 as [-> E2]; [|now apply p8..]. apply scale_bytes_prefix in E2 as [-> E2]; [|done..].
    apply be_bytes_inj in E2 as ->; [done|now apply p32..].
  - apply le_prefix in E2 as [-> E2]; [|now apply p32..]. apply market_byte_inj in E2 as [-> E2]. apply le_exact in E2; [|done..]. now rewrite E2.
  - apply le_prefix in E2 as [-> E2]; [|now apply p32..]. apply le_exact in E2; [|done..]. now rewrite E2.
Qed.

(** ** Accepted instructions *)
Lemma accepted_inv c cr s o i : roomy c s -> accepted c cr s o = Some i ->
  submitted o i /\ call_of o = Some i /\ exists a, pre c s a /\ call_auth c cr s i a /\ step c cr s o = wrap o (post s a).
Proof.
  intros Hr H. unfold accepted in H. destruct (call_of o) as [i'|] eqn:Hc; [|done].
  destruct (snd (exec c cr o s)) as [[]|er] eqn:Es; [|done]. injection H as ->. unfold step, submitted.
  destruct o as [sender r l au|sender id m|sender i'|relayer i'|e d|e|e]; try discriminate Hc; injection Hc as ->; cbn [exec] in *.
  - destruct (dispatch (run_call c cr sender i) s) as [s' r] eqn:E. cbn in Es. subst r. apply dispatch_ok in E.
    apply run_call_ok in E as (-> & a & Hp & -> & Ha). split; [now left|]. split; [done|]. exists a. done.
  - destruct (dispatch (proxy c cr relayer i) s) as [s' r] eqn:E. cbn in Es. subst r. apply dispatch_ok in E.
    unfold proxy, emit in E. minv E. clean.
    match goal with X : dispatch _ _ = _ |- _ => apply dispatch_ok, run_call_ok in X as (_ & a & Hp & -> & Ha) end.
    split; [now right|]. split; [done|]. exists a. done.
Qed.

(** Once accepted, the key is behind the counters. *)
Definition used_up (s : st) (sg : N) (k : key) : Prop :=
  match k with
  | KRef _ r => mget false r (s_used s) = true
  | KNft _ id n => n < nft_nonce s id
  | KBatch _ n => n < bnonce_of s sg
  end.
Lemma used_up_grows s s' sg k : grows s s' -> used_up s sg k -> used_up s' sg k.
Proof.
  intros [G1 G2 G3]. destruct k as [x r|x id n|x n]; cbn; [apply G3|specialize (G1 id); lia|specialize (G2 sg); lia].
Qed.
Lemma accepted_uses c cr s o i : roomy c s -> low s 1 -> accepted c cr s o = Some i ->
  used_up (step c cr s o) (pf_signer (call_proof i)) (key_of s i).
Proof.
  intros Hr [L1 L2] H. apply accepted_inv in H as (_ & _ & a & Hp & [_ Ha] & ->); [|done].
  destruct (wrap_same o (post s a)) as (E1 & _ & E3 & E4 & _).
  destruct i as [p r l au|p id m|p id to|p id|p n l au|p b ix ow r|p b m|p b]; cbn [call_proof key_of used_up].
  - subst a. rewrite E4. cbn. apply used_self.
  - destruct Ha as [-> (n & Hn & _)]. unfold nft_nonce. rewrite E1, Hn. cbn. rewrite lookup_alter, Hn. cbn.
    specialize (L1 id). unfold nft_nonce in L1. rewrite Hn in L1. rewrite N.mod_small by lia. lia.
  - destruct Ha as (-> & (n & Hn & _) & _). clear Hp E3 E4; generalize dependent (FiatNftTransfer id (pf_signer p) to Fiat (nft_nonce s id)); intros e E1. unfold nft_nonce. rewrite E1, Hn. cbn. rewrite lookup_alter, Hn. cbn.
    specialize (L1 id). unfold nft_nonce in L1. rewrite Hn in L1. rewrite N.mod_small by lia. lia.
  - destruct Ha as (-> & (n & Hn & _) & _). clear Hp E3 E4; generalize dependent (CancelSingleFiatNftListing id Fiat (nft_nonce s id)); intros e E1. unfold nft_nonce. rewrite E1, Hn. cbn. rewrite lookup_alter, Hn. cbn.
    specialize (L1 id). unfold nft_nonce in L1. rewrite Hn in L1. rewrite N.mod_small by lia. lia.
  - subst a. unfold bnonce_of. rewrite E3. specialize (L2 (pf_signer p)). cbn. rewrite bn_up_at, N.eqb_refl. rewrite N.mod_small by lia. unfold bnonce_of. lia.
  - destruct Ha as ((i & au & ->) & _). rewrite E4. cbn. apply used_self.
  - subst a. unfold bnonce_of. rewrite E3. specialize (L2 (pf_signer p)). cbn. rewrite bn_up_at, N.eqb_refl. rewrite N.mod_small by lia. unfold bnonce_of. lia.
  - destruct Ha as (-> & _). unfold bnonce_of. rewrite E3. specialize (L2 (pf_signer p)). cbn. rewrite bn_up_at, N.eqb_refl. rewrite N.mod_small by lia. unfold bnonce_of. lia.
Qed.
(** An accepted instruction's key is not used up. *)
Lemma accepted_fresh c cr s o i : roomy c s -> accepted c cr s o = Some i -> ~ used_up s (pf_signer (call_proof i)) (key_of s i).
Proof.
  intros Hr H. apply accepted_inv in H as (_ & _ & a & Hp & [_ Ha] & _); [|done].
  destruct i as [p r l au|p id m|p id to|p id|p n l au|p b ix ow r|p b m|p b]; cbn [call_proof key_of used_up] in *; try lia.
  - subst a. destruct Hp as ((_ & Hu) & _). congruence.
  - destruct Ha as ((i & au & ->) & _). destruct Hp as ((_ & Hu) & _). congruence.
Qed.

Lemma payloads_fresh c cr ops : forall s sg pl i0 s0, Inv c s -> Forall typed_op ops -> low s (N.of_nat (length ops)) ->
  low s0 0 -> typed_call i0 -> payload_of s0 i0 = pl -> pf_signer (call_proof i0) = sg -> used_up s sg (key_of s0 i0) ->
  ~ In (sg, pl) (accepted_payloads c cr s ops).
Proof.
  induction ops as [|o ops IH]; intros s sg pl i0 s0 HI Ht HL HL0 Ht0 Hpl Hsg Hu; [intros []|].
  cbn [accepted_payloads]. rewrite in_app_iff. apply Forall_cons in Ht as [Hto Ht].
  cbn [length] in HL. rewrite Nat2N.inj_succ in HL. pose proof (inv_roomy _ _ HI) as Hr.
  assert (G : grows s (step c cr s o)) by (apply step_grows; [done|]; eapply low_le; [exact HL|lia]).
  intros [H|H].
  - destruct (accepted c cr s o) as [i|] eqn:Ea; [|destruct H]. destruct H as [H|[]]. injection H as H1 H2.
    assert (K : key_of s i = key_of s0 i0).
    { apply payload_key; [eapply low_le; [exact HL|lia]|done| |done|congruence].
      apply accepted_inv in Ea as (_ & Hc & _); [|done]. unfold typed_op in Hto. now rewrite Hc in Hto. }
    apply (accepted_fresh _ _ _ _ _ Hr Ea). rewrite K, H1. exact Hu.
  - revert H. eapply IH; [now apply inv_step|done|eapply grows_low; [exact G|]; eapply low_le; [exact HL|lia]|exact HL0|done|done|done|].
    eapply used_up_grows; eauto.
Qed.
Lemma payloads_nodup c cr ops : forall s, Inv c s -> Forall typed_op ops -> low s (N.of_nat (length ops)) ->
  NoDup (accepted_payloads c cr s ops).
Proof.
  induction ops as [|o ops IH]; intros s HI Ht HL; [constructor|].
  cbn [accepted_payloads]. apply Forall_cons in Ht as [Hto Ht].
  cbn [length] in HL. rewrite Nat2N.inj_succ in HL. pose proof (inv_roomy _ _ HI) as Hr.
  assert (G : grows s (step c cr s o)) by (apply step_grows; [done|]; eapply low_le; [exact HL|lia]).
  assert (HL' : low (step c cr s o) (N.of_nat (length ops))) by (eapply grows_low; [exact G|]; eapply low_le; [exact HL|lia]).
  specialize (IH _ (inv_step c cr s o HI) Ht HL').
  destruct (accepted c cr s o) as [i|] eqn:Ea; [|exact IH]. cbn [app]. constructor; [|exact IH].
  intros H. apply elem_of_list_In in H. revert H. eapply (payloads_fresh _ _ _ _ _ _ i s); try done.
  - now apply inv_step.
  - eapply low_le; [exact HL|lia].
  - apply accepted_inv in Ea as (_ & Hc & _); [|done]. unfold typed_op in Hto. now rewrite Hc in Hto.
  - apply accepted_uses; [done|eapply low_le; [exact HL|lia]|done].
Qed.
Lemma low_genesis k : k < 2 ^ 64 -> low genesis k.
Proof. intros H. split; intros x; unfold nft_nonce, bnonce_of, genesis, mget; cbn; rewrite ?lookup_empty; lia. Qed.
Lemma run_low c cr ops : forall s k, Inv c s -> low s (N.of_nat (length ops) + k) -> low (run c cr s ops) k.
Proof.
  induction ops as [|o ops IH]; intros s k HI HL; cbn; [eapply low_le; [exact HL|cbn; lia]|].
  apply IH; [now apply inv_step|]. cbn [length] in HL. rewrite Nat2N.inj_succ in HL.
  eapply grows_low; [apply step_grows; [now apply inv_roomy|]|]; eapply low_le; try exact HL; lia.
Qed.
Lemma nonce_run_mono c cr ops : forall s id, Inv c s -> low s (N.of_nat (length ops)) -> nft_nonce s id <= nft_nonce (run c cr s ops) id.
Proof.
  induction ops as [|o ops IH]; intros s id HI HL; cbn; [lia|].
  cbn [length] in HL. rewrite Nat2N.inj_succ in HL.
  assert (G : grows s (step c cr s o)) by (apply step_grows; [now apply inv_roomy|]; eapply low_le; [exact HL|lia]).
  pose proof (gr_nft _ _ G id). specialize (IH (step c cr s o) id (inv_step _ _ _ _ HI) ltac:(eapply grows_low; [exact G|]; eapply low_le; [exact HL|lia])).
  unfold run in IH. lia.
Qed.
