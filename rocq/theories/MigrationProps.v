(** C78-C80: runtime upgrades keep what is stored; and the upgrade of the summary pallet (C22). *)
From Verif Require Import Base AvnModel CodecModel CodecProofs ScaleModel ScaleProofs MigrationModel MigrationSpec MigrationProofs.
From Verif Require SummaryModel ValModel ValSpec ValProofs ValProps.

(** ** C78: lowers of the token pallet *)

(** Whatever the storage holds, upgrading a second time changes nothing. *)
Theorem C78_once s : token_upgrade (token_upgrade s) = token_upgrade s.
Proof.
  unfold token_upgrade at 1. destruct (N.ltb_spec (t_version s) 2) as [H|H].
  - assert (t_version (token_upgrade s) = 2) as E by (unfold token_upgrade; by rewrite (proj2 (N.ltb_lt _ _) H)). rewrite E. done.
  - assert (E : token_upgrade s = s). { unfold token_upgrade. destruct (N.ltb_spec (t_version s) 1); [lia|]. by destruct (N.ltb_spec (t_version s) 2); [lia|]. }
    rewrite E. destruct (N.ltb_spec (t_version s) 1); [lia|]. by destruct (N.ltb_spec (t_version s) 2); [lia|].
Qed.
(** A chain already at version 2 (or above) is not touched. *)
Theorem C78_up_to_date s : 2 <= t_version s -> token_upgrade s = s.
Proof. intros H. unfold token_upgrade. destruct (N.ltb_spec (t_version s) 1); [lia|]. by destruct (N.ltb_spec (t_version s) 2); [lia|]. Qed.
(** The period set by version 0 chains is the default; later ones keep theirs. *)
Theorem C78_period s : lower_period (token_upgrade s) = (if t_version s =? 0 then 3275 else lower_period s).
Proof.
  unfold token_upgrade. destruct (N.eqb_spec (t_version s) 0) as [->|]; [done|]. destruct (N.ltb_spec (t_version s) 1); [lia|]. by destruct (N.ltb_spec (t_version s) 2).
Qed.
(** No lower appears, disappears or changes its stage. *)
Theorem C78_same_lowers s : dom (t_failed (token_upgrade s)) = dom (t_failed s) /\ dom (t_pending (token_upgrade s)) = dom (t_pending s) /\ dom (t_ready (token_upgrade s)) = dom (t_ready s).
Proof.
  unfold token_upgrade. destruct (t_version s <? 1), (t_version s <? 2); cbn; unfold translate_map; rewrite ?dom_fmap_L; done.
Qed.
Lemma token_maps s : t_version s < 2 ->
  t_failed (token_upgrade s) = translate_map (TBytes 76) (TBytes 116) expand (t_failed s) /\
  t_pending (token_upgrade s) = translate_map (TBytes 76) (TBytes 116) expand (t_pending s) /\
  t_ready (token_upgrade s) = translate_map (proof_t 76) (proof_t 116) (fun x => (expand x.1, x.2)) (t_ready s).
Proof. intros H. unfold token_upgrade. rewrite (proj2 (N.ltb_lt _ _) H). by destruct (t_version s <? 1). Qed.
(** An entry that does not decode as before stays as it is, to the byte. *)
Theorem C78_undecodable_kept s k b :
  (t_failed s !! k = Some b -> dec (TBytes 76) b = None -> t_failed (token_upgrade s) !! k = Some b) /\
  (t_pending s !! k = Some b -> dec (TBytes 76) b = None -> t_pending (token_upgrade s) !! k = Some b) /\
  (t_ready s !! k = Some b -> dec (proof_t 76) b = None -> t_ready (token_upgrade s) !! k = Some b).
Proof.
  destruct (N.lt_ge_cases (t_version s) 2) as [H|H]; [|by rewrite C78_up_to_date]. destruct (token_maps s H) as (-> & -> & ->). unfold translate_map.
  split_and!; intros Hk D; rewrite lookup_fmap, Hk; cbn [fmap option_fmap option_map]; by rewrite D.
Qed.
Example C78_undecodable_kept_ex : dec (TBytes 76) (repeat 0 75) = None /\ dec (proof_t 76) (repeat 0 76) = None.
Proof. by vm_compute. Qed.
Lemma v1_length token amount recipient id : length (v1_params token amount recipient id) = 76%nat.
Proof. unfold v1_params. rewrite !app_length, !be_bytes_length. done. Qed.
Lemma v1_bytes token amount recipient id : Forall byte (v1_params token amount recipient id).
Proof.
  assert (B : forall k n, Forall byte (be_bytes k n)) by (intros k n; apply (be_bytes_bytes k n)).
  unfold v1_params. rewrite !Forall_app. repeat split; try apply B. by repeat constructor.
Qed.
Lemma v1_decoded token amount recipient id : v1_range token amount recipient id ->
  decode_lower_data (v1_params token amount recipient id ++ repeat 0 40) = Some (mkLowerData token amount recipient id 0 0).
Proof.
  intros (H1 & H2 & H3 & H4). rewrite <-(lower_roundtrip (mkLowerData token amount recipient id 0 0)); [|repeat split; done].
  rewrite concat_lower_eq. unfold lower_bytes, v1_params. cbn [ld_token ld_amount ld_recipient ld_id ld_sender ld_time].
  rewrite <-!app_assoc. done.
Qed.
Lemma translated t u f m k b : translate_map t u f m !! k = (fun b => match dec t b with Some (x, _) => enc u (f x) | None => b end) <$> (m !! k) -> m !! k = Some b ->
  translate_map t u f m !! k = Some (match dec t b with Some (x, _) => enc u (f x) | None => b end).
Proof. intros -> ->. done. Qed.

(** Every lower that version 0 or 1 had written reads, in the same stage and under the same id, as a lower of the same token,
    amount, recipient and number, without sender and time; a proof keeps its encoded data. *)
Theorem C78_lowers_kept s k token amount recipient id : t_version s < 2 -> v1_range token amount recipient id ->
  (t_pending s !! k = Some (v1_params token amount recipient id) -> exists p, read (TBytes 116) (t_pending (token_upgrade s) !! k) = Some p /\ decode_lower_data p = Some (mkLowerData token amount recipient id 0 0)) /\
  (t_failed s !! k = Some (v1_params token amount recipient id) -> exists p, read (TBytes 116) (t_failed (token_upgrade s) !! k) = Some p /\ decode_lower_data p = Some (mkLowerData token amount recipient id 0 0)) /\
  (forall proof, valid (TU8s 10000) proof -> t_ready s !! k = Some (v1_params token amount recipient id ++ enc (TU8s 10000) proof) ->
    exists p, read (proof_t 116) (t_ready (token_upgrade s) !! k) = Some (p, proof) /\ decode_lower_data p = Some (mkLowerData token amount recipient id 0 0)).
Proof.
  intros Hv Hr. destruct (token_maps s Hv) as (-> & -> & ->). set (q := v1_params token amount recipient id).
  assert (L : length q = 76%nat) by apply v1_length. assert (B : Forall byte q) by apply v1_bytes.
  assert (D : dec (TBytes 76) q = Some (q, [])). { rewrite <-(app_nil_r q) at 1. change q with (enc (TBytes 76) q) at 1. apply dec_enc. done. }
  assert (X : forall m, m !! k = Some q -> read (TBytes 116) (translate_map (TBytes 76) (TBytes 116) expand m !! k) = Some (q ++ repeat 0 40)).
  { intros m Hm. unfold translate_map. rewrite lookup_fmap, Hm. cbn [fmap option_fmap option_map]. rewrite D, expand_eq by done. by apply read_enc, params_valid. }
  split; [|split].
  - intros Hm. exists (q ++ repeat 0 40). split; [by apply X|by apply v1_decoded].
  - intros Hm. exists (q ++ repeat 0 40). split; [by apply X|by apply v1_decoded].
  - intros proof Hp Hm. exists (q ++ repeat 0 40). split; [|by apply v1_decoded].
    unfold translate_map. rewrite lookup_fmap, Hm. cbn [fmap option_fmap option_map].
    assert (E : dec (proof_t 76) (q ++ enc (TU8s 10000) proof) = Some ((q, proof), [])).
    { change (q ++ enc (TU8s 10000) proof) with (enc (proof_t 76) (q, proof)). rewrite <-(app_nil_r (enc _ _)). apply dec_enc. split; done. }
    rewrite E. cbn [fst snd]. rewrite expand_eq by done. apply read_enc. split; [by apply params_valid|done].
Qed.
(** A concrete chain: one lower in each stage. *)
Definition x_lowers : lowers := mkLowers 1 (Some (enc (TInt 4) 100)) {[ 3 := v1_params 7 50 9 3 ]} {[ 4 := v1_params 7 60 9 4 ]} {[ 5 := v1_params 7 70 9 5 ++ enc (TU8s 10000) [1; 2; 3] ]}.
Example C78_example : let s := token_upgrade x_lowers in
  lower_period s = 100 /\
  (read (TBytes 116) (t_failed s !! 3) ≫= decode_lower_data) = Some (mkLowerData 7 50 9 3 0 0) /\
  (read (TBytes 116) (t_pending s !! 4) ≫= decode_lower_data) = Some (mkLowerData 7 60 9 4 0 0) /\
  (snd <$> read (proof_t 116) (t_ready s !! 5)) = Some [1; 2; 3].
Proof. by vm_compute. Qed.
(** Refuted: the pallet's own check accepts its upgrade.  It fails exactly on the chains whose period the upgrade has set. *)
Theorem C78_own_check_refuted : exists s, t_version s = 0 /\ lower_period (token_upgrade s) = 3275 /\ token_post_upgrade (lower_period s) (token_upgrade s) = false.
Proof. by exists (mkLowers 0 None ∅ ∅ ∅). Qed.

(** ** C79: the bridge's requests *)

Theorem C79_once m s : bridge_upgrade m (bridge_upgrade m s) = bridge_upgrade m s.
Proof.
  assert (F : forall s, 5 <= b_version s -> range_size s <> 0 -> bridge_upgrade m s = s).
  { intros s0 H1 H2. unfold bridge_upgrade. apply N.eqb_neq in H2. rewrite H2. destruct (N.ltb_spec (b_version s0) 3); [lia|]. destruct (N.ltb_spec (b_version s0) 4); [lia|].
    by destruct (N.leb_spec (b_version s0) 4); [lia|]. }
  apply F.
  - unfold bridge_upgrade. change ((BRIDGE_VERSION =? 4) || (BRIDGE_VERSION =? 5)) with true. change (BRIDGE_VERSION =? 5) with true. rewrite !andb_true_r.
    destruct (N.leb_spec (b_version s) 4) as [H|H]; [done|]. destruct (N.ltb_spec (b_version s) 3); [lia|]. destruct (N.ltb_spec (b_version s) 4); [lia|]. destruct (range_size s =? 0); cbn; lia.
  - assert (G : forall s, range_size (migrate_to_v3 s) = range_size s) by (intros s0; unfold migrate_to_v3; by destruct (read range2_t (b_range s0)) as [(r & p & f)|]).
    unfold bridge_upgrade. change ((BRIDGE_VERSION =? 4) || (BRIDGE_VERSION =? 5)) with true. change (BRIDGE_VERSION =? 5) with true. rewrite !andb_true_r.
    set (s1 := if range_size s =? 0 then set_block_range_size s else s).
    assert (H1 : range_size s1 <> 0). { unfold s1. destruct (N.eqb_spec (range_size s) 0); [by vm_compute|done]. }
    assert (H2 : range_size (if b_version s <? 3 then migrate_to_v3 s1 else s1) <> 0) by (destruct (_ <? 3); by rewrite ?G).
    revert H2. generalize (if b_version s <? 3 then migrate_to_v3 s1 else s1). intros s2 H2. by destruct (_ <? 4), (_ <=? 4).
Qed.
Theorem C79_up_to_date m s : 5 <= b_version s -> range_size s <> 0 -> bridge_upgrade m s = s.
Proof.
  intros H1 H2. unfold bridge_upgrade. apply N.eqb_neq in H2. rewrite H2. destruct (N.ltb_spec (b_version s) 3); [lia|]. destruct (N.ltb_spec (b_version s) 4); [lia|].
  by destruct (N.leb_spec (b_version s) 4); [lia|].
Qed.
(** After the upgrade the version is 5 (or what it was, above) and there is a range size: the old one, or 20 if it was zero. *)
Theorem C79_version_and_size m s : b_version (bridge_upgrade m s) = N.max 5 (b_version s) /\
  range_size (bridge_upgrade m s) = (if range_size s =? 0 then 20 else range_size s).
Proof.
  assert (G : forall s, range_size (migrate_to_v3 s) = range_size s) by (intros s0; unfold migrate_to_v3; by destruct (read range2_t (b_range s0)) as [(r & p & f)|]).
  unfold bridge_upgrade. change ((BRIDGE_VERSION =? 4) || (BRIDGE_VERSION =? 5)) with true. change (BRIDGE_VERSION =? 5) with true. rewrite !andb_true_r. split.
  - destruct (N.leb_spec (b_version s) 4) as [H|H]; [cbn; unfold BRIDGE_VERSION; lia|]. destruct (N.ltb_spec (b_version s) 3); [lia|]. destruct (N.ltb_spec (b_version s) 4); [lia|]. destruct (range_size s =? 0); cbn; lia.
  - set (s1 := if range_size s =? 0 then set_block_range_size s else s).
    assert (H1 : range_size s1 = (if range_size s =? 0 then 20 else range_size s)). { unfold s1. by destruct (N.eqb_spec (range_size s) 0). }
    rewrite <-H1. assert (H2 : range_size (if b_version s <? 3 then migrate_to_v3 s1 else s1) = range_size s1) by (destruct (_ <? 3); by rewrite ?G).
    rewrite <-H2. generalize (if b_version s <? 3 then migrate_to_v3 s1 else s1). intros s2. by destruct (_ <? 4), (_ <=? 4).
Qed.

(** What each version's path does to the three items. *)
Lemma bridge_items m s : b_version s <= 4 ->
  b_queue (bridge_upgrade m s) = translate_value (queue_t m 76) (queue_t m 116) (queue_v5 m) (b_queue s) /\
  b_active (bridge_upgrade m s) = translate_value (active_t 76 tx_t) (active_t 116 tx_t) active_v5
    (if b_version s <? 4 then translate_value (active_t 116 tx3_t) (active_t 116 tx_t) active_v4 (b_active s) else b_active s) /\
  b_range (bridge_upgrade m s) = (if b_version s <? 3 then match read range2_t (b_range s) with Some (r, (p, f)) => Some (enc range_t (r, (p, (f, [])))) | None => b_range s end else b_range s).
Proof.
  intros H. unfold bridge_upgrade. change ((BRIDGE_VERSION =? 4) || (BRIDGE_VERSION =? 5)) with true. change (BRIDGE_VERSION =? 5) with true. rewrite !andb_true_r.
  rewrite (proj2 (N.leb_le _ _) H).
  set (s1 := if range_size s =? 0 then set_block_range_size s else s).
  assert (H1 : b_queue s1 = b_queue s /\ b_active s1 = b_active s /\ b_range s1 = b_range s) by (unfold s1; by destruct (range_size s =? 0)).
  destruct H1 as (E1 & E2 & E3). rewrite <-E1, <-E2, <-E3. destruct (N.ltb_spec (b_version s) 3) as [Hv|Hv].
  - assert (b_version s <? 4 = true) as -> by (apply N.ltb_lt; lia). unfold migrate_to_v3. by destruct (read range2_t (b_range s1)) as [(r & p & f)|].
  - by destruct (b_version s <? 4).
Qed.

(** The queue: from any older version, the same requests in the same order. *)
Theorem C79_queue_kept m s q : b_version s <= 4 -> stored (queue_t m 76) q (b_queue s) ->
  exists q', read (queue_t m 116) (b_queue (bridge_upgrade m s)) = q' /\ option_Forall2 (Forall2 same_request) q q'.
Proof.
  intros Hv Hq. destruct (bridge_items m s Hv) as (-> & _). eexists. split.
  - apply stored_read. eapply translate_stored; [exact Hq|]. intros x _ Hx. by apply queue_v5_ok.
  - destruct q as [q|]; [|constructor]. constructor. destruct Hq as (b & _ & Hx & _). by apply queue_v5_ok.
Qed.
(** The active request, from version 4. *)
Theorem C79_active_kept m s a : b_version s = 4 -> stored (active_t 76 tx_t) a (b_active s) ->
  exists a', read (active_t 116 tx_t) (b_active (bridge_upgrade m s)) = a' /\ option_Forall2 same_active a a'.
Proof.
  intros Hv Ha. destruct (bridge_items m s ltac:(lia)) as (_ & -> & _). rewrite Hv. change (4 <? 4) with false. cbv iota. eexists. split.
  - apply stored_read. eapply translate_stored; [exact Ha|]. intros x _ Hx. by apply active_v5_ok.
  - destruct a as [a|]; [|constructor]. constructor. destruct Ha as (b & _ & Hx & _). by apply active_v5_ok.
Qed.
(** The active request from version 3 or older: none stays none; a request to send stays, never replayed; a request for a proof
    stays if nobody has confirmed it yet and its caller's name is below 40 bytes. *)
Theorem C79_active_kept_from_3 m s a : b_version s < 4 -> stored (active_t 76 tx3_t) a (b_active s) ->
  match a with
  | Some (inr (_, (_, caller)), ((_, confirmations), (tx, _))) => confirmations = [] /\ tx = None /\ (length caller < 40)%nat
  | _ => True
  end ->
  exists a', read (active_t 116 tx_t) (b_active (bridge_upgrade m s)) = a' /\ option_Forall2 same_active3 a a'.
Proof.
  intros Hv Ha Hc. destruct (bridge_items m s ltac:(lia)) as (_ & -> & _). rewrite (proj2 (N.ltb_lt _ _) Hv).
  destruct a as [(req & conf & tx & upd)|].
  2:{ cbn in Ha. rewrite Ha. cbn. eexists. split; [done|constructor]. }
  destruct Ha as (b & -> & Hx & ->). destruct req as [d|(id & p & caller)].
  - assert (V : valid (active_t 116 tx3_t) (inl d, (conf, (tx, upd)))) by exact Hx.
    set (tx' := match tx with Some t => Some (tx_v4 t) | None => None end).
    assert (V' : valid (active_t 76 tx_t) (inl d, (conf, (tx', upd)))).
    { destruct V as (V1 & V2 & V3 & V4). split; [exact V1|]. split; [done|]. split; [|done]. destruct tx as [t|]; [|done]. by apply tx_v4_ok. }
    destruct (active_v5_ok _ V') as [W _].
    pose proof (translate_stored (active_t 116 tx3_t) (active_t 116 tx_t) active_v4 (Some (inl d, (conf, (tx, upd)))) (Some (enc (active_t 76 tx3_t) (inl d, (conf, (tx, upd)))))) as S1.
    destruct S1 as (b1 & Eb & _ & Eb1).
    { eexists. split; [reflexivity|]. split; [exact V|apply active_v4_send]. }
    { intros y [= <-] _. exact V'. }
    match goal with |- context [translate_value (active_t 116 tx3_t) (active_t 116 tx_t) active_v4 ?r] => replace (translate_value (active_t 116 tx3_t) (active_t 116 tx_t) active_v4 r) with (Some b1) by (symmetry; exact Eb) end.
    eexists. split.
    + eapply stored_read, (translate_stored (active_t 76 tx_t) (active_t 116 tx_t) active_v5 (Some (inl d, (conf, (tx', upd))))).
      * eexists. split; [reflexivity|]. split; [exact V'|]. exact Eb1.
      * intros y [= <-] _. exact W.
    + constructor. destruct d as (i & fn & ps & cl). split; [done|]. split; [done|]. split; [|done]. cbn. destruct tx as [t|]; [|constructor]. constructor. apply tx_v4_ok. by destruct V as (_ & _ & V3 & _).
  - destruct conf as [hash cs]. destruct Hc as (-> & -> & Hl). 
    match goal with |- context [translate_value (active_t 116 tx3_t) (active_t 116 tx_t) active_v4 ?r] =>
      replace (translate_value (active_t 116 tx3_t) (active_t 116 tx_t) active_v4 r) with (Some (enc (active_t 76 tx_t) (inr (id, (p, caller)), ((hash, []), (None, upd)))))
        by (rewrite <-active_v4_none; unfold translate_value; by rewrite short_lower) end.
    set (y := (inr (id, (p, caller)), (hash, [], (None, upd))) : den (active_t 76 tx_t)). assert (V : valid (active_t 76 tx_t) y) by exact Hx.
    destruct (active_v5_ok _ V) as [W S]. eexists. split.
    + eapply stored_read, (translate_stored (active_t 76 tx_t) (active_t 116 tx_t) active_v5 (Some y)).
      * cbn [stored]. eexists. split; [done|]. split; [exact V|done].
      * intros z [= <-] _. exact W.
    + constructor. destruct S as [S1 S2]. split; [exact S1|]. split; [done|]. split; [constructor|done].
Qed.
(** The range of Ethereum blocks being read: from versions below 3 with no additional transactions, otherwise untouched. *)
Theorem C79_range_kept m s r : (b_version s < 3 -> stored range2_t r (b_range s)) ->
  (b_version s < 3 -> read range_t (b_range (bridge_upgrade m s)) = (fun x => (x.1, (x.2.1, (x.2.2, [])))) <$> r) /\
  (3 <= b_version s -> b_range (bridge_upgrade m s) = b_range s).
Proof.
  intros Hr. split.
  - intros Hv. specialize (Hr Hv). destruct (bridge_items m s ltac:(lia)) as (_ & _ & ->). rewrite (proj2 (N.ltb_lt _ _) Hv). rewrite (stored_read _ _ _ Hr).
    destruct r as [(x & p & f)|]; cbn [fmap option_fmap option_map]; [|by rewrite Hr]. destruct Hr as (b & _ & (H1 & H2 & H3) & _). apply read_enc. split; [done|]. split; [done|]. split; [done|]. split; [done|]. split; [done|constructor].
  - intros Hv. destruct (N.leb_spec (b_version s) 4) as [H|H].
    + destruct (bridge_items m s H) as (_ & _ & ->). by destruct (N.ltb_spec (b_version s) 3); [lia|].
    + unfold bridge_upgrade. destruct (N.ltb_spec (b_version s) 3); [lia|]. destruct (N.ltb_spec (b_version s) 4); [lia|]. destruct (N.leb_spec (b_version s) 4); [lia|]. by destruct (range_size s =? 0).
Qed.
(** A lower waiting for its proof still has the parameters the queued request for it has. *)
Theorem C79_agrees_with_lowers m s t q (k : N) (p : list N) : b_version s <= 4 -> t_version t < 2 -> stored (queue_t m 76) (Some q) (b_queue s) ->
  valid (TBytes 76) p -> t_pending t !! k = Some p -> (exists caller, inr (k, (p, caller)) ∈ q) ->
  exists q' p' caller, read (queue_t m 116) (b_queue (bridge_upgrade m s)) = Some q' /\ read (TBytes 116) (t_pending (token_upgrade t) !! k) = Some p' /\ inr (k, (p', caller)) ∈ q'.
Proof.
  intros Hv Ht Hq [Hp1 Hp2] Hk [caller Hin]. destruct (C79_queue_kept m s _ Hv Hq) as (o & Hr & HF). inversion HF as [? q' HF' |]; subst.
  exists q', (p ++ repeat 0 40), caller. split; [done|]. split.
  - destruct (token_maps t Ht) as (_ & -> & _). unfold translate_map. rewrite lookup_fmap, Hk. cbn [fmap option_fmap option_map].
    assert (E : dec (TBytes 76) p = Some (p, [])). { rewrite <-(app_nil_r p) at 1. change p with (enc (TBytes 76) p) at 1. apply dec_enc. done. }
    rewrite E, expand_eq by done. by apply read_enc, params_valid.
  - apply elem_of_list_lookup in Hin as [i Hi]. destruct (Forall2_lookup_l _ _ _ _ _ HF' Hi) as (y & Hy & Hs). apply elem_of_list_lookup. exists i.
    destruct y as [?|(k' & p' & c')]; [done|]. destruct Hs as (-> & -> & ->). exact Hy.
Qed.
(** The bridge's own check accepts an upgrade from version 4. *)
Theorem C79_own_check m s q a : b_version s = 4 -> stored (queue_t m 76) q (b_queue s) -> stored (active_t 76 tx_t) a (b_active s) ->
  bridge_post_upgrade m (bridge_upgrade m s) = true.
Proof.
  intros Hv Hq Ha. destruct (C79_queue_kept m s q ltac:(lia) Hq) as (q' & E1 & F1). destruct (C79_active_kept m s a Hv Ha) as (a' & E2 & F2).
  destruct (C79_version_and_size m s) as [E3 E4].
  assert (T : forall r r', valid (request_t 76) r -> same_request r r' -> request_checked r' = true).
  { intros [r|(id & p & c)] [r'|(id' & p' & c')] Hr HS; try done. destruct HS as (_ & -> & _). destruct Hr as (_ & [Hp _] & _). cbn [fst snd] in Hp.
    unfold request_checked, tail_zero, slice. rewrite drop_app_alt by done. done. }
  unfold bridge_post_upgrade. rewrite E3, E4, Hv. change (N.max 5 4 =? 5) with true. cbv iota. rewrite E1, E2.
  assert (negb ((if range_size s =? 0 then 20 else range_size s) =? 0) = true) as ->. { destruct (N.eqb_spec (range_size s) 0) as [|H]; [done|]. apply N.eqb_neq in H. by rewrite H. }
  cbn [andb]. apply andb_true_iff. split.
  - inversion F1 as [l l' HF|]; subst; [|done]. destruct Hq as (b & _ & (_ & _ & HV) & _). apply forallb_forall. intros r' Hr'.
    apply elem_of_list_In, elem_of_list_lookup in Hr' as [i Hi]. destruct (Forall2_lookup_r _ _ _ _ _ HF Hi) as (r & Hr & HS). eapply T; [|exact HS]. by eapply Forall_lookup_1 in HV.
  - inversion F2 as [x x' HS|]; subst; [|done]. destruct x' as (r' & ?). destruct Ha as (b & _ & (HV & _) & _). destruct HS as [HS _]. by eapply T in HS.
Qed.

(** A concrete bridge: a proof request being confirmed, one of each kind in the queue. *)
Definition x_caller : list N := ascii_bytes "token_manager".
Definition x_send : den send_t := (12, (ascii_bytes "publishRoot", ([(ascii_bytes "bytes32", [1; 2; 3])], ascii_bytes "Summary"))).
Definition x_p : list N := v1_params 7 60 9 4.
Definition x_queue : list (den (request_t 76)) := [inl x_send; inr (4, (x_p, x_caller))].
Definition x_active : den (active_t 76 tx_t) := (inr (3, (v1_params 7 50 9 3, x_caller)), ((repeat 5 32, [repeat 6 65]), (None, 1000))).
Definition x_bridge : bridge := mkBridge 4 None None (Some (enc (active_t 76 tx_t) x_active)) (Some (enc (queue_t 100 76) x_queue)).
Lemma x_forall l : forallb (fun b => b <? 256) l = true -> Forall byte l.
Proof. intros H. apply Forall_forall. intros x Hx. rewrite forallb_forall in H. apply elem_of_list_In, H in Hx. by apply N.ltb_lt. Qed.
Lemma x_u8s m l : forallb (fun b => b <? 256) l = true -> N.of_nat (length l) <=? m = true -> m <? 2 ^ 32 = true -> valid (TU8s m) l.
Proof. intros H1 H2 H3. split; [by apply N.leb_le|]. split; [by apply N.ltb_lt|]. exact (x_forall l H1). Qed.
Lemma x_stored : stored (queue_t 100 76) (Some x_queue) (b_queue x_bridge) /\ stored (active_t 76 tx_t) (Some x_active) (b_active x_bridge).
Proof.
  assert (V : forall i p c, i <? 2 ^ 32 = true -> length p = 76%nat -> Forall byte p -> valid (TU8s 50) c -> valid (request_t 76) (inr (i, (p, c)))).
  { intros i p c H1 H2 H3 H4. split; [by apply N.ltb_lt|]. split; [by split|done]. }
  assert (C : valid (TU8s 50) x_caller) by (by apply x_u8s).
  split; (eexists; split; [reflexivity|]; split; [|reflexivity]).
  - split; [done|]. split; [done|]. constructor; [|constructor; [|constructor]].
    + split; [done|]. split; [by apply x_u8s|]. split; [|by apply x_u8s]. split; [done|]. split; [done|]. constructor; [|constructor]. split; by apply x_u8s.
    + apply V; [done|apply v1_length|apply v1_bytes|done].
  - split; [apply V; [done|apply v1_length|apply v1_bytes|done]|]. split; [|done].
    split; [split; [done|by apply x_forall]|]. split; [done|]. split; [done|]. constructor; [|constructor]. split; [done|by apply x_forall].
Qed.
Example C79_example : let s := bridge_upgrade 100 x_bridge in
  read (queue_t 100 116) (b_queue s) = Some [inl x_send; inr (4, (x_p ++ repeat 0 40, x_caller))] /\
  read (active_t 116 tx_t) (b_active s) = Some (inr (3, (v1_params 7 50 9 3 ++ repeat 0 40, x_caller)), ((repeat 5 32, [repeat 6 65]), (None, 1000))).
Proof. split; by vm_compute. Qed.

(** Refuted: an upgrade from version 3 keeps the active request.  The step to version 4 reads a request with 116 bytes of
    parameters where 76 were written.  With this hash and signature the value decodes all the same, and is cut short; after the
    upgrade the parameters are the old ones followed by the caller's name and part of the hash, and the confirmation is gone. *)
Definition bad_hash : list N := repeat 5 26 ++ [0] ++ repeat 5 5.
Definition bad_sig : list N := repeat 6 26 ++ [0; 0] ++ repeat 6 37.
Definition bad_active : den (active_t 76 tx3_t) := (inr (3, (v1_params 7 50 9 3, x_caller)), ((bad_hash, [bad_sig]), (None, 1000))).
Theorem C79_from_3_refuted : exists m s, b_version s = 3 /\ stored (active_t 76 tx3_t) (Some bad_active) (b_active s) /\
  match read (active_t 116 tx_t) (b_active (bridge_upgrade m s)) with
  | Some (inr (id, (p, caller)), ((hash, confirmations), _)) =>
      id = 3 /\ p = v1_params 7 50 9 3 ++ (52 :: x_caller) ++ repeat 5 26 /\ caller = [] /\ confirmations = [] /\ hash <> bad_hash
  | _ => False
  end.
Proof.
  exists 100, (mkBridge 3 None None (Some (enc (active_t 76 tx3_t) bad_active)) None). split; [done|]. split.
  - eexists. split; [reflexivity|]. split; [|reflexivity]. split; [split; [done|split; [split; [apply v1_length|apply v1_bytes]|by apply x_u8s]]|].
    split; [|done]. split; [split; [done|by apply x_forall]|]. split; [done|]. split; [done|]. constructor; [|constructor]. split; [done|by apply x_forall].
  - vm_compute. repeat split. discriminate.
Qed.
(** Refuted: the bridge's own check accepts whatever an upgrade leaves intact.  It takes the sender and time of a lower requested
    since version 5 for parameters left behind. *)
Theorem C79_own_check_refuted : exists m s q, b_version s = 5 /\ stored (queue_t m 116) (Some q) (b_queue s) /\ bridge_upgrade m s = s /\ bridge_post_upgrade m (bridge_upgrade m s) = false.
Proof.
  exists 100, (mkBridge 5 None None None (Some (enc (queue_t 100 116) [inr (4, (concat_lower_data (mkLowerData 7 60 9 4 1 1000), x_caller))]))), [inr (4, (concat_lower_data (mkLowerData 7 60 9 4 1 1000), x_caller))].
  split; [done|]. split; [|split; by vm_compute]. eexists. split; [reflexivity|]. split; [|reflexivity]. split; [done|]. split; [done|]. constructor; [|constructor].
  split; [done|]. split; [|by apply x_u8s]. split; [by vm_compute|]. by apply x_forall; vm_compute.
Qed.

(** ** C80: the keys of the validators *)

Lemma populate_other order (m : gmap N N) a : (forall k, (k, a) ∉ order) -> fold_left (fun (m : gmap N N) e => <[e.2 := e.1]> m) order m !! a = m !! a.
Proof.
  revert m. induction order as [|[k1 b1] order IH]; intros m Hn; [done|]. cbn. rewrite IH; [|intros k' H; apply (Hn k'); by right]. apply lookup_insert_ne. intros ->. apply (Hn k1). by left.
Qed.
Lemma populate_spec order m a : (forall k1 k2 b, (k1, b) ∈ order -> (k2, b) ∈ order -> k1 = k2) ->
  forall k, (k, a) ∈ order -> fold_left (fun (m : gmap N N) e => <[e.2 := e.1]> m) order m !! a = Some k.
Proof.
  revert m. induction order as [|[k0 b0] order IH]; intros m Hinj k Hk; [by apply elem_of_nil in Hk|]. cbn.
  assert (I : forall k1 k2 b, (k1, b) ∈ order -> (k2, b) ∈ order -> k1 = k2) by (intros k1 k2 b H1 H2; eapply Hinj; by right).
  destruct (decide (Exists (fun e => e.2 = a) order)) as [Hx|Hn].
  - apply Exists_exists in Hx as ([k' b] & Hk' & Hb). cbn in Hb. subst b. assert (k = k') as -> by (eapply Hinj; [done|by right]). by apply IH.
  - assert (Hn' : forall k', (k', a) ∉ order) by (intros k' H; apply Hn, Exists_exists; eexists; split; [exact H|done]).
    apply elem_of_cons in Hk as [[= -> ->]|Hk]; [|by apply Hn' in Hk]. rewrite populate_other by done. apply lookup_insert.
Qed.
(** From version 1, where only the table from key to account existed, with at most one key per account: whatever order the storage
    is read in, the new table is the inverse, and the other one is as it was. *)
Theorem C80_inverse order s : k_version s = 1 -> order ≡ₚ map_to_list (k_owner s) -> k_key s = ∅ ->
  (forall k1 k2 a, k_owner s !! k1 = Some a -> k_owner s !! k2 = Some a -> k1 = k2) ->
  let s' := keys_upgrade order s in
  k_version s' = 2 /\ k_owner s' = k_owner s /\ forall a k, k_key s' !! a = Some k <-> k_owner s' !! k = Some a.
Proof.
  intros Hv Ho He Hinj s'. unfold s', keys_upgrade. rewrite Hv. change (1 =? 1) with true. cbv iota. split; [done|]. split; [done|]. intros a k. cbn. rewrite He.
  assert (E : forall k b, (k, b) ∈ order <-> k_owner s !! k = Some b) by (intros k0 b; rewrite Ho; apply elem_of_map_to_list).
  assert (I : forall k1 k2 b, (k1, b) ∈ order -> (k2, b) ∈ order -> k1 = k2) by (intros k1 k2 b H1 H2; apply E in H1, H2; eauto).
  split; [|intros H; by apply populate_spec, E]. intros H.
  destruct (decide (Exists (fun e => e.2 = a) order)) as [Hx|Hx].
  - apply Exists_exists in Hx as ([k' b] & Hin & Hb). cbn in Hb. subst b. rewrite (populate_spec order ∅ a I k' Hin) in H. injection H as <-. by apply E.
  - rewrite populate_other in H; [done|]. intros k' Hin. apply Hx. apply Exists_exists. eexists. split; [exact Hin|done].
Qed.
(** At any other version nothing changes; a second upgrade changes nothing. *)
Theorem C80_once order order' s : keys_upgrade order' (keys_upgrade order s) = keys_upgrade order s /\ (k_version s <> 1 -> keys_upgrade order s = s).
Proof.
  unfold keys_upgrade. destruct (N.eqb_spec (k_version s) 1) as [H|H]; [by split|]. split; [|done]. apply N.eqb_neq in H. by rewrite H.
Qed.
(** The pallet's own check passes after an upgrade from version 1 exactly if no account had two keys. *)
Theorem C80_own_check order s : k_version s = 1 -> order ≡ₚ map_to_list (k_owner s) ->
  (keys_post_upgrade (keys_upgrade order s) = true <-> forall k1 k2 a, k_owner s !! k1 = Some a -> k_owner s !! k2 = Some a -> k1 = k2).
Proof.
  intros Hv Ho. unfold keys_post_upgrade, keys_upgrade. rewrite Hv. change (1 =? 1) with true. cbv iota.
  assert (E : forall k b, (k, b) ∈ order <-> k_owner s !! k = Some b) by (intros k0 b; rewrite Ho; apply elem_of_map_to_list).
  change (k_version (populate order s) =? KEYS_VERSION) with true. cbn [andb]. change (k_owner (populate order s)) with (k_owner s). rewrite forallb_forall. split.
  - intros H k1 k2 a H1 H2. apply elem_of_map_to_list, elem_of_list_In in H1, H2. apply (H (k1, a)), bool_decide_eq_true in H1. apply (H (k2, a)), bool_decide_eq_true in H2. cbn in *. congruence.
  - intros H [k a] Hin. apply elem_of_list_In, elem_of_map_to_list in Hin. apply bool_decide_eq_true. cbn in *. apply populate_spec; [|by apply E].
    intros k1 k2 b H1 H2. apply E in H1, H2. eauto.
Qed.
(** The table that the pallet keeps from genesis on (C53) is the table the upgrade builds: were it lost at any time, the upgrade
    would restore it. *)
Theorem C80_restores c g e next l order : ValSpec.good_genesis c g -> let s := ValModel.run c (ValModel.genesis g e next) l in
  order ≡ₚ map_to_list (ValModel.s_owner s) -> k_key (keys_upgrade order (mkKeys 1 (ValModel.s_owner s) ∅)) = ValModel.s_key s.
Proof.
  intros Hg s Ho. assert (T := fun a k => ValProps.C53_tables_inverse c g e next l Hg a k). cbv zeta in T.
  destruct (C80_inverse order (mkKeys 1 (ValModel.s_owner s) ∅)) as (_ & E2 & E3); [done|done|done| |].
  { cbn. intros k1 k2 a H1 H2. apply T in H1, H2. congruence. }
  apply map_eq. intros a. apply option_eq. intros k. rewrite E3, E2. cbn. apply T.
Qed.
Example C80_example : let s := keys_upgrade [(11, 1); (12, 2)] (mkKeys 1 {[ 11 := 1; 12 := 2 ]} ∅) in map_to_list (k_key s) = [(1, 11); (2, 12)] /\ keys_post_upgrade s = true.
Proof. split; by vm_compute. Qed.
(** Refuted: after an upgrade the tables are inverse.  A chain at version 0 is not upgraded, and with two keys of one account the
    result depends on the order of reading. *)
Theorem C80_any_chain_refuted : (exists order s a k, k_owner s !! k = Some a /\ order ≡ₚ map_to_list (k_owner s) /\ k_version s = 0 /\ k_key (keys_upgrade order s) !! a = None) /\
  (exists o1 o2 s a, o1 ≡ₚ map_to_list (k_owner s) /\ o2 ≡ₚ map_to_list (k_owner s) /\ k_version s = 1 /\ k_key (keys_upgrade o1 s) !! a = Some 11 /\ k_key (keys_upgrade o2 s) !! a = Some 12).
Proof.
  split.
  - exists [(11, 1)], (mkKeys 0 {[ 11 := 1 ]} ∅), 1, 11. repeat split; by vm_compute.
  - assert (P : [(11, 1); (12, 1)] ≡ₚ map_to_list ({[ 11 := 1; 12 := 1 ]} : gmap N N)).
    { rewrite map_to_list_insert by done. rewrite map_to_list_singleton. done. }
    exists [(12, 1); (11, 1)], [(11, 1); (12, 1)], (mkKeys 1 {[ 11 := 1; 12 := 1 ]} ∅), 1. cbn [k_owner].
    split; [rewrite <-P; constructor|]. split; [exact P|]. repeat split; by vm_compute.
Qed.

(** ** C22: the upgrade of the summary pallet *)

(** At version 1 it does nothing.  From version 0 it needs a validator, and leaves valid periods and a slot of a validator. *)
Theorem C22_upgrade v s : (1 <= v -> summary_upgrade v s = Some (v, s)) /\
  (v = 0 -> match summary_upgrade v s with
            | None => SummaryModel.s_validators s = []
            | Some (v', s') => v' = 1 /\ SummaryModel.MIN_SCHEDULE <= SummaryModel.s_schedule s' /\ SummaryModel.MIN_VOTING <= SummaryModel.s_voting s' < SummaryModel.s_schedule s' /\
                SummaryModel.s_voting s' <= SummaryModel.MAX_VOTING /\ (exists a, SummaryModel.s_slot_validator s' = Some a /\ is_validator (SummaryModel.s_validators s') a = true)
            end).
Proof.
  split.
  - intros H. unfold summary_upgrade. by destruct (N.ltb_spec v 1); [lia|].
  - intros ->. unfold summary_upgrade. change (0 <? 1) with true. cbv iota. destruct (SummaryModel.s_validators s) as [|x l] eqn:E; [done|].
    split; [done|]. split; [done|]. split; [done|]. split; [done|]. cbn. exists (v_account x). split; [done|]. rewrite E. unfold is_validator. cbn. by rewrite N.eqb_refl.
Qed.
(** Refuted: the validator it puts in charge can take its turn.  The slot is dated block 28800, whatever block it is: on a chain
    past that block and the grace period the first validator may not advance the slot, and anyone may have it punished. *)
Theorem C22_upgrade_punctual_refuted : exists c s s', summary_upgrade 0 s = Some (1, s') /\ SummaryModel.s_slot_validator s' = Some 1 /\
  snd (SummaryModel.update_slot_number c 1 s') = Err "GracePeriodElapsed" /\
  exists s'', SummaryModel.add_challenge c (Some (SummaryModel.s_slot s')) 2 1 2 s' = (s'', Ok tt) /\ In (SummaryModel.EvOffence SummaryModel.SlotNotAdvanced [1]) (SummaryModel.s_events s'').
Proof.
  exists (SummaryModel.mkConfig 5 true false (fun _ h => h)),
    (SummaryModel.mkSt 100000 [mkValidator 1 101; mkValidator 2 102; mkValidator 3 103] None false 0 ∅ 0 0 None 0 ∅ ∅ ∅ 0 0 0 0 ∅ ∅ ∅ ∅ None []).
  eexists. split; [reflexivity|]. split; [reflexivity|]. split; [by vm_compute|]. eexists. split; [by vm_compute|]. vm_compute. auto 10.
Qed.
