(** More lemmas for AbiProps: digests determine what is signed; lower proofs; histories of the bridge. *)
From Verif Require Import Base BaseLemmas AvnModel CodecModel CodecProofs MerkleModel BridgeModel BridgeProofs AbiModel AbiSpec AbiProofs AbiProofs2.

(** ** What is signed can be read off the digest *)
Lemma keccak_lt K x : keccak K x < 2 ^ 256.
Proof. unfold keccak. apply N.mod_upper_bound. lia. Qed.
Lemma word_app a b (r r' : list N) : a < 2 ^ 256 -> b < 2 ^ 256 -> word a ++ r = word b ++ r' -> a = b /\ r = r'.
Proof.
  intros Ha Hb E. apply app_inj_1 in E as [E ->]; [|unfold word; by rewrite !be_bytes_length]. split; [|done].
  unfold word in E. apply (f_equal be_value) in E. by rewrite !word256 in E.
Qed.
Lemma word_inj a b : a < 2 ^ 256 -> b < 2 ^ 256 -> word a = word b -> a = b.
Proof. intros Ha Hb E. apply (f_equal be_value) in E. unfold word in E. by rewrite !word256 in E. Qed.
Lemma same_or_collide K l l' m m' : In m l -> In m' l' -> keccak K m = keccak K m' -> m = m' \/ collide K l l'.
Proof. intros H H' E. destruct (decide (m = m')); [by left|right]. exists m, m'. auto. Qed.
Lemma type_inj x y : ascii_bytes (struct_type x) = ascii_bytes (struct_type y) -> struct_type x = struct_type y.
Proof. destruct x as [[]|], y as [[]|]; first [reflexivity | intros E; exfalso; revert E; vm_compute; discriminate]. Qed.
Lemma digest_determines K c c' x x' : contract_typed c -> contract_typed c' -> signed_typed x -> signed_typed x' -> signed_digest K c x = signed_digest K c' x' ->
  (c = c' /\ x = x') \/ collide K (hashed K c x) (hashed K c' x').
Proof.
  intros [Tc1 Tc2] [Tc1' Tc2'] Tx Tx' E. unfold signed_digest, digest in E.
  set (l := hashed K c x). set (l' := hashed K c' x').
  eapply (same_or_collide K l l') in E as [E|C]; [|by right|by left|by left].
  apply app_inj_1 in E as [_ E]; [|done]. apply word_app in E as [Es E]; [|apply keccak_lt..].
  apply word_inj in E; [|apply keccak_lt..].
  eapply (same_or_collide K l l') in Es as [Es|C]; [|by right|by (unfold l, hashed; right; left)..].
  apply word_app in Es as [_ Es]; [|apply keccak_lt..]. apply word_app in Es as [En Es]; [|apply keccak_lt..]. apply word_app in Es as [Ev Es]; [|apply keccak_lt..].
  apply word_app in Es as [Ec Es]; [|lia..]. apply word_inj in Es; [|lia..].
  eapply (same_or_collide K l l') in En as [En|C]; [|by right|by (unfold l, hashed; do 3 right; left)..].
  eapply (same_or_collide K l l') in Ev as [Ev|C]; [|by right|by (unfold l, hashed; do 4 right; left)..].
  eapply (same_or_collide K l l') in E as [E|C]; [|by right|by (unfold l, hashed; do 5 right; left)..].
  apply word_app in E as [Et E]; [|apply keccak_lt..].
  eapply (same_or_collide K l l') in Et as [Et|C]; [|by right|by (unfold l, hashed; do 6 right; left)..].
  apply type_inj in Et.
  assert (Cc : c = c'). { clear - En Ev Ec Es. destruct c as [n v ch ad], c' as [n' v' ch' ad']. cbn [k_name k_version k_chain k_address] in *. by subst. } subst c'.
  destruct x as [[]|[a1 a2 a3 a4 a5 a6]], x' as [[]|[b1 b2 b3 b4 b5 b6]]; try discriminate Et; clear Et; cbn [members signed_typed cl_token cl_amount cl_recipient cl_id cl_sender cl_time] in Tx, Tx', E; destruct_and?;
    repeat (match type of E with word _ ++ _ = _ => apply word_app in E as [? E]; [|lia || apply keccak_lt..] end);
    match type of E with word _ = _ => apply word_inj in E; [|lia..] end; subst; try (by left);
    match goal with H : keccak K ?a = keccak K ?b |- _ => eapply (same_or_collide K l l') in H as [H|C]; [|by right|by (unfold l, hashed; do 7 right; left)..]; subst; by left end.
Qed.

(** ** Lower proofs *)
Lemma lower_hash K lossy i d : in_range d ->
  lower_proof_hash K (domain_of lossy i) (concat_lower_data d) = Some (claim_digest K (contract_of lossy i) (claim_of d)).
Proof.
  intros R. unfold lower_proof_hash. rewrite lower_roundtrip by done.
  assert (E : eip712_hash K (domain_of lossy i) (lower_struct d) = claim_digest K (contract_of lossy i) (claim_of d)); [|by rewrite E].
  unfold claim_digest, signed_digest, lower_struct. apply digest_eq.
  cbn [map concat enc_field members claim_of cl_token cl_amount cl_recipient cl_id cl_sender cl_time]. unfold word. by rewrite app_nil_r.
Qed.
Lemma packed (B1 Z B3 B4 B5 B6 B7 C : list N) : length B1 = 20%nat -> length Z = 16%nat -> length B3 = 16%nat -> length B4 = 20%nat -> length B5 = 4%nat ->
  length B6 = 32%nat -> length B7 = 8%nat -> let l := B1 ++ Z ++ B3 ++ B4 ++ B5 ++ B6 ++ B7 ++ C in
  (length l <? 116)%nat = false /\ drop 116 l = C /\ slice 0 20 l = B1 /\ slice 20 52 l = Z ++ B3 /\ slice 52 72 l = B4 /\ slice 72 76 l = B5 /\ slice 76 108 l = B6 /\ slice 108 116 l = B7.
Proof.
  intros L1 LZ L3 L4 L5 L6 L7 l. subst l. repeat split.
  - apply Nat.ltb_ge. rewrite !app_length. lia.
  - rewrite !app_assoc. apply drop_app_alt. rewrite !app_length. lia.
  - apply (slice_at []); [done|lia].
  - rewrite (app_assoc Z). apply slice_at; rewrite ?app_length; lia.
  - rewrite 2!app_assoc. apply slice_at; rewrite ?app_length; lia.
  - rewrite 3!app_assoc. apply slice_at; rewrite ?app_length; lia.
  - rewrite 4!app_assoc. apply slice_at; rewrite ?app_length; lia.
  - rewrite 5!app_assoc. apply slice_at; rewrite ?app_length; lia.
Qed.
Lemma zeros_value n l : be_value (repeat 0 n ++ l) = be_value l.
Proof. unfold be_value. rewrite fold_left_app. f_equal. induction n as [|n IH]; [done|exact IH]. Qed.
Lemma lower_claim d confs : in_range d -> Forall (fun c => c < 2 ^ 520) confs ->
  claim_lower (encoded_lower_proof (concat_lower_data d) confs) = Some (claim_of d, confs).
Proof.
  intros (H1 & H2 & H3 & H4 & H5 & H6) F. unfold encoded_lower_proof. rewrite concat_lower_eq. unfold lower_bytes. rewrite <- !app_assoc.
  destruct (packed (be_bytes 20 (ld_token d)) (repeat 0 16) (be_bytes 16 (ld_amount d)) (be_bytes 20 (ld_recipient d)) (be_bytes 4 (ld_id d))
    (be_bytes 32 (ld_sender d)) (be_bytes 8 (ld_time d)) (encode_confirmations confs)) as (E0 & E1 & E2 & E3 & E4 & E5 & E6 & E7);
    [apply be_bytes_length || apply repeat_length..|].
  unfold claim_lower. rewrite E0, E1, E2, E3, E4, E5, E6, E7, signatures_confirmations, zeros_value by done.
  unfold claim_of. by rewrite (be_roundtrip 20 _ H1), (be_roundtrip 16 _ H2), (be_roundtrip 20 _ H3), (be_roundtrip 4 _ H4), (be_roundtrip 32 _ H5), (be_roundtrip 8 _ H6).
Qed.

(** ** Histories of the bridge *)
(** A request made by an order. *)
Definition ordered (r : send_req) : Prop :=
  exists o, order_typed o /\ sr_fn r = order_name o /\ sr_params r = order_params o /\ sr_id r < 2 ^ 32.
Definition typed_op (o : op) : Prop :=
  match o with
  | OpPublish _ fn ps _ => exists x, order_typed x /\ fn = order_name x /\ ps = order_params x
  | OpConfirm _ conf _ _ => conf < 2 ^ 520
  | OpSetTxId n => n < 2 ^ 32
  | _ => True
  end.
Definition Active (c : config) (s : st) (a : active) : Prop :=
  Forall (fun x => x < 2 ^ 520) (ac_confirmations a) /\ len (ac_confirmations a) <= CONFIRMATIONS_LIMIT /\
  forall r, ac_req a = RSend r -> ordered r /\ exists t, ac_tx a = Some t /\ tx_params t = extended r (tx_expiry t) /\ tx_expiry t < 2 ^ 64 /\
    c_hash_send c (sr_fn r) (tx_params t) (s_instance s) = Some (ac_msg a).
Definition Rest (s : st) : Prop := s_next s < 2 ^ 32 /\ forall r, In (RSend r) (s_queue s) -> ordered r.
Definition Inv (c : config) (s : st) : Prop := Rest s /\ forall a, s_active s = Some a -> Active c s a.

Lemma started_Inv c s r k s' : started c s r k s' -> Rest s -> (forall q, r = RSend q -> ordered q) -> Inv c s'.
Proof.
  intros H [R1 R2] O. inversion H as [q h i sender k' expiry Eb Eh Ea|q h Eh]; subst.
  - split; [by split|]. intros a [= <-]. split; [constructor|]. split; [by vm_compute|]. intros q' [= <-]. split; [by apply O|].
    eexists. split; [reflexivity|]. cbn. split; [done|]. split; [|exact Eh]. apply N.mod_upper_bound. lia.
  - split; [by split|]. intros a [= <-]. split; [constructor|]. split; [by vm_compute|]. intros q' [=].
Qed.
Lemma served_Inv c q s s' : served c q s s' -> Rest s -> s_active s = None -> (forall r, In (RSend r) q -> ordered r) -> Inv c s'.
Proof.
  induction 1 as [s|r rest s s' St|r rest s s' Sv IH]; intros [R1 R2] An O.
  - split; [by split|]. intros a Ha. cbn in Ha. congruence.
  - eapply started_Inv; [exact St|split; [exact R1|]|].
    + intros q' H. apply O. by right.
    + intros q' ->. apply O. by left.
  - apply IH; [split; [exact R1|]|done|]; intros q' H; apply O; by right.
Qed.
Lemma next_lt n : (n + 1) mod 2 ^ 32 < 2 ^ 32.
Proof. apply N.mod_upper_bound. lia. Qed.
Lemma set_instance_cases c verify s n : let s' := step c verify s (OpSetInstance n) in
  s' = s \/ (s' = s <| s_instance := n |> /\ (s_active s = None \/ exists a r, s_active s = Some a /\ ac_req a = RLower r)) \/
  exists a r, s_active s = Some a /\ ac_req a = RSend r /\ started c (s <| s_instance := n |>) (RSend r) 0 s'.
Proof.
  intros s'. subst s'. unfold step. change (valid verify s (OpSetInstance n)) with true. cbv iota. cbn [exec].
  unfold dispatch, set_instance. unfold mbind_ at 1, ensure. destruct (n =? 0); cbn [negb]; [by left|]. unfold mret_ at 1. unfold mbind_, modify, gets, mret_.
  set (s1 := s <| s_instance := n |>). change (s_active s1) with (s_active s).
  destruct (s_active s) as [a|] eqn:Ea; [|right; left; split; [done|by left]].
  destruct (ac_req a) as [r|r] eqn:Er; [|right; left; split; [done|right; eauto]].
  destruct (set_up_active_tx c r None s1) as [s2 res] eqn:E. apply set_up_tx_inv in E as [[-> St]|[-> [e ->]]]; [|by left].
  right; right. exists a, r. auto.
Qed.
Lemma step_Inv c verify s o : typed_op o -> Inv c s -> Inv c (step c verify s o).
Proof.
  intros T [[R1 R2] A].
  assert (Keep : forall s', s_next s' < 2 ^ 32 -> s_queue s' = s_queue s -> s_active s' = s_active s -> s_instance s' = s_instance s -> Inv c s').
  { intros s' E1 E2 E3 E4. split; [split; [done|by rewrite E2]|]. intros a Ha. rewrite E3 in Ha. specialize (A a Ha). unfold Active in *. by rewrite E4. }
  assert (D1 : (exists n, o = OpSetInstance n) \/ ~ exists n, o = OpSetInstance n) by (destruct o; eauto; right; intros [n' [=]]).
  destruct D1 as [[n ->]|NS].
  { destruct (set_instance_cases c verify s n) as [->|[[-> W]|(a & r & Ea & Er & St)]]; [by split| |].
    - split; [by split|]. intros a Ha. cbn in Ha. destruct W as [W|(a' & r & W & Wr)]; [congruence|]. assert (a' = a) as -> by congruence.
      destruct (A a Ha) as (A1 & A2 & _). split; [done|]. split; [done|]. intros q Eq. congruence.
    - eapply started_Inv; [exact St|by split|]. intros q [= <-]. by destruct (A a Ea) as (_ & _ & A3), (A3 r Er). }
  assert (D2 : neutral_op o \/ ~ neutral_op o) by (destruct o; cbn; tauto). destruct D2 as [Nu|NN].
  { destruct o; cbn in Nu; try contradiction; try (exfalso; apply NS; eexists; reflexivity); unfold step; cbn; apply Keep; cbn; done. }
  pose proof (step_effect c verify s o) as F. revert T NS NN F. generalize (step c verify s o). intros s1 T NS NN F. destruct F as
    [o|o s' Nu SC Nx|fn ps caller|rb fn ps caller a Ea Hl r|rb fn ps caller s' Ea r St|rb id params caller a Ea Hl r|rb id params caller s' Ea r St
     |id conf v sig a V Ea Im En Hs Sg Ni Hl Hr|id conf v sig a r s' V Ea Er Ei En Sg Ni Hl En' Sv|id hash v sig a t V Ea Im Et Th Ts
     |id su hv v k sig a t V Ea Im Et Hk Hv N1 N2 He|id hv v k sig a r t t' s' V Ea Er Ei Et Hk Hv N1 N2 Ht He1 He2 St
     |id su hv v k sig a r t t' s' V Ea Er Ei Et Hk Hv N1 N2 Ht He1 He2 Hh Sv|a s' Ea Sv|n a r s' Ea Er St].
  - by split.
  - contradiction.
  - split; [split; [apply next_lt|done]|exact A].
  - split; [split; [apply next_lt|]|exact A]. cbn. intros q H. apply in_app_or in H as [H|[[= <-]|[]]]; [by apply R2|].
    destruct T as (x & X1 & X2 & X3). exists x. auto.
  - assert (I : Inv c s').
    { eapply started_Inv; [exact St|split; [apply next_lt|exact R2]|]. intros q [= <-]. destruct T as (x & X1 & X2 & X3). exists x. auto. }
    exact I.
  - split; [split; [done|]|exact A]. cbn. intros q H. apply in_app_or in H as [H|[[=]|[]]]. by apply R2.
  - assert (I : Inv c s'). { eapply started_Inv; [exact St|by split|]. intros q [=]. } exact I.
  - split; [by split|]. intros a' [= <-]. destruct (A a Ea) as (A1 & A2 & A3). cbn. split; [|split].
    + cbn. apply Forall_app. split; [done|]. by constructor.
    + cbn. unfold len in *. rewrite app_length. cbn [length]. lia.
    + exact A3.
  - eapply served_Inv; [exact Sv|by split|done|exact R2].
  - split; [by split|]. intros a' [= <-]. destruct (A a Ea) as (A1 & A2 & A3). split; [done|split; [done|]]. intros q Eq. cbn in Eq.
    destruct (A3 q Eq) as (B1 & t0 & B2 & B3 & B4 & B5). split; [done|]. assert (t0 = t) as -> by congruence. eexists. split; [reflexivity|]. cbn. auto.
  - split; [by split|]. intros a' [= <-]. destruct (A a Ea) as (A1 & A2 & A3). split; [done|split; [done|]]. intros q Eq. cbn in Eq.
    destruct (A3 q Eq) as (B1 & t0 & B2 & B3 & B4 & B5). split; [done|]. assert (t0 = t) as -> by congruence. eexists. split; [reflexivity|].
    unfold corroborated. destruct su, hv; cbn; auto.
  - eapply started_Inv; [exact St|by split|]. intros q [= <-]. by destruct (A a Ea) as (_ & _ & A3), (A3 r Er).
  - eapply served_Inv; [exact Sv|by split|done|exact R2].
  - assert (I : Inv c s') by (eapply served_Inv; [exact Sv|by split|done|exact R2]). exact I.
  - exfalso. eauto.
Qed.
Lemma run_Inv c verify next life inst vs ops : next < 2 ^ 32 -> (forall o, In o ops -> typed_op o) -> Inv c (run c verify (genesis next life inst vs) ops).
Proof.
  intros Hn T. unfold run. assert (I : Inv c (genesis next life inst vs)). { split; [split; [done|by intros r []]|]. intros a [=]. }
  revert T I. generalize (genesis next life inst vs). induction ops as [|o ops IH]; intros s T I; [done|]. cbn [fold_left].
  apply IH; [intros o' H; apply T; by right|]. apply step_Inv; [apply T; by left|done].
Qed.

(** The hash of an active lower proof is that under the instance of the step in which it was started. *)
Lemma started_lower c s r k s' a q : started c s r k s' -> s_active s' = Some a -> ac_req a = RLower q -> c_hash_lower c (lr_params q) (s_instance s) = Some (ac_msg a).
Proof. intros H Ha Hq. inversion H; subst; cbn in Ha; injection Ha as <-; cbn in *; [discriminate|]. injection Hq as <-. done. Qed.
Lemma served_lower c l s s' a q : served c l s s' -> s_active s = None -> s_active s' = Some a -> ac_req a = RLower q -> c_hash_lower c (lr_params q) (s_instance s) = Some (ac_msg a).
Proof.
  induction 1 as [s|r rest s s' St|r rest s s' Sv IH]; intros An Ha Hq.
  - cbn in Ha. congruence.
  - exact (started_lower c (s <| s_queue := rest |>) r 0 s' a q St Ha Hq).
  - exact (IH eq_refl Ha Hq).
Qed.
Lemma step_lower c verify s o a' q : s_active (step c verify s o) = Some a' -> ac_req a' = RLower q ->
  (exists a, s_active s = Some a /\ ac_req a = RLower q /\ ac_msg a = ac_msg a') \/ c_hash_lower c (lr_params q) (s_instance s) = Some (ac_msg a').
Proof.
  pose proof (step_effect c verify s o) as F. revert F. generalize (step c verify s o). intros s1 F Ha Hq. destruct F as
    [o|o s' Nu SC Nx|fn ps caller|rb fn ps caller a Ea Hl r|rb fn ps caller s' Ea r St|rb id params caller a Ea Hl r|rb id params caller s' Ea r St
     |id conf v sig a V Ea Im En Hs Sg Ni Hl Hr|id conf v sig a r s' V Ea Er Ei En Sg Ni Hl En' Sv|id hash v sig a t V Ea Im Et Th Ts
     |id su hv v k sig a t V Ea Im Et Hk Hv N1 N2 He|id hv v k sig a r t t' s' V Ea Er Ei Et Hk Hv N1 N2 Ht He1 He2 St
     |id su hv v k sig a r t t' s' V Ea Er Ei Et Hk Hv N1 N2 Ht He1 He2 Hh Sv|a s' Ea Sv|n a r s' Ea Er St].
  - left. eauto.
  - left. destruct SC as [_ SA _ _ _]. rewrite SA in Ha. eauto.
  - left. eauto.
  - left. eauto.
  - exfalso. inversion St; subst. cbn in Ha. injection Ha as <-. discriminate Hq.
  - left. eauto.
  - right. by eapply started_lower.
  - left. cbn in Ha. injection Ha as <-. exists a. auto.
  - right. exact (served_lower c _ _ _ _ _ Sv eq_refl Ha Hq).
  - left. cbn in Ha. injection Ha as <-. exists a. auto.
  - left. cbn in Ha. injection Ha as <-. exists a. auto.
  - exfalso. inversion St; subst. cbn in Ha. injection Ha as <-. discriminate Hq.
  - right. exact (served_lower c _ _ _ _ _ Sv eq_refl Ha Hq).
  - right. exact (served_lower c _ _ _ _ _ Sv eq_refl Ha Hq).
  - exfalso. inversion St; subst. cbn in Ha. injection Ha as <-. discriminate Hq.
Qed.
Lemma run_lower c verify g ops : s_active g = None -> forall a q, s_active (run c verify g ops) = Some a -> ac_req a = RLower q ->
  exists l m, ops = l ++ m /\ c_hash_lower c (lr_params q) (s_instance (run c verify g l)) = Some (ac_msg a).
Proof.
  intros An. induction ops as [|o ops IH] using rev_ind; intros a q Ha Hq; [cbn in Ha; congruence|].
  unfold run in Ha. rewrite fold_left_app in Ha. cbn [fold_left] in Ha. fold (run c verify g ops) in Ha. destruct (step_lower _ _ _ _ _ q Ha Hq) as [(a0 & A1 & A2 & A3)|A].
  - destruct (IH a0 q A1 A2) as (l & m & -> & H). exists l, (m ++ [o]). rewrite app_assoc, <- A3. done.
  - exists ops, [o]. auto.
Qed.
