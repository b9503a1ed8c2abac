(** Proofs about SummaryOcwModel.v, part 1: what a step of the chain does to roots, ballots and offences; the signed bytes. *)
From Verif Require Import Base BaseLemmas CodecModel CodecProofs BridgeModel HttpModel OcwModel AvnModel AvnProofs SummaryModel SummarySpec SummaryProofs SummaryProofs2
  SummaryOcwModel SummaryOcwSpec.

(** ** Steps of the chain *)
Definition keeps_roots (s s' : st) : Prop :=
  forall rid, (rd_hash <$> s_roots s' !! rid) = (rd_hash <$> s_roots s !! rid) /\ (rd_added_by <$> s_roots s' !! rid) = (rd_added_by <$> s_roots s !! rid).
Lemma keeps_refl s s' : s_roots s' = s_roots s -> keeps_roots s s'.
Proof. intros E rid. now rewrite E. Qed.
Lemma keeps_insert s s' rid d d' : s_roots s !! rid = Some d -> s_roots s' = <[rid := d']> (s_roots s) -> rd_hash d' = rd_hash d -> rd_added_by d' = rd_added_by d ->
  keeps_roots s s'.
Proof.
  intros Hd E H1 H2 k. rewrite E. destruct (decide (rid = k)) as [<-|]; [rewrite lookup_insert, Hd; cbn; split; congruence|now rewrite lookup_insert_ne].
Qed.
Lemma pub_keeps c rid d s s' : s_roots s !! rid = Some d -> pub_effect c rid d s s' -> keeps_roots s s'.
Proof.
  intros Hd [(Hh' & ->) | [(_ & Ha & tx & Htx & ->) | (_ & Ha & Hc & ->)]]; try (apply keeps_refl; reflexivity).
  eapply keeps_insert; [exact Hd|reflexivity|reflexivity|reflexivity].
Qed.

Definition is_offence (e : event) : bool := match e with EvOffence _ _ => true | _ => false end.
Definition adds_silently (s s' : st) : Prop := exists new, s_events s' = new ++ s_events s /\ forallb (fun e => negb (is_offence e)) new = true.
Lemma adds_nil s s' : s_events s' = s_events s -> adds_silently s s'.
Proof. intros E. exists []. auto. Qed.
Lemma pub_silent c rid d s s' : pub_effect c rid d s s' -> adds_silently s s' /\ s_validators s' = s_validators s.
Proof.
  intros [(Hh' & ->) | [(_ & Ha & tx & Htx & ->) | (_ & Ha & Hc & ->)]]; (split; [|reflexivity]); [now apply adds_nil| |]; eexists [_]; split; reflexivity.
Qed.
Lemma step_plain c s o : tx_ok s -> unsigned o = false ->
  let s' := step c s o in
  keeps_roots s s' /\ adds_silently s s' /\ (s_validators s' = s_validators s \/ exists vs, o = EnvValidators vs /\ s_validators s' = vs).
Proof.
  intros HT Hu s'. destruct (step_inv c s o) as [E|[_ H]].
  { subst s'. rewrite E. split; [now apply keeps_refl|]. split; [now apply adds_nil|auto]. }
  fold s' in H. clearbody s'.
  assert (trivial : forall s'', s_roots s'' = s_roots s -> s_events s'' = s_events s -> s_validators s'' = s_validators s ->
    keeps_roots s s'' /\ adds_silently s s'' /\ (s_validators s'' = s_validators s \/ exists vs, o = EnvValidators vs /\ s_validators s'' = vs)).
  { intros s'' E1 E2 E3. split; [now apply keeps_refl|]. split; [now apply adds_nil|auto]. }
  destruct o; try discriminate; cbn [exec] in H.
  - apply set_periods_ok in H as (_ & _ & _ & _ & ->). now apply trivial.
  - apply set_admin_ok in H. destruct cfg; [destruct H as (_ & ->)|destruct H as (_ & _ & _ & _ & ->)|destruct H as (_ & _ & _ & ->)]; now apply trivial.
  - unfold admin_resolve in H.
    apply mbind_ok in H as (? & ? & Hg & H). minv Hg.
    apply mbind_ok in H as (? & ref_ & Hg & H). minv Hg.
    apply mbind_ok in H as (? & d & Hg & H). unfold try_get_root in Hg. minv Hg.
    apply mbind_ok in H as (? & stt & Hg & H). minv Hg.
    apply mbind_ok in H as (? & ? & Hg & H). minv Hg.
    apply mbind_ok in H as (s1 & [] & Hpub & H).
    apply mbind_ok in H as (s2 & [] & Hcl & H). unfold emit in H. minv H.
    unfold cleanup_external in Hcl. minv Hcl.
    assert (keeps_roots s s1 /\ adds_silently s s1 /\ s_validators s1 = s_validators s) as (H1 & (new & H2 & H3) & H4).
    { destruct accepted.
      + apply process_accepted_ok in Hpub as (d1 & Hd1 & Hpub). split; [eapply pub_keeps; eauto|]. eapply pub_silent; eauto.
      + minv Hpub. split; [now apply keeps_refl|]. split; [now apply adds_nil|reflexivity]. }
    split; [exact H1|]. split; [|left; exact H4]. eexists (_ :: new). cbn. rewrite H2. split; [reflexivity|exact H3].
  - apply modify_ok in H. subst s'. unfold external_result. destruct (s_ext_ref s !! ref_) as [rid|]; [|now apply trivial].
    assert (HP : forall x, x = (match s_roots s !! rid with
      | None => s
      | Some _ =>
        let s1 := s <| s_ext_status := <[ rid := ExtAccepted ]> (s_ext_status s) |> in
        match process_accepted_root c rid s1 with
        | (s2, Err _) => s2
        | (s2, Ok _) => fst (cleanup_external rid ref_ s2)
        end
      end) -> keeps_roots s x /\ adds_silently s x /\ s_validators x = s_validators s).
    { intros x ->. destruct (s_roots s !! rid); [|split; [now apply keeps_refl|]; split; [now apply adds_nil|reflexivity]]. cbv zeta.
      destruct (process_accepted_root c rid _) as [s2 [[]|e]] eqn:Hp.
      - apply process_accepted_ok in Hp as (d1 & Hd1 & Hpub). cbn.
        split; [intros k; apply (pub_keeps _ _ _ _ _ Hd1 Hpub k)|]. eapply pub_silent in Hpub; eauto.
      - apply process_accepted_err in Hp. subst s2. split; [now apply keeps_refl|]. split; [now apply adds_nil|reflexivity]. }
    destruct (HP _ eq_refl) as (H1 & H2 & H3). destruct r; try (split; [exact H1|]; split; [exact H2|left; exact H3]); now apply trivial.
  - apply modify_ok in H. subst s'. unfold process_result. destruct (s_tx_to_root s !! tx) as [rid|] eqn:E; [|now apply trivial].
    destruct (matches && succeeded); [|now apply trivial]. destruct (HT _ _ E) as [d Hd]. rewrite Hd.
    split; [eapply keeps_insert; [exact Hd|reflexivity|reflexivity|reflexivity]|]. split; [now apply adds_nil|auto].
  - minv H. now apply trivial.
  - minv H. split; [now apply keeps_refl|]. split; [now apply adds_nil|]. right. exists vs. auto.
  - minv H. now apply trivial.
  - minv H. now apply trivial.
Qed.

(** Which roots exist after a step. *)
Lemma end_roots c who rid s s' u : end_voting c who rid s = (s', Ok u) -> keeps_roots s s' /\ s_validators s' = s_validators s.
Proof.
  intros H. apply end_voting_fields in H as (d & v & d' & new & Hd & _ & _ & _ & _ & _ & Ev & _ & _ & _ & _ & _ & _ & _ & _ & _ & Er & Eh & Ea & _).
  split; [|exact Ev]. eapply keeps_insert; eauto.
Qed.
Lemma step_roots c s o : tx_ok s ->
  let s' := step c s o in
  (exists nb h ic who, o = OpRecord nb h ic who true /\ record_validate who true s = true /\ record_summary nb h ic who s = (s', Ok tt)) \/ keeps_roots s s'.
Proof.
  intros HT s'. destruct (unsigned o) eqn:Hu; [|right; now apply step_plain].
  destruct (step_inv c s o) as [E|[Hv H]]; [right; subst s'; rewrite E; now apply keeps_refl|].
  fold s' in H. clearbody s'. destruct o; try discriminate; cbn [exec] in H.
  - left. cbn in Hv. assert (sig_ok = true) as ->. { unfold record_validate in Hv. destruct (s_slot_validator s); [|discriminate]. rewrite !andb_true_iff in Hv. tauto. }
    eauto 10.
  - right. apply vote_root_ok in H as (v & Hvd & Hact & Hv' & Hnv & s2 & Hend & ->).
    destruct Hend as [[-> _]|Hend]; [now apply keeps_refl|]. apply end_roots in Hend as [Hk _]. exact Hk.
  - right. eapply end_roots; eauto.
  - right. apply update_slot_ok in H as (? & ? & ? & ? & ? & ? & ? & ? & ? & ->). now apply keeps_refl.
  - right. unfold add_challenge, emit in H.
    apply mbind_ok in H as (? & ? & Hg & H). minv Hg.
    apply mbind_ok in H as (? & ? & Hg & H). minv Hg.
    apply mbind_ok in H as (? & ? & Hg & H). minv Hg.
    apply mbind_ok in H as (s2 & ? & Hg & H). minv H.
    apply update_slot_ok in Hg as (? & ? & ? & ? & ? & ? & ? & ? & ? & ->). now apply keeps_refl.
Qed.
Lemma step_validators c s o : tx_ok s -> s_validators (step c s o) = s_validators s \/ exists vs, o = EnvValidators vs /\ s_validators (step c s o) = vs.
Proof.
  intros HT. destruct (unsigned o) eqn:Hu; [|now apply step_plain].
  left. destruct (step_inv c s o) as [->|[Hv H]]; [reflexivity|].
  set (s' := step c s o) in *. clearbody s'. destruct o; try discriminate; cbn [exec] in H.
  - now apply record_summary_ok in H as (_ & _ & _ & _ & _ & _ & _ & ->).
  - apply vote_root_ok in H as (v & Hvd & Hact & Hv' & Hnv & s2 & Hend & ->).
    destruct Hend as [[-> _]|Hend]; [reflexivity|]. apply end_roots in Hend as [_ Hk]. exact Hk.
  - eapply end_roots; eauto.
  - now apply update_slot_ok in H as (? & ? & ? & ? & ? & ? & ? & ? & ? & ->).
  - unfold add_challenge, emit in H.
    apply mbind_ok in H as (? & ? & Hg & H). minv Hg.
    apply mbind_ok in H as (? & ? & Hg & H). minv Hg.
    apply mbind_ok in H as (? & ? & Hg & H). minv Hg.
    apply mbind_ok in H as (s2 & ? & Hg & H). minv H.
    now apply update_slot_ok in Hg as (? & ? & ? & ? & ? & ? & ? & ? & ? & ->).
Qed.

Lemma keeps_lookup s s' rid d' : keeps_roots s s' -> s_roots s' !! rid = Some d' ->
  exists d, s_roots s !! rid = Some d /\ rd_hash d' = rd_hash d /\ rd_added_by d' = rd_added_by d.
Proof.
  intros Hk E. destruct (Hk rid) as [H1 H2]. rewrite E in H1, H2. destruct (s_roots s !! rid) as [d|]; [|discriminate].
  cbn in *. exists d. split; [reflexivity|]. split; congruence.
Qed.
Lemma keeps_lookup' s s' rid d : keeps_roots s s' -> s_roots s !! rid = Some d ->
  exists d', s_roots s' !! rid = Some d' /\ rd_hash d' = rd_hash d /\ rd_added_by d' = rd_added_by d.
Proof.
  intros Hk E. destruct (Hk rid) as [H1 H2]. rewrite E in H1, H2. destruct (s_roots s' !! rid) as [d'|]; [|discriminate].
  cbn in *. exists d'. split; [reflexivity|]. split; congruence.
Qed.
(** A recorded root keeps its hash and its creator for ever. *)
Lemma step_root_kept c s o rid d : AllInv c s -> s_roots s !! rid = Some d ->
  exists d', s_roots (step c s o) !! rid = Some d' /\ rd_hash d' = rd_hash d /\ rd_added_by d' = rd_added_by d.
Proof.
  intros (HI & HT & _) Hd. destruct (step_roots c s o HT) as [(nb & h & ic & who & -> & _ & H)|Hk]; [|eapply keeps_lookup'; eauto].
  apply record_summary_ok in H as (Hic & _ & _ & _ & _ & _ & _ & ->). cbn.
  rewrite lookup_insert_ne; [eauto|]. intros <-. apply (I_roots_fresh _ _ HI) in Hd. cbn in Hd. lia.
Qed.

(** New ballots. *)
Lemma step_ballot c s o a rid b : tx_ok s -> In (EvVoteAdded a rid b) (s_events (step c s o)) ->
  In (EvVoteAdded a rid b) (s_events s) \/ (o = OpVote rid a b true /\ session_is_active s rid = true /\ is_validator (s_validators s) a = true).
Proof.
  intros HT. destruct (step_effect c s o HT) as [->|He]; [auto|].
  set (s' := step c s o) in *. clearbody s'.
  destruct He as [HS Hsch | nb h ic who sg -> H | rid' who agree sg v s2 -> -> Hvd Hact Hv Hnv Hend -> | rid' who sg -> H | who [sg ->] H | who r ch ce sg s1 s2 -> -> H -> ].
  - destruct (SC_events _ _ HS) as (new & -> & Hq). rewrite in_app_iff. intros [Hin|]; [|auto].
    rewrite forallb_forall in Hq. apply Hq in Hin. discriminate.
  - apply record_summary_ok in H as (_ & _ & _ & _ & _ & _ & _ & ->). cbn. intros [|]; [discriminate|auto].
  - cbn. intros [E|Hin].
    + injection E as -> -> ->. auto.
    + left. destruct Hend as [[-> _]|Hend]; [exact Hin|]. apply end_voting_fields in Hend as (d & v' & d' & new & Hrest).
      repeat match type of Hrest with _ /\ _ => destruct Hrest as [? Hrest] end.
      match goal with He : s_events s2 = _ |- _ => rewrite He in Hin end.
      destruct Hin as [|Hin]; [discriminate|]. rewrite !in_app_iff in Hin. destruct Hin as [Hin|[Hin|Hin]]; [| |exact Hin].
      * destruct (is_approved v'); cbn in Hin; repeat destruct Hin as [Hin|Hin]; try discriminate; contradiction.
      * destruct Hrest as [(-> & _)|[(_ & _ & _ & -> & _)|(_ & _ & _ & _ & x & [-> | ->])]]; cbn in Hin; repeat destruct Hin as [Hin|Hin]; try discriminate; contradiction.
  - apply end_voting_fields in H as (d & v' & d' & new & Hrest).
    repeat match type of Hrest with _ /\ _ => destruct Hrest as [? Hrest] end.
    match goal with He : s_events s' = _ |- _ => rewrite He end. intros Hin. left.
    destruct Hin as [|Hin]; [discriminate|]. rewrite !in_app_iff in Hin. destruct Hin as [Hin|[Hin|Hin]]; [| |exact Hin].
    * destruct (is_approved v'); cbn in Hin; repeat destruct Hin as [Hin|Hin]; try discriminate; contradiction.
    * destruct Hrest as [(-> & _)|[(_ & _ & _ & -> & _)|(_ & _ & _ & _ & x & [-> | ->])]]; cbn in Hin; repeat destruct Hin as [Hin|Hin]; try discriminate; contradiction.
  - apply update_slot_ok in H as (sv & nv & _ & _ & _ & _ & _ & _ & _ & ->). cbn. intros [|Hin]; [discriminate|]. left.
    rewrite in_app_iff in Hin. destruct Hin as [Hin|]; [|assumption]. destruct (_ <? _); cbn in Hin; repeat destruct Hin as [Hin|Hin]; try discriminate; contradiction.
  - apply update_slot_ok in H as (sv & nv & _ & _ & _ & _ & _ & _ & _ & ->). cbn. intros [|[|Hin]]; [discriminate|discriminate|]. left.
    rewrite in_app_iff in Hin. destruct Hin as [Hin|[Hin|Hin]]; [|discriminate|assumption]. destruct (_ <? _); cbn in Hin; repeat destruct Hin as [Hin|Hin]; try discriminate; contradiction.
Qed.

(** ** The signed bytes *)
Lemma cons_app_inv (x y : N) (a b : list N) : x :: a = y :: b -> x = y /\ a = b.
Proof. intros E. injection E as -> ->. auto. Qed.
Lemma session_id_inj r r' : wf_rid r -> wf_rid r' -> session_id r = session_id r' -> r = r'.
Proof.
  destruct r as [[a b] c], r' as [[a' b'] c']. unfold wf_rid, session_id. cbn [fst snd]. intros (H1 & H2 & H3) (H1' & H2' & H3') E.
  apply app_inj_1 in E as [E1 E]; [|now rewrite !le_bytes_length]. apply app_inj_1 in E as [E2 E3]; [|now rewrite !le_bytes_length].
  apply le_bytes_inj in E1; [|exact H1|exact H1']. apply le_bytes_inj in E2; [|exact H2|exact H2']. apply le_bytes_inj in E3; [|exact H3|exact H3']. congruence.
Qed.
Lemma session_id_length r : length (session_id r) = 16%nat.
Proof. unfold session_id. now rewrite !app_length, !le_bytes_length. Qed.
Lemma challenge_bytes_inj r ch ce r' ch' ce' : wf_call (CChallenge r ch ce) -> wf_call (CChallenge r' ch' ce') ->
  challenge_bytes r ch ce = challenge_bytes r' ch' ce' -> r = r' /\ ch = ch' /\ ce = ce'.
Proof.
  cbn [wf_call]. intros (H1 & H2 & H3) (H1' & H2' & H3'). unfold challenge_bytes.
  assert (Hacc : forall x y x' y', x < 256 ^ 32 -> y < 256 ^ 32 -> x' < 256 ^ 32 -> y' < 256 ^ 32 ->
     be_bytes 32 x ++ be_bytes 32 y = be_bytes 32 x' ++ be_bytes 32 y' -> x = x' /\ y = y').
  { intros x y x' y' ? ? ? ? E. apply app_inj_1 in E as [E1 E2]; [|now rewrite !be_bytes_length].
    apply be_bytes_inj in E1; [|assumption|assumption]. apply be_bytes_inj in E2; [|assumption|assumption]. auto. }
  destruct r as [x|], r' as [x'|]; intros E.
  - rewrite <- !app_comm_cons in E. apply cons_app_inv in E as [_ E]. apply app_inj_1 in E as [E1 E]; [|now rewrite !le_bytes_length].
    apply le_bytes_inj in E1; [|now apply H1|now apply H1']. apply Hacc in E as [-> ->]; auto. subst x'. auto.
  - rewrite <- !app_comm_cons in E. apply cons_app_inv in E as [E _]. discriminate.
  - rewrite <- !app_comm_cons in E. apply cons_app_inv in E as [E _]. discriminate.
  - change ([1] ++ ?l) with (1 :: l) in E. rewrite <- ?app_comm_cons, ?app_nil_l in E. apply cons_app_inv in E as [_ E].
    apply Hacc in E as [-> ->]; auto.
Qed.

Definition bound_to_instance (cl : call) : bool := match cl with CRecord _ _ _ | CAdvance => true | _ => false end.
Definition kind_byte (cl : call) : N :=
  match cl with CRecord _ _ _ => 140 | CVote _ _ => 68 | CEnd _ => 88 | CAdvance => 52 | CChallenge _ _ _ => 56 end.
Lemma message_head inst slot cl : exists rest, message inst slot cl = kind_byte cl :: rest.
Proof. destruct cl; eexists; cbn [message kind_byte]; unfold short_vec; rewrite <- app_comm_cons; reflexivity. Qed.
Lemma message_inj i i' s s' cl cl' : wf_call cl -> wf_call cl' -> s < 2 ^ 32 -> s' < 2 ^ 32 ->
  message i s cl = message i' s' cl' -> cl = cl' /\ (cl = CAdvance -> s = s') /\ (bound_to_instance cl = true -> i = i').
Proof.
  intros W W' Hs Hs' E.
  assert (Hk : kind_byte cl = kind_byte cl').
  { destruct (message_head i s cl) as [r E1], (message_head i' s' cl') as [r' E2]. rewrite E1, E2 in E. now apply cons_app_inv in E as [-> _]. }
  destruct cl as [nb h ic|rid ag|rid| |r ch ce], cl' as [nb' h' ic'|rid' ag'|rid'| |r' ch' ce']; try discriminate Hk; clear Hk; cbn [message] in E.
  - unfold short_vec in E. rewrite <- !app_comm_cons in E. apply cons_app_inv in E as [_ E]. apply cons_app_inv in E as [-> E].
    apply app_inv_head in E. destruct W as (W1 & W2 & W3), W' as (W1' & W2' & W3').
    apply app_inj_1 in E as [E1 E]; [|now rewrite !be_bytes_length]. apply app_inj_1 in E as [E2 E3]; [|now rewrite !le_bytes_length].
    apply be_bytes_inj in E1; [|assumption|assumption]. apply le_bytes_inj in E2; [|exact W3|exact W3']. apply le_bytes_inj in E3; [|exact W1|exact W1'].
    subst. split; [reflexivity|]. split; [discriminate|reflexivity].
  - apply app_inv_head in E. unfold short_vec in E. rewrite !session_id_length in E. rewrite <- !app_comm_cons in E. apply cons_app_inv in E as [_ E].
    apply app_inj_1 in E as [E1 E2]; [|now rewrite !session_id_length]. apply session_id_inj in E1; [|exact W|exact W']. subst rid'.
    split; [|split; discriminate]. f_equal. destruct ag, ag'; congruence || discriminate.
  - apply app_inv_head in E. unfold short_vec in E. rewrite !session_id_length in E. apply cons_app_inv in E as [_ E].
    apply session_id_inj in E; [|exact W|exact W']. subst rid'. split; [reflexivity|split; discriminate].
  - unfold short_vec in E. rewrite <- !app_comm_cons in E. apply cons_app_inv in E as [_ E]. apply cons_app_inv in E as [-> E].
    apply app_inv_head in E. apply le_bytes_inj in E; [|exact Hs|exact Hs']. subst s'. auto.
  - apply app_inv_head in E. apply challenge_bytes_inj in E as (-> & -> & ->); [|exact W|exact W']. split; [reflexivity|split; discriminate].
Qed.
