(** Proofs about SummaryOcwModel.v, part 4: a signature takes effect once; what becomes of submissions. *)
From Verif Require Import Base BaseLemmas CodecModel CodecProofs BridgeModel HttpModel HttpProofs OcwModel AvnModel AvnProofs SummaryModel SummarySpec SummaryProofs SummaryProofs2
  SummaryOcwModel SummaryOcwSpec SummaryOcwProofs SummaryOcwProofs2 SummaryOcwProofs3.

Lemma run_All c ops : forall s, AllInv c s -> AllInv c (run c s ops).
Proof. induction ops as [|o ops IH]; intros s HA; [exact HA|]. cbn. apply IH. now apply step_AllInv. Qed.
Lemma run_kept c ops : forall s e, In e (s_events s) -> In e (s_events (run c s ops)).
Proof. induction ops as [|o ops IH]; intros s e Hin; [exact Hin|]. cbn. apply IH. now apply step_events_kept. Qed.
Lemma run_slot c ops : forall s, AllInv c s -> s_slot s <= s_slot (run c s ops).
Proof.
  induction ops as [|o ops IH]; intros s HA; [cbn; lia|]. cbn. specialize (IH _ (step_AllInv c s o HA)). unfold run in IH. 
  assert (s_slot s <= s_slot (step c s o)); [|lia].
  destruct (step_slot c s o HA) as [->|(who & sv & _ & _ & _ & _ & _ & _ & -> & _)]; lia.
Qed.
Lemma run_ingress c ops : forall s, AllInv c s -> s_ingress s <= s_ingress (run c s ops).
Proof.
  induction ops as [|o ops IH]; intros s HA; [cbn; lia|]. cbn. specialize (IH _ (step_AllInv c s o HA)). unfold run in IH.
  assert (s_ingress s <= s_ingress (step c s o)); [|lia].
  destruct (step_ingress c s o HA) as [->|(? & ? & ? & ? & _ & _ & ->)]; lia.
Qed.

Lemma signed_once c s ops cl a sg a' sg' : AllInv c s -> step c s (op_of cl a sg) <> s ->
  let s2 := run c (step c s (op_of cl a sg)) ops in
  (cl = CAdvance -> s_slot s2 = s_slot s) -> (forall rid b, cl = CVote rid b -> a' = a) -> step c s2 (op_of cl a' sg') = s2.
Proof.
  intros HA Hne s2 Hslot Hvoter. assert (HA1 := step_AllInv c s (op_of cl a sg) HA). pose proof (run_All c ops _ HA1) as HA2. fold s2 in HA2.
  destruct (step_inv c s (op_of cl a sg)) as [E|[_ H1]]; [contradiction|].
  destruct (step_inv c s2 (op_of cl a' sg')) as [E|[_ H2]]; [exact E|]. exfalso.
  pose proof (run_slot c ops _ HA1) as Hsl. pose proof (run_ingress c ops _ HA1) as Hin. pose proof (run_kept c ops (step c s (op_of cl a sg))) as Hk. fold s2 in Hsl, Hin, Hk.
  set (s1 := step c s (op_of cl a sg)) in *. set (s3 := step c s2 (op_of cl a' sg')) in *. clearbody s1 s2 s3. destruct cl as [nb h ic|rid b|rid| |r ch ce]; cbn [op_of exec] in *.
  - apply record_summary_ok in H1 as (E1 & _ & _ & _ & _ & _ & _ & ->). apply record_summary_ok in H2 as (E2 & _). cbn in Hin. lia.
  - rewrite (Hvoter _ _ eq_refl) in *. apply vote_root_ok in H1 as (v & _ & _ & _ & _ & sx & _ & E1). apply vote_root_ok in H2 as (v2 & _ & _ & Hv2 & Hnv & _).
    assert (Hb : In (EvVoteAdded a rid b) (s_events s2)) by (apply Hk; rewrite E1; now left).
    destruct HA2 as (HI & _). destruct (I_ballots _ _ HI) as [_ Hbal]. destruct (Hbal a rid) as (v3 & Hv3 & Hvoted); [|congruence].
    unfold ballots. apply elem_of_list_In, elem_of_list_omap. exists (EvVoteAdded a rid b). split; [now apply elem_of_list_In|reflexivity].
  - apply end_voting_ok in H1 as (d & v & sx & _ & _ & _ & _ & _ & E1). apply end_voting_ok in H2 as (d2 & v2 & sy & _ & _ & Hp & _).
    assert (Hb : In rid (ended (s_events s2))). { apply in_ended. exists (is_approved v). apply Hk. destruct (is_approved v); [destruct E1 as (_ & _ & ->)|destruct E1 as (cr & _ & ->)]; now left. }
    destruct HA2 as (HI & _). destruct (I_ended _ _ HI) as [_ He]. apply He in Hb as [Hb _]. contradiction.
  - apply update_slot_ok in H1 as (sv & nv & _ & _ & _ & _ & _ & _ & _ & ->). cbn in Hsl. specialize (Hslot eq_refl). lia.
  - unfold add_challenge in H1, H2. apply mbind_ok in H1 as (? & ? & Hg & H1). minv Hg. apply mbind_ok in H2 as (? & ? & Hg & H2). minv Hg.
    apply mbind_ok in H1 as (? & ? & Hg & H1). minv Hg. apply mbind_ok in H2 as (? & ? & Hg & H2). minv Hg.
    destruct r as [slot|]; [|discriminate]. destruct (s_slot_validator s) as [x|]; [|discriminate]. destruct (s_slot_validator s2) as [x2|]; [|discriminate].
    rewrite !andb_true_iff, N.eqb_eq in Hens, Hens0. destruct Hens as [[E1 _] _], Hens0 as [[E2 _] _].
    apply mbind_ok in H1 as (? & ? & Hg & H1). unfold emit in Hg. minv Hg. apply mbind_ok in H1 as (? & ? & H1 & Hg).
    apply update_slot_ok in H1 as (sv & nv & _ & _ & _ & _ & _ & _ & _ & ->). unfold emit in Hg. minv Hg. cbn in Hsl. lia.
Qed.

Ltac mgo := unfold mbind_, get_st, some_or, mret_, emit, modify, ensure; cbn; eexists; reflexivity.
(** ** Which submissions succeed *)
Lemma process_accepted_succeeds c rid s d : s_roots s !! rid = Some d -> rd_hash d <> 0 ->
  (if c_auto_submit c then s_env_publish s <> None else s_anchor_counter s + 1 <= U32_MAX) -> exists s', process_accepted_root c rid s = (s', Ok tt).
Proof.
  intros Hd Hne Hho. unfold process_accepted_root. unfold mbind_ at 1. unfold try_get_root, mbind_ at 1, get_st, some_or. rewrite Hd. unfold mret_ at 1.
  apply N.eqb_neq in Hne. rewrite Hne. destruct (c_auto_submit c).
  - unfold send_root, mbind_, get_st, some_or. destruct (s_env_publish s) eqn:?; [|congruence]. mgo.
  - unfold next_anchor_id, mbind_, get_st, some_or, checked_add. apply N.leb_le in Hho. rewrite Hho. mgo.
Qed.
Lemma end_voting_succeeds c who rid s d v : s_roots s !! rid = Some d -> rd_validated d = false -> s_pending s !! fst rid = Some (snd rid) -> s_votes s !! rid = Some v ->
  has_outcome v || (ss_end v <=? s_block s) = true -> rd_added_by d <> None ->
  (is_approved v = true -> snd (fst rid) + 1 <= U32_MAX /\ hand_over_ok c s d) -> exists s', end_voting c who rid s = (s', Ok tt).
Proof.
  intros Hd Hv Hp Hvo Hout Hby Happ. unfold end_voting, mbind_ at 1, get_st.
  unfold mbind_ at 1. unfold session_is_valid. rewrite Hd, Hp, Hvo, Hv, N.eqb_refl. cbn [negb andb ensure].
  unfold mbind_ at 1. unfold mget. rewrite Hvo, Hout. cbn [ensure].
  unfold mbind_ at 1, try_get_root, mbind_ at 1, get_st, some_or. rewrite Hd.
  destruct (is_approved v).
  - destruct (Happ eq_refl) as [Hle Hho]. unfold safe_add, checked_add. destruct (N.leb_spec (snd (fst rid) + 1) U32_MAX); [|lia].
    unfold mbind_, mret_, emit, modify. cbn. unfold hand_over_ok in Hho. destruct (N.eqb_spec (rd_hash d) 0) as [E|Hne]; [mgo|]. destruct Hho as [|Hho]; [contradiction|].
    destruct (c_ext_enabled c).
    + destruct Hho as [Ht Hs]. unfold submit_external, mbind_, get_st, some_or. destruct (s_ext_threshold s) eqn:?; [|congruence]. rewrite Hs. mgo.
    + destruct (process_accepted_succeeds c rid s d Hd Hne Hho) as [sx ->]. mgo.
  - unfold mbind_, mret_, emit, modify. cbn. destruct (rd_added_by d) eqn:?; [|congruence]. mgo.
Qed.
Lemma dispatch_ok c o s s' : validate_unsigned o s = true -> exec c o s = (s', Ok tt) -> step c s o = s'.
Proof. intros Hv He. unfold step, dispatch. rewrite Hv, He. reflexivity. Qed.
Lemma vote_succeeds c rid who agree s d v : is_validator (s_validators s) who = true -> session_is_active s rid = true -> s_roots s !! rid = Some d -> s_votes s !! rid = Some v ->
  has_voted v who = false -> N.of_nat (length (ss_ayes v)) < MAX_VALIDATORS -> N.of_nat (length (ss_nays v)) < MAX_VALIDATORS -> rd_added_by d <> None ->
  (has_outcome (cast v who agree) = true -> is_approved (cast v who agree) = true -> snd (fst rid) + 1 <= U32_MAX /\ hand_over_ok c s d) ->
  In (EvVoteAdded who rid agree) (s_events (step c s (OpVote rid who agree true))).
Proof.
  intros Hval Hact Hd Hv Hnv Ha Hn Hby Hok. pose proof Hact as Hact'. apply active_facts in Hact' as (d' & v' & Hd' & Hvd & Hp & Hv' & Hlt).
  assert (d' = d) as -> by congruence. assert (v' = v) as -> by congruence.
  set (s1 := s <| s_votes := <[ rid := cast v who agree ]> (s_votes s) |>).
  assert (Hactive : session_is_active s1 rid = true).
  { unfold session_is_active, session_is_valid, s1 in *. cbn. rewrite Hv in Hact. rewrite lookup_insert. replace (ss_end (cast v who agree)) with (ss_end v) by (destruct agree; reflexivity). exact Hact. }
  assert (Hval' : snd (validate_vote rid who s) = Ok tt /\ fst (validate_vote rid who s) = s).
  { unfold validate_vote, mbind_, get_st, ensure, some_or. rewrite Hval, Hact, Hv. unfold mret_. rewrite Hnv. split; reflexivity. }
  assert (Hex : exists s2, vote_root c rid who agree s = (s2 <| s_events := EvVoteAdded who rid agree :: s_events s2 |>, Ok tt)).
  { unfold vote_root. assert (E0 : (if agree then _d <-- try_get_root rid;; mret_ tt else mret_ tt) s = (s, Ok tt)).
    { destruct agree; [|reflexivity]. unfold try_get_root, mbind_, get_st, some_or. now rewrite Hd. }
    unfold mbind_ at 1. rewrite E0. unfold mbind_ at 1. destruct (validate_vote rid who s) as [sx rx]. cbn in Hval'. destruct Hval' as [-> ->].
    assert (E1 : record_vote rid who agree s = (s1, Ok tt)).
    { unfold record_vote, mbind_, get_st, mget, s1. rewrite Hv. apply N.ltb_lt in Ha, Hn. destruct agree; rewrite ?Ha, ?Hn; reflexivity. }
    unfold mbind_ at 1. rewrite E1.
    assert (E2 : exists s2, end_if_outcome c rid who s1 = (s2, Ok tt)).
    { assert (Hv1 : s_votes s1 !! rid = Some (cast v who agree)) by apply lookup_insert.
      unfold end_if_outcome, mbind_, get_st, some_or. rewrite Hv1. unfold mret_ at 1. rewrite Hactive, andb_true_r.
      destruct (has_outcome (cast v who agree)) eqn:Eo; [|unfold mret_; eauto]. eapply end_voting_succeeds; cbn.
      - exact Hd.
      - exact Hvd.
      - exact Hp.
      - apply lookup_insert.
      - rewrite Eo. reflexivity.
      - exact Hby.
      - intros Happ. destruct (Hok eq_refl Happ) as [? Hh]. split; [assumption|]. exact Hh. }
    destruct E2 as [s2 E2]. exists s2. unfold mbind_ at 1. rewrite E2. reflexivity. }
  destruct Hex as [s2 Hex]. erewrite dispatch_ok; [|unfold validate_unsigned|exact Hex]; [now left|].
  rewrite Hval. destruct Hval' as [-> _]. rewrite Hd. destruct agree; reflexivity.
Qed.
Lemma end_succeeds c rid who s d v : is_validator (s_validators s) who = true -> s_roots s !! rid = Some d -> rd_validated d = false -> s_pending s !! fst rid = Some (snd rid) ->
  s_votes s !! rid = Some v -> ss_end v <= s_block s -> rd_added_by d <> None ->
  (is_approved v = true -> snd (fst rid) + 1 <= U32_MAX /\ hand_over_ok c s d) ->
  In (EvVotingEnded rid (is_approved v)) (s_events (step c s (OpEnd rid who true))).
Proof.
  intros Hval Hd Hvd Hp Hv He Hby Hok. destruct (end_voting_succeeds c who rid s d v Hd Hvd Hp Hv) as [s' Hs]; auto.
  { apply orb_true_iff. right. now apply N.leb_le. }
  erewrite dispatch_ok; [|cbn|exact Hs].
  - apply end_voting_ok in Hs as (d' & v' & s1 & Hd' & _ & _ & Hv' & _ & H). assert (v' = v) as -> by congruence.
    destruct (is_approved v); [destruct H as (_ & _ & ->)|destruct H as (cr & _ & ->)]; now left.
  - unfold session_is_valid. now rewrite Hd, Hp, Hv, Hvd, N.eqb_refl, Hval.
Qed.
Lemma record_succeeds c nb h ic who s : AllInv c s -> is_validator (s_validators s) who = true -> s_slot_validator s = Some who ->
  ic = s_ingress s + 1 -> target_block (s_next_block s) (s_schedule s) = Some nb -> neither_pending_nor_approved s (s_next_block s, nb) = true -> s_block s + s_voting s <= U32_MAX ->
  In (EvSummaryCalculated (s_next_block s, nb, ic) h who) (s_events (step c s (OpRecord nb h ic who true))).
Proof.
  intros (HI & _) Hval Hsv -> Ht Hn Hle. 
  assert (Hnv : s_votes s !! (s_next_block s, nb, s_ingress s + 1) = None).
  { destruct (s_votes s !! _) as [v|] eqn:E; [|reflexivity]. apply (I_votes_fresh _ _ HI) in E. cbn in E. lia. }
  assert (Hex : exists s2, record_summary nb h (s_ingress s + 1) who s = (s2 <| s_events := EvSummaryCalculated (s_next_block s, nb, s_ingress s + 1) h who :: s_events s2 |>, Ok tt)).
  { unfold record_summary, mbind_, get_st, ensure, some_or. unfold mret_. rewrite N.eqb_refl. cbv beta iota. rewrite Hval. cbv beta iota. rewrite Ht. cbv beta iota.
    rewrite Hn. cbv beta iota. rewrite Hnv. cbv beta iota. rewrite N.eqb_refl. cbv beta iota. unfold safe_add, checked_add.
    apply N.leb_le in Hle. rewrite Hle. cbv beta iota. unfold modify, emit, modify. eexists (s <| _ := _ |> <| _ := _ |> <| _ := _ |> <| _ := _ |>). reflexivity. }
  destruct Hex as [s2 Hex]. erewrite dispatch_ok; [|cbn|exact Hex]; [now left|]. unfold record_validate. now rewrite Hsv, N.eqb_refl, Hval.
Qed.
Lemma update_slot_succeeds c who s sv : s_next_slot_at s <= s_block s -> s_slot_validator s = Some sv ->
  (if grace_elapsed c s (s_block s) then who <> sv else who = sv) -> s_validators s <> [] -> s_slot s + 1 <= U32_MAX -> s_next_slot_at s + s_schedule s <= U32_MAX ->
  exists s', update_slot_number c who s = (s', Ok tt) /\ s_slot s' = s_slot s + 1.
Proof.
  intros Hb Hsv Hg Hne H1 H2. apply N.leb_le in Hb. unfold update_slot_number.
  assert (E1 : validator_can_advance_slot c who s = (s, Ok tt)).
  { unfold validator_can_advance_slot, mbind_, get_st, ensure, some_or, mret_. rewrite Hb, Hsv. cbv beta iota. destruct (grace_elapsed c s (s_block s)).
    - apply N.eqb_neq in Hg. rewrite Hg. reflexivity.
    - subst. rewrite N.eqb_refl. reflexivity. }
  unfold mbind_ at 1. rewrite E1. unfold mbind_ at 1.
  assert (E2 : exists evs, register_no_summary s = (s <| s_events := evs |>, Ok tt)).
  { unfold register_no_summary, mbind_, get_st. destruct (_ <? _); [rewrite Hsv; cbn; eexists; reflexivity|]. exists (s_events s). destruct s; reflexivity. }
  destruct E2 as [evs ->]. unfold mbind_, get_st, some_or, safe_add, checked_add, mret_. cbn. apply N.leb_le in H1, H2. rewrite H1.
  unfold lift_res, primary_for_block. destruct (s_validators s) as [|v0 l] eqn:Ev; [contradiction|].
  destruct (nth_error (v0 :: l) _) as [x|] eqn:En.
  - cbn. rewrite H2. eexists. split; reflexivity.
  - exfalso. apply nth_error_None in En. pose proof (N.mod_lt (s_slot s + 1) (N.of_nat (length (v0 :: l)))). cbn [length] in *. lia.
Qed.
Lemma advance_succeeds c who s : is_validator (s_validators s) who = true -> s_slot_validator s = Some who -> s_next_slot_at s <= s_block s -> grace_elapsed c s (s_block s) = false ->
  s_slot s + 1 <= U32_MAX -> s_next_slot_at s + s_schedule s <= U32_MAX -> s_slot (step c s (OpAdvanceSlot who true)) = s_slot s + 1.
Proof.
  intros Hval Hsv Hb Hg H1 H2. destruct (update_slot_succeeds c who s who Hb Hsv) as (s' & Hs & E); auto.
  - now rewrite Hg.
  - intros E. rewrite E in Hval. discriminate.
  - erewrite dispatch_ok; [exact E| |exact Hs]. cbn. now rewrite Hsv, N.eqb_refl, Hval.
Qed.
Lemma grace_late c s b : grace_elapsed c s b = true -> s_next_slot_at s <= b.
Proof. unfold grace_elapsed, safe_sub, checked_sub. destruct (N.leb_spec (s_next_slot_at s) b); [auto|]. intros E%N.ltb_lt. lia. Qed.
Lemma challenge_succeeds c ch ce who s : is_validator (s_validators s) who = true -> s_slot_validator s = Some ce -> who <> ce -> grace_elapsed c s (s_block s) = true ->
  s_slot s + 1 <= U32_MAX -> s_next_slot_at s + s_schedule s <= U32_MAX ->
  let s' := step c s (OpChallenge (Some (s_slot s)) ch ce who true) in s_slot s' = s_slot s + 1 /\ In (EvChallengeAdded ch ce) (s_events s').
Proof.
  intros Hval Hsv Hne Hg H1 H2 s'. set (s1 := s <| s_events := EvOffence SlotNotAdvanced [ce] :: s_events s |>).
  destruct (update_slot_succeeds c who s1 ce) as (s2 & Hs & E); auto.
  - apply (grace_late c). exact Hg.
  - change (grace_elapsed c s1 (s_block s1)) with (grace_elapsed c s (s_block s)). now rewrite Hg.
  - intros E. change (s_validators s = []) in E. rewrite E in Hval. discriminate.
  - assert (Hex : add_challenge c (Some (s_slot s)) ch ce who s = (s2 <| s_events := EvChallengeAdded ch ce :: s_events s2 |>, Ok tt)).
    { unfold add_challenge, mbind_, get_st. rewrite Hsv, !N.eqb_refl, Hg. cbn [andb ensure]. unfold emit, modify. fold s1. rewrite Hs. reflexivity. }
    subst s'. erewrite dispatch_ok; [|cbn|exact Hex].
    + split; [exact E|now left].
    + now rewrite Hval.
Qed.
Lemma challenge_fails c ch ce r who sg s : s_slot_validator s = Some who -> grace_elapsed c s (s_block s) = true -> step c s (OpChallenge r ch ce who sg) = s.
Proof.
  intros Hsv Hg. destruct (step_inv c s (OpChallenge r ch ce who sg)) as [E|[_ H]]; [exact E|]. exfalso. cbn [exec] in H. unfold add_challenge in H.
  apply mbind_ok in H as (? & ? & Hx & H). minv Hx. apply mbind_ok in H as (? & ? & Hx & H). minv Hx. apply mbind_ok in H as (? & ? & Hx & H). unfold emit in Hx. minv Hx.
  apply mbind_ok in H as (? & ? & H & _). apply update_slot_ok in H as (sv & nv & _ & E & H3 & _). change (s_slot_validator s = Some sv) in E. apply H3; [exact Hg|congruence].
Qed.
Lemma advance_fails c who sg s : s_slot_validator s = Some who -> grace_elapsed c s (s_block s) = true -> step c s (OpAdvanceSlot who sg) = s.
Proof.
  intros Hsv Hg. destruct (step_inv c s (OpAdvanceSlot who sg)) as [E|[_ H]]; [exact E|]. exfalso. cbn [exec] in H.
  apply update_slot_ok in H as (sv & nv & _ & E & H3 & _). apply H3; [exact Hg|congruence].
Qed.

Lemma creators_step c s o : tx_ok s -> (forall rid d, s_roots s !! rid = Some d -> rd_added_by d <> None) -> forall rid d, s_roots (step c s o) !! rid = Some d -> rd_added_by d <> None.
Proof.
  intros HT H rid d Hd. destruct (step_roots c s o HT) as [(nb & h & ic & who & -> & _ & Hr)|Hk].
  - apply record_summary_ok in Hr as (_ & _ & _ & _ & _ & _ & _ & E). rewrite E in Hd. cbn in Hd. apply lookup_insert_Some in Hd as [[_ <-]|[_ Hd]]; [discriminate|eauto].
  - eapply keeps_lookup in Hk as (d0 & Hd0 & _ & E); [|exact Hd]. rewrite E. eauto.
Qed.
Lemma creators_run c vs p v s ops rid d : genesis vs p v = Some s -> s_roots (run c s ops) !! rid = Some d -> rd_added_by d <> None.
Proof.
  intros Hg. revert rid d. cut (AllInv c (run c s ops) /\ forall rid d, s_roots (run c s ops) !! rid = Some d -> rd_added_by d <> None); [tauto|]. apply run_ind.
  - intros x o [HA HB]. split; [now apply step_AllInv|]. destruct HA as (_ & HT & _). now apply creators_step.
  - split; [apply (reach_AllInv c _ _ _ _ [] Hg)|]. unfold genesis in Hg. destruct vs as [|v0 vs]; [discriminate|].
    destruct (_ && _) in Hg; [|discriminate]. injection Hg as <-. cbn. intros rid d. rewrite lookup_empty. discriminate.
Qed.

(** ** The slot of a single validator *)
Definition clock (s s' : st) : Prop := s_block s <= s_block s' /\ s_next_slot_at s' = s_next_slot_at s /\ s_slot_validator s' = s_slot_validator s /\ s_slot s' = s_slot s.
Lemma clock_pub c rid d s s' : pub_effect c rid d s s' -> clock s s'.
Proof. intros [(_ & ->) | [(_ & _ & tx & _ & ->) | (_ & _ & _ & ->)]]; unfold clock; cbn; repeat split; lia. Qed.
Lemma clock_end c who rid s s' u : end_voting c who rid s = (s', Ok u) -> clock s s'.
Proof.
  intros H. apply end_voting_ok in H as (d & v & s1 & Hd & _ & _ & _ & _ & H). destruct (is_approved v).
  - destruct H as (Hpub & _ & ->). assert (Hc : clock s s1).
    { destruct Hpub as [(_ & ->)|[(_ & _ & ->)|(_ & _ & Hpub)]]; [unfold clock; repeat split; lia|unfold clock; cbn; repeat split; lia|]. eapply clock_pub; eauto. }
    exact Hc.
  - destruct H as (cr & _ & ->). unfold clock; cbn; repeat split; lia.
Qed.
Lemma step_clock c s o : changes_schedule o = false -> clock s (step c s o) \/ exists who s0 s1, update_slot_number c who s0 = (s1, Ok tt) /\ s_block s0 = s_block s /\ s_next_slot_at s0 = s_next_slot_at s /\
   s_slot_validator s0 = s_slot_validator s /\ s_validators s0 = s_validators s /\ is_validator (s_validators s) who = true.
Proof.
  intros Hsch. destruct (step_inv c s o) as [->|[Hval H]]; [left; unfold clock; repeat split; lia|].
  set (s' := step c s o) in *. clearbody s'. destruct o; cbn [exec] in H; try discriminate.
  - left. apply record_summary_ok in H as (_ & _ & _ & _ & _ & _ & _ & ->). unfold clock; cbn; repeat split; lia.
  - left. apply vote_root_ok in H as (v & _ & _ & _ & _ & s2 & [[-> _]|H] & ->); [unfold clock; cbn; repeat split; lia|]. apply clock_end in H. exact H.
  - left. now apply clock_end in H.
  - right. exists who, s, s'. cbn in Hval. destruct (s_slot_validator s); [|discriminate]. rewrite !andb_true_iff in Hval. intuition.
  - right. unfold add_challenge in H. apply mbind_ok in H as (? & ? & Hx & H). minv Hx. apply mbind_ok in H as (? & ? & Hx & H). minv Hx. apply mbind_ok in H as (? & ? & Hx & H). unfold emit in Hx. minv Hx.
    apply mbind_ok in H as (s1 & [] & H & _). eexists who, _, s1. split; [exact H|]. cbn in Hval |- *. destruct reason; [|discriminate]. rewrite andb_true_iff in Hval. intuition.
  - left. destruct cfg; try discriminate; cbn in H; unfold validate_voting in H; minv H; unfold clock; cbn; repeat split; lia.
  - left. unfold admin_resolve, cleanup_external, try_get_root, emit in H.
    apply mbind_ok in H as (? & ? & Hx & H). minv Hx. apply mbind_ok in H as (? & ? & Hx & H). minv Hx. apply mbind_ok in H as (? & ? & Hx & H). minv Hx.
    apply mbind_ok in H as (? & ? & Hx & H). minv Hx. apply mbind_ok in H as (? & ? & Hx & H). minv Hx. apply mbind_ok in H as (s1 & ? & Hx & H).
    assert (Hc : clock s s1). { destruct accepted; [|minv Hx; unfold clock; repeat split; lia]. apply process_accepted_ok in Hx as (d & _ & Hx). eapply clock_pub; eauto. }
    minv H. exact Hc.
  - left. minv H. unfold external_result. destruct (s_ext_ref s !! ref_) as [rid|]; [|unfold clock; repeat split; lia].
    destruct r; [|  |unfold clock; cbn; repeat split; lia|unfold clock; cbn; repeat split; lia];
    (destruct (s_roots s !! rid); [|unfold clock; repeat split; lia]; destruct (process_accepted_root c rid _) as [s2 [[]|e]] eqn:Ep;
      [apply process_accepted_ok in Ep as (d & _ & Hp); apply clock_pub in Hp; exact Hp|apply process_accepted_err in Ep; subst s2; unfold clock; cbn; repeat split; lia]).
  - left. minv H. unfold process_result. destruct (s_tx_to_root s !! tx); [|unfold clock; repeat split; lia]. destruct (matches && succeeded); unfold clock; cbn; repeat split; lia.
  - left. minv H. unfold clock; cbn; repeat split; lia.
  - left. minv H. unfold clock; cbn; repeat split; lia.
  - left. minv H. unfold clock; cbn; repeat split; lia.
  - left. minv H. unfold clock; cbn; repeat split; lia.
Qed.
Definition stuck (c : config) (a k : N) (s : st) : Prop := s_slot_validator s = Some a /\ grace_elapsed c s (s_block s) = true /\ s_slot s = k /\ (forall v, In v (s_validators s) -> v_account v = a).
Lemma stuck_step c a k s o : tx_ok s -> stuck c a k s -> changes_schedule o = false -> (forall vs, o = EnvValidators vs -> forall v, In v vs -> v_account v = a) -> stuck c a k (step c s o).
Proof.
  intros HT (Hsv & Hg & Hk & Hv) Hsch Hvs. destruct (step_clock c s o Hsch) as [(Hb & Hn & Hs & Hsl)|(who & s0 & s1 & H & E1 & E2 & E3 & E4 & Hval)].
  - split; [now rewrite Hs|]. split; [|split; [congruence|]].
    + unfold grace_elapsed, safe_sub, checked_sub in *. rewrite Hn. destruct (N.leb_spec (s_next_slot_at s) (s_block s)).
      * destruct (N.leb_spec (s_next_slot_at s) (s_block (step c s o))); [|lia]. apply N.ltb_lt in Hg. apply N.ltb_lt. lia.
      * apply N.ltb_lt in Hg. lia.
    + destruct (step_validators c s o HT) as [->|(vs & -> & ->)]; [exact Hv|]. now apply Hvs.
  - exfalso. apply is_validator_spec in Hval. apply in_map_iff in Hval as (v & <- & Hin). apply Hv in Hin.
    apply update_slot_ok in H as (sv & nv & _ & E & H3 & _). rewrite E3, Hsv in E. apply (inj Some) in E. apply H3; [|congruence].
    unfold grace_elapsed in *. rewrite E1, E2. exact Hg.
Qed.
Lemma stuck_run c a k ops : forall s, AllInv c s -> stuck c a k s -> Forall (fun o => changes_schedule o = false /\ forall vs, o = EnvValidators vs -> forall v, In v vs -> v_account v = a) ops ->
  stuck c a k (run c s ops).
Proof.
  induction ops as [|o ops IH]; intros s HA HS Hf; [exact HS|]. apply Forall_cons in Hf as [[H1 H2] Hf]. cbn. apply IH; [now apply step_AllInv| |exact Hf].
  apply stuck_step; auto. apply HA.
Qed.
Lemma stuck_silent w n s v r a k cl : stuck (wc_pallet w) a k s -> worker w n s = Some (v, r) -> In cl (o_signed r) -> (exists rid b, cl = CVote rid b) \/ (exists rid, cl = CEnd rid) \/ step (wc_pallet w) s (op_of cl (v_account v) true) = s.
Proof.
  intros (Hsv & Hg & _ & Hv) Ew Hin. pose proof (worker_signed _ _ _ _ _ _ Ew Hin) as Hp. destruct (worker_validator _ _ _ _ _ Ew) as [_ Hva]. apply Hv in Hva.
  destruct cl; eauto.
  - exfalso. destruct Hp as (_ & _ & _ & _ & Hlt & _). apply grace_late in Hg. lia.
  - right. right. cbn. apply advance_fails; [congruence|exact Hg].
  - right. right. cbn. apply challenge_fails; [congruence|exact Hg].
Qed.

(** ** The rotation of the challengers *)
Lemma primary_next vs b p q : NoDup (map v_account vs) -> (2 <= length vs)%nat -> primary_for_block vs b = Ok p -> primary_for_block vs (b + 1) = Ok q -> p <> q.
Proof.
  intros Hnd Hlen. unfold primary_for_block. destruct vs as [|v0 l] eqn:E; [discriminate|]. rewrite <- E in *. clear E.
  destruct (nth_error vs (N.to_nat (b mod N.of_nat (length vs)))) as [x|] eqn:Ex; [|discriminate]. destruct (nth_error vs (N.to_nat ((b + 1) mod N.of_nat (length vs)))) as [y|] eqn:Ey; [|discriminate].
  intros H1 H2. injection H1 as <-. injection H2 as <-. intros E.
  assert (Ei : N.to_nat (b mod N.of_nat (length vs)) = N.to_nat ((b + 1) mod N.of_nat (length vs))).
  { eapply NoDup_lookup; [exact Hnd| |].
    - change (map v_account vs) with (v_account <$> vs). rewrite list_lookup_fmap, <- nth_error_is_lookup, Ex. reflexivity.
    - change (map v_account vs) with (v_account <$> vs). rewrite list_lookup_fmap, <- nth_error_is_lookup, Ey. cbn. now rewrite E. }
  assert (Em : b mod N.of_nat (length vs) = (b + 1) mod N.of_nat (length vs)) by lia. clear -Em Hlen. set (n := N.of_nat (length vs)) in *. assert (2 <= n) by lia. clearbody n.
  pose proof (N.div_mod b n ltac:(lia)). pose proof (N.div_mod (b + 1) n ltac:(lia)). pose proof (N.mod_lt b n ltac:(lia)).
  assert (n * ((b + 1) / n) = n * (b / n) + 1) by lia. destruct (N.le_gt_cases ((b + 1) / n) (b / n)); [assert (n * ((b + 1) / n) <= n * (b / n)) by (apply N.mul_le_mono_l; assumption); lia|].
  assert (n * (b / n + 1) <= n * ((b + 1) / n)) by (apply N.mul_le_mono_l; lia). lia.
Qed.
Lemma primary_exists vs b : vs <> [] -> exists v, In v vs /\ primary_for_block vs b = Ok (v_account v).
Proof.
  intros Hne. unfold primary_for_block. destruct vs as [|v0 l] eqn:E; [contradiction|]. rewrite <- E in *. destruct (nth_error vs _) as [x|] eqn:Ex.
  - exists x. split; [|reflexivity]. eapply nth_error_In; eauto.
  - exfalso. apply nth_error_None in Ex. assert (length vs <> 0%nat) by now destruct vs. pose proof (N.mod_lt b (N.of_nat (length vs)) ltac:(lia)). lia.
Qed.

(** ** What workers send *)
Lemma cast_first_one w n s : forall rids, (length (o_sent (cast_first w n s rids)) <= 1)%nat.
Proof.
  induction rids as [|rid rest IH]; cbn; [lia|]. destruct (n_locked _ _); [exact IH|]. destruct (compute_root _ _ _); [|exact IH].
  destruct (s_roots s !! rid); [|exact IH]. destruct (s_votes s !! rid); [|exact IH]. destruct (n_can_sign n); cbn; [|exact IH]. destruct (n_submit n _); cbn; [lia|exact IH].
Qed.
Lemma cast_first_votes w n s : forall rids cl, In cl (o_sent (cast_first w n s rids)) -> is_vote cl = true.
Proof.
  induction rids as [|rid rest IH]; cbn; [tauto|]. intros cl. destruct (n_locked _ _); [apply IH|]. destruct (compute_root _ _ _); [|apply IH].
  destruct (s_roots s !! rid); [|apply IH]. destruct (s_votes s !! rid); [|apply IH]. destruct (n_can_sign n); cbn; [|apply IH]. destruct (n_submit n _); cbn; [|apply IH]. intros [<-|[]]. reflexivity.
Qed.
Lemma attempt_sent_eq n cl lock x : In x (o_sent (attempt n cl lock)) -> x = cl.
Proof. intros H%attempt_sent%attempt_signed. exact H. Qed.
Lemma filter_none {A} (f : A -> bool) (l : list A) : (forall x, In x l -> f x = false) -> List.filter f l = [].
Proof. induction l as [|x l IH]; cbn; intros H; [reflexivity|]. rewrite (H x) by auto. apply IH. auto. Qed.
Lemma filter_len {A} (f : A -> bool) (l : list A) : (length (List.filter f l) <= length l)%nat.
Proof. induction l as [|x l IH]; cbn; [lia|]. destruct (f x); cbn; lia. Qed.
Lemma end_all_ends n s : forall rids cl, In cl (o_sent (end_all n s rids)) -> exists rid, In rid rids /\ cl = CEnd rid.
Proof. intros rids cl H%end_all_sent%end_all_signed. destruct H as (rid & v & Hin & -> & _). eauto. Qed.
Lemma worker_one_vote w n s v r : worker w n s = Some (v, r) -> (length (List.filter is_vote (o_sent r)) <= 1)%nat.
Proof.
  unfold worker. destruct (local_validator n s) as [v0|]; [|discriminate]. intros E. injection E as <- <-. cbn [out_app o_sent]. rewrite !List.filter_app, !app_length.
  rewrite (filter_none _ (o_sent (advance_if_required w n (v_account v0) s))).
  2:{ intros x H. unfold advance_if_required in H. destruct (s_slot_validator s); [|destruct H]. destruct (_ && _); [|destruct H]. destruct (n_locked _ _); [destruct H|]. apply attempt_sent_eq in H. now subst. }
  rewrite (filter_none _ (o_sent (process_if_required w n (v_account v0) s))).
  2:{ intros x H. unfold process_if_required in H. destruct (target_block _ _); [|destruct H]. destruct (can_process _ _ _ _ _); [|destruct H]. destruct (compute_root _ _ _); [|destruct H]. apply attempt_sent_eq in H. now subst. }
  rewrite (filter_none _ (o_sent (end_if_required n s))).
  2:{ intros x H. unfold end_if_required in H. apply end_all_ends in H as (rid & _ & ->). reflexivity. }
  rewrite (filter_none _ (o_sent (challenge_if_required w n (v_account v0) s))).
  2:{ intros x H. unfold challenge_if_required in H. destruct (s_slot_validator s); [|destruct H]. destruct (n_locked _ _); [destruct H|]. destruct (_ && _); [|destruct H]. apply attempt_sent_eq in H. now subst. }
  pose proof (filter_len is_vote (o_sent (cast_if_required w n (v_account v0) s))). pose proof (cast_first_one w n s (take MAX_SESSIONS (List.filter (can_vote w n (v_account v0) s) (n_iter n (s_pending s))))).
  unfold cast_if_required in *. cbn [length]. lia.
Qed.

Lemma attempt_able n cl lock : able n -> o_sent (attempt n cl lock) = [cl].
Proof. intros [H1 H2]. unfold attempt. now rewrite H1, H2. Qed.
Lemma worker_parts w n s v : local_validator n s = Some v -> exists r, worker w n s = Some (v, r) /\
  forall cl, In cl (o_sent (advance_if_required w n (v_account v) s)) \/ In cl (o_sent (process_if_required w n (v_account v) s)) \/ In cl (o_sent (cast_if_required w n (v_account v) s)) \/
    In cl (o_sent (end_if_required n s)) \/ In cl (o_sent (challenge_if_required w n (v_account v) s)) -> In cl (o_sent r).
Proof. intros H. unfold worker. rewrite H. eexists. split; [reflexivity|]. intros cl Hin. cbn [out_app o_sent]. rewrite !in_app_iff. exact Hin. Qed.
Lemma take_filter_in {A} k (f : A -> bool) l x : In x (take k (List.filter f l)) -> In x l /\ f x = true.
Proof. intros H. apply elem_of_list_In, elem_of_take in H as (i & H & _). apply elem_of_list_lookup_2, elem_of_list_In, filter_In in H. exact H. Qed.
Lemma challenge_sent w n me s sv : able n -> s_slot_validator s = Some sv -> n_locked n (lock_name (ChallengeLock (wc_instance w) (s_slot s) me sv)) = false ->
  primary_for_block (s_validators s) (s_block s) = Ok me -> grace_elapsed (wc_pallet w) s (s_block s) = true -> In (CChallenge (Some (s_slot s)) me sv) (o_sent (challenge_if_required w n me s)).
Proof. intros Hab Hsv Hl Hp Hg. unfold challenge_if_required. rewrite Hsv, Hl, Hp, N.eqb_refl, Hg. cbn [andb]. rewrite attempt_able; [now left|exact Hab]. Qed.
Lemma cast_sent w n me s rid : able n -> In rid (n_iter n (s_pending s)) -> can_vote w n me s rid = true ->
  (forall x, In x (n_iter n (s_pending s)) -> compute_root n (fst (fst x)) (snd (fst x)) <> None) ->
  exists rid' b, In (CVote rid' b) (o_sent (cast_if_required w n me s)).
Proof.
  intros [Ha1 Ha2] Hin Hcv Hroot. unfold cast_if_required. destruct (List.filter (can_vote w n me s) (n_iter n (s_pending s))) as [|x l] eqn:Ef.
  - exfalso. assert (H : In rid []); [|destruct H]. rewrite <- Ef. now apply filter_In.
  - assert (Hx : In x (n_iter n (s_pending s)) /\ can_vote w n me s x = true) by (apply filter_In; rewrite Ef; now left). destruct Hx as [Hx Hcx].
    cbn [take MAX_SESSIONS cast_first]. unfold can_vote in Hcx. destruct (s_votes s !! x) as [v|] eqn:Ev; [|discriminate]. rewrite !andb_true_iff, !negb_true_iff in Hcx. destruct Hcx as [[_ Hl] Hact].
    rewrite Hl. apply active_facts in Hact as (d & ? & Hd & _). destruct (compute_root n _ _) as [h|] eqn:Eh; [|exfalso; eapply Hroot; eauto]. rewrite Hd, Ha1, Ha2. cbn. eauto.
Qed.
Lemma end_sent n s rid : able n -> In rid (n_iter n (s_pending s)) -> ss_end (mget session_default rid (s_votes s)) < s_block s -> (forall x, In x (n_iter n (s_pending s)) -> s_votes s !! x <> None) ->
  exists rid', In rid' (n_iter n (s_pending s)) /\ ss_end (mget session_default rid' (s_votes s)) < s_block s /\ In (CEnd rid') (o_sent (end_if_required n s)).
Proof.
  intros [Ha1 Ha2] Hin He Hv. unfold end_if_required. set (f := fun rid : root_id => ss_end (mget session_default rid (s_votes s)) <? s_block s). destruct (List.filter f (n_iter n (s_pending s))) as [|x l] eqn:Ef.
  - exfalso. assert (H : In rid []); [|destruct H]. rewrite <- Ef. apply filter_In. split; [exact Hin|]. now apply N.ltb_lt.
  - assert (Hx : In x (n_iter n (s_pending s)) /\ f x = true) by (apply filter_In; rewrite Ef; now left). destruct Hx as [Hx Hfx]. exists x. split; [exact Hx|]. split; [now apply N.ltb_lt|].
    cbn [take MAX_SESSIONS end_all]. destruct (s_votes s !! x) eqn:Ev; [|exfalso; eapply Hv; eauto]. rewrite Ha1, Ha2. cbn. now left.
Qed.
Lemma record_sent w n me s to h : able n -> target_block (s_next_block s) (s_schedule s) = Some to -> can_process w n me to s = true -> compute_root n (s_next_block s) to = Some h ->
  In (CRecord to h ((s_ingress s + 1) mod 2 ^ 64)) (o_sent (process_if_required w n me s)).
Proof. intros Hab Ht Hc Hh. unfold process_if_required. rewrite Ht, Hc, Hh, attempt_able by exact Hab. now left. Qed.
Lemma advance_sent w n me s : able n -> s_slot_validator s = Some me -> s_next_slot_at s <= s_block s -> n_locked n (lock_name (SlotLock (wc_instance w) (s_slot s))) = false ->
  In CAdvance (o_sent (advance_if_required w n me s)).
Proof. intros Hab Hsv Hb%N.leb_le Hl. unfold advance_if_required. rewrite Hsv, N.eqb_refl, Hb, Hl. cbn [andb]. rewrite attempt_able by exact Hab. now left. Qed.
