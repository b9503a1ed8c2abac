(** Proofs about SummaryModel.v *)
From Verif Require Import Base BaseLemmas AvnModel AvnProofs SummaryModel SummarySpec.

Ltac unfold_summary H :=
  unfold end_voting, try_get_root, process_accepted_root, submit_external, send_root, next_anchor_id,
    emit, validate_vote, record_vote, validate_schedule, validate_voting, validator_can_advance_slot,
    register_no_summary, try_get_root, cleanup_external in H.

Lemma checked_add_Some m a b x : checked_add m a b = Some x -> x = a + b /\ a + b <= m.
Proof. unfold checked_add. destruct (N.leb_spec (a + b) m); intros E; [injection E as <-; auto | discriminate]. Qed.
Lemma checked_sub_Some a b x : checked_sub a b = Some x -> x = a - b /\ b <= a.
Proof. unfold checked_sub. destruct (N.leb_spec b a); intros E; [injection E as <-; auto | discriminate]. Qed.

(** Publication step: what [process_accepted_root] does when it succeeds. *)
Definition pub_effect (c : config) (rid : root_id) (d : root_data) (s s' : st) : Prop :=
  (rd_hash d = 0 /\ s' = s) \/
  (rd_hash d <> 0 /\ c_auto_submit c = true /\ exists tx,
     s_env_publish s = Some tx /\
     s' = s <| s_events := EvPublished rid (rd_hash d) tx :: s_events s |>
            <| s_roots := <[rid := d <| rd_tx := Some tx |>]> (s_roots s) |>
            <| s_tx_to_root := <[tx := rid]> (s_tx_to_root s) |>) \/
  (rd_hash d <> 0 /\ c_auto_submit c = false /\ s_anchor_counter s + 1 <= U32_MAX /\
     s' = s <| s_anchor_counter := s_anchor_counter s + 1 |>
            <| s_anchors := <[s_anchor_counter s := rd_hash d]> (s_anchors s) |>
            <| s_events := EvAnchored rid (rd_hash d) (s_anchor_counter s) :: s_events s |>).

Lemma process_accepted_ok c rid s s' u :
  process_accepted_root c rid s = (s', Ok u) ->
  exists d, s_roots s !! rid = Some d /\ pub_effect c rid d s s'.
Proof.
  intros H. unfold_summary H. minv H.
  - exists a. split; [assumption|]. left. apply N.eqb_eq in Hif. auto.
  - exists a. split; [assumption|]. right; left. apply N.eqb_neq in Hif. split; [assumption|].
    split; [assumption|]. eexists. split; [eassumption|]. cbn. rewrite Hsome. reflexivity.
  - exists a. split; [assumption|]. right; right. apply N.eqb_neq in Hif. split; [assumption|].
    split; [assumption|]. apply checked_add_Some in Hsome0 as [-> Hle]. split; [assumption|]. reflexivity.
Qed.

Lemma process_accepted_err c rid s s' e :
  process_accepted_root c rid s = (s', Err e) -> s' = s.
Proof.
  intros H. unfold_summary H. unfold mbind_, get_st, some_or, mret_, fail, modify in H.
  destruct (s_roots s !! rid) as [d|]; [|congruence].
  destruct (rd_hash d =? 0); [congruence|].
  destruct (c_auto_submit c).
  - destruct (s_env_publish s); cbn in H; congruence.
  - destruct (checked_add _ _ _); cbn in H; congruence.
Qed.

Lemma end_voting_ok c who rid s s' u :
  end_voting c who rid s = (s', Ok u) ->
  exists d v s1,
    s_roots s !! rid = Some d /\ rd_validated d = false /\ s_pending s !! fst rid = Some (snd rid) /\
    s_votes s !! rid = Some v /\ (has_outcome v = true \/ ss_end v <= s_block s) /\
    if is_approved v then
      ((rd_hash d = 0 /\ s1 = s) \/
       (rd_hash d <> 0 /\ c_ext_enabled c = true /\
        s1 = s <| s_ext_ref := <[ c_ext_hash c rid (rd_hash d) := rid ]> (s_ext_ref s) |>
               <| s_ext_status := <[ rid := ExtInProgress ]> (s_ext_status s) |>
               <| s_events := EvExternalSubmitted rid (c_ext_hash c rid (rd_hash d)) :: s_events s |>) \/
       (rd_hash d <> 0 /\ c_ext_enabled c = false /\ pub_effect c rid d s s1)) /\
      snd (fst rid) + 1 <= U32_MAX /\
      s' = s1 <| s_next_block := snd (fst rid) + 1 |>
        <| s_roots := <[ rid := (mget root_data_default rid (s_roots s1)) <| rd_validated := true |> ]> (s_roots s1) |>
        <| s_last_summary_slot := s_slot s1 |>
        <| s_pending := delete (fst rid) (s_pending s1) |>
        <| s_events := EvVotingEnded rid true :: EvRootValidated rid (rd_hash d)
                       :: EvOffence RejectedValidRoot (ss_nays v) :: s_events s1 |>
    else
      exists creator, rd_added_by d = Some creator /\
      s' = s <| s_pending := delete (fst rid) (s_pending s) |>
        <| s_events := EvVotingEnded rid false :: EvOffence ApprovedInvalidRoot (ss_ayes v)
                       :: EvOffence CreatedInvalidRoot [creator] :: s_events s |>.
Proof.
  intros H. unfold end_voting in H.
  apply mbind_ok in H as (? & ? & Hg & H). minv Hg.
  apply mbind_ok in H as (? & ? & Hg & H). minv Hg.
  apply mbind_ok in H as (? & ? & Hg & H). minv Hg.
  apply mbind_ok in H as (? & d & Hg & H). unfold try_get_root in Hg. minv Hg.
  unfold session_is_valid in Hens. rewrite Hsome in Hens.
  destruct (s_pending s !! fst rid) as [ic|] eqn:Hp; [|discriminate].
  destruct (s_votes s !! rid) as [v|] eqn:Hv; [|discriminate].
  apply andb_true_iff in Hens as [Hval Hic]. apply negb_true_iff in Hval. apply N.eqb_eq in Hic. subst ic.
  unfold mget in Hens0, H. rewrite Hv in Hens0, H.
  exists d, v.
  apply mbind_ok in H as (s2 & ? & Hb & H).
  assert (Hout : has_outcome v = true \/ ss_end v <= s_block s).
  { apply orb_true_iff in Hens0 as [?|E]; [auto|]. right. now apply N.leb_le. }
  destruct (is_approved v) eqn:Happ.
  - apply mbind_ok in Hb as (s1 & ? & Hpub & Hb). exists s1.
    repeat (split; [first [assumption | reflexivity]|]).
    split.
    + destruct (rd_hash d =? 0) eqn:Hh.
      * minv Hpub. left. apply N.eqb_eq in Hh. auto.
      * apply N.eqb_neq in Hh. right. destruct (c_ext_enabled c) eqn:He.
        -- left. unfold submit_external, emit in Hpub. minv Hpub. repeat (split; [auto|]). reflexivity.
        -- right. repeat (split; [auto|]). apply process_accepted_ok in Hpub as (d' & Hd' & Hpub).
           assert (d' = d) as -> by congruence. exact Hpub.
    + unfold emit in Hb, H. minv Hb. minv H. apply checked_add_Some in Hsome0 as [-> Hle].
      split; [exact Hle|]. destruct s1. reflexivity.
  - exists s. repeat (split; [first [assumption | reflexivity]|]).
    unfold emit in Hb, H. minv Hb. minv H. eexists. split; [eassumption|]. destruct s. reflexivity.
Qed.

Lemma record_summary_ok nb h ic who s s' u :
  record_summary nb h ic who s = (s', Ok u) ->
  let r := (s_next_block s, nb) in
  s_ingress s + 1 = ic /\ is_validator (s_validators s) who = true /\
  target_block (s_next_block s) (s_schedule s) = Some nb /\
  s_pending s !! r = None /\ s_votes s !! (r, ic) = None /\
  neither_pending_nor_approved s r = true /\ s_block s + s_voting s <= U32_MAX /\
  s' = s <| s_ingress := ic |>
         <| s_roots := <[ (r, ic) := root_data_new h who ]> (s_roots s) |>
         <| s_pending := <[ r := ic ]> (s_pending s) |>
         <| s_votes := <[ (r, ic) := session_new (avn_quorum (s_validators s)) (s_block s + s_voting s) (s_block s) ]> (s_votes s) |>
         <| s_events := EvSummaryCalculated (r, ic) h who :: s_events s |>.
Proof.
  intros H r. unfold record_summary, emit in H. minv H. subst r.
  apply N.eqb_eq in Hens.
  destruct (s_votes s !! _) eqn:Hv in Hens2; [discriminate|].
  apply N.eqb_eq in Hens3. subst a1.
  apply checked_add_Some in Hsome0 as [-> Hle].
  pose proof Hens1 as Hn. unfold neither_pending_nor_approved in Hens1.
  apply andb_true_iff in Hens1 as [Hp _].
  destruct (s_pending s !! _) eqn:Hp' in Hp; [discriminate|].
  repeat (split; [assumption|]). destruct s. reflexivity.
Qed.

Definition cast (v : session) (who : N) (agree : bool) : session :=
  if agree then v <| ss_ayes := ss_ayes v ++ [who] |> else v <| ss_nays := ss_nays v ++ [who] |>.

Lemma vote_root_ok c rid who agree s s' u :
  vote_root c rid who agree s = (s', Ok u) ->
  exists v, is_validator (s_validators s) who = true /\ session_is_active s rid = true /\
    s_votes s !! rid = Some v /\ has_voted v who = false /\
    let s1 := s <| s_votes := <[ rid := cast v who agree ]> (s_votes s) |> in
    exists s2, ((s2 = s1 /\ has_outcome (cast v who agree) = false) \/ end_voting c who rid s1 = (s2, Ok tt)) /\
    s' = s2 <| s_events := EvVoteAdded who rid agree :: s_events s2 |>.
Proof.
  intros H. unfold vote_root in H.
  apply mbind_ok in H as (s0 & ? & H0 & H).
  assert (s0 = s) as ->. { unfold try_get_root in H0. minv H0; auto. }
  clear H0. apply mbind_ok in H as (s0 & ? & H0 & H).
  unfold validate_vote in H0. minv H0. apply negb_true_iff in Hens1.
  exists a1. repeat (split; [assumption|]). intros s1.
  apply mbind_ok in H as (s2 & ? & H1 & H).
  assert (s2 = s1) as ->.
  { unfold record_vote, mget in H1. destruct agree; minv H1; cbn; now rewrite Hsome. }
  clear H1. apply mbind_ok in H as (s2 & [] & H1 & H). exists s2.
  unfold emit in H. minv H. split; [|reflexivity].
  unfold end_if_outcome in H1.
  apply mbind_ok in H1 as (? & ? & Hg & H1). minv Hg.
  apply mbind_ok in H1 as (? & ? & Hg & H1). minv Hg.
  subst s1. cbn in Hsome0. rewrite lookup_insert in Hsome0. injection Hsome0 as <-.
  destruct (has_outcome (cast a1 who agree)) eqn:Ho; cbn in H1.
  - match type of H1 with (if ?b then _ else _) _ = _ => destruct b eqn:Ha end.
    + right. exact H1.
    + exfalso. unfold session_is_active, session_is_valid in Hens0, Ha. rewrite Hsome in Hens0. cbn in Ha. rewrite lookup_insert in Ha.
      replace (ss_end (cast a1 who agree)) with (ss_end a1) in Ha by (destruct agree; reflexivity).
      apply andb_true_iff in Hens0 as [E1 E2]. rewrite E1 in Ha. cbn in Ha.
      destruct (s_roots s !! rid); [|discriminate]. destruct (s_pending s !! rid.1); [|discriminate]. congruence.
  - left. minv H1. auto.
Qed.

Lemma update_slot_ok c who s s' u :
  update_slot_number c who s = (s', Ok u) ->
  exists sv nv,
    s_next_slot_at s <= s_block s /\ s_slot_validator s = Some sv /\
    (grace_elapsed c s (s_block s) = true -> who <> sv) /\
    (grace_elapsed c s (s_block s) = false -> who = sv) /\
    primary_for_block (s_validators s) (s_slot s + 1) = Ok nv /\
    s_slot s + 1 <= U32_MAX /\ s_next_slot_at s + s_schedule s <= U32_MAX /\
    s' = s <| s_slot := s_slot s + 1 |> <| s_slot_validator := Some nv |>
           <| s_next_slot_at := s_next_slot_at s + s_schedule s |>
           <| s_events := EvSlotAdvanced who (s_slot s + 1) nv (s_next_slot_at s + s_schedule s) ::
                (if s_last_summary_slot s <? s_slot s
                 then [EvNoSummary sv (s_slot s); EvOffence NoSummaryCreated [sv]] else []) ++ s_events s |>.
Proof.
  intros H. unfold update_slot_number in H.
  apply mbind_ok in H as (s0 & ? & H0 & H).
  unfold validator_can_advance_slot in H0.
  apply mbind_ok in H0 as (? & ? & Hg & H0). minv Hg.
  apply mbind_ok in H0 as (? & ? & Hg & H0). minv Hg. apply N.leb_le in Hens.
  apply mbind_ok in H0 as (? & sv & Hg & H0). minv Hg.
  assert (s0 = s /\ (grace_elapsed c s (s_block s) = true -> who <> sv) /\
          (grace_elapsed c s (s_block s) = false -> who = sv)) as (-> & G1 & G2).
  { destruct (grace_elapsed c s (s_block s)); minv H0; split; auto; split; try discriminate.
    - intros _. apply negb_true_iff in Hens0. now apply N.eqb_neq.
    - intros _. now apply N.eqb_eq. }
  clear H0. apply mbind_ok in H as (s1 & ? & H0 & H).
  assert (s1 = s <| s_events := (if s_last_summary_slot s <? s_slot s
                 then [EvNoSummary sv (s_slot s); EvOffence NoSummaryCreated [sv]] else []) ++ s_events s |>) as ->.
  { unfold register_no_summary, emit in H0. apply mbind_ok in H0 as (? & ? & Hg & H0). minv Hg.
    destruct (s_last_summary_slot s <? s_slot s).
    - rewrite Hsome in H0. minv H0. destruct s; reflexivity.
    - minv H0. destruct s; reflexivity. }
  clear H0. unfold emit in H. minv H. cbn in *.
  apply checked_add_Some in Hsome0 as [-> ?]. apply checked_add_Some in Hsome1 as [-> ?].
  eexists sv, _. repeat (split; [eassumption|]). destruct s; reflexivity.
Qed.

(** * The main invariant *)
Definition no_ref_to (s : st) (rid : root_id) : Prop := forall r, s_ext_ref s !! r <> Some rid.

Record Inv (c : config) (s : st) : Prop := {
  I_periods : MIN_SCHEDULE <= s_schedule s /\ MIN_VOTING <= s_voting s /\ s_voting s < s_schedule s /\ s_voting s <= MAX_VOTING;
  I_roots_fresh : forall rid d, s_roots s !! rid = Some d -> snd rid <= s_ingress s;
  I_votes_fresh : forall rid v, s_votes s !! rid = Some v -> snd rid <= s_ingress s;
  I_votes_root : forall rid, is_Some (s_votes s !! rid) <-> is_Some (s_roots s !! rid);
  I_session : forall rid v, s_votes s !! rid = Some v -> NoDup (ss_ayes v ++ ss_nays v) /\ 1 <= ss_threshold v;
  I_pending : forall r ic, s_pending s !! r = Some ic -> exists d, s_roots s !! (r, ic) = Some d /\ rd_validated d = false;
  I_ballots : NoDup (ballots (s_events s)) /\
     forall w rid, In (w, rid) (ballots (s_events s)) -> exists v, s_votes s !! rid = Some v /\ has_voted v w = true;
  I_ended : NoDup (ended (s_events s)) /\
     forall rid, In rid (ended (s_events s)) -> s_pending s !! fst rid <> Some (snd rid) /\ is_Some (s_roots s !! rid);
  I_validated : forall rid d, s_roots s !! rid = Some d ->
     (rd_validated d = true <-> In (EvRootValidated rid (rd_hash d)) (s_events s));
  I_validated_root : forall rid h, In (EvRootValidated rid h) (s_events s) ->
     exists d v, s_roots s !! rid = Some d /\ rd_hash d = h /\ s_votes s !! rid = Some v /\ is_approved v = true /\
                 s_pending s !! fst rid <> Some (snd rid);
  I_published : NoDup (published (s_events s)) /\
     forall rid, In rid (published (s_events s)) ->
       (exists d, s_roots s !! rid = Some d /\ rd_validated d = true /\ rd_hash d <> 0) /\
       no_ref_to s rid /\ s_reviews s !! rid = None;
  I_ext : forall r rid, s_ext_ref s !! r = Some rid ->
     exists d, s_roots s !! rid = Some d /\ rd_validated d = true /\ rd_hash d <> 0 /\
               r = c_ext_hash c rid (rd_hash d) /\ In (EvExternalSubmitted rid r) (s_events s);
  I_review : forall r rid, s_reviews s !! rid = Some r ->
     exists d, s_roots s !! rid = Some d /\ rd_validated d = true /\ rd_hash d <> 0 /\
               r = c_ext_hash c rid (rd_hash d) /\ In (EvExternalSubmitted rid r) (s_events s);
  I_slots : NoDup (void_slots (s_events s)) /\ forall x, In x (void_slots (s_events s)) -> x < s_slot s
}.

Definition neutral (e : event) : bool :=
  match e with
  | EvVoteAdded _ _ _ | EvVotingEnded _ _ | EvRootValidated _ _ | EvPublished _ _ _ | EvAnchored _ _ _ | EvNoSummary _ _ => false
  | _ => true
  end.

Lemma neutral_lists new evs :
  forallb neutral new = true ->
  published (new ++ evs) = published evs /\ ballots (new ++ evs) = ballots evs /\
  ended (new ++ evs) = ended evs /\ void_slots (new ++ evs) = void_slots evs /\
  approved_ranges (new ++ evs) = approved_ranges evs /\
  (forall rid h, In (EvRootValidated rid h) (new ++ evs) <-> In (EvRootValidated rid h) evs).
Proof.
  intros Hn.
  assert (HH : published new = [] /\ ballots new = [] /\ ended new = [] /\ void_slots new = [] /\
    approved_ranges new = [] /\ (forall rid h, ~ In (EvRootValidated rid h) new)).
  { induction new as [|e new IH]; [cbn; auto 10|]. cbn in Hn. apply andb_true_iff in Hn as [He Hn].
    destruct (IH Hn) as (H1 & H2 & H3 & H4 & H5 & H6).
    unfold approved_ranges in *. cbn [rev]. rewrite omap_app, H5.
    unfold published, ballots, ended, void_slots in *. cbn.
    rewrite H1, H2, H3, H4. destruct e; try discriminate; cbn; repeat split; auto;
      intros rid' h' [E|Hin]; try discriminate; eapply H6; eauto. }
  destruct HH as (H1 & H2 & H3 & H4 & H5 & H6).
  unfold published, ballots, ended, void_slots, approved_ranges in *.
  rewrite rev_app_distr, !omap_app, H1, H2, H3, H4, H5, app_nil_r. repeat split; auto.
  - intros Hin. apply in_app_or in Hin as [Hin|Hin]; [exfalso; eapply H6; eauto | exact Hin].
  - intros Hin. apply in_or_app; auto.
Qed.

Lemma Inv_frame c s s' new :
  Inv c s ->
  (MIN_SCHEDULE <= s_schedule s' /\ MIN_VOTING <= s_voting s' /\ s_voting s' < s_schedule s' /\ s_voting s' <= MAX_VOTING) ->
  s_ingress s' = s_ingress s -> s_roots s' = s_roots s -> s_votes s' = s_votes s -> s_pending s' = s_pending s ->
  s_ext_ref s' = s_ext_ref s -> s_reviews s' = s_reviews s ->
  s_events s' = new ++ s_events s -> forallb neutral new = true -> s_slot s <= s_slot s' ->
  Inv c s'.
Proof.
  intros HI Hper E1 E2 E3 E4 E5 E6 E7 Hn Hslot.
  destruct (neutral_lists new (s_events s) Hn) as (L1 & L2 & L3 & L4 & _ & L6).
  destruct HI. constructor; unfold no_ref_to in *; rewrite ?E1, ?E2, ?E3, ?E4, ?E5, ?E6, ?E7, ?L1, ?L2, ?L3, ?L4; auto.
  - intros rid d Hd. rewrite L6. auto.
  - intros rid h Hin. apply L6 in Hin. auto.
  - intros r rid Hr. destruct (I_ext0 r rid Hr) as (d & ?). exists d. intuition. apply in_or_app; auto.
  - intros r rid Hr. destruct (I_review0 r rid Hr) as (d & ?). exists d. intuition. apply in_or_app; auto.
  - destruct I_slots0 as [? Hs]. split; [assumption|]. intros x Hx. specialize (Hs x Hx). lia.
Qed.

Lemma Inv_record c nb h ic who s s' u :
  Inv c s -> record_summary nb h ic who s = (s', Ok u) -> Inv c s'.
Proof.
  intros HI H. apply record_summary_ok in H as (Hic & Hval & Htgt & Hp & Hv & _ & _ & ->).
  set (r := (s_next_block s, nb)) in *.
  assert (Hr : s_roots s !! (r, ic) = None).
  { destruct (s_roots s !! (r, ic)) as [d|] eqn:E; [|reflexivity].
    apply (I_roots_fresh _ _ HI) in E. cbn in E. lia. }
  assert (Hfresh : forall rid d, s_roots s !! rid = Some d -> rid <> (r, ic)) by (intros; congruence).
  destruct HI. constructor; cbn.
  - assumption.
  - intros rid d. rewrite lookup_insert_Some. intros [[<- _]|[_ Hd]]; cbn; [lia|]. apply I_roots_fresh0 in Hd. lia.
  - intros rid d. rewrite lookup_insert_Some. intros [[<- _]|[_ Hd]]; cbn; [lia|]. apply I_votes_fresh0 in Hd. lia.
  - intros rid. rewrite !lookup_insert_is_Some. rewrite I_votes_root0. reflexivity.
  - intros rid v. rewrite lookup_insert_Some. intros [[<- <-]|[_ Hd]]; [|eauto]. cbn. split; [constructor|].
    unfold avn_quorum. apply quorum_bounds. destruct (s_validators s); [discriminate|]. cbn. lia.
  - intros r' ic'. rewrite lookup_insert_Some. intros [[<- <-]|[Hne Hd]].
    + rewrite lookup_insert. eexists. split; reflexivity.
    + rewrite lookup_insert_ne by congruence. auto.
  - destruct I_ballots0 as [Hnd Hb]. split; [exact Hnd|]. intros w rid Hin. destruct (Hb w rid Hin) as (v & Hv' & Hw).
    exists v. split; [|exact Hw]. rewrite lookup_insert_ne; [exact Hv'|]. congruence.
  - destruct I_ended0 as [Hnd Hb]. split; [exact Hnd|]. intros rid Hin. destruct (Hb rid Hin) as (Hpe & [d Hd]).
    split.
    + rewrite lookup_insert_Some. intros [[E1 E2]|[_ E]]; [|auto]. apply (Hfresh _ _ Hd). destruct rid; cbn in *; congruence.
    + rewrite lookup_insert_ne by (intros E; subst rid; congruence). eauto.
  - intros rid d. rewrite lookup_insert_Some. intros [[<- <-]|[Hne Hd]].
    + cbn. split; [discriminate|]. intros [E|Hin]; [discriminate|].
      apply I_validated_root0 in Hin as (d' & ? & Hd' & _). congruence.
    + rewrite (I_validated0 rid d Hd). split; [auto|]. intros [E|?]; [discriminate|assumption].
  - intros rid h' [E|Hin]; [discriminate|]. destruct (I_validated_root0 rid h' Hin) as (d & v & Hd & Hh & Hv' & Ha & Hpe).
    exists d, v. rewrite !lookup_insert_ne by (intros E; subst rid; congruence). repeat (split; [assumption|]).
    rewrite lookup_insert_Some. intros [[E1 E2]|[_ E]]; [|auto]. apply (Hfresh _ _ Hd). destruct rid; cbn in *; congruence.
  - destruct I_published0 as [Hnd Hb]. split; [exact Hnd|]. intros rid Hin.
    destruct (Hb rid Hin) as ((d & Hd & ?) & ? & ?). repeat split; auto.
    exists d. rewrite lookup_insert_ne by (intros E; subst rid; congruence). auto.
  - intros r' rid Hx. destruct (I_ext0 r' rid Hx) as (d & Hd & ? & ? & ? & ?). exists d.
    rewrite lookup_insert_ne by (intros E; subst rid; congruence). repeat (split; [assumption|]). auto.
  - intros r' rid Hx. destruct (I_review0 r' rid Hx) as (d & Hd & ? & ? & ? & ?). exists d.
    rewrite lookup_insert_ne by (intros E; subst rid; congruence). repeat (split; [assumption|]). auto.
  - assumption.
Qed.

(** Field-wise view of [end_voting]. *)
Lemma end_voting_fields c who rid s s' u :
  end_voting c who rid s = (s', Ok u) ->
  exists d v d' new,
    s_roots s !! rid = Some d /\ rd_validated d = false /\ s_pending s !! fst rid = Some (snd rid) /\
    s_votes s !! rid = Some v /\ (has_outcome v = true \/ ss_end v <= s_block s) /\
    s_block s' = s_block s /\ s_validators s' = s_validators s /\ s_schedule s' = s_schedule s /\
    s_voting s' = s_voting s /\ s_ingress s' = s_ingress s /\ s_slot s' = s_slot s /\
    s_slot_validator s' = s_slot_validator s /\ s_next_slot_at s' = s_next_slot_at s /\
    s_votes s' = s_votes s /\ s_reviews s' = s_reviews s /\
    s_pending s' = delete (fst rid) (s_pending s) /\
    s_roots s' = <[rid := d']> (s_roots s) /\
    rd_hash d' = rd_hash d /\ rd_added_by d' = rd_added_by d /\ rd_validated d' = is_approved v /\
    s_next_block s' = (if is_approved v then snd (fst rid) + 1 else s_next_block s) /\
    s_last_summary_slot s' = (if is_approved v then s_slot s else s_last_summary_slot s) /\
    s_events s' = EvVotingEnded rid (is_approved v) ::
       (if is_approved v then [EvRootValidated rid (rd_hash d); EvOffence RejectedValidRoot (ss_nays v)]
        else [EvOffence ApprovedInvalidRoot (ss_ayes v); EvOffence CreatedInvalidRoot (match rd_added_by d with Some x => [x] | None => [] end)])
       ++ new ++ s_events s /\
    ((new = [] /\ s_ext_ref s' = s_ext_ref s /\ (is_approved v = true -> rd_hash d = 0)) \/
     (is_approved v = true /\ rd_hash d <> 0 /\ c_ext_enabled c = true /\
      new = [EvExternalSubmitted rid (c_ext_hash c rid (rd_hash d))] /\
      s_ext_ref s' = <[ c_ext_hash c rid (rd_hash d) := rid ]> (s_ext_ref s)) \/
     (is_approved v = true /\ rd_hash d <> 0 /\ c_ext_enabled c = false /\ s_ext_ref s' = s_ext_ref s /\
      exists x, new = [EvPublished rid (rd_hash d) x] \/ new = [EvAnchored rid (rd_hash d) x])).
Proof.
  intros H. apply end_voting_ok in H as (d & v & s1 & Hd & Hval & Hp & Hv & Hout & H).
  destruct (is_approved v) eqn:Happ.
  - destruct H as (Hpub & Hle & ->).
    destruct Hpub as [(Hh & ->) | [(Hh & He & ->) | (Hh & He & Hpub)]].
    + exists d, v, (d <| rd_validated := true |>), []. cbn. unfold mget. rewrite Hd, Happ. repeat (split; [auto; fail|]).
      left. auto.
    + exists d, v, (d <| rd_validated := true |>), [EvExternalSubmitted rid (c_ext_hash c rid (rd_hash d))].
      cbn. unfold mget. rewrite Hd, Happ. repeat (split; [auto; fail|]). right; left. auto 10.
    + destruct Hpub as [(Hh' & ->) | [(_ & Ha & tx & Htx & ->) | (_ & Ha & Hc & ->)]]; [congruence| |].
      * exists d, v, (d <| rd_tx := Some tx |> <| rd_validated := true |>), [EvPublished rid (rd_hash d) tx].
        cbn. unfold mget. rewrite lookup_insert, insert_insert, Happ. repeat (split; [auto; fail|]).
        right; right. eauto 10.
      * exists d, v, (d <| rd_validated := true |>), [EvAnchored rid (rd_hash d) (s_anchor_counter s)].
        cbn. unfold mget. rewrite Hd, Happ. repeat (split; [auto; fail|]).
        right; right. eauto 10.
  - destruct H as (cr & Hcr & ->). exists d, v, d, []. cbn.
    rewrite insert_id by exact Hd. rewrite Hcr, Happ. repeat (split; [auto; fail|]).
    left. repeat split; auto; discriminate.
Qed.

Lemma Inv_end c who rid s s' u :
  Inv c s -> end_voting c who rid s = (s', Ok u) -> Inv c s'.
Proof.
  intros HI H. apply end_voting_fields in H as (d & v & d' & new & Hd & Hval & Hp & Hv & Hout & _ & _ & Esch & Evot & Ein & Esl & _ & _ &
    Evotes & Erev & Epend & Eroots & Hh' & _ & Hv' & _ & _ & Eev & Hnew).
  assert (Hnotval : forall h, ~ In (EvRootValidated rid h) (s_events s)).
  { intros h Hin. pose proof Hin as Hin'. apply (I_validated_root _ _ HI) in Hin as (d0 & v0 & Hd0 & Hh0 & _).
    assert (d0 = d) as -> by congruence. subst h. apply (I_validated _ _ HI _ _ Hd) in Hin'. congruence. }
  assert (Hnotpub : ~ In rid (published (s_events s))).
  { intros Hin. apply (I_published _ _ HI) in Hin as ((d0 & Hd0 & Hv0 & _) & _). congruence. }
  assert (Hnoref : no_ref_to s rid).
  { intros r Hr. apply (I_ext _ _ HI) in Hr as (d0 & Hd0 & Hv0 & _). congruence. }
  assert (Hnorev : s_reviews s !! rid = None).
  { destruct (s_reviews s !! rid) eqn:E; [|reflexivity]. apply (I_review _ _ HI) in E as (d0 & Hd0 & Hv0 & _). congruence. }
  assert (Hnotended : ~ In rid (ended (s_events s))).
  { intros Hin. apply (I_ended _ _ HI) in Hin as (Hn & _). auto. }
  assert (Hevs : forall e, In e (s_events s) -> In e (s_events s')).
  { intros e He. rewrite Eev. right. apply in_or_app. right. apply in_or_app. auto. }
  set (blk := if is_approved v then [EvRootValidated rid (rd_hash d); EvOffence RejectedValidRoot (ss_nays v)]
        else [EvOffence ApprovedInvalidRoot (ss_ayes v); EvOffence CreatedInvalidRoot (match rd_added_by d with Some x => [x] | None => [] end)]) in *.
  assert (Lend : ended (s_events s') = rid :: ended (s_events s)).
  { rewrite Eev. subst blk. destruct Hnew as [(-> & _)|[(_ & _ & _ & -> & _)|(_ & _ & _ & _ & x & [->| ->])]]; destruct (is_approved v); reflexivity. }
  assert (Lbal : ballots (s_events s') = ballots (s_events s)).
  { rewrite Eev. subst blk. destruct Hnew as [(-> & _)|[(_ & _ & _ & -> & _)|(_ & _ & _ & _ & x & [->| ->])]]; destruct (is_approved v); reflexivity. }
  assert (Lvoid : void_slots (s_events s') = void_slots (s_events s)).
  { rewrite Eev. subst blk. destruct Hnew as [(-> & _)|[(_ & _ & _ & -> & _)|(_ & _ & _ & _ & x & [->| ->])]]; destruct (is_approved v); reflexivity. }
  assert (Lval : forall rid0 h, In (EvRootValidated rid0 h) (s_events s') <->
            In (EvRootValidated rid0 h) (s_events s) \/ (is_approved v = true /\ rid0 = rid /\ h = rd_hash d)).
  { intros rid0 h. rewrite Eev. cbn. rewrite !in_app_iff.
    assert (Hnn : ~ In (EvRootValidated rid0 h) new).
    { destruct Hnew as [(-> & _)|[(_ & _ & _ & -> & _)|(_ & _ & _ & _ & x & [->| ->])]]; cbn; intuition discriminate. }
    subst blk. destruct (is_approved v); cbn; split.
    - intros [?|[[E|[?|[]]]|[?|?]]]; try discriminate; try tauto. injection E as <- <-. tauto.
    - intros [?|(_ & -> & ->)]; tauto.
    - intros [?|[[E|[?|[]]]|[?|?]]]; try discriminate; tauto.
    - intros [?|(? & _)]; [tauto|discriminate]. }
  assert (Hpe : forall rid0, s_pending s !! fst rid0 <> Some (snd rid0) -> s_pending s' !! fst rid0 <> Some (snd rid0)).
  { intros rid0 Hn. rewrite Epend, lookup_delete_Some. tauto. }
  assert (Hpr : s_pending s' !! fst rid <> Some (snd rid)).
  { rewrite Epend, lookup_delete. discriminate. }
  destruct HI. constructor; rewrite ?Esch, ?Evot, ?Ein, ?Esl, ?Evotes, ?Erev, ?Lbal, ?Lvoid; auto.
  - intros rid0 d0. rewrite Eroots, lookup_insert_Some. intros [[<- _]|[_ ?]]; eauto.
  - intros rid0. rewrite Eroots, lookup_insert_is_Some, I_votes_root0.
    destruct (decide (rid = rid0)) as [->|]; [|tauto]. rewrite Hd. split; eauto.
  - intros r ic. rewrite Epend, lookup_delete_Some. intros [Hne Hr]. destruct (I_pending0 r ic Hr) as (d0 & Hd0 & ?).
    exists d0. rewrite Eroots, lookup_insert_ne; [auto|]. intros E. subst rid. cbn in Hne. congruence.
  - rewrite Lend. destruct I_ended0 as [Hnd Hin]. split; [constructor; [|exact Hnd]; now rewrite elem_of_list_In|].
    intros rid0 [<-|Hin0].
    + split; [exact Hpr|]. rewrite Eroots, lookup_insert. eauto.
    + destruct (Hin _ Hin0) as [? ?]. split; [auto|]. rewrite Eroots, lookup_insert_is_Some.
      destruct (decide (rid = rid0)); auto.
  - intros rid0 d0. rewrite Eroots, lookup_insert_Some. intros [[<- <-]|[Hne Hd0]]; rewrite Lval.
    + rewrite Hh', Hv'. split; [auto|]. intros [Hin|(? & _)]; [exfalso; eapply Hnotval; eauto | assumption].
    + rewrite (I_validated0 _ _ Hd0). split; [auto|]. intros [?|(_ & ? & _)]; [assumption|congruence].
  - intros rid0 h Hin. apply Lval in Hin as [Hin|(Ha & -> & ->)].
    + destruct (I_validated_root0 _ _ Hin) as (d0 & v0 & Hd0 & ? & Hv0 & ? & ?). exists d0, v0.
      rewrite Eroots, lookup_insert_ne by (intros E; subst rid; eapply Hnotval; eauto). auto 10.
    + exists d', v. rewrite Eroots, lookup_insert. auto 10.
  - assert (Hold : forall rid0, In rid0 (published (s_events s)) ->
        (exists d0, s_roots s' !! rid0 = Some d0 /\ rd_validated d0 = true /\ rd_hash d0 <> 0) /\ no_ref_to s' rid0 /\ s_reviews s' !! rid0 = None).
    { intros rid0 Hin. assert (rid0 <> rid) by congruence.
      destruct I_published0 as [_ Hpub]. destruct (Hpub _ Hin) as ((d0 & Hd0 & ?) & Hnr & ?).
      split; [exists d0; rewrite Eroots, lookup_insert_ne by congruence; auto|]. split; [|congruence].
      intros r. destruct Hnew as [(_ & -> & _)|[(_ & _ & _ & _ & ->)|(_ & _ & _ & -> & _)]]; [apply Hnr| |apply Hnr].
      rewrite lookup_insert_Some. intros [[_ E]|[_ E]]; [congruence|]. exact (Hnr r E). }
    destruct I_published0 as [Hnd _].
    rewrite Erev in Hold.
    destruct Hnew as [(-> & _ & _)|[(_ & _ & _ & -> & _)|(Ha & Hh & _ & Eref & x & Hx)]].
    + assert (published (s_events s') = published (s_events s)) as ->.
      { rewrite Eev. subst blk. destruct (is_approved v); reflexivity. } auto.
    + assert (published (s_events s') = published (s_events s)) as ->.
      { rewrite Eev. subst blk. destruct (is_approved v); reflexivity. } auto.
    + assert (published (s_events s') = rid :: published (s_events s)) as ->.
      { rewrite Eev. subst blk. rewrite Ha. destruct Hx as [-> | ->]; reflexivity. }
      split; [constructor; [now rewrite elem_of_list_In|exact Hnd]|].
      intros rid0 [<-|Hin]; [|auto]. split; [|split; [|exact Hnorev]].
      * exists d'. rewrite Eroots, lookup_insert. rewrite Hh', Hv'. auto.
      * intros r. rewrite Eref. apply Hnoref.
  - intros r rid0 Hr.
    assert (Hcase : s_ext_ref s !! r = Some rid0 \/ (is_approved v = true /\ rd_hash d <> 0 /\ rid0 = rid /\ r = c_ext_hash c rid (rd_hash d) /\ In (EvExternalSubmitted rid r) new)).
    { destruct Hnew as [(_ & E & _)|[(Ha & Hh & _ & -> & E)|(_ & _ & _ & E & _)]]; rewrite E in Hr; auto.
      apply lookup_insert_Some in Hr as [[<- <-]|[_ ?]]; [|auto]. right. cbn. auto 10. }
    destruct Hcase as [Hr0|(Ha & Hh & -> & -> & Hin)].
    + destruct (I_ext0 _ _ Hr0) as (d0 & Hd0 & ? & ? & ? & ?). exists d0.
      rewrite Eroots, lookup_insert_ne by congruence. auto 10.
    + exists d'. rewrite Eroots, lookup_insert. rewrite Hh', Hv'. repeat (split; [auto; fail|]).
      rewrite Eev. right. apply in_or_app. right. apply in_or_app. auto.
  - intros r rid0 Hr. destruct (I_review0 _ _ Hr) as (d0 & Hd0 & ? & ? & ? & ?). exists d0.
    rewrite Eroots, lookup_insert_ne by congruence. auto 10.
Qed.

Lemma has_voted_in v w : has_voted v w = true <-> In w (ss_ayes v ++ ss_nays v).
Proof.
  unfold has_voted. rewrite orb_true_iff, !memN_spec, in_app_iff. reflexivity.
Qed.

Lemma cast_voters v who agree w :
  has_voted (cast v who agree) w = true <-> w = who \/ has_voted v w = true.
Proof.
  rewrite !has_voted_in. destruct agree; cbn; rewrite !in_app_iff; cbn; intuition.
Qed.

Lemma cast_nodup v who agree :
  NoDup (ss_ayes v ++ ss_nays v) -> has_voted v who = false ->
  NoDup (ss_ayes (cast v who agree) ++ ss_nays (cast v who agree)).
Proof.
  intros Hnd Hn.
  assert (Hni : who ∉ ss_ayes v ++ ss_nays v).
  { rewrite elem_of_list_In. intros Hin. apply has_voted_in in Hin. congruence. }
  assert (NoDup (who :: ss_ayes v ++ ss_nays v)) as H by (constructor; assumption).
  destruct agree; cbn.
  - eapply NoDup_Permutation_proper; [|exact H]. rewrite <- app_assoc. cbn. symmetry. apply Permutation_middle.
  - eapply NoDup_Permutation_proper; [|exact H]. rewrite app_assoc. symmetry. apply Permutation_cons_append.
Qed.

Lemma active_facts s rid : session_is_active s rid = true ->
  exists d v, s_roots s !! rid = Some d /\ rd_validated d = false /\ s_pending s !! fst rid = Some (snd rid) /\
    s_votes s !! rid = Some v /\ s_block s < ss_end v.
Proof.
  unfold session_is_active, session_is_valid.
  destruct (s_votes s !! rid) as [v|]; [|discriminate].
  destruct (s_roots s !! rid) as [d|]; [|rewrite andb_false_r; discriminate].
  destruct (s_pending s !! fst rid) as [ic|]; [|rewrite andb_false_r; discriminate].
  rewrite !andb_true_iff, negb_true_iff, N.eqb_eq, N.ltb_lt. intros (? & ? & ->). eauto 10.
Qed.

Lemma Inv_cast c s rid v who agree :
  Inv c s -> session_is_active s rid = true -> s_votes s !! rid = Some v -> has_voted v who = false ->
  Inv c (s <| s_votes := <[ rid := cast v who agree ]> (s_votes s) |>).
Proof.
  intros HI Hact Hv Hnv.
  apply active_facts in Hact as (d & v0 & Hd & Hval & Hp & Hv0 & _).
  destruct HI. constructor; cbn; auto.
  - intros rid0 v'. rewrite lookup_insert_Some. intros [[<- _]|[_ ?]]; eauto.
  - intros rid0. rewrite lookup_insert_is_Some, <- I_votes_root0.
    destruct (decide (rid = rid0)) as [->|]; [|tauto]. rewrite Hv. split; eauto.
  - intros rid0 v'. rewrite lookup_insert_Some. intros [[<- <-]|[_ ?]]; [|eauto].
    destruct (I_session0 _ _ Hv) as [Hnd Ht]. split; [now apply cast_nodup|]. destruct agree; exact Ht.
  - destruct I_ballots0 as [Hnd Hb]. split; [exact Hnd|]. intros w rid0 Hin. destruct (Hb _ _ Hin) as (v' & Hv' & Hw).
    destruct (decide (rid = rid0)) as [->|Hne].
    + exists (cast v who agree). rewrite lookup_insert. split; [reflexivity|]. apply cast_voters.
      assert (v' = v) as -> by congruence. auto.
    + exists v'. rewrite lookup_insert_ne by exact Hne. auto.
  - intros rid0 h Hin. destruct (I_validated_root0 _ _ Hin) as (d0 & v' & ? & ? & ? & ? & ?).
    exists d0, v'. rewrite lookup_insert_ne by congruence. auto 10.
Qed.

Lemma end_voting_ballots c who rid s s' u :
  end_voting c who rid s = (s', Ok u) -> ballots (s_events s') = ballots (s_events s) /\ s_votes s' = s_votes s.
Proof.
  intros H. apply end_voting_fields in H as (d & v & d' & new & Hd & Hval & Hp & Hv & Hout & _ & _ & Esch & Evot & Ein & Esl & _ & _ &
    Evotes & Erev & Epend & Eroots & Hh' & _ & Hv' & _ & _ & Eev & Hnew).
  split; [|exact Evotes].
  rewrite Eev. destruct Hnew as [(-> & _)|[(_ & _ & _ & -> & _)|(_ & _ & _ & _ & x & [->| ->])]]; destruct (is_approved v); reflexivity.
Qed.

Lemma Inv_vote c rid who agree s s' u :
  Inv c s -> vote_root c rid who agree s = (s', Ok u) -> Inv c s'.
Proof.
  intros HI H. apply vote_root_ok in H as (v & Hvd & Hact & Hv & Hnv & s2 & Hend & ->).
  pose proof (Inv_cast c s rid v who agree HI Hact Hv Hnv) as HI1.
  set (s1 := s <| s_votes := <[ rid := cast v who agree ]> (s_votes s) |>) in *.
  assert (Hs2 : Inv c s2 /\ ballots (s_events s2) = ballots (s_events s) /\ s_votes s2 = s_votes s1).
  { destruct Hend as [[-> _]|Hend]; [auto|]. split; [eapply Inv_end; eauto|].
    apply end_voting_ballots in Hend as [-> ->]. auto. }
  destruct Hs2 as (HI2 & Hb & Hvs).
  destruct HI2. constructor; cbn; auto.
  - split.
    + unfold ballots. cbn. fold (ballots (s_events s2)). rewrite Hb. constructor.
      * rewrite elem_of_list_In. intros Hin. apply (I_ballots _ _ HI) in Hin as (v' & Hv' & Hw). congruence.
      * apply (I_ballots _ _ HI).
    + intros w rid0 [E|Hin]; [|apply I_ballots0; exact Hin]. injection E as <- <-.
      exists (cast v who agree). rewrite Hvs. subst s1. cbn. rewrite lookup_insert. split; [reflexivity|].
      apply cast_voters. auto.
  - intros rid0 d Hd. rewrite (I_validated0 _ _ Hd). split; [auto|]. intros [E|?]; [discriminate|assumption].
  - intros rid0 h [E|Hin]; [discriminate|]. auto.
  - intros r rid0 Hr. destruct (I_ext0 _ _ Hr) as (d & ? & ? & ? & ? & ?). exists d. auto 10.
  - intros r rid0 Hr. destruct (I_review0 _ _ Hr) as (d & ? & ? & ? & ? & ?). exists d. auto 10.
Qed.

Lemma Inv_slot c who s s' u :
  Inv c s -> update_slot_number c who s = (s', Ok u) -> Inv c s'.
Proof.
  intros HI H. apply update_slot_ok in H as (sv & nv & _ & Hsv & _ & _ & _ & _ & _ & ->).
  set (new := if s_last_summary_slot s <? s_slot s then _ else _).
  assert (HI1 : Inv c (s <| s_slot := s_slot s + 1 |> <| s_events := new ++ s_events s |>)).
  { subst new. destruct (s_last_summary_slot s <? s_slot s).
    - destruct HI. constructor; cbn; auto.
      + intros rid d Hd. rewrite (I_validated0 _ _ Hd). split; [auto|]. intros [E|[E|?]]; [discriminate|discriminate|assumption].
      + intros rid h [E|[E|Hin]]; [discriminate|discriminate|]. auto.
      + intros r rid0 Hr. destruct (I_ext0 _ _ Hr) as (d & ? & ? & ? & ? & ?). exists d. auto 10.
      + intros r rid0 Hr. destruct (I_review0 _ _ Hr) as (d & ? & ? & ? & ? & ?). exists d. auto 10.
      + destruct I_slots0 as [Hnd Hlt]. split.
        * unfold void_slots. cbn. fold (void_slots (s_events s)). constructor; [|exact Hnd].
          rewrite elem_of_list_In. intros Hin. apply Hlt in Hin. lia.
        * intros x [<-|Hin]; [lia|]. apply Hlt in Hin. lia.
    - eapply (Inv_frame c s _ []); cbn; eauto; try apply (I_periods _ _ HI); try lia. }
  eapply (Inv_frame c _ _ [_] HI1); cbn; eauto; try apply (I_periods _ _ HI); try lia.
Qed.

Lemma Inv_challenge c r ch ce who s s' u :
  Inv c s -> add_challenge c r ch ce who s = (s', Ok u) -> Inv c s'.
Proof.
  intros HI H. unfold add_challenge, emit in H.
  apply mbind_ok in H as (? & ? & Hg & H). minv Hg.
  apply mbind_ok in H as (? & ? & Hg & H). minv Hg.
  apply mbind_ok in H as (? & ? & Hg & H). minv Hg.
  apply mbind_ok in H as (s2 & ? & Hg & H). minv H.
  apply Inv_slot in Hg.
  - eapply (Inv_frame c _ _ [_] Hg); cbn; eauto; try apply (I_periods _ _ Hg); try lia.
  - eapply (Inv_frame c _ _ [_] HI); cbn; eauto; try apply (I_periods _ _ HI); try lia.
Qed.

Lemma set_periods_ok p v s s' u :
  set_periods p v s = (s', Ok u) ->
  MIN_SCHEDULE <= p /\ MIN_VOTING <= v /\ v < p /\ v <= MAX_VOTING /\
  s' = s <| s_schedule := p |> <| s_voting := v |> <| s_next_slot_at := s_next_block s + p |>.
Proof.
  intros H. unfold set_periods, validate_schedule, validate_voting in H. minv H.
  apply checked_add_Some in Hsome as [-> _].
  rewrite ?N.leb_le, ?N.ltb_lt in *. auto 10.
Qed.

Lemma set_admin_ok cfg s s' u :
  set_admin_config cfg s = (s', Ok u) ->
  match cfg with
  | CfgThreshold t => 0 < t <= 100 /\ s' = s <| s_ext_threshold := Some t |>
  | CfgSchedule p => MIN_SCHEDULE <= p /\ MIN_VOTING <= s_voting s /\ s_voting s < p /\ s_voting s <= MAX_VOTING /\
      s' = s <| s_schedule := p |> <| s_next_slot_at := s_next_block s + p |>
  | CfgVoting v => MIN_VOTING <= v /\ v < s_schedule s /\ v <= MAX_VOTING /\ s' = s <| s_voting := v |>
  end.
Proof.
  intros H. destruct cfg; unfold set_admin_config, validate_schedule, validate_voting in H; minv H;
    try (apply checked_add_Some in Hsome as [-> _]);
    rewrite ?andb_true_iff, ?N.leb_le, ?N.ltb_lt in *; auto 10.
Qed.

(** Publication outside [end_voting], followed by the cleanup. *)
Lemma Inv_publish c rid ref_ s s1 s' d :
  Inv c s -> s_roots s !! rid = Some d -> rd_validated d = true -> rd_hash d <> 0 ->
  ref_ = c_ext_hash c rid (rd_hash d) ->
  ~ In rid (published (s_events s)) ->
  pub_effect c rid d s s1 -> cleanup_external rid ref_ s1 = (s', Ok tt) -> Inv c s'.
Proof.
  intros HI Hd Hval Hh Href Hnp Hpub Hcl. unfold cleanup_external in Hcl. minv Hcl.
  assert (Hd' : exists d' e, s_roots s1 = <[rid := d']> (s_roots s) /\ rd_hash d' = rd_hash d /\ rd_validated d' = rd_validated d /\
     s_events s1 = e :: s_events s /\ published [e] = [rid] /\
     match e with EvPublished _ _ _ | EvAnchored _ _ _ => True | _ => False end /\
     s_ingress s1 = s_ingress s /\ s_votes s1 = s_votes s /\ s_pending s1 = s_pending s /\
     s_ext_ref s1 = s_ext_ref s /\ s_reviews s1 = s_reviews s /\ s_schedule s1 = s_schedule s /\ s_voting s1 = s_voting s /\ s_slot s1 = s_slot s).
  { destruct Hpub as [(Hh' & ->) | [(_ & Ha & tx & Htx & ->) | (_ & Ha & Hc & ->)]]; [congruence| |].
    - eexists _, _. cbn. auto 20.
    - exists d. eexists. cbn. rewrite insert_id by exact Hd. auto 20. }
  destruct Hd' as (d' & e & Eroots & Hh' & Hval' & Eev & Epub & He & Ein & Evotes & Epend & Eref & Erev & Esch & Evot & Eslot).
  assert (Hnv : forall r h, e <> EvRootValidated r h) by (intros; destruct e; try contradiction; discriminate).
  assert (Hroot : forall rid0 d0, s_roots s !! rid0 = Some d0 -> exists d1, s_roots s1 !! rid0 = Some d1 /\ rd_hash d1 = rd_hash d0 /\ rd_validated d1 = rd_validated d0).
  { intros rid0 d0 Hd0. rewrite Eroots. destruct (decide (rid = rid0)) as [->|Hne].
    - rewrite lookup_insert. exists d'. assert (d0 = d) as -> by congruence. auto.
    - rewrite lookup_insert_ne by exact Hne. eauto. }
  assert (Hroot' : forall rid0 d1, s_roots s1 !! rid0 = Some d1 -> exists d0, s_roots s !! rid0 = Some d0 /\ rd_hash d1 = rd_hash d0 /\ rd_validated d1 = rd_validated d0).
  { intros rid0 d1. rewrite Eroots, lookup_insert_Some. intros [[<- <-]|[_ ?]]; eauto. }
  assert (Lbal : ballots (s_events s1) = ballots (s_events s)) by (rewrite Eev; destruct e; try contradiction; reflexivity).
  assert (Lend : ended (s_events s1) = ended (s_events s)) by (rewrite Eev; destruct e; try contradiction; reflexivity).
  assert (Lvoid : void_slots (s_events s1) = void_slots (s_events s)) by (rewrite Eev; destruct e; try contradiction; reflexivity).
  assert (Lpub : published (s_events s1) = rid :: published (s_events s)).
  { rewrite Eev. destruct e; try contradiction; cbn in Epub; injection Epub as <-; reflexivity. }
  destruct HI. constructor; cbn -[ballots ended void_slots published]; unfold no_ref_to; cbn -[ballots ended void_slots published]; rewrite ?Lbal, ?Lend, ?Lvoid, ?Lpub, ?Esch, ?Evot, ?Ein, ?Evotes, ?Epend, ?Erev, ?Eref, ?Eslot; auto.
  - intros rid0 d1 H. apply Hroot' in H as (d0 & H & _). eauto.
  - intros rid0. rewrite I_votes_root0. split; intros [d0 H]; [apply Hroot in H as (? & ? & _)|apply Hroot' in H as (? & ? & _)]; eauto.
  - intros r ic Hr. destruct (I_pending0 _ _ Hr) as (d0 & Hd0 & Hv0). apply Hroot in Hd0 as (d1 & ? & _ & E). exists d1. split; congruence.
  - destruct I_ended0 as [Hnd Hin]. split; [exact Hnd|]. intros rid0 Hin0. destruct (Hin _ Hin0) as [? [d0 H]].
    split; [assumption|]. apply Hroot in H as (? & ? & _). eauto.
  - intros rid0 d1 H. apply Hroot' in H as (d0 & H & E1 & E2). rewrite E1, E2, (I_validated0 _ _ H), Eev.
    split; [right; assumption|]. intros [E|?]; [exfalso; eapply Hnv; eauto|assumption].
  - intros rid0 h. rewrite Eev. intros [E|Hin]; [exfalso; eapply Hnv; eauto|].
    destruct (I_validated_root0 _ _ Hin) as (d0 & v & H & Hhh & ? & ? & ?). apply Hroot in H as (d1 & ? & ? & ?).
    exists d1, v. repeat split; auto; congruence.
  - destruct I_published0 as [Hnd Hin]. split; [constructor; [now rewrite elem_of_list_In|exact Hnd]|].
    intros rid0 [<-|Hin0].
    + split; [|split].
      * exists d'. rewrite Eroots, lookup_insert, Hh', Hval'. auto.
      * intros r. rewrite lookup_delete_Some. intros [Hne Hr]. apply I_ext0 in Hr as (d0 & Hd0 & _ & _ & -> & _).
        apply Hne. assert (d0 = d) as -> by congruence. reflexivity.
      * apply lookup_delete.
    + destruct (Hin _ Hin0) as ((d0 & H & ? & ?) & Hnr & ?). apply Hroot in H as (d1 & ? & ? & ?). split; [|split].
      * exists d1. repeat split; congruence.
      * intros r. rewrite lookup_delete_Some. intros [_ Hr]. exact (Hnr r Hr).
      * rewrite lookup_delete_ne; congruence.
  - intros r rid0. rewrite lookup_delete_Some. intros [Hne Hr]. destruct (I_ext0 _ _ Hr) as (d0 & H & ? & ? & ? & ?).
    apply Hroot in H as (d1 & ? & ? & ?). exists d1. rewrite Eev. repeat split; try congruence. right; assumption.
  - intros r rid0. rewrite lookup_delete_Some. intros [Hne Hr]. destruct (I_review0 _ _ Hr) as (d0 & H & ? & ? & ? & ?).
    apply Hroot in H as (d1 & ? & ? & ?). exists d1. rewrite Eev. repeat split; try congruence. right; assumption.
Qed.

Lemma Inv_cleanup c rid ref_ s s' :
  Inv c s -> cleanup_external rid ref_ s = (s', Ok tt) -> Inv c s'.
Proof.
  intros HI Hcl. unfold cleanup_external in Hcl. minv Hcl.
  destruct HI. constructor; cbn; auto.
  - destruct I_published0 as [Hnd Hin]. split; [exact Hnd|]. intros rid0 Hin0. destruct (Hin _ Hin0) as (? & Hnr & Hn).
    split; [assumption|]. split.
    + intros r. cbn. rewrite lookup_delete_Some. intros [_ Hr]. exact (Hnr r Hr).
    + apply lookup_delete_None. auto.
  - intros r rid0. rewrite lookup_delete_Some. intros [_ Hr]. auto.
  - intros r rid0. rewrite lookup_delete_Some. intros [_ Hr]. auto.
Qed.

Lemma Inv_resolve c rid acc s s' u :
  Inv c s -> admin_resolve c rid acc s = (s', Ok u) -> Inv c s'.
Proof.
  intros HI H. unfold admin_resolve in H.
  apply mbind_ok in H as (? & ? & Hg & H). minv Hg.
  apply mbind_ok in H as (? & ref_ & Hg & H). minv Hg.
  apply mbind_ok in H as (? & d & Hg & H). unfold try_get_root in Hg. minv Hg.
  apply mbind_ok in H as (? & stt & Hg & H). minv Hg.
  apply mbind_ok in H as (? & ? & Hg & H). minv Hg.
  apply mbind_ok in H as (s1 & [] & Hpub & H).
  apply mbind_ok in H as (s2 & [] & Hcl & H). unfold emit in H. minv H.
  destruct (I_review _ _ HI _ _ Hsome) as (d0 & Hd0 & Hval & Hh & Href & _).
  assert (d0 = d) as -> by congruence.
  assert (Hnp : ~ In rid (published (s_events s))).
  { intros Hin. apply (I_published _ _ HI) in Hin as (_ & _ & ?). congruence. }
  assert (HI2 : Inv c s2).
  { destruct acc.
    - apply process_accepted_ok in Hpub as (d1 & Hd1 & Hpub). assert (d1 = d) as -> by congruence.
      eapply Inv_publish; eauto.
    - minv Hpub. eapply Inv_cleanup; eauto. }
  eapply (Inv_frame c _ _ [_] HI2); cbn; eauto; try apply (I_periods _ _ HI2); try lia.
Qed.

Lemma Inv_external c ref_ r s : Inv c s -> Inv c (external_result c ref_ r s).
Proof.
  intros HI. unfold external_result. destruct (s_ext_ref s !! ref_) as [rid|] eqn:Hr; [|assumption].
  destruct (I_ext _ _ HI _ _ Hr) as (d & Hd & Hval & Hh & Href & Hsub).
  assert (Hnp : ~ In rid (published (s_events s))).
  { intros Hin. apply (I_published _ _ HI) in Hin as (_ & Hn & _). exact (Hn _ Hr). }
  assert (HI1 : Inv c (s <| s_ext_status := <[ rid := ExtAccepted ]> (s_ext_status s) |>)).
  { eapply (Inv_frame c _ _ [] HI); cbn; eauto; try apply (I_periods _ _ HI); try lia. }
  assert (HP : Inv c (match s_roots s !! rid with
      | None => s
      | Some _ =>
        let s1 := s <| s_ext_status := <[ rid := ExtAccepted ]> (s_ext_status s) |> in
        match process_accepted_root c rid s1 with
        | (s2, Err _) => s2
        | (s2, Ok _) => fst (cleanup_external rid ref_ s2)
        end
      end)).
  { rewrite Hd. cbv zeta. destruct (process_accepted_root c rid _) as [s2 [[]|e]] eqn:Hp.
    - apply process_accepted_ok in Hp as (d1 & Hd1 & Hpub). cbn in Hd1. assert (d1 = d) as -> by congruence.
      eapply Inv_publish; [exact HI1|exact Hd|exact Hval|exact Hh|exact Href|exact Hnp|exact Hpub|].
      unfold cleanup_external, modify. reflexivity.
    - apply process_accepted_err in Hp. subst s2. exact HI1. }
  assert (HS : Inv c (fst (setup_review rid ref_ s))).
  { unfold setup_review, modify. cbn. destruct HI. constructor; cbn; auto.
    - destruct I_published0 as [Hnd Hin]. split; [exact Hnd|]. intros rid0 Hin0. destruct (Hin _ Hin0) as (? & Hnr & Hn).
      split; [assumption|]. split; [exact Hnr|]. rewrite lookup_insert_ne; [exact Hn|]. congruence.
    - intros r0 rid0. rewrite lookup_insert_Some. intros [[<- <-]|[_ ?]]; eauto 10. }
  destruct r; assumption.
Qed.

Lemma Inv_bridge c tx m su s : Inv c s ->
  (forall rid, s_tx_to_root s !! tx = Some rid -> is_Some (s_roots s !! rid)) ->
  Inv c (process_result tx m su s).
Proof.
  intros HI Htx. unfold process_result. destruct (s_tx_to_root s !! tx) as [rid|] eqn:E; [|assumption].
  destruct (m && su); [|assumption].
  destruct (Htx rid eq_refl) as [d Hd]. rewrite Hd.
  set (d' := d <| rd_finalised := true |>).
  assert (Hh' : rd_hash d' = rd_hash d) by reflexivity. assert (Hv' : rd_validated d' = rd_validated d) by reflexivity.
  assert (Hroot : forall rid0 d0, s_roots s !! rid0 = Some d0 -> exists d1, <[rid:=d']> (s_roots s) !! rid0 = Some d1 /\ rd_hash d1 = rd_hash d0 /\ rd_validated d1 = rd_validated d0).
  { intros rid0 d0 Hd0. destruct (decide (rid = rid0)) as [->|Hne].
    - rewrite lookup_insert. exists d'. assert (d0 = d) as -> by congruence. auto.
    - rewrite lookup_insert_ne by exact Hne. eauto. }
  assert (Hroot' : forall rid0 d1, <[rid:=d']> (s_roots s) !! rid0 = Some d1 -> exists d0, s_roots s !! rid0 = Some d0 /\ rd_hash d1 = rd_hash d0 /\ rd_validated d1 = rd_validated d0).
  { intros rid0 d1. rewrite lookup_insert_Some. intros [[<- <-]|[_ ?]]; eauto. }
  clearbody d'.
  destruct HI. constructor; cbn; auto.
  - intros rid0 d1 H. apply Hroot' in H as (d0 & H & _). eauto.
  - intros rid0. rewrite I_votes_root0. split; intros [d0 H]; [apply Hroot in H as (? & ? & _)|apply Hroot' in H as (? & ? & _)]; eauto.
  - intros r ic Hr. destruct (I_pending0 _ _ Hr) as (d0 & Hd0 & Hv0). apply Hroot in Hd0 as (d1 & ? & _ & ?). exists d1. split; congruence.
  - destruct I_ended0 as [Hnd Hin]. split; [exact Hnd|]. intros rid0 Hin0. destruct (Hin _ Hin0) as [? [d0 H]].
    split; [assumption|]. apply Hroot in H as (? & ? & _). eauto.
  - intros rid0 d1 H. apply Hroot' in H as (d0 & H & E1 & E2). rewrite E1, E2. exact (I_validated0 _ _ H).
  - intros rid0 h Hin. destruct (I_validated_root0 _ _ Hin) as (d0 & v & H & Hhh & ? & ? & ?). apply Hroot in H as (d1 & ? & ? & ?).
    exists d1, v. repeat split; auto; congruence.
  - destruct I_published0 as [Hnd Hin]. split; [exact Hnd|].
    intros rid0 Hin0. destruct (Hin _ Hin0) as ((d0 & H & ? & ?) & Hnr & ?). apply Hroot in H as (d1 & ? & ? & ?). split; [|split; auto].
    exists d1. repeat split; congruence.
  - intros r rid0 Hr. destruct (I_ext0 _ _ Hr) as (d0 & H & ? & ? & ? & ?).
    apply Hroot in H as (d1 & ? & ? & ?). exists d1. repeat split; congruence.
  - intros r rid0 Hr. destruct (I_review0 _ _ Hr) as (d0 & H & ? & ? & ? & ?).
    apply Hroot in H as (d1 & ? & ? & ?). exists d1. repeat split; congruence.
Qed.

(** * All steps *)
Lemma step_inv c s o : 
  step c s o = s \/ (validate_unsigned o s = true /\ exec c o s = (step c s o, Ok tt)).
Proof.
  unfold step. destruct (validate_unsigned o s) eqn:Hv; [|auto].
  destruct (dispatch (exec c o) s) as [s' r] eqn:E. cbn.
  apply dispatch_inv in E as [([] & E & ->)| ->]; auto.
Qed.

Definition tx_ok (s : st) : Prop := forall tx rid, s_tx_to_root s !! tx = Some rid -> is_Some (s_roots s !! rid).

Lemma pub_tx_ok c rid d s s1 : tx_ok s -> s_roots s !! rid = Some d -> pub_effect c rid d s s1 ->
  tx_ok s1 /\ (forall k, is_Some (s_roots s !! k) -> is_Some (s_roots s1 !! k)).
Proof.
  intros HT Hd [(Hh' & ->) | [(_ & Ha & tx & Htx & ->) | (_ & Ha & Hc & ->)]]; [auto| |].
  - assert (Hk : forall k, is_Some (s_roots s !! k) -> is_Some (<[rid:=d <| rd_tx := Some tx |>]> (s_roots s) !! k)).
    { intros k Hk. rewrite lookup_insert_is_Some. destruct (decide (rid = k)); auto. }
    split; [|exact Hk]. intros tx' rid'. cbn. rewrite lookup_insert_Some. intros [[<- <-]|[_ H]].
    + rewrite lookup_insert. eauto.
    + apply Hk. eapply HT; eauto.
  - split; [|auto]. intros tx' rid'. cbn. apply HT.
Qed.

Lemma end_tx_ok c who rid s s' u : tx_ok s -> end_voting c who rid s = (s', Ok u) -> tx_ok s'.
Proof.
  intros HT H. apply end_voting_ok in H as (d & v & s1 & Hd & _ & _ & _ & _ & H).
  destruct (is_approved v).
  - destruct H as (Hpub & _ & ->).
    assert (HT1 : tx_ok s1).
    { destruct Hpub as [(_ & ->)|[(_ & _ & ->)|(_ & _ & Hp)]]; [exact HT|exact HT|]. eapply pub_tx_ok; eauto. }
    intros tx rid' Htx. cbn in *. rewrite lookup_insert_is_Some. destruct (decide (rid = rid')); [auto|].
    right. split; [assumption|]. eapply HT1; eauto.
  - destruct H as (cr & _ & ->). exact HT.
Qed.

Lemma step_tx_ok c s o : tx_ok s -> tx_ok (step c s o).
Proof.
  intros HT. destruct (step_inv c s o) as [->|[_ H]]; [exact HT|].
  set (s' := step c s o) in *. clearbody s'. destruct o; cbn [exec] in H.
  - apply record_summary_ok in H as (_ & _ & _ & _ & _ & _ & _ & ->). intros tx rid Htx. cbn in *.
    rewrite lookup_insert_is_Some. destruct (decide ((s_next_block s, new_block, ingress) = rid)); [auto|]. right. split; [assumption|eauto].
  - apply vote_root_ok in H as (v & Hvd & Hact & Hv & Hnv & s2 & Hend & ->).
    destruct Hend as [[-> _]|Hend]; [exact HT|]. apply end_tx_ok in Hend; [exact Hend|exact HT].
  - eapply end_tx_ok; eauto.
  - apply update_slot_ok in H as (? & ? & ? & ? & ? & ? & ? & ? & ? & ->). exact HT.
  - unfold add_challenge, emit in H.
    apply mbind_ok in H as (? & ? & Hg & H). minv Hg.
    apply mbind_ok in H as (? & ? & Hg & H). minv Hg.
    apply mbind_ok in H as (? & ? & Hg & H). minv Hg.
    apply mbind_ok in H as (s2 & ? & Hg & H). minv H.
    apply update_slot_ok in Hg as (? & ? & ? & ? & ? & ? & ? & ? & ? & ->). exact HT.
  - apply set_periods_ok in H as (_ & _ & _ & _ & ->). exact HT.
  - apply set_admin_ok in H. destruct cfg; [destruct H as (_ & ->)|destruct H as (_ & _ & _ & _ & ->)|destruct H as (_ & _ & _ & ->)]; exact HT.
  - unfold admin_resolve in H.
    apply mbind_ok in H as (? & ? & Hg & H). minv Hg.
    apply mbind_ok in H as (? & ref_ & Hg & H). minv Hg.
    apply mbind_ok in H as (? & d & Hg & H). unfold try_get_root in Hg. minv Hg.
    apply mbind_ok in H as (? & stt & Hg & H). minv Hg.
    apply mbind_ok in H as (? & ? & Hg & H). minv Hg.
    apply mbind_ok in H as (s1 & [] & Hpub & H).
    apply mbind_ok in H as (s2 & [] & Hcl & H). unfold emit in H. minv H.
    unfold cleanup_external in Hcl. minv Hcl.
    destruct accepted.
    + apply process_accepted_ok in Hpub as (d1 & Hd1 & Hpub).
      eapply pub_tx_ok in Hpub as [? _]; eauto.
    + minv Hpub. exact HT.
  - apply modify_ok in H. subst s'. unfold external_result. destruct (s_ext_ref s !! ref_) as [rid|]; [|exact HT].
    assert (HP : tx_ok (match s_roots s !! rid with
      | None => s
      | Some _ =>
        let s1 := s <| s_ext_status := <[ rid := ExtAccepted ]> (s_ext_status s) |> in
        match process_accepted_root c rid s1 with
        | (s2, Err _) => s2
        | (s2, Ok _) => fst (cleanup_external rid ref_ s2)
        end
      end)).
    { destruct (s_roots s !! rid); [|exact HT]. cbv zeta. destruct (process_accepted_root c rid _) as [s2 [[]|e]] eqn:Hp.
      - apply process_accepted_ok in Hp as (d1 & Hd1 & Hpub).
        eapply pub_tx_ok in Hpub as [? _]; eauto.
      - apply process_accepted_err in Hp. subst s2. exact HT. }
    destruct r; try exact HP; exact HT.
  - apply modify_ok in H. subst s'. unfold process_result. destruct (s_tx_to_root s !! tx) as [rid|] eqn:E; [|exact HT].
    destruct (matches && succeeded); [|exact HT]. intros tx' rid'. cbn. rewrite lookup_delete_Some. intros [_ Hl].
    rewrite lookup_insert_is_Some. destruct (decide (rid = rid')); eauto.
  - minv H. exact HT.
  - minv H. exact HT.
  - minv H. exact HT.
  - minv H. exact HT.
Qed.

Lemma step_Inv c s o : Inv c s -> tx_ok s -> Inv c (step c s o).
Proof.
  intros HI HT. destruct (step_inv c s o) as [->|[_ H]]; [exact HI|].
  set (s' := step c s o) in *. clearbody s'. destruct o; cbn [exec] in H.
  - eapply Inv_record; eauto.
  - eapply Inv_vote; eauto.
  - eapply Inv_end; eauto.
  - eapply Inv_slot; eauto.
  - eapply Inv_challenge; eauto.
  - apply set_periods_ok in H as (? & ? & ? & ? & ->). eapply (Inv_frame c _ _ [] HI); cbn; eauto.
  - pose proof (I_periods _ _ HI) as (P1 & P2 & P3 & P4).
    apply set_admin_ok in H. destruct cfg; [destruct H as (_ & ->)|destruct H as (? & ? & ? & ? & ->)|destruct H as (? & ? & ? & ->)];
    eapply (Inv_frame c _ _ [] HI); cbn; eauto; lia.
  - eapply Inv_resolve; eauto.
  - apply modify_ok in H. subst s'. now apply Inv_external.
  - apply modify_ok in H. subst s'. apply Inv_bridge; [exact HI|]. intros rid. apply HT.
  - minv H. eapply (Inv_frame c _ _ [] HI); cbn; eauto; try apply (I_periods _ _ HI); lia.
  - minv H. eapply (Inv_frame c _ _ [] HI); cbn; eauto; try apply (I_periods _ _ HI); lia.
  - minv H. eapply (Inv_frame c _ _ [] HI); cbn; eauto; try apply (I_periods _ _ HI); lia.
  - minv H. eapply (Inv_frame c _ _ [] HI); cbn; eauto; try apply (I_periods _ _ HI); lia.
Qed.

Lemma genesis_Inv c vs p v s : genesis vs p v = Some s -> Inv c s /\ tx_ok s.
Proof.
  unfold genesis. intros H. destruct vs as [|v0 vs]; [discriminate|].
  destruct (_ && _) eqn:E in H; [|discriminate]. injection H as <-.
  rewrite !andb_true_iff, !N.leb_le, N.ltb_lt in E. destruct E as (((E1 & E2) & E3) & E4).
  split; [|intros ? ?; cbn; rewrite lookup_empty; discriminate].
  constructor; cbn; auto; try (intros ? ?; rewrite lookup_empty; discriminate).
  - intros rid. rewrite !lookup_empty. split; intros [? E]; discriminate E.
  - split; [constructor|intros ? ? []].
  - split; [constructor|intros ? []].
  - intros ? ? [].
  - split; [constructor|intros ? []].
  - split; [constructor|intros ? []].
Qed.

(** Reachable states. *)
Lemma run_ind c (P : st -> Prop) :
  (forall s o, P s -> P (step c s o)) -> forall ops s, P s -> P (run c s ops).
Proof. intros Hs ops. induction ops as [|o ops IH]; intros s HP; [exact HP|]. cbn. apply IH. auto. Qed.

Lemma run_Inv c s ops : Inv c s /\ tx_ok s -> Inv c (run c s ops) /\ tx_ok (run c s ops).
Proof.
  apply (run_ind c (fun s => Inv c s /\ tx_ok s)).
  intros s0 o [H1 H2]. split; [now apply step_Inv|now apply step_tx_ok].
Qed.

Lemma reach_Inv c vs p v s ops : genesis vs p v = Some s -> Inv c (run c s ops) /\ tx_ok (run c s ops).
Proof. intros H. apply run_Inv. eapply genesis_Inv; eauto. Qed.
