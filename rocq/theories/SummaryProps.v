(** Theorems about the summary pallet: C19, C20, C21, C22, C34. *)
From Verif Require Import Base BaseLemmas AvnModel AvnProofs SummaryModel SummarySpec SummaryProofs SummaryProofs2.

(** Five validators with accounts 1..5, and a configuration without external validation. *)
Definition ex_vs : list validator := map (fun n => mkValidator n (n + 100)) [1; 2; 3; 4; 5].
Definition ex_cfg : config := mkConfig 10 true false (fun rid h => h).
Definition ex_cfg_ext : config := mkConfig 10 true true (fun rid h => h).
Definition ex_start : st := match genesis ex_vs 30 25 with Some s => s | None => mkSt 0 [] None false 0 ∅ 0 0 None 0 ∅ ∅ ∅ 0 0 0 0 ∅ ∅ ∅ ∅ None [] end.
Definition ex_rid : root_id := ((0, 30), 1).
(** A history in which one root is recorded, voted on by two validators (the quorum of five) and
    approved, and then a slot passes without summary. *)
Definition ex_ops : list op :=
  [EnvPublish (Some 77); EnvBlocks 1; OpRecord 30 999 1 1 true; OpVote ex_rid 2 true true; OpVote ex_rid 2 true true;
   OpVote ex_rid 3 true true; OpVote ex_rid 4 false true; EnvBlocks 30; OpAdvanceSlot 1 true; EnvBlocks 35; OpAdvanceSlot 2 true].
Example ex_history :
  let s := run ex_cfg ex_start ex_ops in
  genesis ex_vs 30 25 = Some ex_start /\
  approved_ranges (s_events s) = [(0, 30)] /\ published (s_events s) = [ex_rid] /\
  ballots (s_events s) = [(3, ex_rid); (2, ex_rid)] /\ s_slot s = 2 /\ void_slots (s_events s) = [1] /\
  yes_votes ex_rid (s_events s) = [3; 2] /\ s_next_block s = 31.
Proof. vm_compute. auto 10. Qed.

(** ** C19: voting sessions *)

(** In no history does a validator's ballot on a root count twice. *)
Theorem C19_one_ballot_per_validator c vs p v s ops :
  genesis vs p v = Some s -> NoDup (ballots (s_events (run c s ops))).
Proof. intros H. destruct (reach_AllInv c _ _ _ _ ops H) as (HI & _). apply (I_ballots _ _ HI). Qed.
Print Assumptions C19_one_ballot_per_validator.

(** The stored tally of a root is exactly the list of the counted ballots, oldest first. *)
Theorem C19_tally_exact c vs p v s ops rid ss :
  genesis vs p v = Some s -> let s' := run c s ops in
  s_votes s' !! rid = Some ss ->
  ss_ayes ss = rev (yes_votes rid (s_events s')) /\ ss_nays ss = rev (no_votes rid (s_events s')).
Proof. intros H s'. destruct (reach_AllInv c _ _ _ _ ops H) as (_ & _ & HJ). apply (J_tally _ HJ). Qed.
Print Assumptions C19_tally_exact.

(** A ballot is added only by a vote transaction with a valid signature, of an account that is a
    validator at that moment, on a root whose session is open: not past its end block, awaiting
    approval, not approved, and not voted on by that account before. *)
Theorem C19_ballots_only_in_open_sessions c vs p v s0 ops o :
  genesis vs p v = Some s0 -> let s := run c s0 ops in let s' := step c s o in
  s_votes s' = s_votes s \/
  (exists rid ss, s_votes s !! rid = None /\ s_votes s' = <[rid := ss]> (s_votes s) /\
     ss_ayes ss = [] /\ ss_nays ss = [] /\
     ss_threshold ss = quorum_for (N.of_nat (length (s_validators s))) /\ ss_end ss = s_block s + s_voting s) \/
  (exists rid who agree ss d, o = OpVote rid who agree true /\
     In who (map v_account (s_validators s)) /\
     s_votes s !! rid = Some ss /\ s_block s < ss_end ss /\
     s_pending s !! fst rid = Some (snd rid) /\ s_roots s !! rid = Some d /\ rd_validated d = false /\
     ~ In (who, rid) (ballots (s_events s)) /\ ~ In who (ss_ayes ss ++ ss_nays ss) /\
     s_votes s' = <[rid := if agree then ss <| ss_ayes := ss_ayes ss ++ [who] |> else ss <| ss_nays := ss_nays ss ++ [who] |>]> (s_votes s) /\
     ballots (s_events s') = (who, rid) :: ballots (s_events s)).
Proof.
  intros H s s'. pose proof (reach_AllInv c _ _ _ _ ops H) as HA. fold s in HA.
  destruct (step_votes c s o HA) as [E|[(nb & h & ic & who & sg & -> & Hn & E)|(rid & who & agree & ss & -> & Hvd & Hact & Hv & Hnv & E & Eb)]].
  - auto.
  - right; left. eexists _, _. split; [exact Hn|]. split; [exact E|]. cbn. auto.
  - right; right. destruct (active_facts _ _ Hact) as (d & ss' & Hd & Hval & Hp & Hv' & Hlt).
    assert (ss' = ss) as -> by congruence. exists rid, who, agree, ss, d.
    split; [reflexivity|]. split; [now apply is_validator_spec|]. repeat (split; [assumption|]).
    destruct HA as (HI & _). split; [|split; [|split; assumption]].
    + intros Hin. apply (I_ballots _ _ HI) in Hin as (v' & ? & ?). congruence.
    + rewrite <- has_voted_in. congruence.
Qed.
Print Assumptions C19_ballots_only_in_open_sessions.

(** The threshold and the end block fixed at creation never change, and a session is never removed. *)
Theorem C19_threshold_fixed c vs p v s0 ops1 ops2 rid ss :
  genesis vs p v = Some s0 -> s_votes (run c s0 ops1) !! rid = Some ss ->
  exists ss', s_votes (run c s0 (ops1 ++ ops2)) !! rid = Some ss' /\
     ss_threshold ss' = ss_threshold ss /\ ss_end ss' = ss_end ss.
Proof.
  intros H Hs. unfold run. rewrite fold_left_app. fold (run c s0 ops1).
  pose proof (reach_AllInv c _ _ _ _ ops1 H) as HA. revert HA Hs. generalize (run c s0 ops1). clear.
  revert ss. induction ops2 as [|o ops IH]; intros ss s HA Hs; [exists ss; auto|].
  cbn. pose proof (step_AllInv c s o HA) as HA'.
  assert (Hx : exists ss', s_votes (step c s o) !! rid = Some ss' /\ ss_threshold ss' = ss_threshold ss /\ ss_end ss' = ss_end ss).
  { destruct (step_votes c s o HA) as [E|[(nb & h & ic & who & sg & -> & Hn & E)|(rid' & who & agree & ss' & -> & Hvd & Hact & Hv & Hnv & E & Eb)]]; rewrite E.
    - eauto.
    - rewrite lookup_insert_ne by congruence. eauto.
    - destruct (decide (rid' = rid)) as [->|]; [|rewrite lookup_insert_ne by assumption; eauto].
      rewrite lookup_insert. assert (ss' = ss) as -> by congruence. eexists. split; [reflexivity|]. apply cast_same. }
  destruct Hx as (ss1 & H1 & E1 & E2). destruct (IH ss1 _ HA' H1) as (ss2 & H2 & E3 & E4). exists ss2. split; [exact H2|]. split; congruence.
Qed.
Print Assumptions C19_threshold_fixed.

(** A vote ends at most once, and it ends as approved exactly when the counted approvals have
    reached the threshold. *)
Theorem C19_outcome_exact c vs p v s ops :
  genesis vs p v = Some s -> let evs := s_events (run c s ops) in
  NoDup (ended evs) /\
  forall rid approved, In (EvVotingEnded rid approved) evs ->
    exists ss, s_votes (run c s ops) !! rid = Some ss /\ 1 <= ss_threshold ss /\
      (approved = true <-> ss_threshold ss <= N.of_nat (length (yes_votes rid evs))).
Proof.
  intros H evs. destruct (reach_AllInv c _ _ _ _ ops H) as (HI & _ & HJ). split; [apply (I_ended _ _ HI)|].
  intros rid b Hin. destruct (J_ended _ HJ _ _ Hin) as (ss & Hs & ->). exists ss. split; [exact Hs|].
  split; [apply (I_session _ _ HI _ _ Hs)|].
  destruct (J_tally _ HJ _ _ Hs) as [E _]. unfold is_approved. rewrite E, rev_length. apply N.leb_le.
Qed.
Print Assumptions C19_outcome_exact.

(** After the vote on a root has ended, its tally is frozen for ever. *)
Theorem C19_ended_session_frozen c vs p v s0 ops1 ops2 rid :
  genesis vs p v = Some s0 -> In rid (ended (s_events (run c s0 ops1))) ->
  s_votes (run c s0 (ops1 ++ ops2)) !! rid = s_votes (run c s0 ops1) !! rid.
Proof.
  intros H Hs. unfold run. rewrite fold_left_app. fold (run c s0 ops1).
  pose proof (reach_AllInv c _ _ _ _ ops1 H) as HA. revert HA Hs. generalize (run c s0 ops1). clear.
  induction ops2 as [|o ops IH]; intros s HA Hs; [reflexivity|].
  cbn. pose proof (step_AllInv c s o HA) as HA'.
  assert (Hmono : forall s o, AllInv c s -> In rid (ended (s_events s)) -> In rid (ended (s_events (step c s o))) /\ s_votes (step c s o) !! rid = s_votes s !! rid).
  { clear. intros s o HA Hin. destruct HA as (HI & HT & HJ). split.
    - apply in_ended in Hin as [b Hin]. apply in_ended. exists b.
      destruct (step_effect c s o HT) as [->|He]; [exact Hin|].
      set (s' := step c s o) in *. clearbody s'.
      destruct He as [HS Hsch | nb h ic who sg -> H | rid' who agree sg v s2 -> -> Hvd Hact Hv Hnv Hend -> | rid' who sg -> H | who [sg ->] H | who r ch ce sg s1 s2 -> -> H -> ].
      + destruct (SC_events _ _ HS) as (new & -> & _). apply in_or_app; auto.
      + apply record_summary_ok in H as (_ & _ & _ & _ & _ & _ & _ & ->). right. exact Hin.
      + right. destruct Hend as [[-> _]|Hend]; [exact Hin|].
        apply end_effect in Hend as (d & v' & rest & _ & _ & _ & _ & _ & _ & _ & _ & _ & _ & _ & _ & -> & _).
        right. apply in_or_app. right. apply in_or_app. right. exact Hin.
      + apply end_effect in H as (d & v' & rest & _ & _ & _ & _ & _ & _ & _ & _ & _ & _ & _ & _ & -> & _).
        right. apply in_or_app. right. apply in_or_app. right. exact Hin.
      + apply update_slot_ok in H as (sv & nv & H1 & H2 & H3 & H4 & H5 & H6 & H7 & ->). right. apply in_or_app. auto.
      + apply update_slot_ok in H as (sv & nv & H1 & H2 & H3 & H4 & H5 & H6 & H7 & ->). right. right. apply in_or_app. right. right. exact Hin.
    - destruct (I_ended _ _ HI) as [_ He]. destruct (He _ Hin) as [Hnp [d Hd]].
      destruct (proj2 (I_votes_root _ _ HI rid) (ex_intro _ d Hd)) as [ss Hss].
      destruct (step_votes c s o (conj HI (conj HT HJ))) as [E|[(nb & h & ic & who & sg & -> & Hn & E)|(rid' & who & agree & ss' & -> & Hvd & Hact & Hv & Hnv & E & Eb)]]; rewrite E.
      + reflexivity.
      + rewrite lookup_insert_ne by congruence. reflexivity.
      + rewrite lookup_insert_ne; [reflexivity|]. intros ->. apply active_facts in Hact as (? & ? & _ & _ & Hp & _). auto. }
  destruct (Hmono s o HA Hs) as [H1 H2]. rewrite (IH _ HA' H1). exact H2.
Qed.
Print Assumptions C19_ended_session_frozen.

(** ** C20: approved summaries *)

(** In every history no range is approved twice, and a range awaiting approval has not been
    approved. *)
Theorem C20_range_approved_once c vs p v s ops :
  genesis vs p v = Some s -> let s' := run c s ops in
  NoDup (approved_ranges (s_events s')) /\
  forall r ic, s_pending s' !! r = Some ic -> ~ In r (approved_ranges (s_events s')).
Proof.
  intros H s'. destruct (reach_AllInv c _ _ _ _ ops H) as (HI & _ & HJ). split; [apply (J_appr _ HJ)|apply (J_pend _ HJ)].
Qed.
Print Assumptions C20_range_approved_once.

(** Histories in which the schedule period is not changed while a root awaits approval: the approved
    ranges cover the chain from block 0 up to the next block to process, without gap or overlap, and
    what awaits approval starts exactly there.  Partial: the restriction to [calm] histories is
    needed, see the refutation below. *)
Theorem C20_approved_ranges_tile_partial c vs p v s ops :
  genesis vs p v = Some s -> calm c s ops -> let s' := run c s ops in
  tiles 0 (approved_ranges (s_events s')) (s_next_block s') /\
  forall a t ic, s_pending s' !! (a, t) = Some ic -> a = s_next_block s'.
Proof.
  intros H Hc s'. destruct (genesis_tiled _ _ _ _ H) as [HP HT].
  destruct (tile_run c ops s (reach_AllInv c _ _ _ _ [] H) HP HT Hc) as [HP' HT'].
  split; [exact HT'|]. intros a t ic Hp. apply (HP' _ _ _ Hp).
Qed.
Print Assumptions C20_approved_ranges_tile_partial.
Example C20_example : calm ex_cfg ex_start ex_ops /\ approved_ranges (s_events (run ex_cfg ex_start ex_ops)) <> [].
Proof. split; [vm_compute; intuition discriminate|vm_compute; discriminate]. Qed.

(** Without that restriction the property is false of the code: changing the schedule period while a
    root awaits approval lets a second, longer range with the same start be recorded; both can be
    approved, and the ranges overlap. *)
Definition overlap_ops : list op :=
  [EnvPublish (Some 77); EnvBlocks 1; OpRecord 30 999 1 1 true; OpAdmin (CfgSchedule 40); OpRecord 40 998 2 1 true;
   OpVote ((0, 40), 2) 2 true true; OpVote ((0, 40), 2) 3 true true;
   OpVote ((0, 30), 1) 2 true true; OpVote ((0, 30), 1) 3 true true].
Theorem C20_approved_ranges_tile_refuted :
  exists c vs p v s ops, genesis vs p v = Some s /\
    let s' := run c s ops in
    approved_ranges (s_events s') = [(0, 40); (0, 30)] /\ s_next_block s' = 31 /\
    ~ tiles 0 (approved_ranges (s_events s')) (s_next_block s').
Proof.
  exists ex_cfg, ex_vs, 30, 25, ex_start, overlap_ops. split; [reflexivity|].
  assert (E : approved_ranges (s_events (run ex_cfg ex_start overlap_ops)) = [(0, 40); (0, 30)]) by (vm_compute; reflexivity).
  assert (E2 : s_next_block (run ex_cfg ex_start overlap_ops) = 31) by (vm_compute; reflexivity).
  cbv zeta. rewrite E, E2. split; [reflexivity|]. split; [reflexivity|].
  intros Ht. inversion Ht as [|a t l b Hle Ht2]; subst. inversion Ht2.
Qed.
Print Assumptions C20_approved_ranges_tile_refuted.

(** ** C21: publication *)

(** No root is published twice; a published root is not empty and was approved by vote: its counted
    approvals have reached the threshold. *)
Theorem C21_published_once_after_approval c vs p v s ops :
  genesis vs p v = Some s -> let s' := run c s ops in
  NoDup (published (s_events s')) /\
  forall rid, In rid (published (s_events s')) ->
    exists d ss, s_roots s' !! rid = Some d /\ rd_hash d <> 0 /\
      In (EvRootValidated rid (rd_hash d)) (s_events s') /\
      s_votes s' !! rid = Some ss /\ 1 <= ss_threshold ss /\
      ss_threshold ss <= N.of_nat (length (yes_votes rid (s_events s'))).
Proof.
  intros H s'. destruct (reach_AllInv c _ _ _ _ ops H) as (HI & _ & HJ). fold s' in HI, HJ.
  destruct (I_published _ _ HI) as [Hnd Hin]. split; [exact Hnd|]. intros rid Hr.
  destruct (Hin _ Hr) as ((d & Hd & Hv & Hh) & _). pose proof Hv as Hv'. apply (I_validated _ _ HI _ _ Hd) in Hv'.
  destruct (I_validated_root _ _ HI _ _ Hv') as (d' & ss & Hd' & _ & Hss & Ha & _).
  exists d, ss. repeat (split; [assumption|]). split; [apply (I_session _ _ HI _ _ Hss)|].
  destruct (J_tally _ HJ _ _ Hss) as [E _]. unfold is_approved in Ha. rewrite E, rev_length in Ha. now apply N.leb_le.
Qed.
Print Assumptions C21_published_once_after_approval.

(** With external validation enabled a publication happens only when the external vote on that very
    root is reported as passed (or has expired, which counts as passed), or when the administrator
    accepts a root under review; the external request concerns an approved root. *)
Theorem C21_external_validation_required c vs p v s0 ops o rid :
  genesis vs p v = Some s0 -> c_ext_enabled c = true ->
  let s := run c s0 ops in let s' := step c s o in
  In rid (published (s_events s')) -> ~ In rid (published (s_events s)) ->
  (exists ref_ r, o = OpExternal ref_ r /\ (r = PPassed \/ r = PExpired) /\ s_ext_ref s !! ref_ = Some rid /\
     In (EvExternalSubmitted rid ref_) (s_events s)) \/
  (o = OpResolve rid true /\ s_ext_status s !! rid = Some ExtPendingAdmin).
Proof.
  intros H He s s' Hin Hnin. destruct (reach_AllInv c _ _ _ _ ops H) as (HI & _ & HJ). fold s in HI, HJ.
  destruct (step_published c s o) as [E|(rid' & E & Hc)].
  - exfalso. subst s'. rewrite E in Hin. auto.
  - subst s'. rewrite E in Hin. destruct Hin as [->|Hin]; [|exfalso; auto].
    destruct Hc as [?|[(ref_ & r & -> & Hr & Href)|[-> ?]]]; [congruence| |auto].
    left. exists ref_, r. repeat (split; [assumption || reflexivity|]).
    destruct (I_ext _ _ HI _ _ Href) as (d & _ & _ & _ & _ & Hx). exact Hx.
Qed.
Print Assumptions C21_external_validation_required.
Definition ex_ops_ext : list op :=
  [EnvPublish (Some 77); EnvSubmit true; OpAdmin (CfgThreshold 50); EnvBlocks 1; OpRecord 30 999 1 1 true;
   OpVote ex_rid 2 true true; OpVote ex_rid 3 true true].
Example C21_external_example :
  let s := run ex_cfg_ext ex_start ex_ops_ext in
  approved_ranges (s_events s) = [(0, 30)] /\ published (s_events s) = [] /\
  published (s_events (step ex_cfg_ext s (OpExternal 999 PPassed))) = [ex_rid] /\
  published (s_events (step ex_cfg_ext (step ex_cfg_ext s (OpExternal 999 POther)) (OpResolve ex_rid true))) = [ex_rid] /\
  published (s_events (step ex_cfg_ext (step ex_cfg_ext s (OpExternal 999 POther)) (OpResolve ex_rid false))) = [].
Proof. vm_compute. auto 10. Qed.

(** A negative result about the code: when the hand-over to the bridge fails while the external
    outcome is being processed, the hook is not rolled back, and from then on no administrator
    decision can publish the root; it stays approved and unpublished. *)
Theorem C21_failed_handover_not_recoverable_by_admin_refuted :
  exists c vs p v s ops, genesis vs p v = Some s /\ c_ext_enabled c = true /\
    let s1 := run c s ops in
    let s2 := step c s1 (OpExternal 999 PPassed) in
    approved_ranges (s_events s1) = [(0, 30)] /\ s_ext_status s1 !! ((0, 30), 1) = Some ExtInProgress /\
    published (s_events s2) = [] /\ s_ext_status s2 !! ((0, 30), 1) = Some ExtAccepted /\
    step c (step c s2 (EnvPublish (Some 77))) (OpResolve ((0, 30), 1) true) = step c s2 (EnvPublish (Some 77)).
Proof.
  exists ex_cfg_ext, ex_vs, 30, 25, ex_start, (ex_ops_ext ++ [EnvPublish None]). vm_compute. auto 10.
Qed.
Print Assumptions C21_failed_handover_not_recoverable_by_admin_refuted.

(** ** C22: slots *)

(** A step leaves the slot number alone or increases it by exactly one; the latter only at or after
    the slot's end block, by a validator with a valid signature who, within the grace period, is the
    slot's validator and, after it, is not; the new slot belongs to the validator at position
    (new slot mod number of validators). *)
Theorem C22_slot_advances_by_one c vs p v s0 ops o :
  genesis vs p v = Some s0 -> let s := run c s0 ops in let s' := step c s o in
  s_slot s' = s_slot s \/
  exists who owner,
    (o = OpAdvanceSlot who true \/ exists r ch ce, o = OpChallenge r ch ce who true) /\
    In who (map v_account (s_validators s)) /\
    s_next_slot_at s <= s_block s /\ s_slot_validator s = Some owner /\
    (c_grace c < s_block s - s_next_slot_at s -> who <> owner) /\
    (s_block s - s_next_slot_at s <= c_grace c -> who = owner) /\
    s_slot s' = s_slot s + 1 /\
    s_slot_validator s' = map v_account (s_validators s) !! N.to_nat ((s_slot s + 1) mod N.of_nat (length (s_validators s))) /\
    s_next_slot_at s' = s_next_slot_at s + s_schedule s.
Proof.
  intros H s s'. destruct (step_slot c s o (reach_AllInv c _ _ _ _ ops H)) as [E|(who & sv & H1 & H2 & H3 & H4 & H5 & H6 & H7 & (nv & H8 & H9) & H10)]; [auto|].
  right. exists who, sv. split; [exact H1|]. split; [now apply is_validator_spec|]. repeat (split; [assumption|]). split; [|assumption].
  subst s'. rewrite H8. unfold primary_for_block in H9. destruct (s_validators s) as [|v0 l] eqn:E; [discriminate|].
  rewrite nth_error_is_lookup in H9. destruct ((v0 :: l) !! _) as [x|] eqn:Ex in H9; [|discriminate]. injection H9 as <-.
  symmetry. change (map v_account (v0 :: l)) with (v_account <$> v0 :: l). rewrite list_lookup_fmap, Ex. reflexivity.
Qed.
Print Assumptions C22_slot_advances_by_one.

(** A finished slot (other than slot 0, see below) is reported exactly once if no root was approved
    during it, and never if one was. *)
Theorem C22_void_slot_reported_exactly_once c vs p v s ops :
  genesis vs p v = Some s -> let s' := run c s ops in
  NoDup (void_slots (s_events s')) /\
  (forall k, In k (void_slots (s_events s')) -> k < s_slot s') /\
  forall k, 0 < k < s_slot s' -> (In k (void_slots (s_events s')) <-> ~ In k (approval_slots (s_events s'))).
Proof.
  intros H s'. destruct (reach_AllInv c _ _ _ _ ops H) as (HI & _ & HJ). split; [apply (I_slots _ _ HI)|].
  split; [apply (I_slots _ _ HI)|]. apply (J_void _ HJ).
Qed.
Print Assumptions C22_void_slot_reported_exactly_once.

(** Slot 0 is never reported, even if no root was approved in it. *)
Theorem C22_slot_zero_never_reported c vs p v s ops :
  genesis vs p v = Some s -> ~ In 0 (void_slots (s_events (run c s ops))).
Proof.
  intros H Hin. destruct (reach_AllInv c _ _ _ _ ops H) as (_ & _ & HJ). apply (J_voidlt _ HJ) in Hin. lia.
Qed.
Print Assumptions C22_slot_zero_never_reported.

(** ** C34: the configured periods stay valid *)
Theorem C34_periods_valid c vs p v s ops :
  genesis vs p v = Some s -> let s' := run c s ops in
  30 <= s_schedule s' /\ 25 <= s_voting s' /\ s_voting s' < s_schedule s' /\ s_voting s' <= 28800.
Proof. intros H s'. destruct (reach_AllInv c _ _ _ _ ops H) as (HI & _). apply (I_periods _ _ HI). Qed.
Print Assumptions C34_periods_valid.
Example C34_example : s_schedule (step ex_cfg ex_start (OpSetPeriods 100 50)) = 100 /\
  step ex_cfg ex_start (OpSetPeriods 100 100) = ex_start /\ step ex_cfg ex_start (OpAdmin (CfgVoting 24)) = ex_start.
Proof. vm_compute. auto. Qed.
