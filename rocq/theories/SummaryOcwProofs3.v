(** Proofs about SummaryOcwModel.v, part 3: offences, and roots recorded by honest nodes. *)
From Verif Require Import Base BaseLemmas CodecModel CodecProofs BridgeModel HttpModel HttpProofs OcwModel AvnModel AvnProofs SummaryModel SummarySpec SummaryProofs SummaryProofs2
  SummaryOcwModel SummaryOcwSpec SummaryOcwProofs SummaryOcwProofs2.

(** ** Offences *)
(** Who is reported for what at the end of a vote. *)
Definition blamed (s : st) (k : offence_kind) (l : list N) : Prop :=
  match k with
  | RejectedValidRoot => exists rid v, In (EvVotingEnded rid true) (s_events s) /\ s_votes s !! rid = Some v /\ l = ss_nays v
  | ApprovedInvalidRoot => exists rid v, In (EvVotingEnded rid false) (s_events s) /\ s_votes s !! rid = Some v /\ l = ss_ayes v
  | CreatedInvalidRoot => exists rid d cr, In (EvVotingEnded rid false) (s_events s) /\ s_roots s !! rid = Some d /\ rd_added_by d = Some cr /\ l = [cr]
  | SlotNotAdvanced | NoSummaryCreated => True
  end.
Lemma step_events_kept c s o e : In e (s_events s) -> In e (s_events (step c s o)).
Proof.
  intros Hin. destruct (step_inv c s o) as [->|[Hv H]]; [exact Hin|].
  set (s' := step c s o) in *. clearbody s'.
  assert (Hend : forall who rid x x' u, In e (s_events x) -> end_voting c who rid x = (x', Ok u) -> In e (s_events x')).
  { intros who rid x x' u Hx He. apply end_voting_fields in He as (d & v' & d' & new & Hrest).
    repeat match type of Hrest with _ /\ _ => destruct Hrest as [? Hrest] end.
    match goal with He : s_events x' = _ |- _ => rewrite He end. right. rewrite !in_app_iff. auto. }
  assert (Hslot : forall who x x' u, In e (s_events x) -> update_slot_number c who x = (x', Ok u) -> In e (s_events x')).
  { intros who x x' u Hx He. apply update_slot_ok in He as (? & ? & ? & ? & ? & ? & ? & ? & ? & ->). cbn. right. rewrite in_app_iff. auto. }
  assert (Hpub : forall rid d x x', In e (s_events x) -> pub_effect c rid d x x' -> In e (s_events x')).
  { intros rid d x x' Hx He. apply pub_silent in He as [(new & -> & _) _]. rewrite in_app_iff. auto. }
  destruct o; cbn [exec] in H.
  - apply record_summary_ok in H as (_ & _ & _ & _ & _ & _ & _ & ->). now right.
  - apply vote_root_ok in H as (v & Hvd & Hact & Hv' & Hnv & s2 & Hend' & ->). right. destruct Hend' as [[-> _]|Hend']; [exact Hin|]. eapply Hend; [|exact Hend']. exact Hin.
  - eapply Hend; eauto.
  - eapply Hslot; eauto.
  - unfold add_challenge, emit in H.
    apply mbind_ok in H as (? & ? & Hg & H). minv Hg.
    apply mbind_ok in H as (? & ? & Hg & H). minv Hg.
    apply mbind_ok in H as (? & ? & Hg & H). minv Hg.
    apply mbind_ok in H as (s2 & ? & Hg & H). minv H. right. eapply Hslot; [|exact Hg]. now right.
  - now apply set_periods_ok in H as (_ & _ & _ & _ & ->).
  - apply set_admin_ok in H. destruct cfg; [destruct H as (_ & ->)|destruct H as (_ & _ & _ & _ & ->)|destruct H as (_ & _ & _ & ->)]; exact Hin.
  - unfold admin_resolve in H.
    apply mbind_ok in H as (? & ? & Hg & H). minv Hg.
    apply mbind_ok in H as (? & ref_ & Hg & H). minv Hg.
    apply mbind_ok in H as (? & d & Hg & H). unfold try_get_root in Hg. minv Hg.
    apply mbind_ok in H as (? & stt & Hg & H). minv Hg.
    apply mbind_ok in H as (? & ? & Hg & H). minv Hg.
    apply mbind_ok in H as (s1 & [] & Hp & H).
    apply mbind_ok in H as (s2 & [] & Hcl & H). unfold emit in H. minv H.
    unfold cleanup_external in Hcl. minv Hcl. right. cbn.
    destruct accepted; [apply process_accepted_ok in Hp as (d1 & _ & Hp); eapply Hpub; eauto|minv Hp; exact Hin].
  - apply modify_ok in H. subst s'. unfold external_result. destruct (s_ext_ref s !! ref_) as [rid|]; [|exact Hin].
    assert (HP : In e (s_events (match s_roots s !! rid with
      | None => s
      | Some _ =>
        let s1 := s <| s_ext_status := <[ rid := ExtAccepted ]> (s_ext_status s) |> in
        match process_accepted_root c rid s1 with
        | (s2, Err _) => s2
        | (s2, Ok _) => fst (cleanup_external rid ref_ s2)
        end
      end))).
    { destruct (s_roots s !! rid); [|exact Hin]. cbv zeta. destruct (process_accepted_root c rid _) as [s2 [[]|er]] eqn:Hp.
      - apply process_accepted_ok in Hp as (d1 & _ & Hp). cbn. eapply Hpub; [|exact Hp]. exact Hin.
      - apply process_accepted_err in Hp. subst s2. exact Hin. }
    destruct r; try exact HP; exact Hin.
  - apply modify_ok in H. subst s'. unfold process_result. destruct (s_tx_to_root s !! tx); [|exact Hin]. destruct (matches && succeeded); exact Hin.
  - minv H. exact Hin.
  - minv H. exact Hin.
  - minv H. exact Hin.
  - minv H. exact Hin.
Qed.
Lemma ended_votes_kept c s o rid b : AllInv c s -> In (EvVotingEnded rid b) (s_events s) -> s_votes (step c s o) !! rid = s_votes s !! rid.
Proof.
  intros HA Hin. pose proof HA as (HI & HT & HJ).
  destruct (step_votes c s o HA) as [->|[(nb & h & ic & who & sg & _ & Hn & ->)|(rid' & who & agree & v & _ & _ & Hact & Hv & _ & -> & _)]]; [reflexivity| |].
  - rewrite lookup_insert_ne; [reflexivity|]. intros E. subst rid. destruct (J_ended _ HJ _ _ Hin) as (v & Hv & _). congruence.
  - rewrite lookup_insert_ne; [reflexivity|]. intros <-. eapply not_ended_active; eauto.
Qed.
Lemma blamed_kept c s o k l : AllInv c s -> blamed s k l -> blamed (step c s o) k l.
Proof.
  intros HA. destruct k; cbn; try exact (fun x => x).
  - intros (rid & v & Hin & Hv & ->). exists rid, v. split; [now apply step_events_kept|]. split; [|reflexivity]. now rewrite (ended_votes_kept c s o rid true).
  - intros (rid & d & cr & Hin & Hd & Hc & ->). destruct (step_root_kept c s o rid d HA Hd) as (d' & Hd' & _ & E). exists rid, d', cr.
    split; [now apply step_events_kept|]. split; [exact Hd'|]. split; [congruence|reflexivity].
  - intros (rid & v & Hin & Hv & ->). exists rid, v. split; [now apply step_events_kept|]. split; [|reflexivity]. now rewrite (ended_votes_kept c s o rid false).
Qed.
Lemma end_blamed c who rid s s' u k l : end_voting c who rid s = (s', Ok u) -> In (EvOffence k l) (s_events s') -> In (EvOffence k l) (s_events s) \/ blamed s' k l.
Proof.
  intros H Hin. pose proof H as H0. apply end_voting_ok in H as (d & v & s1 & Hd & Hval & Hp & Hv & Hout & H).
  assert (Hvotes : s_votes s' = s_votes s) by now apply end_voting_ballots in H0 as [_ ->].
  destruct (is_approved v) eqn:Ha.
  - destruct H as (Hpub & _ & E). rewrite E in Hin. cbn in Hin. destruct Hin as [|[|[Hin|Hin]]]; try discriminate.
    + injection Hin as <- <-. right. exists rid, v. rewrite Hvotes. split; [rewrite E; now left|auto].
    + left. destruct Hpub as [(_ & ->)|[(_ & _ & ->)|(_ & _ & Hpub)]]; [exact Hin| |].
      * destruct Hin as [|Hin]; [discriminate|exact Hin].
      * apply pub_silent in Hpub as [(new & En & Hq) _]. rewrite En in Hin. apply in_app_iff in Hin as [Hin|Hin]; [|exact Hin].
        rewrite forallb_forall in Hq. apply Hq in Hin. discriminate.
  - destruct H as (cr & Hcr & E). rewrite E in Hin. cbn in Hin. destruct Hin as [|[Hin|[Hin|Hin]]]; try discriminate; [| |now left].
    + injection Hin as <- <-. right. exists rid, v. rewrite Hvotes. split; [rewrite E; now left|auto].
    + injection Hin as <- <-. right. exists rid, d, cr. split; [rewrite E; now left|]. rewrite E. auto.
Qed.
Lemma slot_blamed c who s s' u k l : update_slot_number c who s = (s', Ok u) -> In (EvOffence k l) (s_events s') -> In (EvOffence k l) (s_events s) \/ blamed s' k l.
Proof.
  intros H Hin. apply update_slot_ok in H as (sv & nv & _ & _ & _ & _ & _ & _ & _ & ->). cbn in Hin. destruct Hin as [|Hin]; [discriminate|].
  apply in_app_iff in Hin as [Hin|Hin]; [|now left]. destruct (_ <? _); [|destruct Hin]. destruct Hin as [|[Hin|[]]]; [discriminate|]. injection Hin as <- <-. right. exact I.
Qed.
Lemma step_blamed c s o k l : AllInv c s -> In (EvOffence k l) (s_events (step c s o)) -> In (EvOffence k l) (s_events s) \/ blamed (step c s o) k l.
Proof.
  intros HA Hin. pose proof HA as (HI & HT & HJ). destruct (unsigned o) eqn:Hu.
  2:{ destruct (step_plain c s o HT Hu) as (_ & (new & En & Hq) & _). rewrite En in Hin. apply in_app_iff in Hin as [Hin|Hin]; [|now left].
      rewrite forallb_forall in Hq. apply Hq in Hin. discriminate. }
  destruct (step_inv c s o) as [E|[Hv H]]; [rewrite E in Hin; now left|].
  set (s' := step c s o) in *. clearbody s'. destruct o; try discriminate; cbn [exec] in H.
  - left. apply record_summary_ok in H as (_ & _ & _ & _ & _ & _ & _ & ->). destruct Hin as [|Hin]; [discriminate|exact Hin].
  - apply vote_root_ok in H as (v & Hvd & Hact & Hv' & Hnv & s2 & Hend & ->). destruct Hin as [|Hin]; [discriminate|].
    destruct Hend as [[-> _]|Hend]; [left; exact Hin|]. destruct (end_blamed _ _ _ _ _ _ k l Hend Hin) as [Hin'|Hb]; [left; exact Hin'|]. right.
    destruct k; cbn in *; auto.
    + destruct Hb as (rid' & v' & ? & ?). eauto 10.
    + destruct Hb as (rid' & d' & cr & ? & ?). eauto 10.
    + destruct Hb as (rid' & v' & ? & ?). eauto 10.
  - eapply end_blamed; eauto.
  - eapply slot_blamed; eauto.
  - unfold add_challenge, emit in H.
    apply mbind_ok in H as (? & ? & Hg & H). minv Hg.
    apply mbind_ok in H as (? & ? & Hg & H). minv Hg.
    apply mbind_ok in H as (? & ? & Hg & H). minv Hg.
    apply mbind_ok in H as (s2 & ? & Hg & H). minv H. destruct Hin as [|Hin]; [discriminate|].
    apply update_slot_ok in Hg as (sv & nv & _ & _ & _ & _ & _ & _ & _ & ->). cbn in Hin. destruct Hin as [|Hin]; [discriminate|].
    apply in_app_iff in Hin as [Hin|Hin].
    + destruct (_ <? _); [|destruct Hin]. destruct Hin as [|[Hin|[]]]; [discriminate|]. injection Hin as <- <-. right. exact I.
    + destruct Hin as [Hin|Hin]; [|now left]. injection Hin as <- <-. right. exact I.
Qed.
Definition blame_ok (s : st) : Prop := forall k l, In (EvOffence k l) (s_events s) -> blamed s k l.
Lemma blame_step c s o : AllInv c s -> blame_ok s -> blame_ok (step c s o).
Proof. intros HA HB k l Hin. destruct (step_blamed c s o k l HA Hin) as [H|H]; [|exact H]. apply blamed_kept; auto. Qed.
Lemma blame_run c vs p v s ops : genesis vs p v = Some s -> blame_ok (run c s ops).
Proof.
  intros Hg. cut (AllInv c (run c s ops) /\ blame_ok (run c s ops)); [tauto|]. apply run_ind.
  - intros x o [HA HB]. split; [now apply step_AllInv|now apply blame_step].
  - split; [apply (reach_AllInv c _ _ _ _ [] Hg)|]. unfold genesis in Hg. destruct vs as [|v0 vs]; [discriminate|].
    destruct (_ && _) in Hg; [|discriminate]. injection Hg as <-. intros k l [].
Qed.

(** A world's chain is a history of SummaryModel.v. *)
Definition chain_ops (cfg : N -> wconfig) (i : N) : world -> list wop -> list op :=
  fix go w ops := match ops with
  | [] => []
  | o :: r => match o with
              | WSubmit j cl v => if j =? i then
                  [op_of cl (v_account v) (bool_decide ((v_key v, message (wc_instance (cfg i)) (s_slot (w_chain w i)) cl) ∈ w_sigs w))] else []
              | WChain j o => if j =? i then [o] else []
              | _ => []
              end ++ go (wstep cfg w o) r
  end.
Lemma chain_run cfg i : forall ops w, w_chain (wrun cfg w ops) i = run (wc_pallet (cfg i)) (w_chain w i) (chain_ops cfg i w ops).
Proof.
  induction ops as [|o ops IH]; intros w; [reflexivity|]. cbn [wrun fold_left chain_ops]. change (fold_left (wstep cfg) ops (wstep cfg w o)) with (wrun cfg (wstep cfg w o) ops). rewrite IH.
  unfold run. rewrite fold_left_app. f_equal. destruct o as [j n|k m|j cl v|j o]; cbn [wstep].
  - now destruct (worker _ _ _) as [[? ?]|].
  - reflexivity.
  - destruct (N.eqb_spec j i) as [->|Hne]; cbn; unfold set_chain; [now rewrite N.eqb_refl|]. destruct (N.eqb_spec i j); [congruence|reflexivity].
  - destruct (N.eqb_spec j i) as [->|Hne]; cbn; unfold set_chain; [now rewrite N.eqb_refl|]. destruct (N.eqb_spec i j); [congruence|reflexivity].
Qed.

(** ** Roots recorded by honest nodes *)
Lemma step_idle c s o : AllInv c s -> s_pending s = ∅ -> (forall nb h ic who, o = OpRecord nb h ic who true -> record_summary nb h ic who s <> (step c s o, Ok tt)) ->
  s_pending (step c s o) = ∅ /\ s_next_block (step c s o) = s_next_block s /\ s_ingress (step c s o) = s_ingress s.
Proof.
  intros (HI & HT & HJ) Hp Hrec. destruct (step_inv c s o) as [->|[Hval _]]; [auto|].
  destruct (step_effect c s o HT) as [->|He]; [auto|].
  set (s' := step c s o) in *. clearbody s'.
  destruct He as [HS Hsch | nb h ic who sg -> H | rid' who agree sg v s2 -> -> Hvd Hact Hv Hnv Hend -> | rid' who sg -> H | who [sg ->] H | who r ch ce sg s1 s2 -> -> H -> ].
  - rewrite (SC_pending _ _ HS), (SC_next _ _ HS), (SC_ingress _ _ HS). auto.
  - exfalso. cbn in Hval. assert (sg = true) as ->. { unfold record_validate in Hval. destruct (s_slot_validator s); [|discriminate]. rewrite !andb_true_iff in Hval. tauto. }
    eapply Hrec; eauto.
  - exfalso. apply active_facts in Hact as (? & ? & _ & _ & E & _). rewrite Hp, lookup_empty in E. discriminate.
  - exfalso. apply end_voting_ok in H as (d & v & s1 & Hd & Hvd & E & _). rewrite Hp, lookup_empty in E. discriminate.
  - apply update_slot_ok in H as (? & ? & ? & ? & ? & ? & ? & ? & ? & ->). auto.
  - apply update_slot_ok in H as (? & ? & ? & ? & ? & ? & ? & ? & ? & ->). auto.
Qed.
Lemma step_ingress c s o : AllInv c s ->
  s_ingress (step c s o) = s_ingress s \/ (exists nb h ic who, o = OpRecord nb h ic who true /\ record_summary nb h ic who s = (step c s o, Ok tt) /\ s_ingress (step c s o) = s_ingress s + 1).
Proof.
  intros (HI & HT & HJ). destruct (step_inv c s o) as [->|[Hval _]]; [auto|].
  destruct (step_effect c s o HT) as [->|He]; [auto|].
  set (s' := step c s o) in *. clearbody s'.
  destruct He as [HS Hsch | nb h ic who sg -> H | rid' who agree sg v s2 -> -> Hvd Hact Hv Hnv Hend -> | rid' who sg -> H | who [sg ->] H | who r ch ce sg s1 s2 -> -> H -> ].
  - left. now rewrite (SC_ingress _ _ HS).
  - right. cbn in Hval. assert (sg = true) as ->. { unfold record_validate in Hval. destruct (s_slot_validator s); [|discriminate]. rewrite !andb_true_iff in Hval. tauto. }
    exists nb, h, ic, who. split; [reflexivity|]. split; [exact H|]. apply record_summary_ok in H as (Hic & _ & _ & _ & _ & _ & _ & ->). cbn. auto.
  - left. cbn. destruct Hend as [[-> _]|Hend]; [reflexivity|]. apply end_voting_fields in Hend as (d & v' & d' & new & Hrest).
    repeat match type of Hrest with _ /\ _ => destruct Hrest as [? Hrest] end. assumption.
  - left. apply end_voting_fields in H as (d & v' & d' & new & Hrest). repeat match type of Hrest with _ /\ _ => destruct Hrest as [? Hrest] end. assumption.
  - left. now apply update_slot_ok in H as (? & ? & ? & ? & ? & ? & ? & ? & ? & ->).
  - left. now apply update_slot_ok in H as (? & ? & ? & ? & ? & ? & ? & ? & ? & ->).
Qed.
Lemma step_recorded c s o rid h a : tx_ok s -> In (EvSummaryCalculated rid h a) (s_events (step c s o)) ->
  In (EvSummaryCalculated rid h a) (s_events s) \/
  (exists nb ic, o = OpRecord nb h ic a true /\ rid = (s_next_block s, nb, ic) /\ s_ingress s + 1 = ic).
Proof.
  intros HT Hin. destruct (step_inv c s o) as [E|[Hval _]]; [rewrite E in Hin; auto|].
  destruct (step_effect c s o HT) as [E|He]; [rewrite E in Hin; auto|].
  set (s' := step c s o) in *. clearbody s'.
  destruct He as [HS Hsch | nb h' ic who sg -> H | rid' who agree sg v s2 -> -> Hvd Hact Hv Hnv Hend -> | rid' who sg -> H | who [sg ->] H | who r ch ce sg s1 s2 -> -> H -> ].
  - left. destruct (SC_events _ _ HS) as (new & En & Hq). rewrite En in Hin. apply in_app_iff in Hin as [Hin|Hin]; [|exact Hin].
    rewrite forallb_forall in Hq. apply Hq in Hin. discriminate.
  - cbn in Hval. assert (sg = true) as ->. { unfold record_validate in Hval. destruct (s_slot_validator s); [|discriminate]. rewrite !andb_true_iff in Hval. tauto. }
    apply record_summary_ok in H as (Hic & _ & _ & _ & _ & _ & _ & ->). destruct Hin as [E|Hin]; [|now left]. injection E as <- <- <-. right. eauto.
  - left. destruct Hin as [|Hin]; [discriminate|]. destruct Hend as [[-> _]|Hend]; [exact Hin|]. apply end_voting_ok in Hend as (d & v' & s1 & Hd & _ & _ & _ & _ & H).
    destruct (is_approved v').
    + destruct H as (Hpub & _ & E). rewrite E in Hin. cbn in Hin. destruct Hin as [|[|[|Hin]]]; try discriminate.
      destruct Hpub as [(_ & ->)|[(_ & _ & ->)|(_ & _ & Hpub)]]; [exact Hin|destruct Hin as [|Hin]; [discriminate|exact Hin]|].
      destruct Hpub as [(Hh' & ->) | [(_ & Ha & tx & Htx & ->) | (_ & Ha & Hc & ->)]]; cbn in Hin; [exact Hin| |]; (destruct Hin as [|Hin]; [discriminate|exact Hin]).
    + destruct H as (cr & _ & ->). cbn in Hin. destruct Hin as [|[|[|Hin]]]; try discriminate. exact Hin.
  - left. apply end_voting_ok in H as (d & v' & s1 & Hd & _ & _ & _ & _ & H).
    destruct (is_approved v').
    + destruct H as (Hpub & _ & E). rewrite E in Hin. cbn in Hin. destruct Hin as [|[|[|Hin]]]; try discriminate.
      destruct Hpub as [(_ & ->)|[(_ & _ & ->)|(_ & _ & Hpub)]]; [exact Hin|destruct Hin as [|Hin]; [discriminate|exact Hin]|].
      destruct Hpub as [(Hh' & ->) | [(_ & Ha & tx & Htx & ->) | (_ & Ha & Hc & ->)]]; cbn in Hin; [exact Hin| |]; (destruct Hin as [|Hin]; [discriminate|exact Hin]).
    + destruct H as (cr & _ & ->). cbn in Hin. destruct Hin as [|[|[|Hin]]]; try discriminate. exact Hin.
  - left. apply update_slot_ok in H as (sv & nv & _ & _ & _ & _ & _ & _ & _ & ->). cbn in Hin. destruct Hin as [|Hin]; [discriminate|].
    apply in_app_iff in Hin as [Hin|]; [|assumption]. destruct (_ <? _); cbn in Hin; repeat destruct Hin as [Hin|Hin]; try discriminate; contradiction.
  - left. apply update_slot_ok in H as (sv & nv & _ & _ & _ & _ & _ & _ & _ & ->). cbn in Hin. destruct Hin as [|[|Hin]]; [discriminate|discriminate|].
    apply in_app_iff in Hin as [Hin|[Hin|Hin]]; [|discriminate|assumption]. destruct (_ <? _); cbn in Hin; repeat destruct Hin as [Hin|Hin]; try discriminate; contradiction.
Qed.

Definition record_justified (truth : N -> N -> N) (s : st) (nb h ic : N) : Prop :=
  ic <= s_ingress s \/ (s_pending s = ∅ /\ ic = s_ingress s + 1 /\ h = truth (s_next_block s) nb).
Lemma record_justified_step c truth s o nb h ic : AllInv c s -> record_justified truth s nb h ic -> record_justified truth (step c s o) nb h ic.
Proof.
  intros HA [Hle|(Hp & -> & ->)].
  - left. destruct (step_ingress c s o HA) as [->|(? & ? & ? & ? & _ & _ & ->)]; lia.
  - destruct (step_ingress c s o HA) as [E|(? & ? & ? & ? & _ & _ & E)]; [|left; rewrite E; lia].
    destruct (step_idle c s o HA Hp) as (E1 & E2 & E3).
    { intros nb' h' ic' who _ H. apply record_summary_ok in H as (Hic & _ & _ & _ & _ & _ & _ & Es). rewrite Es in E. cbn in E. lia. }
    right. rewrite E1, E2, E3. auto.
Qed.
Record RInv (cfg : N -> wconfig) (i : N) (A K : N -> Prop) (truth : N -> N -> N) (w : world) : Prop := {
  R_exact : pend_exact (w_chain w i);
  R_tiled : tiled (w_chain w i);
  R_sigs : forall k slot nb h ic, (k, message (wc_instance (cfg i)) slot (CRecord nb h ic)) ∈ w_sigs w -> K k -> wf_call (CRecord nb h ic) ->
     record_justified truth (w_chain w i) nb h ic;
  R_made : forall rid h a, In (EvSummaryCalculated rid h a) (s_events (w_chain w i)) -> A a -> h = truth (fst (fst rid)) (snd (fst rid)) }.

Lemma record_message inst slot cl inst' slot' nb h ic : (forall nb' h' ic', cl = CRecord nb' h' ic' -> wf_call cl) -> wf_call (CRecord nb h ic) ->
  message inst slot cl = message inst' slot' (CRecord nb h ic) -> cl = CRecord nb h ic.
Proof.
  intros Hw Hr E. assert (Hk : kind_byte cl = kind_byte (CRecord nb h ic)).
  { destruct (message_head inst slot cl) as [x E1], (message_head inst' slot' (CRecord nb h ic)) as [x' E2]. rewrite E1, E2 in E. now apply cons_app_inv in E as [-> _]. }
  destruct cl as [nb' h' ic' | | | |]; try discriminate Hk. specialize (Hw nb' h' ic' eq_refl).
  change (message inst slot (CRecord nb' h' ic')) with (message inst 0 (CRecord nb' h' ic')) in E. change (message inst' slot' (CRecord nb h ic)) with (message inst' 0 (CRecord nb h ic)) in E.
  apply message_inj in E as [-> _]; [reflexivity|exact Hw|exact Hr|lia|lia].
Qed.
Lemma target_word next sch t : target_block next sch = Some t -> t < 2 ^ 32.
Proof.
  unfold target_block, safe_add, safe_sub. destruct (checked_add _ _ _) as [e|] eqn:E; [|discriminate]. apply checked_add_Some in E as [-> Hle]. unfold U32_MAX in Hle.
  change (2 ^ 32) with 4294967296. destruct (next =? 0); intros H; [injection H as <-; lia|]. apply checked_sub_Some in H as [-> _]. lia.
Qed.
Lemma op_of_record cl who sg nb h ic a : op_of cl who sg = OpRecord nb h ic a true -> cl = CRecord nb h ic /\ a = who /\ sg = true.
Proof. destruct cl; cbn; intros E; try discriminate. injection E as -> -> -> -> ->. auto. Qed.
Lemma RInv_step cfg i A K truth w o : roots_are_words truth -> WInv cfg i A K truth w -> RInv cfg i A K truth w -> allowed A K truth w o -> on_chain i o ->
  (forall o', o = WChain i o' -> changes_schedule o' = true -> s_pending (w_chain w i) = ∅) ->
  RInv cfg i A K truth (wstep cfg w o).
Proof.
  intros Hw [HC _] [HE HTi HS HM] Ha Ho Hcalm. pose proof (C_all _ _ _ _ _ HC) as HA. pose proof HA as (HI & HT & _).
  assert (Hchain : forall x, (changes_schedule x = true -> s_pending (w_chain w i) = ∅) ->
     (forall nb h ic a, x = OpRecord nb h ic a true -> A a -> s_ingress (w_chain w i) + 1 = ic -> h = truth (s_next_block (w_chain w i)) nb) ->
     RInv cfg i A K truth (mkWorld (set_chain (w_chain w) i (step (wc_pallet (cfg i)) (w_chain w i) x)) (w_sigs w))).
  { intros x Hc Hrec. destruct (tile_step _ _ x HA HE HTi Hc) as [HE' HT'].
    constructor; cbn [w_chain w_sigs]; rewrite set_chain_same; [exact HE'|exact HT'| |].
    - intros k slot nb h ic Hin Hk Hwf. apply record_justified_step; [exact HA|]. eapply HS; eauto.
    - intros rid h a Hin Haa. apply step_recorded in Hin as [Hin|(nb & ic & -> & -> & Hic)]; [eauto| |exact HT]. cbn. eapply Hrec; eauto. }
  destruct o as [j n|k m|j cl v|j o]; cbn in Ho; try subst j; cbn [wstep].
  - destruct (worker (cfg i) n (w_chain w i)) as [[v r]|] eqn:Ew; [|constructor; assumption]. constructor; cbn [w_chain w_sigs]; [exact HE|exact HTi| |exact HM].
    intros k slot nb h ic Hin Hk Hwf. apply elem_of_app in Hin as [Hin|Hin]; [|eapply HS; eauto].
    unfold signed_by in Hin. rewrite map_map in Hin. apply elem_of_list_In, in_map_iff in Hin as (cl & E & Hcl). apply pair_equal_spec in E as [<- E].
    pose proof (worker_signed _ _ _ _ _ _ Ew Hcl) as Hp. destruct (worker_validator _ _ _ _ _ Ew) as [Hlv _].
    apply record_message in E; [|intros nb' h' ic' ->|exact Hwf].
    + subst cl. destruct Hp as (Ht & Hh & Hic & _ & _ & _ & Hn & _).
      apply (truthful_compute truth) in Hh; [|exact Hw|now apply (Ha v)].
      assert (ic <= s_ingress (w_chain w i) + 1). { rewrite Hic. apply N.mod_le. lia. }
      destruct (N.eq_dec ic (s_ingress (w_chain w i) + 1)) as [->|]; [|left; lia]. right. split; [|auto].
      apply map_eq. intros [a t]. rewrite lookup_empty. destruct (s_pending (w_chain w i) !! (a, t)) as [x|] eqn:Ep; [|reflexivity]. exfalso.
      destruct (HE _ _ _ Ep) as [-> Ht']. rewrite Ht in Ht'. injection Ht' as ->. unfold neither_pending_nor_approved in Hn. rewrite Ep in Hn. discriminate.
    + destruct Hp as (Ht & Hh & Hic & _). cbn. split; [eapply target_word; eauto|]. split; [eapply compute_word; eauto|]. rewrite Hic. apply N.mod_lt. lia.
  - constructor; cbn [w_chain w_sigs]; [exact HE|exact HTi| |exact HM]. intros k' slot nb h ic Hin Hk. apply elem_of_cons in Hin as [E|Hin]; [|now apply (HS k' slot)].
    apply pair_equal_spec in E as [-> _]. contradiction.
  - destruct Ha as [Hv Hwf]. apply Hchain; [destruct cl; discriminate|].
    intros nb h ic a E HAa Hic. apply op_of_record in E as (-> & -> & E2). apply bool_decide_eq_true_1 in E2.
    destruct (HS (v_key v) (s_slot (w_chain w i)) nb h ic E2 (C_keys _ _ _ _ _ HC v Hv HAa) Hwf) as [Hle|(_ & _ & ->)]; [lia|reflexivity].
  - destruct Ha as [Hu _]. apply Hchain; [now apply Hcalm|]. intros; subst o; discriminate.
Qed.
Lemma RInv_run cfg i A K truth ops : forall w, roots_are_words truth -> WInv cfg i A K truth w -> RInv cfg i A K truth w -> honest_history cfg A K truth w ops ->
  Forall (on_chain i) ops -> calm_world cfg i w ops -> RInv cfg i A K truth (wrun cfg w ops).
Proof.
  induction ops as [|o ops IH]; intros w Hw HW HI Hh Hf Hc; [exact HI|]. destruct Hh as [Ha Hh]. apply Forall_cons in Hf as [Ho Hf]. destruct Hc as [Hc0 Hc]. cbn. apply IH; auto.
  - now apply WInv_step.
  - now apply RInv_step.
Qed.
Lemma RInv_genesis cfg i A K truth vs p v s f : genesis vs p v = Some s -> f i = s -> RInv cfg i A K truth (mkWorld f []).
Proof.
  intros Hg Hf. destruct (genesis_tiled _ _ _ _ Hg) as [HP HT]. constructor; cbn; rewrite ?Hf; [exact HP|exact HT| |].
  - intros k slot nb h ic Hin. now apply elem_of_nil in Hin.
  - unfold genesis in Hg. destruct vs as [|v0 vs]; [discriminate|]. destruct (_ && _) in Hg; [|discriminate]. injection Hg as <-. intros rid h a [].
Qed.
