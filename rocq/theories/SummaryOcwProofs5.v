(** Proofs about SummaryOcwModel.v, part 5: open votes are undecided; slots are 32-bit numbers. *)
From Verif Require Import Base BaseLemmas CodecModel CodecProofs BridgeModel HttpModel HttpProofs OcwModel AvnModel AvnProofs SummaryModel SummarySpec SummaryProofs SummaryProofs2
  SummaryOcwModel SummaryOcwSpec SummaryOcwProofs SummaryOcwProofs2 SummaryOcwProofs3 SummaryOcwProofs4.

Definition undecided (s : st) : Prop := forall rid v, s_pending s !! fst rid = Some (snd rid) -> s_votes s !! rid = Some v -> has_outcome v = false.
Lemma end_pending c who rid s s' u : end_voting c who rid s = (s', Ok u) -> s_pending s' = delete (fst rid) (s_pending s) /\ s_votes s' = s_votes s.
Proof.
  intros H. apply end_effect in H as (d & v & rest & Hd & Hval & Hp & Hv & Hout & Epend & Evotes & _). auto.
Qed.
Lemma undecided_step c s o : AllInv c s -> undecided s -> undecided (step c s o).
Proof.
  intros (HI & HT & HJ) HU. destruct (step_effect c s o HT) as [->|He]; [exact HU|].
  set (s' := step c s o) in *. clearbody s'.
  destruct He as [HS Hsch | nb h ic who sg -> H | rid' who agree sg v s2 -> -> Hvd Hact Hv Hnv Hend -> | rid' who sg -> H | who [sg ->] H | who r ch ce sg s1 s2 -> -> H -> ].
  - intros rid v. rewrite (SC_pending _ _ HS), (SC_votes _ _ HS). apply HU.
  - apply record_summary_ok in H as (Hic & Hval & _ & Hp & Hvn & _ & _ & ->). intros rid v Hpend Hvo. cbn in Hpend, Hvo. apply lookup_insert_Some in Hvo as [[<- <-]|[Hne Hvo]].
    + unfold has_outcome. cbn [session_new ss_threshold ss_ayes ss_nays length]. unfold avn_quorum, quorum_for. assert (Hl : s_validators s <> []) by (intros E; rewrite E in Hval; discriminate).
      assert (1 <= N.of_nat (length (s_validators s))) by (destruct (s_validators s); [contradiction|cbn; lia]). set (k := N.of_nat (length (s_validators s))) in *. clearbody k.
      assert (1 <= k - k * 2 / 3). { assert (k * 2 / 3 < k) by (apply N.div_lt_upper_bound; lia). lia. }
      change (N.of_nat 0) with 0. destruct (N.leb_spec (k - k * 2 / 3) 0); [lia|]. reflexivity.
    + apply lookup_insert_Some in Hpend as [[E1 E2]|[Hne2 Hpend]]; [|eapply HU; eauto]. exfalso. apply Hne. rewrite (surjective_pairing rid). now rewrite <- E1, <- E2.
  - cbn. destruct Hend as [[-> Ho]|Hend].
    + intros rid w Hp Hw. cbn in Hp, Hw. apply lookup_insert_Some in Hw as [[<- <-]|[_ Hw]]; [exact Ho|eapply HU; eauto].
    + apply end_pending in Hend as [E1 E2]. intros rid w Hp Hw. cbn in Hp, Hw. rewrite E1 in Hp. rewrite E2 in Hw. cbn in Hp, Hw. apply lookup_delete_Some in Hp as [Hne Hp].
      rewrite lookup_insert_ne in Hw by congruence. eapply HU; eauto.
  - apply end_pending in H as [E1 E2]. intros rid w Hp Hw. rewrite E1 in Hp. rewrite E2 in Hw. apply lookup_delete_Some in Hp as [_ Hp]. eapply HU; eauto.
  - apply update_slot_ok in H as (sv & nv & _ & _ & _ & _ & _ & _ & _ & ->). exact HU.
  - apply update_slot_ok in H as (sv & nv & _ & _ & _ & _ & _ & _ & _ & ->). exact HU.
Qed.
Lemma undecided_run c vs p v s ops : genesis vs p v = Some s -> undecided (run c s ops).
Proof.
  intros Hg. cut (AllInv c (run c s ops) /\ undecided (run c s ops)); [tauto|]. apply run_ind.
  - intros x o [HA HB]. split; [now apply step_AllInv|now apply undecided_step].
  - split; [apply (reach_AllInv c _ _ _ _ [] Hg)|]. unfold genesis in Hg. destruct vs as [|v0 vs]; [discriminate|].
    destruct (_ && _) in Hg; [|discriminate]. injection Hg as <-. intros rid w Hp. cbn in Hp. rewrite lookup_empty in Hp. discriminate.
Qed.
Lemma slot_word_step c s o : AllInv c s -> s_slot s <= U32_MAX -> s_slot (step c s o) <= U32_MAX.
Proof.
  intros (HI & HT & HJ) Hs. destruct (step_effect c s o HT) as [->|He]; [exact Hs|].
  set (s' := step c s o) in *. clearbody s'.
  destruct He as [HS Hsch | nb h ic who sg -> H | rid' who agree sg v s2 -> -> Hvd Hact Hv Hnv Hend -> | rid' who sg -> H | who [sg ->] H | who r ch ce sg s1 s2 -> -> H -> ].
  - now rewrite (SC_slot _ _ HS).
  - now apply record_summary_ok in H as (_ & _ & _ & _ & _ & _ & _ & ->).
  - cbn. destruct Hend as [[-> _]|Hend]; [exact Hs|]. apply clock_end in Hend as (_ & _ & _ & E). rewrite E. exact Hs.
  - apply clock_end in H as (_ & _ & _ & E). now rewrite E.
  - now apply update_slot_ok in H as (sv & nv & _ & _ & _ & _ & _ & Hle & _ & ->).
  - now apply update_slot_ok in H as (sv & nv & _ & _ & _ & _ & _ & Hle & _ & ->).
Qed.
Lemma slot_word c vs p v s ops : genesis vs p v = Some s -> s_slot (run c s ops) < 2 ^ 32.
Proof.
  intros Hg. cut (AllInv c (run c s ops) /\ s_slot (run c s ops) <= U32_MAX). { unfold U32_MAX. change (2 ^ 32) with 4294967296. intros [_ ?]. lia. } apply run_ind.
  - intros x o [HA HB]. split; [now apply step_AllInv|now apply slot_word_step].
  - split; [apply (reach_AllInv c _ _ _ _ [] Hg)|]. unfold genesis in Hg. destruct vs as [|v0 vs]; [discriminate|].
    destruct (_ && _) in Hg; [|discriminate]. injection Hg as <-. cbn. unfold U32_MAX. lia.
Qed.
Lemma pending_undecided c vs p v s ops rid ss : genesis vs p v = Some s -> s_pending (run c s ops) !! fst rid = Some (snd rid) -> s_votes (run c s ops) !! rid = Some ss -> has_outcome ss = false.
Proof. intros Hg. apply (undecided_run c vs p v s ops Hg). Qed.
Lemma open_undecided c vs p v s ops rid ss : genesis vs p v = Some s -> session_is_active (run c s ops) rid = true -> s_votes (run c s ops) !! rid = Some ss -> has_outcome ss = false.
Proof. intros Hg Hact. apply active_facts in Hact as (d & ss' & _ & _ & Hp & _). eapply pending_undecided; eauto. Qed.
