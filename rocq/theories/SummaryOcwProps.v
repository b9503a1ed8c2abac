(** Theorems about the summary pallet's offchain workers and what validators sign: C81, C82, C83, C84. *)
From Verif Require Import Base BaseLemmas CodecModel CodecProofs BridgeModel HttpModel HttpProofs OcwModel AvnModel AvnProofs SummaryModel SummarySpec SummaryProofs SummaryProofs2 SummaryProps
  SummaryOcwModel SummaryOcwSpec SummaryOcwProofs SummaryOcwProofs2 SummaryOcwProofs3 SummaryOcwProofs4 SummaryOcwProofs5.

(** ** C81: honest nodes and true roots *)

(** Whatever the others sign and submit: every counted vote of an honest validator says whether the root it is about is the true one. *)
Theorem C81_honest_votes_are_true cfg i A K truth vs p v s f ops a rid b :
  genesis vs p v = Some s -> f i = s -> keys_of_honest A K vs -> roots_are_words truth ->
  honest_history cfg A K truth (mkWorld f []) ops -> Forall (on_chain i) ops ->
  let s' := w_chain (wrun cfg (mkWorld f []) ops) i in
  In (EvVoteAdded a rid b) (s_events s') -> A a ->
  exists d, s_roots s' !! rid = Some d /\ (b = true <-> rd_hash d = truth (fst (fst rid)) (snd (fst rid))).
Proof.
  intros Hg Hf Hk Hw Hh Hc s' Hin Ha. pose proof (WInv_genesis cfg i A K truth vs p v s f Hg Hk Hf) as HW.
  apply (WInv_run _ _ _ _ _ ops) in HW as [HC _]; auto. fold s' in HC. destruct (C_ballots _ _ _ _ _ HC a rid b Hin Ha) as (d & Hd & ->). exists d. split; [exact Hd|]. apply N.eqb_eq.
Qed.
Print Assumptions C81_honest_votes_are_true.

Lemma in_yes a rid evs : In a (yes_votes rid evs) -> In (EvVoteAdded a rid true) evs.
Proof.
  unfold yes_votes. intros H. apply elem_of_list_In, elem_of_list_omap in H as (e & He & E). destruct e as [|w r [] | | | | | | | | | |]; try discriminate.
  destruct (decide (r = rid)) as [->|]; [|discriminate]. apply (inj Some) in E. subst w. now apply elem_of_list_In.
Qed.
Lemma in_no a rid evs : In a (no_votes rid evs) -> In (EvVoteAdded a rid false) evs.
Proof.
  unfold no_votes. intros H. apply elem_of_list_In, elem_of_list_omap in H as (e & He & E). destruct e as [|w r [] | | | | | | | | | |]; try discriminate.
  destruct (decide (r = rid)) as [->|]; [|discriminate]. apply (inj Some) in E. subst w. now apply elem_of_list_In.
Qed.

(** A root that is not the true one is approved only if as many validators as the threshold demands, all of them different and none of them honest, voted for it. *)
Theorem C81_false_root_needs_dishonest_quorum cfg i A K truth vs p v s f ops rid h :
  genesis vs p v = Some s -> f i = s -> keys_of_honest A K vs -> roots_are_words truth ->
  honest_history cfg A K truth (mkWorld f []) ops -> Forall (on_chain i) ops ->
  let s' := w_chain (wrun cfg (mkWorld f []) ops) i in
  In (EvRootValidated rid h) (s_events s') -> h <> truth (fst (fst rid)) (snd (fst rid)) ->
  exists ss, s_votes s' !! rid = Some ss /\ ss_threshold ss <= N.of_nat (length (yes_votes rid (s_events s'))) /\ 1 <= ss_threshold ss /\
    NoDup (yes_votes rid (s_events s')) /\ forall a, In a (yes_votes rid (s_events s')) -> ~ A a.
Proof.
  intros Hg Hf Hk Hw Hh Hc s' Hin Hne. pose proof (C81_honest_votes_are_true cfg i A K truth vs p v s f ops) as Hv. cbv zeta in Hv. fold s' in Hv.
  pose proof (WInv_genesis cfg i A K truth vs p v s f Hg Hk Hf) as HW. apply (WInv_run _ _ _ _ _ ops) in HW as [HC _]; auto. fold s' in HC. destruct (C_all _ _ _ _ _ HC) as (HI & _ & HJ).
  destruct (I_validated_root _ _ HI _ _ Hin) as (d & ss & Hd & Eh & Hss & Happ & _). exists ss. split; [exact Hss|]. destruct (J_tally _ HJ _ _ Hss) as [Et _].
  unfold is_approved in Happ. apply N.leb_le in Happ. rewrite Et, rev_length in Happ. split; [exact Happ|]. destruct (I_session _ _ HI _ _ Hss) as [Hnd H1]. split; [exact H1|]. split.
  - apply NoDup_app in Hnd as [Hnd _]. rewrite Et in Hnd. apply NoDup_ListNoDup in Hnd. apply List.NoDup_rev in Hnd. rewrite rev_involutive in Hnd. now apply NoDup_ListNoDup.
  - intros a Ha HAa. apply in_yes in Ha. destruct (Hv a rid true) as (d' & Hd' & Hiff); auto. assert (d' = d) as -> by congruence. apply Hne. rewrite <- Eh. now apply Hiff.
Qed.
Print Assumptions C81_false_root_needs_dishonest_quorum.

(** Who is reported for a summary, and for what: at the end of an approving vote exactly those who voted against; at the end of any other vote exactly those who voted for, and the creator. *)
Theorem C81_offences_exact c vs p v s ops k l :
  genesis vs p v = Some s -> let s' := run c s ops in In (EvOffence k l) (s_events s') ->
  match k with
  | RejectedValidRoot => exists rid, In (EvVotingEnded rid true) (s_events s') /\ l = rev (no_votes rid (s_events s'))
  | ApprovedInvalidRoot => exists rid, In (EvVotingEnded rid false) (s_events s') /\ l = rev (yes_votes rid (s_events s'))
  | CreatedInvalidRoot => exists rid d cr, In (EvVotingEnded rid false) (s_events s') /\ s_roots s' !! rid = Some d /\ rd_added_by d = Some cr /\ l = [cr]
  | SlotNotAdvanced | NoSummaryCreated => True
  end.
Proof.
  intros Hg s' Hin. pose proof (blame_run c vs p v s ops Hg k l Hin) as Hb. destruct (reach_AllInv c _ _ _ _ ops Hg) as (_ & _ & HJ). fold s' in HJ, Hb. destruct k; auto; cbn in Hb.
  - destruct Hb as (rid & ss & He & Hss & ->). exists rid. split; [exact He|]. apply (J_tally _ HJ _ _ Hss).
  - destruct Hb as (rid & ss & He & Hss & ->). exists rid. split; [exact He|]. apply (J_tally _ HJ _ _ Hss).
Qed.
Print Assumptions C81_offences_exact.

(** No honest validator is reported for voting against a root unless a false root was approved. *)
Theorem C81_honest_not_blamed_for_rejecting cfg i A K truth vs p v s f ops l a :
  genesis vs p v = Some s -> f i = s -> keys_of_honest A K vs -> roots_are_words truth ->
  honest_history cfg A K truth (mkWorld f []) ops -> Forall (on_chain i) ops ->
  let s' := w_chain (wrun cfg (mkWorld f []) ops) i in
  In (EvOffence RejectedValidRoot l) (s_events s') -> In a l -> A a ->
  exists rid d, s_roots s' !! rid = Some d /\ In (EvVotingEnded rid true) (s_events s') /\ rd_hash d <> truth (fst (fst rid)) (snd (fst rid)).
Proof.
  intros Hg Hf Hk Hw Hh Hc s' Hin Hal Ha.
  assert (Es : s' = run (wc_pallet (cfg i)) s (chain_ops cfg i (mkWorld f []) ops)) by (unfold s'; rewrite chain_run; cbn; now rewrite Hf).
  pose proof Hin as Hin'. rewrite Es in Hin'. apply (C81_offences_exact _ vs p v s _ _ _ Hg) in Hin' as (rid & He & ->). rewrite <- Es in He, Hal.
  apply in_rev, in_no in Hal. destruct (C81_honest_votes_are_true cfg i A K truth vs p v s f ops a rid false) as (d & Hd & Hiff); auto. exists rid, d. split; [exact Hd|]. split; [exact He|].
  intros E. apply Hiff in E. discriminate.
Qed.
Print Assumptions C81_honest_not_blamed_for_rejecting.

(** The roots recorded in the name of honest validators are true.  Partial: only for histories in which the schedule period is not changed while a root awaits approval; see the refutation. *)
Theorem C81_honest_roots_are_true_partial cfg i A K truth vs p v s f ops rid h a :
  genesis vs p v = Some s -> f i = s -> keys_of_honest A K vs -> roots_are_words truth ->
  honest_history cfg A K truth (mkWorld f []) ops -> Forall (on_chain i) ops -> calm_world cfg i (mkWorld f []) ops ->
  let s' := w_chain (wrun cfg (mkWorld f []) ops) i in
  In (EvSummaryCalculated rid h a) (s_events s') -> A a -> h = truth (fst (fst rid)) (snd (fst rid)).
Proof.
  intros Hg Hf Hk Hw Hh Hc Hcalm s' Hin Ha. pose proof (WInv_genesis cfg i A K truth vs p v s f Hg Hk Hf) as HW. pose proof (RInv_genesis cfg i A K truth vs p v s f Hg Hf) as HR.
  apply (RInv_run _ _ _ _ _ ops) in HR; auto. eapply (R_made _ _ _ _ _ _ HR); eauto.
Qed.
Print Assumptions C81_honest_roots_are_true_partial.

(** A worker sends at most one vote per block, only on roots whose vote is open, that its validator has not voted on and whose lock is free. *)
Theorem C81_one_vote_per_run w n s v r : worker w n s = Some (v, r) ->
  (length (List.filter is_vote (o_sent r)) <= 1)%nat /\
  forall rid b, In (CVote rid b) (o_signed r) -> n_locked n (vote_lock w rid) = false /\
    exists ss d, s_votes s !! rid = Some ss /\ s_roots s !! rid = Some d /\ s_pending s !! fst rid = Some (snd rid) /\ rd_validated d = false /\ s_block s < ss_end ss /\
      ~ In (v_account v) (ss_ayes ss ++ ss_nays ss).
Proof.
  intros Ew. split; [now apply (worker_one_vote w n s v)|]. intros rid b Hin. apply (worker_signed _ _ _ _ _ _ Ew) in Hin as (d & ss & h & _ & Hd & Hss & _ & _ & Hnv & Hact & Hl).
  split; [exact Hl|]. apply active_facts in Hact as (d' & ss' & Hd' & Hval & Hp & Hss' & Hlt). exists ss, d. assert (d' = d) as -> by congruence. assert (ss' = ss) as -> by congruence.
  repeat (split; [assumption|]). rewrite <- has_voted_in. congruence.
Qed.
Print Assumptions C81_one_vote_per_run.

(** *** Concrete histories *)
Definition ex_truth (from to : N) : N := (from * 1000 + to + 1) mod 256 ^ 32.
Definition ex_node (k : N) : node :=
  mkNode [k] (fun f t => Some (hex_encode (be_bytes 32 (ex_truth f t)))) true (fun _ => true) (fun _ => false) map_to_list.
Definition ex_wcfg (i : N) : wconfig := mkWconfig 1 2 ex_cfg.
Definition ex_v (a : N) : validator := mkValidator a (a + 100).
Definition ex_world : world := mkWorld (fun _ => ex_start) [].
(** Validators 1, 2 and 3 are honest. *)
Definition ex_honest (a : N) : Prop := In a [1; 2; 3].
Definition ex_keys (k : N) : Prop := In k [101; 102; 103].
Lemma ex_keys_ok : keys_of_honest ex_honest ex_keys ex_vs.
Proof. intros v Hv Ha. unfold ex_honest, ex_keys in *. cbn in Hv. repeat destruct Hv as [<-|Hv]; cbn in *; intuition discriminate. Qed.
Lemma ex_words : roots_are_words ex_truth.
Proof. intros f t. apply N.mod_lt. discriminate. Qed.
Lemma ex_truthful k : truthful ex_truth (ex_node k).
Proof. intros f t r E _. apply (inj Some) in E. now symmetry. Qed.
Ltac honest_step :=
  match goal with
  | |- allowed _ _ _ _ (WWorker _ _) => intros ? _ _; apply ex_truthful
  | |- allowed _ _ _ _ (WSign _ _) => unfold allowed, ex_keys; cbn; intuition discriminate
  | |- allowed _ _ _ _ (WSubmit _ _ _) => split; [vm_compute; tauto|vm_compute; auto; intuition congruence]
  | |- allowed _ _ _ _ (WChain _ _) => split; [reflexivity|discriminate]
  end.
Ltac honest_ops := repeat (split; [honest_step|]); exact I.

(** Validator 1 advances the first slot, validator 2 records the root of 0..30, the dishonest validator 4 votes against it, validators 1 and 3 vote for it. *)
Definition ex_true_root : call := CRecord 30 (ex_truth 0 30) 1.
Definition ex_wops : list wop :=
  [WChain 0 (EnvPublish (Some 77)); WChain 0 (EnvBlocks 30); WWorker 0 (ex_node 101); WSubmit 0 CAdvance (ex_v 1);
   WChain 0 (EnvBlocks 5); WWorker 0 (ex_node 102); WSubmit 0 ex_true_root (ex_v 2);
   WSign 104 (message 1 1 (CVote ex_rid false)); WSubmit 0 (CVote ex_rid false) (ex_v 4);
   WWorker 0 (ex_node 101); WSubmit 0 (CVote ex_rid true) (ex_v 1); WWorker 0 (ex_node 103); WSubmit 0 (CVote ex_rid true) (ex_v 3)].
Example C81_example :
  honest_history ex_wcfg ex_honest ex_keys ex_truth ex_world ex_wops /\ Forall (on_chain 0) ex_wops /\ calm_world ex_wcfg 0 ex_world ex_wops /\
  let s' := w_chain (wrun ex_wcfg ex_world ex_wops) 0 in
  In (EvRootValidated ex_rid (ex_truth 0 30)) (s_events s') /\ In (EvVoteAdded 3 ex_rid true) (s_events s') /\ In (EvOffence RejectedValidRoot [4]) (s_events s') /\
  In (EvSummaryCalculated ex_rid (ex_truth 0 30) 2) (s_events s').
Proof.
  split; [honest_ops|]. split; [repeat (constructor; [exact eq_refl || exact I|]); constructor|]. split.
  - repeat (split; [intros o' E; (discriminate E || (injection E as <-; discriminate))|]). exact I.
  - vm_compute. intuition.
Qed.

(** A false root: validators 4 and 5 alone, two of five, suffice to have it approved; the honest voter is reported. *)
Definition ex_wops_false : list wop :=
  [WChain 0 (EnvPublish (Some 77)); WChain 0 (EnvBlocks 30); WWorker 0 (ex_node 101); WSubmit 0 CAdvance (ex_v 1);
   WChain 0 (EnvBlocks 30); WWorker 0 (ex_node 102); WSubmit 0 CAdvance (ex_v 2); WChain 0 (EnvBlocks 30); WWorker 0 (ex_node 103); WSubmit 0 CAdvance (ex_v 3); WChain 0 (EnvBlocks 5);
   WSign 104 (message 1 3 (CRecord 30 999 1)); WSubmit 0 (CRecord 30 999 1) (ex_v 4); WWorker 0 (ex_node 101); WSubmit 0 (CVote ex_rid false) (ex_v 1);
   WSign 104 (message 1 3 (CVote ex_rid true)); WSubmit 0 (CVote ex_rid true) (ex_v 4); WSign 105 (message 1 3 (CVote ex_rid true)); WSubmit 0 (CVote ex_rid true) (ex_v 5)].
Example C81_false_root_example :
  honest_history ex_wcfg ex_honest ex_keys ex_truth ex_world ex_wops_false /\ Forall (on_chain 0) ex_wops_false /\
  let s' := w_chain (wrun ex_wcfg ex_world ex_wops_false) 0 in
  In (EvRootValidated ex_rid 999) (s_events s') /\ yes_votes ex_rid (s_events s') = [5; 4] /\ In (EvOffence RejectedValidRoot [1]) (s_events s').
Proof.
  split; [honest_ops|]. split; [repeat (constructor; [exact eq_refl || exact I|]); constructor|]. vm_compute. intuition.
Qed.

(** Negative: honest nodes are reported for a true root.  All five validators are honest, the root is true, but only one vote arrives before the end of the voting period: its creator is
    reported for an invalid root and its voter for approving one. *)
Definition all_keys (k : N) : Prop := In k [101; 102; 103; 104; 105].
Definition ex_wops_few : list wop :=
  [WChain 0 (EnvBlocks 30); WWorker 0 (ex_node 101); WSubmit 0 CAdvance (ex_v 1); WChain 0 (EnvBlocks 5); WWorker 0 (ex_node 102); WSubmit 0 ex_true_root (ex_v 2);
   WWorker 0 (ex_node 101); WSubmit 0 (CVote ex_rid true) (ex_v 1); WChain 0 (EnvBlocks 30); WWorker 0 (ex_node 103); WSubmit 0 (CEnd ex_rid) (ex_v 3)].
Theorem C81_honest_never_reported_refuted :
  exists cfg i A K truth vs p v s f ops, genesis vs p v = Some s /\ f i = s /\ keys_of_honest A K vs /\ roots_are_words truth /\
    honest_history cfg A K truth (mkWorld f []) ops /\ Forall (on_chain i) ops /\ calm_world cfg i (mkWorld f []) ops /\ (forall x, In x vs -> A (v_account x)) /\
    let s' := w_chain (wrun cfg (mkWorld f []) ops) i in
    exists rid d, s_roots s' !! rid = Some d /\ rd_hash d = truth (fst (fst rid)) (snd (fst rid)) /\ no_votes rid (s_events s') = [] /\
      In (EvOffence CreatedInvalidRoot [2]) (s_events s') /\ In (EvOffence ApprovedInvalidRoot [1]) (s_events s').
Proof.
  exists ex_wcfg, 0, (fun _ => True), all_keys, ex_truth, ex_vs, 30, 25, ex_start, (fun _ => ex_start), ex_wops_few.
  split; [reflexivity|]. split; [reflexivity|]. split; [intros x Hx _; unfold all_keys; cbn in *; repeat destruct Hx as [<-|Hx]; cbn; tauto|]. split; [exact ex_words|].
  split; [honest_ops|]. split; [repeat (constructor; [exact eq_refl || exact I|]); constructor|].
  split; [repeat (split; [intros o' E; (discriminate E || (injection E as <-; discriminate))|]); exact I|]. split; [auto|].
  cbv zeta. exists ex_rid, (mkRootData (ex_truth 0 30) (Some 2) false false None). vm_compute. intuition.
Qed.
Print Assumptions C81_honest_never_reported_refuted.

(** Negative: what a voter signs names the root by its range and its number, not by its hash.  On a fork of the chain on which a false root with the same number is recorded the signatures of
    the honest votes for the true root count for the false one, and it is approved by the votes of honest validators alone. *)
Definition fork_honest (a : N) : Prop := In a [1; 3; 4; 5].
Definition fork_keys (k : N) : Prop := In k [101; 103; 104; 105].
Definition ex_wops_fork : list wop :=
  [WChain 0 (EnvBlocks 30); WWorker 0 (ex_node 101); WSubmit 0 CAdvance (ex_v 1); WChain 0 (EnvBlocks 5);
   WSign 102 (message 1 1 ex_true_root); WSubmit 0 ex_true_root (ex_v 2); WWorker 0 (ex_node 101); WWorker 0 (ex_node 103);
   WChain 1 (EnvPublish (Some 77)); WChain 1 (EnvBlocks 30); WSubmit 1 CAdvance (ex_v 1); WSign 102 (message 1 1 (CRecord 30 999 1)); WSubmit 1 (CRecord 30 999 1) (ex_v 2);
   WSubmit 1 (CVote ex_rid true) (ex_v 1); WSubmit 1 (CVote ex_rid true) (ex_v 3)].
Theorem C81_votes_are_bound_to_the_hash_refuted :
  exists cfg A K truth vs p v s ops, genesis vs p v = Some s /\ keys_of_honest A K vs /\ roots_are_words truth /\ (forall i j, cfg i = cfg j) /\
    honest_history cfg A K truth (mkWorld (fun _ => s) []) ops /\
    let s' := w_chain (wrun cfg (mkWorld (fun _ => s) []) ops) 1 in
    exists rid h, In (EvRootValidated rid h) (s_events s') /\ h <> truth (fst (fst rid)) (snd (fst rid)) /\ forall a, In a (yes_votes rid (s_events s')) -> A a.
Proof.
  exists ex_wcfg, fork_honest, fork_keys, ex_truth, ex_vs, 30, 25, ex_start, ex_wops_fork.
  split; [reflexivity|]. split; [intros x Hx Ha; unfold fork_honest, fork_keys in *; cbn in *; repeat destruct Hx as [<-|Hx]; cbn in *; intuition discriminate|]. split; [exact ex_words|]. split; [reflexivity|].
  split. { unfold fork_keys. honest_ops. }
  cbv zeta. exists ex_rid, 999. split; [vm_compute; intuition|]. split; [vm_compute; discriminate|].
  assert (E : yes_votes ex_rid (s_events (w_chain (wrun ex_wcfg (mkWorld (fun _ => ex_start) []) ex_wops_fork) 1)) = [3; 1]) by (vm_compute; reflexivity).
  rewrite E. unfold fork_honest. cbn. intuition.
Qed.
Print Assumptions C81_votes_are_bound_to_the_hash_refuted.

(** Negative: the hypothesis that submissions carry the registered key of the validator they name is one the code does not enforce (C23).  Without it anybody votes for everybody: here a
    vote of the honest validator 3 against the true root. *)
Theorem C81_registered_keys_enforced_refuted :
  exists cfg i A K truth vs p v s f ops who rid d, genesis vs p v = Some s /\ f i = s /\ keys_of_honest A K vs /\ roots_are_words truth /\
    honest_history cfg A K truth (mkWorld f []) ops /\ Forall (on_chain i) ops /\ A (v_account who) /\ ~ K (v_key who) /\
    let s' := w_chain (wstep cfg (wrun cfg (mkWorld f []) ops) (WSubmit i (CVote rid false) who)) i in
    s_roots s' !! rid = Some d /\ rd_hash d = truth (fst (fst rid)) (snd (fst rid)) /\ In (EvVoteAdded (v_account who) rid false) (s_events s').
Proof.
  exists ex_wcfg, 0, ex_honest, ex_keys, ex_truth, ex_vs, 30, 25, ex_start, (fun _ => ex_start), (take 7 ex_wops ++ [WSign 999 (message 1 1 (CVote ex_rid false))]), (mkValidator 3 999), ex_rid,
    (mkRootData (ex_truth 0 30) (Some 2) false false None).
  split; [reflexivity|]. split; [reflexivity|]. split; [exact ex_keys_ok|]. split; [exact ex_words|].
  split. { change (honest_history ex_wcfg ex_honest ex_keys ex_truth (mkWorld (fun _ => ex_start) []) [WChain 0 (EnvPublish (Some 77)); WChain 0 (EnvBlocks 30); WWorker 0 (ex_node 101); WSubmit 0 CAdvance (ex_v 1);
   WChain 0 (EnvBlocks 5); WWorker 0 (ex_node 102); WSubmit 0 ex_true_root (ex_v 2); WSign 999 (message 1 1 (CVote ex_rid false))]). honest_ops. }
  split; [repeat (constructor; [exact eq_refl || exact I|]); constructor|]. split; [unfold ex_honest; cbn; tauto|]. split; [unfold ex_keys; cbn; intuition discriminate|].
  vm_compute. intuition.
Qed.
Print Assumptions C81_registered_keys_enforced_refuted.

(** Negative: what a creator signs does not contain the first block of the range.  If the schedule period is changed while a root awaits approval, the signature of an honest creator for
    the blocks 0..80 is accepted for the blocks 31..80. *)
Definition moved_honest (a : N) : Prop := In a [1; 2; 4; 5].
Definition moved_keys (k : N) : Prop := In k [101; 102; 104; 105].
Definition ex_wops_moved : list wop :=
  [WChain 0 (EnvPublish (Some 77)); WChain 0 (EnvBlocks 30); WWorker 0 (ex_node 101); WSubmit 0 CAdvance (ex_v 1); WChain 0 (EnvBlocks 30); WWorker 0 (ex_node 102); WSubmit 0 CAdvance (ex_v 2);
   WChain 0 (EnvBlocks 25); WSign 103 (message 1 2 ex_true_root); WSubmit 0 ex_true_root (ex_v 3); WChain 0 (OpAdmin (CfgSchedule 80));
   WSign 103 (message 1 2 CAdvance); WSubmit 0 CAdvance (ex_v 3); WWorker 0 (ex_node 104);
   WWorker 0 (ex_node 101); WSubmit 0 (CVote ex_rid true) (ex_v 1); WWorker 0 (ex_node 102); WSubmit 0 (CVote ex_rid true) (ex_v 2);
   WChain 0 (OpAdmin (CfgSchedule 50)); WSubmit 0 (CRecord 80 (ex_truth 0 80) 2) (ex_v 4)].
Theorem C81_honest_roots_are_true_refuted :
  exists cfg i A K truth vs p v s f ops, genesis vs p v = Some s /\ f i = s /\ keys_of_honest A K vs /\ roots_are_words truth /\
    honest_history cfg A K truth (mkWorld f []) ops /\ Forall (on_chain i) ops /\
    let s' := w_chain (wrun cfg (mkWorld f []) ops) i in
    exists rid h a, In (EvSummaryCalculated rid h a) (s_events s') /\ A a /\ h <> truth (fst (fst rid)) (snd (fst rid)).
Proof.
  exists ex_wcfg, 0, moved_honest, moved_keys, ex_truth, ex_vs, 30, 25, ex_start, (fun _ => ex_start), ex_wops_moved.
  split; [reflexivity|]. split; [reflexivity|]. split; [intros x Hx Ha; unfold moved_honest, moved_keys in *; cbn in *; repeat destruct Hx as [<-|Hx]; cbn in *; intuition discriminate|]. split; [exact ex_words|].
  split. { unfold moved_keys. honest_ops. }
  split; [repeat (constructor; [exact eq_refl || exact I|]); constructor|].
  cbv zeta. exists (31, 80, 2), (ex_truth 0 80), 4. split; [vm_compute; intuition|]. split; [unfold moved_honest; cbn; tauto|]. vm_compute. discriminate.
Qed.
Print Assumptions C81_honest_roots_are_true_refuted.

(** ** C82: what validators sign *)

(** Two different calls never have the same signed bytes, whatever the instances and slots; and the bytes of a record or an advance determine the instance, those of an advance the slot. *)
Theorem C82_messages_distinct i i' s s' cl cl' : wf_call cl -> wf_call cl' -> s < 2 ^ 32 -> s' < 2 ^ 32 -> message i s cl = message i' s' cl' ->
  cl = cl' /\ ((exists nb h ic, cl = CRecord nb h ic) \/ cl = CAdvance -> i = i') /\ (cl = CAdvance -> s = s').
Proof.
  intros H1 H2 H3 H4 E. apply message_inj in E as (-> & Hs & Hb); auto. split; [reflexivity|]. split; [|exact Hs]. intros [(nb & h & ic & ->)| ->]; now apply Hb.
Qed.
Print Assumptions C82_messages_distinct.
Example C82_example : message 1 7 CAdvance <> message 2 7 CAdvance /\ message 1 7 CAdvance <> message 1 8 CAdvance /\ message 1 7 (CVote ex_rid true) <> message 1 7 (CVote ex_rid false).
Proof. repeat split; vm_compute; discriminate. Qed.

(** A signature takes effect at most once on a chain: if a submission has changed the chain's state, no later submission for the same validator whose signed bytes are the same changes it again,
    whatever happened in between. *)
Theorem C82_signature_effective_once cfg i vs p v s f ops1 ops2 cl cl' x x' :
  genesis vs p v = Some s -> f i = s ->
  let w1 := wrun cfg (mkWorld f []) ops1 in let w1' := wstep cfg w1 (WSubmit i cl x) in let w2 := wrun cfg w1' ops2 in let w2' := wstep cfg w2 (WSubmit i cl' x') in
  wf_call cl -> wf_call cl' -> v_account x' = v_account x ->
  message (wc_instance (cfg i)) (s_slot (w_chain w2 i)) cl' = message (wc_instance (cfg i)) (s_slot (w_chain w1 i)) cl ->
  w_chain w1' i <> w_chain w1 i -> w_chain w2' i = w_chain w2 i.
Proof.
  intros Hg Hf w1 w1' w2 w2' Hw Hw' Hacc E Hne.
  assert (E1 : w_chain w1 i = run (wc_pallet (cfg i)) s (chain_ops cfg i (mkWorld f []) ops1)) by (unfold w1; rewrite chain_run; cbn; now rewrite Hf).
  assert (HA : AllInv (wc_pallet (cfg i)) (w_chain w1 i)) by (rewrite E1; eapply reach_AllInv; eauto).
  assert (Hslots : s_slot (w_chain w1 i) < 2 ^ 32 /\ s_slot (w_chain w2 i) < 2 ^ 32).
  { assert (E2 : w_chain w2 i = run (wc_pallet (cfg i)) s (chain_ops cfg i (mkWorld f []) (ops1 ++ WSubmit i cl x :: ops2))).
    { transitivity (w_chain (wrun cfg (mkWorld f []) (ops1 ++ WSubmit i cl x :: ops2)) i); [|rewrite chain_run; cbn; now rewrite Hf]. unfold w2, w1', w1, wrun. rewrite fold_left_app. reflexivity. }
    rewrite E1, E2. split; eapply slot_word; eauto. }
  apply message_inj in E as (<- & Hslot & _); [|exact Hw'|exact Hw|apply Hslots|apply Hslots].
  unfold w2'. cbn [wstep w_chain]. rewrite set_chain_same. unfold w1' in Hne. cbn [wstep w_chain] in Hne. rewrite set_chain_same in Hne.
  set (sg := bool_decide _) in Hne.
  assert (Ew2 : w_chain w2 i = run (wc_pallet (cfg i)) (step (wc_pallet (cfg i)) (w_chain w1 i) (op_of cl' (v_account x) sg)) (chain_ops cfg i w1' ops2)).
  { unfold w2. rewrite chain_run. f_equal. unfold w1'. cbn [wstep w_chain]. rewrite set_chain_same. reflexivity. }
  rewrite Hacc. revert Hslot. rewrite Ew2. intros Hslot. apply signed_once; auto.
Qed.
Print Assumptions C82_signature_effective_once.

(** Negative: the signed bytes of votes, ends and challenges do not contain the instance.  runtime/test runs two instances of the pallet on one chain; the vote of validator 1 for the true root on
    the first is accepted as its vote for another root, recorded with the same range and number, on the second. *)
Definition two_instances (i : N) : wconfig := mkWconfig (i + 1) 2 ex_cfg.
Definition ex_wops_instances : list wop :=
  [WChain 0 (EnvBlocks 30); WWorker 0 (ex_node 101); WSubmit 0 CAdvance (ex_v 1); WChain 0 (EnvBlocks 5);
   WSign 102 (message 1 1 ex_true_root); WSubmit 0 ex_true_root (ex_v 2); WWorker 0 (ex_node 101);
   WChain 1 (EnvBlocks 30); WWorker 1 (ex_node 101); WSubmit 1 CAdvance (ex_v 1); WChain 1 (EnvBlocks 5); WSign 102 (message 2 1 (CRecord 30 999 1)); WSubmit 1 (CRecord 30 999 1) (ex_v 2);
   WSubmit 1 (CVote ex_rid true) (ex_v 1)].
Theorem C82_votes_are_bound_to_the_instance_refuted :
  exists cfg A K truth vs p v s ops, genesis vs p v = Some s /\ keys_of_honest A K vs /\ roots_are_words truth /\ wc_instance (cfg 0) <> wc_instance (cfg 1) /\
    honest_history cfg A K truth (mkWorld (fun _ => s) []) ops /\
    let s' := w_chain (wrun cfg (mkWorld (fun _ => s) []) ops) 1 in
    exists rid d a, s_roots s' !! rid = Some d /\ rd_hash d <> truth (fst (fst rid)) (snd (fst rid)) /\ A a /\ In (EvVoteAdded a rid true) (s_events s').
Proof.
  exists two_instances, fork_honest, fork_keys, ex_truth, ex_vs, 30, 25, ex_start, ex_wops_instances.
  split; [reflexivity|]. split; [intros x Hx Ha; unfold fork_honest, fork_keys in *; cbn in *; repeat destruct Hx as [<-|Hx]; cbn in *; intuition discriminate|]. split; [exact ex_words|]. split; [discriminate|].
  split. { unfold fork_keys. honest_ops. }
  cbv zeta. exists ex_rid, (mkRootData 999 (Some 2) false false None), 1. split; [vm_compute; reflexivity|]. split; [vm_compute; discriminate|]. split; [unfold fork_honest; cbn; tauto|]. vm_compute. intuition.
Qed.
Print Assumptions C82_votes_are_bound_to_the_instance_refuted.

(** ** C83: what becomes of the workers' submissions *)

(** Whatever a worker signs is accepted by the pool's validation on the state the worker saw. *)
Theorem C83_submissions_pass_validation c vs p v s0 ops inst age n x r cl :
  genesis vs p v = Some s0 -> let s := run c s0 ops in let w := mkWconfig inst age c in faithful_iter n ->
  worker w n s = Some (x, r) -> In cl (o_signed r) -> validate_unsigned (op_of cl (v_account x) true) s = true.
Proof.
  intros Hg s w Hf Ew Hin. pose proof (worker_signed _ _ _ _ _ _ Ew Hin) as Hp. destruct (worker_validator _ _ _ _ _ Ew) as [_ Hx].
  assert (Hval : is_validator (s_validators s) (v_account x) = true) by (apply is_validator_spec, in_map; exact Hx). destruct (reach_AllInv c _ _ _ _ ops Hg) as (HI & _). fold s in HI.
  destruct cl as [nb h ic|rid b|rid| |rr ch ce]; unfold op_of, validate_unsigned.
  - destruct Hp as (_ & _ & _ & Hsv & _). unfold record_validate. now rewrite Hsv, N.eqb_refl, Hval.
  - destruct Hp as (d & ss & h & _ & Hd & Hss & _ & _ & Hnv & Hact & _). rewrite Hd, Hval. unfold validate_vote, mbind_, get_st, ensure, some_or, mret_. rewrite Hval, Hact, Hss. cbv beta iota. rewrite Hnv. now destruct b.
  - destruct Hp as (ss & Hit & Hss & _). rewrite Hval. unfold session_is_valid. apply elem_of_list_In in Hit. rewrite (Hf (s_pending s)) in Hit. apply elem_of_map_to_list in Hit.
    destruct (I_pending _ _ HI _ _ Hit) as (d & Hd & Hvd). rewrite (surjective_pairing rid) in *. cbn [fst snd] in *. rewrite Hd, Hit, Hss, Hvd, N.eqb_refl. reflexivity.
  - destruct Hp as (Hsv & _). now rewrite Hsv, N.eqb_refl, Hval.
  - destruct Hp as (-> & _). now rewrite Hval.
Qed.
Print Assumptions C83_submissions_pass_validation.

(** A record succeeds at once, unless a counter is at its end. *)
Theorem C83_record_accepted c vs p v s0 ops inst age n x r nb h ic :
  genesis vs p v = Some s0 -> let s := run c s0 ops in let w := mkWconfig inst age c in
  worker w n s = Some (x, r) -> In (CRecord nb h ic) (o_signed r) -> s_ingress s + 1 < 2 ^ 64 -> s_block s + s_voting s <= U32_MAX ->
  In (EvSummaryCalculated (s_next_block s, nb, ic) h (v_account x)) (s_events (step c s (op_of (CRecord nb h ic) (v_account x) true))).
Proof.
  intros Hg s w Ew Hin Hic Hb. pose proof (worker_signed _ _ _ _ _ _ Ew Hin) as (Ht & Hh & Ei & Hsv & _ & _ & Hn & _). destruct (worker_validator _ _ _ _ _ Ew) as [_ Hx].
  apply record_succeeds; auto; [apply (reach_AllInv c _ _ _ _ ops Hg)|apply is_validator_spec, in_map; exact Hx|]. rewrite Ei. now apply N.mod_small.
Qed.
Print Assumptions C83_record_accepted.

(** A vote is counted at once, unless there are 256 votes already, or it completes the approval of a root that cannot be handed over. *)
Theorem C83_vote_accepted c vs p v s0 ops inst age n x r rid b :
  genesis vs p v = Some s0 -> let s := run c s0 ops in let w := mkWconfig inst age c in
  worker w n s = Some (x, r) -> In (CVote rid b) (o_signed r) ->
  (forall ss, s_votes s !! rid = Some ss -> N.of_nat (length (ss_ayes ss)) < 256 /\ N.of_nat (length (ss_nays ss)) < 256) ->
  (forall ss d, s_votes s !! rid = Some ss -> s_roots s !! rid = Some d -> b = true -> ss_threshold ss <= N.of_nat (length (ss_ayes ss)) + 1 -> snd (fst rid) + 1 <= U32_MAX /\ hand_over_ok c s d) ->
  In (EvVoteAdded (v_account x) rid b) (s_events (step c s (op_of (CVote rid b) (v_account x) true))).
Proof.
  intros Hg s w Ew Hin Hlen Hok. pose proof (worker_signed _ _ _ _ _ _ Ew Hin) as (d & ss & h & _ & Hd & Hss & _ & _ & Hnv & Hact & _). destruct (worker_validator _ _ _ _ _ Ew) as [_ Hx].
  destruct (Hlen _ Hss) as [H1 H2]. eapply vote_succeeds; eauto.
  - apply is_validator_spec, in_map; exact Hx.
  - eapply creators_run; eauto.
  - intros _ Happ. destruct b.
    + apply (Hok ss d); auto. unfold is_approved, cast in Happ. apply N.leb_le in Happ. cbn in Happ. rewrite app_length in Happ. cbn in Happ. lia.
    + exfalso. assert (Ha : is_approved ss = true) by exact Happ. clear -Hg Hact Ha Hss. pose proof (open_undecided c vs p v s0 ops rid ss Hg Hact Hss) as Ho. unfold has_outcome, is_approved in *. rewrite Ha in Ho. discriminate.
Qed.
Print Assumptions C83_vote_accepted.

(** The end of a vote succeeds at once, under the same condition on approved roots. *)
Theorem C83_end_accepted c vs p v s0 ops inst age n x r rid :
  genesis vs p v = Some s0 -> let s := run c s0 ops in let w := mkWconfig inst age c in faithful_iter n ->
  worker w n s = Some (x, r) -> In (CEnd rid) (o_signed r) ->
  exists b, In (EvVotingEnded rid b) (s_events (step c s (op_of (CEnd rid) (v_account x) true))) /\ ~ In rid (ended (s_events s)).
Proof.
  intros Hg s w Hf Ew Hin. pose proof (worker_signed _ _ _ _ _ _ Ew Hin) as (ss & Hit & Hss & He). destruct (worker_validator _ _ _ _ _ Ew) as [_ Hx].
  destruct (reach_AllInv c _ _ _ _ ops Hg) as (HI & _). fold s in HI.
  apply elem_of_list_In in Hit. rewrite (Hf (s_pending s)) in Hit. apply elem_of_map_to_list in Hit.
  destruct (I_pending _ _ HI _ _ Hit) as (d & Hd & Hvd). rewrite (surjective_pairing rid) in *. cbn [fst snd] in *.
  exists (is_approved ss). split.
  - eapply end_succeeds; eauto; [apply is_validator_spec, in_map; exact Hx|cbn; lia|eapply creators_run; eauto|].
    intros Ha. exfalso. pose proof (pending_undecided c vs p v s0 ops (fst rid, snd rid) ss Hg Hit Hss) as Ho. unfold has_outcome, is_approved in *. rewrite Ha in Ho. discriminate.
  - intros Hen. apply (I_ended _ _ HI) in Hen as [Hen _]. contradiction.
Qed.
Print Assumptions C83_end_accepted.

(** Ending a vote by transaction never approves a root: approvals come only from the vote that reaches the threshold. *)
Theorem C83_end_never_approves c vs p v s0 ops o rid :
  genesis vs p v = Some s0 -> let s := run c s0 ops in let s' := step c s o in
  In (EvVotingEnded rid true) (s_events s') -> ~ In (EvVotingEnded rid true) (s_events s) -> exists who, o = OpVote rid who true true.
Proof.
  intros Hg s s' Hin Hnin. pose proof (undecided_run c vs p v s0 ops Hg) as HU. fold s in HU. destruct (reach_AllInv c _ _ _ _ ops Hg) as (HI & HT & _). fold s in HT, HI.
  destruct (step_effect c s o HT) as [E|He]; [exfalso; apply Hnin; unfold s' in Hin; now rewrite E in Hin|].
  fold s' in He. clearbody s'.
  destruct He as [HS Hsch | nb h ic who sg -> H | rid' who agree sg w s2 -> -> Hvd Hact Hv Hnv Hend -> | rid' who sg -> H | who [sg ->] H | who r ch ce sg s1 s2 -> -> H -> ].
  - exfalso. destruct (SC_events _ _ HS) as (new & En & Hq). rewrite En in Hin. apply in_app_iff in Hin as [Hin|Hin]; [|auto]. rewrite forallb_forall in Hq. apply Hq in Hin. discriminate.
  - exfalso. apply record_summary_ok in H as (_ & _ & _ & _ & _ & _ & _ & ->). destruct Hin as [|Hin]; [discriminate|auto].
  - destruct Hin as [|Hin]; [discriminate|]. destruct Hend as [[-> _]|Hend]; [contradiction|].
    assert (Hrid : rid' = rid /\ is_approved (cast w who agree) = true).
    { apply end_effect in Hend as (d & v' & rest & Hd & Hval & Hp & Hv' & Hout & _ & _ & _ & _ & _ & _ & _ & Eev & Hq). cbn in Hv'. rewrite lookup_insert in Hv'. apply (inj Some) in Hv'. subst v'.
      rewrite Eev in Hin. unfold end_block in Hin. destruct Hin as [E|Hin]; [injection E as -> ->; auto|]. exfalso.
      apply in_app_iff in Hin as [Hin|Hin]; [destruct (is_approved _); [destruct Hin as [|[]]; discriminate|destruct Hin]|]. apply in_app_iff in Hin as [Hin|Hin]; [|contradiction]. rewrite forallb_forall in Hq. apply Hq in Hin. discriminate. }
    destruct Hrid as [-> Happ]. destruct agree; [eauto|]. exfalso. apply active_facts in Hact as (d & w' & _ & _ & Hp & Hv' & _). specialize (HU rid w' Hp Hv'). assert (w' = w) as -> by congruence.
    unfold has_outcome in HU. apply orb_false_iff in HU as [HU _]. change (is_approved w = true) in Happ. unfold is_approved in Happ. congruence.
  - exfalso. apply end_voting_ok in H as (d & w & s1 & _ & _ & Hp & Hv & _ & H). pose proof (HU _ _ Hp Hv) as Ho. unfold has_outcome in Ho. apply orb_false_iff in Ho as [Ho _].
    unfold is_approved in H. rewrite Ho in H. destruct H as (cr & _ & ->). cbn in Hin. destruct Hin as [|[|[|Hin]]]; try discriminate. auto.
  - exfalso. apply update_slot_ok in H as (sv & nv & _ & _ & _ & _ & _ & _ & _ & ->). destruct Hin as [|Hin]; [discriminate|]. apply in_app_iff in Hin as [Hin|Hin]; [|auto].
    destruct (_ <? _); [|destruct Hin]. destruct Hin as [|[|[]]]; discriminate.
  - exfalso. apply update_slot_ok in H as (sv & nv & _ & _ & _ & _ & _ & _ & _ & ->). destruct Hin as [|[|Hin]]; try discriminate. apply in_app_iff in Hin as [Hin|[|Hin]]; [|discriminate|auto].
    destruct (_ <? _); [|destruct Hin]. destruct Hin as [|[|[]]]; discriminate.
Qed.
Print Assumptions C83_end_never_approves.

(** Negative: if an approved root cannot be handed over (here the bridge refuses it), the deciding vote is rolled back.  When the bridge does not recover before the end of the voting period, the
    true root is rejected, its creator and its voters are reported, although enough honest validators voted for it. *)
Definition ex_wops_refused : list wop :=
  [WChain 0 (EnvBlocks 30); WWorker 0 (ex_node 101); WSubmit 0 CAdvance (ex_v 1); WChain 0 (EnvBlocks 5); WWorker 0 (ex_node 102); WSubmit 0 ex_true_root (ex_v 2);
   WWorker 0 (ex_node 101); WSubmit 0 (CVote ex_rid true) (ex_v 1); WWorker 0 (ex_node 103); WSubmit 0 (CVote ex_rid true) (ex_v 3);
   WWorker 0 (ex_node 104); WSubmit 0 (CVote ex_rid true) (ex_v 4); WWorker 0 (ex_node 105); WSubmit 0 (CVote ex_rid true) (ex_v 5);
   WChain 0 (EnvBlocks 30); WWorker 0 (ex_node 103); WSubmit 0 (CEnd ex_rid) (ex_v 3)].
Theorem C83_enough_votes_approve_refuted :
  exists cfg i A K truth vs p v s f ops, genesis vs p v = Some s /\ f i = s /\ keys_of_honest A K vs /\ roots_are_words truth /\
    honest_history cfg A K truth (mkWorld f []) ops /\ Forall (on_chain i) ops /\ calm_world cfg i (mkWorld f []) ops /\ (forall x, In x vs -> A (v_account x)) /\
    let s' := w_chain (wrun cfg (mkWorld f []) ops) i in
    exists rid d, s_roots s' !! rid = Some d /\ rd_hash d = truth (fst (fst rid)) (snd (fst rid)) /\ In (EvVotingEnded rid false) (s_events s') /\
      (forall x, In x [1; 3; 4; 5] -> In (WSubmit i (CVote rid true) (ex_v x)) ops) /\ yes_votes rid (s_events s') = [1] /\
      In (EvOffence CreatedInvalidRoot [2]) (s_events s') /\ In (EvOffence ApprovedInvalidRoot [1]) (s_events s').
Proof.
  exists ex_wcfg, 0, (fun _ => True), all_keys, ex_truth, ex_vs, 30, 25, ex_start, (fun _ => ex_start), ex_wops_refused.
  split; [reflexivity|]. split; [reflexivity|]. split; [intros x Hx _; unfold all_keys; cbn in *; repeat destruct Hx as [<-|Hx]; cbn; tauto|]. split; [exact ex_words|].
  split; [honest_ops|]. split; [repeat (constructor; [exact eq_refl || exact I|]); constructor|].
  split; [repeat (split; [intros o' E; (discriminate E || (injection E as <-; discriminate))|]); exact I|]. split; [auto|].
  cbv zeta. exists ex_rid, (mkRootData (ex_truth 0 30) (Some 2) false false None). split; [vm_compute; reflexivity|]. split; [vm_compute; reflexivity|]. split; [vm_compute; intuition|].
  split; [|vm_compute; intuition]. intros x [<-|[<-|[<-|[<-|[]]]]]; unfold ex_wops_refused; cbn [In]; tauto.
Qed.
Print Assumptions C83_enough_votes_approve_refuted.

(** A worker's advance succeeds exactly if the grace period is not over; after it, it is refused, but the worker keeps submitting it. *)
Theorem C83_advance_accepted_iff_in_grace c vs p v s0 ops inst age n x r :
  genesis vs p v = Some s0 -> let s := run c s0 ops in let w := mkWconfig inst age c in
  worker w n s = Some (x, r) -> In CAdvance (o_signed r) -> s_slot s + 1 <= U32_MAX -> s_next_slot_at s + s_schedule s <= U32_MAX ->
  let s' := step c s (op_of CAdvance (v_account x) true) in
  (s_slot s' = s_slot s + 1 <-> s_block s - s_next_slot_at s <= c_grace c) /\ (c_grace c < s_block s - s_next_slot_at s -> s' = s).
Proof.
  intros Hg s w Ew Hin H1 H2 s'. pose proof (worker_signed _ _ _ _ _ _ Ew Hin) as (Hsv & Hb & _). destruct (worker_validator _ _ _ _ _ Ew) as [_ Hx].
  assert (Hval : is_validator (s_validators s) (v_account x) = true) by (apply is_validator_spec, in_map; exact Hx).
  assert (Eg : grace_elapsed c s (s_block s) = (c_grace c <? s_block s - s_next_slot_at s)).
  { unfold grace_elapsed, safe_sub, checked_sub. now destruct (N.leb_spec (s_next_slot_at s) (s_block s)); [|lia]. }
  destruct (N.ltb_spec (c_grace c) (s_block s - s_next_slot_at s)) as [Hl|Hl].
  - assert (E : s' = s) by (apply advance_fails; auto). split; [|auto]. rewrite E. split; lia.
  - split; [|lia]. split; [auto|]. intros _. apply advance_succeeds; auto.
Qed.
Print Assumptions C83_advance_accepted_iff_in_grace.

(** A worker's challenge succeeds exactly if the worker's validator is not the one whose slot it is. *)
Theorem C83_challenge_accepted_iff_other c vs p v s0 ops inst age n x r rr ch ce :
  genesis vs p v = Some s0 -> let s := run c s0 ops in let w := mkWconfig inst age c in
  worker w n s = Some (x, r) -> In (CChallenge rr ch ce) (o_signed r) -> s_slot s + 1 <= U32_MAX -> s_next_slot_at s + s_schedule s <= U32_MAX ->
  let s' := step c s (op_of (CChallenge rr ch ce) (v_account x) true) in
  (s_slot s' = s_slot s + 1 <-> Some (v_account x) <> s_slot_validator s) /\ (Some (v_account x) <> s_slot_validator s -> In (EvChallengeAdded (v_account x) ce) (s_events s')).
Proof.
  intros Hg s w Ew Hin H1 H2 s'. pose proof (worker_signed _ _ _ _ _ _ Ew Hin) as (-> & -> & Hsv & Hp & Hgr & _). destruct (worker_validator _ _ _ _ _ Ew) as [_ Hx].
  assert (Hval : is_validator (s_validators s) (v_account x) = true) by (apply is_validator_spec, in_map; exact Hx). fold s in Hsv. rewrite Hsv.
  destruct (N.eq_dec (v_account x) ce) as [<-|Hne].
  - assert (E : s' = s) by (apply challenge_fails; auto). split; [|intros []; reflexivity]. rewrite E. split; [lia|intros []; reflexivity].
  - destruct (challenge_succeeds c (v_account x) ce (v_account x) s) as [E1 E2]; auto. split; [|intros _; exact E2]. split; [congruence|intros _; exact E1].
Qed.
Print Assumptions C83_challenge_accepted_iff_other.

(** ** C84: slots and votes do not get stuck *)

(** If a slot is overdue and there are at least two validators, then in this block or the next the challenge falls to a validator other than the slot's; if that validator's node works, its worker
    challenges and the challenge advances the slot. *)
Theorem C84_overdue_slot_challenged c vs p v s0 ops inst age :
  genesis vs p v = Some s0 -> let s := run c s0 ops in let w := mkWconfig inst age c in
  NoDup (map v_account (s_validators s)) -> (2 <= length (s_validators s))%nat -> s_slot_validator s <> None -> c_grace c < s_block s - s_next_slot_at s ->
  s_slot s + 1 <= U32_MAX -> s_next_slot_at s + s_schedule s <= U32_MAX ->
  exists k x sv, k <= 1 /\ In x (s_validators s) /\ s_slot_validator s = Some sv /\ v_account x <> sv /\
    let s1 := step c s (EnvBlocks k) in
    forall n, local_validator n s1 = Some x -> able n -> n_locked n (lock_name (ChallengeLock inst (s_slot s) (v_account x) sv)) = false ->
      exists r cl, worker w n s1 = Some (x, r) /\ In cl (o_sent r) /\ s_slot (step c s1 (op_of cl (v_account x) true)) = s_slot s + 1.
Proof.
  intros Hg s w Hnd Hlen Hsv Hgr H1 H2. destruct (s_slot_validator s) as [sv|] eqn:Esv; [|congruence].
  assert (Hne : s_validators s <> []) by (intros E; rewrite E in Hlen; cbn in Hlen; lia).
  destruct (primary_exists (s_validators s) (s_block s) Hne) as (x0 & Hx0 & Hp0). destruct (primary_exists (s_validators s) (s_block s + 1) Hne) as (x1 & Hx1 & Hp1).
  pose proof (primary_next _ _ _ _ Hnd Hlen Hp0 Hp1) as Hdiff.
  assert (Hgo : forall k x, In x (s_validators s) -> primary_for_block (s_validators s) (s_block s + k) = Ok (v_account x) -> v_account x <> sv ->
    let s1 := step c s (EnvBlocks k) in
    forall n, local_validator n s1 = Some x -> able n -> n_locked n (lock_name (ChallengeLock inst (s_slot s) (v_account x) sv)) = false ->
      exists r cl, worker w n s1 = Some (x, r) /\ In cl (o_sent r) /\ s_slot (step c s1 (op_of cl (v_account x) true)) = s_slot s + 1).
  { intros k x Hx Hp Hnx s1 n Hl Hab Hlk. assert (Eg : grace_elapsed c s1 (s_block s1) = true).
    { unfold grace_elapsed, safe_sub, checked_sub. change (s_next_slot_at s1) with (s_next_slot_at s). change (s_block s1) with (s_block s + k).
      destruct (N.leb_spec (s_next_slot_at s) (s_block s + k)); [|lia]. apply N.ltb_lt. lia. }
    destruct (worker_parts w n s1 x Hl) as (r & Ew & Hr). exists r, (CChallenge (Some (s_slot s1)) (v_account x) sv). split; [exact Ew|]. split.
    - apply Hr. do 4 right. apply challenge_sent; auto.
    - apply (challenge_succeeds c (v_account x) sv (v_account x) s1); auto. apply is_validator_spec, in_map. exact Hx. }
  destruct (N.eq_dec (v_account x0) sv) as [E|Hn0].
  - exists 1, x1, sv. split; [lia|]. split; [exact Hx1|]. split; [reflexivity|]. split; [congruence|]. apply Hgo; auto. congruence.
  - exists 0, x0, sv. split; [lia|]. split; [exact Hx0|]. split; [reflexivity|]. split; [exact Hn0|]. apply Hgo; auto. now rewrite N.add_0_r.
Qed.
Print Assumptions C84_overdue_slot_challenged.

(** Negative: a chain with a single validator that misses the grace period once never leaves the slot again and never records another summary, whatever the nodes and anybody else do, until an
    administrator changes the schedule or there are other validators. *)
Theorem C84_overdue_slot_ends_refuted c vs p v s0 ops a x :
  genesis vs p v = Some s0 -> let s := run c s0 ops in
  s_validators s = [x] -> v_account x = a -> s_slot_validator s = Some a -> c_grace c < s_block s - s_next_slot_at s ->
  forall ops', Forall (fun o => changes_schedule o = false /\ forall vs', o = EnvValidators vs' -> vs' = [x]) ops' ->
    let s' := run c s ops' in s_slot s' = s_slot s /\
    forall inst age n y r nb h ic, worker (mkWconfig inst age c) n s' = Some (y, r) -> ~ In (CRecord nb h ic) (o_signed r).
Proof.
  intros Hg s Hv Ha Hsv Hgr ops' Hf s'.
  assert (HS : stuck c a (s_slot s) s).
  { split; [exact Hsv|]. split; [|split; [reflexivity|]].
    - unfold grace_elapsed, safe_sub, checked_sub. destruct (N.leb_spec (s_next_slot_at s) (s_block s)); [|lia]. now apply N.ltb_lt.
    - rewrite Hv. intros y [<-|[]]. exact Ha. }
  apply (stuck_run c a (s_slot s) ops') in HS.
  - fold s' in HS. split; [apply HS|]. intros inst age n y r nb h ic Ew Hin. apply (worker_signed _ _ _ _ _ _ Ew) in Hin as (_ & _ & _ & _ & Hlt & _).
    destruct HS as (_ & Hge & _). apply grace_late in Hge. lia.
  - apply (reach_AllInv c _ _ _ _ ops Hg).
  - eapply Forall_impl; [exact Hf|]. intros o [H1 H2]. split; [exact H1|]. intros vs' E y Hy. apply H2 in E. subst vs'. destruct Hy as [<-|[]]. exact Ha.
Qed.
Print Assumptions C84_overdue_slot_ends_refuted.
Definition one_start : st := match genesis [ex_v 1] 30 25 with Some s => s | None => ex_start end.
Example C84_single_example : let s := run ex_cfg one_start [EnvBlocks 41] in
  genesis [ex_v 1] 30 25 = Some one_start /\ s_validators s = [ex_v 1] /\ s_slot_validator s = Some 1 /\ c_grace ex_cfg < s_block s - s_next_slot_at s /\
  s_slot (step ex_cfg (run ex_cfg one_start [EnvBlocks 40]) (OpAdvanceSlot 1 true)) = 1 /\ step ex_cfg s (OpAdvanceSlot 1 true) = s.
Proof. vm_compute. intuition. Qed.
Example C84_challenge_example : let s := run ex_cfg ex_start [EnvBlocks 45] in
  NoDup (map v_account (s_validators s)) /\ s_slot_validator s = Some 1 /\ c_grace ex_cfg < s_block s - s_next_slot_at s /\
  primary_for_block (s_validators s) (s_block s) = Ok 1 /\ local_validator (ex_node 102) (step ex_cfg s (EnvBlocks 1)) = Some (ex_v 2) /\ able (ex_node 102).
Proof. split; [change (NoDup [1; 2; 3; 4; 5]); refine (proj1 (bool_decide_eq_true _) _); by vm_compute|]. vm_compute. intuition. Qed.

(** A worker that can sign and submit, and whose service answers, votes whenever there is an open vote its validator has not taken part in and whose lock is free. *)
Theorem C84_worker_votes w n s x rid ss d :
  local_validator n s = Some x -> able n -> faithful_iter n ->
  s_votes s !! rid = Some ss -> s_roots s !! rid = Some d -> rd_validated d = false -> s_pending s !! fst rid = Some (snd rid) -> s_block s < ss_end ss ->
  ~ In (v_account x) (ss_ayes ss ++ ss_nays ss) -> n_locked n (vote_lock w rid) = false ->
  (forall r ic, s_pending s !! r = Some ic -> exists h, compute_root n (fst r) (snd r) = Some h) ->
  exists r rid' b, worker w n s = Some (x, r) /\ In (CVote rid' b) (o_sent r).
Proof.
  intros Hl Hab Hf Hss Hd Hval Hp Hlt Hnv Hlk Hroot. destruct (worker_parts w n s x Hl) as (r & Ew & Hr).
  assert (Hin : forall y, In y (n_iter n (s_pending s)) <-> s_pending s !! fst y = Some (snd y)).
  { intros y. rewrite <- elem_of_list_In, (Hf (s_pending s)). rewrite (surjective_pairing y) at 1. apply elem_of_map_to_list. }
  destruct (cast_sent w n (v_account x) s rid Hab) as (rid' & b & Hs).
  - now apply Hin.
  - unfold can_vote. rewrite Hss, Hlk. unfold session_is_active, session_is_valid. rewrite Hss, Hd, Hp, Hval, N.eqb_refl. apply N.ltb_lt in Hlt. rewrite Hlt.
    destruct (has_voted ss (v_account x)) eqn:Eh; [exfalso; apply Hnv; now apply has_voted_in|reflexivity].
  - intros y Hy E. apply Hin in Hy. destruct (Hroot _ _ Hy) as (h & Eh). congruence.
  - exists r, rid', b. split; [exact Ew|]. apply Hr. right. right. now left.
Qed.
Print Assumptions C84_worker_votes.

(** A worker that can sign and submit ends an expired vote whenever there is one. *)
Theorem C84_worker_ends c vs p v s0 ops inst age n x rid ss :
  genesis vs p v = Some s0 -> let s := run c s0 ops in let w := mkWconfig inst age c in
  local_validator n s = Some x -> able n -> faithful_iter n ->
  s_votes s !! rid = Some ss -> s_pending s !! fst rid = Some (snd rid) -> ss_end ss < s_block s ->
  exists r rid', worker w n s = Some (x, r) /\ In (CEnd rid') (o_sent r) /\ exists b, In (EvVotingEnded rid' b) (s_events (step c s (op_of (CEnd rid') (v_account x) true))).
Proof.
  intros Hg s w Hl Hab Hf Hss Hp He. destruct (worker_parts w n s x Hl) as (r & Ew & Hr). destruct (reach_AllInv c _ _ _ _ ops Hg) as (HI & _). fold s in HI.
  assert (Hin : forall y, In y (n_iter n (s_pending s)) <-> s_pending s !! fst y = Some (snd y)).
  { intros y. rewrite <- elem_of_list_In, (Hf (s_pending s)). rewrite (surjective_pairing y) at 1. apply elem_of_map_to_list. }
  destruct (end_sent n s rid Hab) as (rid' & Hi & _ & Hs).
  - now apply Hin.
  - unfold mget. now rewrite Hss.
  - intros y Hy E. apply Hin in Hy. destruct (I_pending _ _ HI _ _ Hy) as (d & Hd & _). rewrite <- surjective_pairing in Hd.
    destruct (proj2 (I_votes_root _ _ HI y)) as [z Hz]; [eauto|congruence].
  - assert (Hsent : In (CEnd rid') (o_sent r)) by (apply Hr; do 3 right; now left). exists r, rid'. split; [exact Ew|]. split; [exact Hsent|].
    destruct (C83_end_accepted c vs p v s0 ops inst age n x r rid' Hg Hf Ew) as (b & Hb & _); [eapply worker_sent; eauto|]. eauto.
Qed.
Print Assumptions C84_worker_ends.

(** The slot's validator records a summary when one is due: its worker can sign and submit, its service answers, the slot is running, the range is old enough and neither pending nor approved. *)
Theorem C84_worker_records c vs p v s0 ops inst age n x to h :
  genesis vs p v = Some s0 -> let s := run c s0 ops in let w := mkWconfig inst age c in
  local_validator n s = Some x -> able n -> s_slot_validator s = Some (v_account x) ->
  target_block (s_next_block s) (s_schedule s) = Some to -> to + age < s_block s -> s_block s < s_next_slot_at s -> s_block s <= U32_MAX ->
  neither_pending_nor_approved s (s_next_block s, to) = true -> n_locked n (lock_name (RootLock inst to)) = false ->
  compute_root n (s_next_block s) to = Some h -> s_ingress s + 1 < 2 ^ 64 -> s_block s + s_voting s <= U32_MAX ->
  exists r, worker w n s = Some (x, r) /\ In (CRecord to h (s_ingress s + 1)) (o_sent r) /\
    In (EvSummaryCalculated (s_next_block s, to, s_ingress s + 1) h (v_account x)) (s_events (step c s (op_of (CRecord to h (s_ingress s + 1)) (v_account x) true))).
Proof.
  intros Hg s w Hl Hab Hsv Ht Hold Hsl Hb Hn Hlk Hh Hic Hvb. destruct (worker_parts w n s x Hl) as (r & Ew & Hr). exists r. split; [exact Ew|].
  assert (Hs : In (CRecord to h (s_ingress s + 1)) (o_sent r)).
  { apply Hr. right. left. rewrite <- (N.mod_small (s_ingress s + 1) (2 ^ 64)) by exact Hic. apply record_sent; auto. unfold can_process. unfold w at 1. cbn [wc_instance]. rewrite Hlk.
    unfold safe_add, checked_add. unfold w. cbn [wc_min_age]. destruct (N.leb_spec (to + age) U32_MAX); [|lia]. rewrite Hsv, N.eqb_refl, Hn. apply N.ltb_lt in Hold, Hsl. now rewrite Hold, Hsl. }
  split; [exact Hs|]. apply (C83_record_accepted c vs p v s0 ops inst age n x r); auto. eapply worker_sent; eauto.
Qed.
Print Assumptions C84_worker_records.
Example C84_record_example : let s := w_chain (wrun ex_wcfg ex_world (take 5 ex_wops)) 0 in
  s_slot_validator s = Some 2 /\ target_block (s_next_block s) (s_schedule s) = Some 30 /\ neither_pending_nor_approved s (s_next_block s, 30) = true /\
  compute_root (ex_node 102) 0 30 = Some (ex_truth 0 30) /\ 30 + 2 < s_block s /\ s_block s < s_next_slot_at s.
Proof. vm_compute. intuition. Qed.
