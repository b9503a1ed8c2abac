(** Proofs about SummaryOcwModel.v, part 2: what a worker signs, and what honest histories look like. *)
From Verif Require Import Base BaseLemmas CodecModel CodecProofs BridgeModel HttpModel HttpProofs OcwModel AvnModel AvnProofs SummaryModel SummarySpec SummaryProofs SummaryProofs2
  SummaryOcwModel SummaryOcwSpec SummaryOcwProofs.

(** ** The worker *)
Lemma be_value_bound l : bytes l -> be_value l < 256 ^ N.of_nat (length l).
Proof.
  induction l as [|b l IH] using rev_ind; intros Hb; [cbn; lia|]. rewrite be_value_snoc, app_length, Nat.add_1_r, pow256_S.
  apply Forall_app in Hb as [Hl Hb]. apply Forall_inv in Hb. cbn in Hb. specialize (IH Hl). lia.
Qed.
Lemma validate_response_hex x : x < 256 ^ 32 -> length (hex_encode (be_bytes 32 x)) = 64%nat -> validate_response (hex_encode (be_bytes 32 x)) = Some x.
Proof.
  intros Hx Hl. unfold validate_response. rewrite Hl. cbn [Nat.eqb]. rewrite hex_roundtrip by apply be_bytes_bytes.
  change (be_value <$> Some (be_bytes 32 x)) with (Some (be_value (be_bytes 32 x))). f_equal. apply (be_roundtrip 32). exact Hx.
Qed.
Lemma truthful_compute truth n from to h : roots_are_words truth -> truthful truth n -> compute_root n from to = Some h -> h = truth from to.
Proof.
  intros Hw Ht. unfold compute_root. destruct (n_service n from to) as [r|] eqn:E; [|discriminate]. intros Hv.
  assert (El : length r = 64%nat). { unfold validate_response in Hv. destruct (Nat.eqb_spec (length r) 64); [assumption|discriminate]. }
  pose proof (Ht _ _ _ E El) as ->. rewrite (validate_response_hex _ (Hw from to) El) in Hv. now apply (inj Some) in Hv.
Qed.
Lemma compute_word n from to h : compute_root n from to = Some h -> h < 256 ^ 32.
Proof.
  unfold compute_root, validate_response. destruct (n_service n from to) as [r|] eqn:E; [|discriminate].
  destruct (Nat.eqb_spec (length r) 64) as [El|]; [|discriminate]. destruct (hex_decode r) as [b|] eqn:Eb; [|discriminate]. intros Eh. apply (inj Some) in Eh. subst h.
  apply hex_decode_bytes in Eb as [Hb Hl]. pose proof (be_value_bound b Hb) as H. assert (length b = 32%nat) as E32 by lia. rewrite E32 in H. exact H.
Qed.

(** What makes a call of a worker on state [s] in the name of [me] a proper one. *)
Definition proper (w : wconfig) (n : node) (me : N) (s : st) (cl : call) : Prop :=
  match cl with
  | CAdvance => s_slot_validator s = Some me /\ s_next_slot_at s <= s_block s /\ n_locked n (lock_name (SlotLock (wc_instance w) (s_slot s))) = false
  | CRecord nb h ic =>
    target_block (s_next_block s) (s_schedule s) = Some nb /\ compute_root n (s_next_block s) nb = Some h /\ ic = (s_ingress s + 1) mod 2 ^ 64 /\
    s_slot_validator s = Some me /\ s_block s < s_next_slot_at s /\ nb + wc_min_age w < s_block s /\
    neither_pending_nor_approved s (s_next_block s, nb) = true /\ n_locked n (lock_name (RootLock (wc_instance w) nb)) = false
  | CVote rid b => exists d v h, In (fst rid, snd rid) (n_iter n (s_pending s)) /\ s_roots s !! rid = Some d /\ s_votes s !! rid = Some v /\
    compute_root n (fst (fst rid)) (snd (fst rid)) = Some h /\ b = (h =? rd_hash d) /\ has_voted v me = false /\
    session_is_active s rid = true /\ n_locked n (vote_lock w rid) = false
  | CEnd rid => exists v, In (fst rid, snd rid) (n_iter n (s_pending s)) /\ s_votes s !! rid = Some v /\ ss_end v < s_block s
  | CChallenge r ch ce => r = Some (s_slot s) /\ ch = me /\ s_slot_validator s = Some ce /\
    primary_for_block (s_validators s) (s_block s) = Ok me /\ grace_elapsed (wc_pallet w) s (s_block s) = true /\
    n_locked n (lock_name (ChallengeLock (wc_instance w) (s_slot s) me ce)) = false
  end.

Lemma attempt_signed n cl lock x : In x (o_signed (attempt n cl lock)) -> x = cl.
Proof. unfold attempt. destruct (n_can_sign n); cbn; [|tauto]. destruct (n_submit n cl); cbn; intros [->|[]]; reflexivity. Qed.
Lemma attempt_sent n cl lock x : In x (o_sent (attempt n cl lock)) -> In x (o_signed (attempt n cl lock)).
Proof. unfold attempt. destruct (n_can_sign n); cbn; [|tauto]. destruct (n_submit n cl); cbn; tauto. Qed.

Lemma advance_signed w n me s cl : In cl (o_signed (advance_if_required w n me s)) -> cl = CAdvance /\ proper w n me s cl.
Proof.
  unfold advance_if_required. destruct (s_slot_validator s) as [v|] eqn:Ev; [|intros []].
  destruct (N.eqb_spec me v) as [->|]; [|intros []]. destruct (N.leb_spec (s_next_slot_at s) (s_block s)); [|intros []]. cbn [andb].
  cbv zeta. destruct (n_locked n _) eqn:El; [intros []|]. intros Hin. apply attempt_signed in Hin. subst cl. cbn. auto.
Qed.
Lemma process_signed w n me s cl : In cl (o_signed (process_if_required w n me s)) -> (exists nb h ic, cl = CRecord nb h ic) /\ proper w n me s cl.
Proof.
  unfold process_if_required. destruct (target_block _ _) as [to|] eqn:Et; [|intros []].
  destruct (can_process w n me to s) eqn:Ec; [|intros []]. destruct (compute_root n _ to) as [h|] eqn:Eh; [|intros []].
  intros Hin. apply attempt_signed in Hin. subst cl. split; [eauto|].
  unfold can_process in Ec. destruct (n_locked n _) eqn:El; [discriminate|]. destruct (safe_add to (wc_min_age w)) as [old|] eqn:Eo; [|discriminate].
  apply checked_add_Some in Eo as [-> _]. rewrite !andb_true_iff, !N.ltb_lt in Ec. destruct Ec as [[[E1 E2] E3] E4].
  destruct (s_slot_validator s) as [v|] eqn:Ev; [|discriminate]. apply N.eqb_eq in E1. subst v. cbn. rewrite Ev. auto 10.
Qed.
Lemma cast_first_signed w n s cl : forall rids, In cl (o_signed (cast_first w n s rids)) ->
  exists rid d v h, In rid rids /\ cl = CVote rid (h =? rd_hash d) /\ s_roots s !! rid = Some d /\ s_votes s !! rid = Some v /\
    compute_root n (fst (fst rid)) (snd (fst rid)) = Some h /\ n_locked n (vote_lock w rid) = false.
Proof.
  induction rids as [|rid rids IH]; [intros []|]. cbn [cast_first].
  assert (Hrec : In cl (o_signed (cast_first w n s rids)) -> exists rid0 d v h, In rid0 (rid :: rids) /\ cl = CVote rid0 (h =? rd_hash d) /\ s_roots s !! rid0 = Some d /\
    s_votes s !! rid0 = Some v /\ compute_root n (fst (fst rid0)) (snd (fst rid0)) = Some h /\ n_locked n (vote_lock w rid0) = false).
  { intros Hin. destruct (IH Hin) as (r & d & v & h & ? & ?). exists r, d, v, h. split; [right|]; assumption. }
  destruct (n_locked n (vote_lock w rid)) eqn:El; [exact Hrec|].
  destruct (compute_root n _ _) as [h|] eqn:Eh; [|exact Hrec]. destruct (s_roots s !! rid) as [d|] eqn:Ed; [|exact Hrec]. destruct (s_votes s !! rid) as [v|] eqn:Ev; [|exact Hrec].
  cbv zeta. destruct (n_can_sign n); cbn [negb]; [|exact Hrec].
  assert (Hme : exists rid0 d0 v0 h0, In rid0 (rid :: rids) /\ CVote rid (h =? rd_hash d) = CVote rid0 (h0 =? rd_hash d0) /\ s_roots s !! rid0 = Some d0 /\
    s_votes s !! rid0 = Some v0 /\ compute_root n (fst (fst rid0)) (snd (fst rid0)) = Some h0 /\ n_locked n (vote_lock w rid0) = false).
  { exists rid, d, v, h. split; [now left|]. auto 10. }
  destruct (n_submit n _); cbn.
  - intros [<-|[]]. exact Hme.
  - intros [<-|Hin]; [exact Hme|now apply Hrec].
Qed.
Lemma cast_signed w n me s cl : In cl (o_signed (cast_if_required w n me s)) -> (exists rid b, cl = CVote rid b) /\ proper w n me s cl.
Proof.
  unfold cast_if_required. intros Hin. apply cast_first_signed in Hin as (rid & d & v & h & Hr & -> & Hd & Hv & Hh & Hl). split; [eauto|].
  rewrite <- elem_of_list_In in Hr. apply elem_of_take in Hr as (k & Hr & _). apply elem_of_list_lookup_2 in Hr. rewrite elem_of_list_In in Hr.
  apply filter_In in Hr as [Hr Hc]. unfold can_vote in Hc. rewrite Hv, !andb_true_iff, !negb_true_iff in Hc. destruct Hc as [[H1 H2] H3].
  exists d, v, h. split; [now rewrite <- surjective_pairing|]. auto 10.
Qed.
Lemma end_all_signed n s cl : forall rids, In cl (o_signed (end_all n s rids)) -> exists rid v, In rid rids /\ cl = CEnd rid /\ s_votes s !! rid = Some v.
Proof.
  induction rids as [|rid rids IH]; [intros []|]. cbn [end_all]. destruct (s_votes s !! rid) as [v|] eqn:Ev; [|intros []].
  destruct (n_can_sign n); [|intros []]. cbn. intros [<-|Hin].
  - exists rid, v. auto.
  - destruct (IH Hin) as (r & v' & ? & ?). exists r, v'. auto.
Qed.
Lemma end_signed w n me s cl : In cl (o_signed (end_if_required n s)) -> (exists rid, cl = CEnd rid) /\ proper w n me s cl.
Proof.
  unfold end_if_required. intros Hin. apply end_all_signed in Hin as (rid & v & Hr & -> & Hv). split; [eauto|].
  rewrite <- elem_of_list_In in Hr. apply elem_of_take in Hr as (k & Hr & _). apply elem_of_list_lookup_2 in Hr. rewrite elem_of_list_In in Hr.
  apply filter_In in Hr as [Hr Hc]. unfold mget in Hc. rewrite Hv, N.ltb_lt in Hc. exists v. split; [now rewrite <- surjective_pairing|auto].
Qed.
Lemma challenge_signed w n me s cl : In cl (o_signed (challenge_if_required w n me s)) -> (exists r ch ce, cl = CChallenge r ch ce) /\ proper w n me s cl.
Proof.
  unfold challenge_if_required. destruct (s_slot_validator s) as [v|] eqn:Ev; [|intros []]. cbv zeta. destruct (n_locked n _) eqn:El; [intros []|].
  destruct (primary_for_block _ _) as [p|e] eqn:Ep; [|intros []]. destruct (N.eqb_spec p me) as [->|]; [|intros []].
  cbn [andb]. destruct (grace_elapsed _ _ _) eqn:Eg; [|intros []]. intros Hin. apply attempt_signed in Hin. subst cl. split; [eauto|]. cbn. auto 10.
Qed.
Lemma worker_signed w n s v r cl : worker w n s = Some (v, r) -> In cl (o_signed r) -> proper w n (v_account v) s cl.
Proof.
  unfold worker. destruct (local_validator n s) as [v'|]; [|discriminate]. intros E. injection E as <- <-. cbn [o_signed out_app]. rewrite !in_app_iff.
  intros [H|[H|[H|[H|H]]]].
  - now apply advance_signed in H.
  - now apply process_signed in H.
  - now apply cast_signed in H.
  - now apply (end_signed w n (v_account v')) in H.
  - now apply challenge_signed in H.
Qed.
Lemma worker_validator w n s v r : worker w n s = Some (v, r) -> local_validator n s = Some v /\ In v (s_validators s).
Proof.
  unfold worker. destruct (local_validator n s) as [v'|] eqn:E; [|discriminate]. intros H. injection H as <- <-. split; [reflexivity|].
  unfold local_validator in E. now apply find_some in E.
Qed.
Lemma cast_first_sent w n s : forall rids cl, In cl (o_sent (cast_first w n s rids)) -> In cl (o_signed (cast_first w n s rids)).
Proof.
  induction rids as [|rid rids IH]; intros cl; [intros []|]. cbn [cast_first]. specialize (IH cl).
  destruct (n_locked n _); [exact IH|]. destruct (compute_root n _ _); [|exact IH]. destruct (s_roots s !! rid); [|exact IH]. destruct (s_votes s !! rid); [|exact IH].
  cbv zeta. destruct (n_can_sign n); cbn [negb]; [|exact IH]. destruct (n_submit n _); cbn; [tauto|]. intros Hin. right. now apply IH.
Qed.
Lemma end_all_sent n s : forall rids cl, In cl (o_sent (end_all n s rids)) -> In cl (o_signed (end_all n s rids)).
Proof.
  induction rids as [|rid rids IH]; intros cl; [intros []|]. cbn [end_all]. destruct (s_votes s !! rid); [|intros []]. destruct (n_can_sign n); [|intros []].
  cbn. rewrite in_app_iff. intros [Hin|Hin]; [|right; now apply IH]. destruct (n_submit n _); [destruct Hin as [->|[]]; now left|destruct Hin].
Qed.
Lemma worker_sent w n s v r cl : worker w n s = Some (v, r) -> In cl (o_sent r) -> In cl (o_signed r).
Proof.
  unfold worker. destruct (local_validator n s) as [v'|]; [|discriminate]. intros E. injection E as <- <-. cbn [o_sent o_signed out_app]. rewrite !in_app_iff.
  intros [H|[H|[H|[H|H]]]].
  - left. revert H. unfold advance_if_required. destruct (s_slot_validator s); [|tauto]. destruct (_ && _); [|tauto]. cbv zeta. destruct (n_locked n _); [tauto|]. apply attempt_sent.
  - right; left. revert H. unfold process_if_required. destruct (target_block _ _); [|tauto]. destruct (can_process _ _ _ _ _); [|tauto]. destruct (compute_root _ _ _); [|tauto]. apply attempt_sent.
  - right; right; left. now apply cast_first_sent.
  - do 3 right; left. now apply end_all_sent.
  - do 4 right. revert H. unfold challenge_if_required. destruct (s_slot_validator s); [|tauto]. cbv zeta. destruct (n_locked n _); [tauto|]. destruct (_ && _); [|tauto]. apply attempt_sent.
Qed.

(** ** Honest histories of one chain *)
Definition true_vote (truth : N -> N -> N) (s : st) (rid : root_id) (b : bool) : Prop :=
  exists d, s_roots s !! rid = Some d /\ b = (rd_hash d =? truth (fst (fst rid)) (snd (fst rid))).

Record CInv (c : config) (A K : N -> Prop) (truth : N -> N -> N) (s : st) : Prop := {
  C_all : AllInv c s;
  C_next : s_next_block s < 2 ^ 32;
  C_wf : forall rid d, s_roots s !! rid = Some d -> wf_rid rid;
  C_keys : keys_of_honest A K (s_validators s);
  C_ballots : forall a rid b, In (EvVoteAdded a rid b) (s_events s) -> A a -> true_vote truth s rid b }.

Lemma true_vote_step c truth s o rid b : AllInv c s -> true_vote truth s rid b -> true_vote truth (step c s o) rid b.
Proof. intros HA (d & Hd & ->). destruct (step_root_kept c s o rid d HA Hd) as (d' & Hd' & E & _). exists d'. split; [exact Hd'|]. now rewrite E. Qed.

Lemma end_next c who rid s s' u : end_voting c who rid s = (s', Ok u) -> s_next_block s' = s_next_block s \/ s_next_block s' < 2 ^ 32.
Proof.
  intros H. apply end_voting_ok in H as (d & v & s1 & Hd & Hval & Hp & Hv & Hout & H).
  destruct (is_approved v).
  - destruct H as (_ & Hle & ->). right. cbn. unfold U32_MAX in Hle. change (2 ^ 32) with 4294967296. lia.
  - destruct H as (cr & _ & ->). now left.
Qed.
Lemma step_next c s o : tx_ok s -> s_next_block s < 2 ^ 32 -> s_next_block (step c s o) < 2 ^ 32.
Proof.
  intros HT Hb. destruct (step_effect c s o HT) as [->|He]; [exact Hb|].
  set (s' := step c s o) in *. clearbody s'.
  destruct He as [HS Hsch | nb h ic who sg -> H | rid' who agree sg v s2 -> -> Hvd Hact Hv Hnv Hend -> | rid' who sg -> H | who [sg ->] H | who r ch ce sg s1 s2 -> -> H -> ].
  - now rewrite (SC_next _ _ HS).
  - now apply record_summary_ok in H as (_ & _ & _ & _ & _ & _ & _ & ->).
  - cbn. destruct Hend as [[-> _]|Hend]; [exact Hb|]. apply end_next in Hend as [E|]; [|assumption]. rewrite E. exact Hb.
  - apply end_next in H as [E|]; [|assumption]. rewrite E. exact Hb.
  - now apply update_slot_ok in H as (? & ? & ? & ? & ? & ? & ? & ? & ? & ->).
  - now apply update_slot_ok in H as (? & ? & ? & ? & ? & ? & ? & ? & ? & ->).
Qed.

Lemma CInv_step c A K truth s o : CInv c A K truth s ->
  (forall nb h ic who, o = OpRecord nb h ic who true -> nb < 2 ^ 32 /\ ic < 2 ^ 64) ->
  (forall rid a b, o = OpVote rid a b true -> A a -> session_is_active s rid = true -> true_vote truth s rid b) ->
  (forall vs, o = EnvValidators vs -> keys_of_honest A K vs) ->
  CInv c A K truth (step c s o).
Proof.
  intros [HA HN HW HK HB] Hrec Hvote Hvals. pose proof HA as (HI & HT & HJ). constructor.
  - now apply step_AllInv.
  - now apply step_next.
  - intros rid d' Hd'. destruct (step_roots c s o HT) as [(nb & h & ic & who & -> & _ & H)|Hk].
    + apply record_summary_ok in H as (_ & _ & _ & _ & _ & _ & _ & E). rewrite E in Hd'. cbn in Hd'. apply lookup_insert_Some in Hd' as [[<- _]|[_ Hd']]; [|eauto].
      destruct (Hrec _ _ _ _ eq_refl). split; [exact HN|split; assumption].
    + eapply keeps_lookup in Hk as (d & Hd & _); [|exact Hd']. eauto.
  - destruct (step_validators c s o HT) as [->|(vs & -> & ->)]; [exact HK|now apply Hvals].
  - intros a rid b Hin Ha. apply true_vote_step; [exact HA|]. apply step_ballot in Hin as [Hin|(-> & Hact & _)]; [eauto|eauto|exact HT].
Qed.

Definition vote_sigs_true (inst : N) (K : N -> Prop) (truth : N -> N -> N) (s : st) (sigs : list (N * list N)) : Prop :=
  forall k slot rid b, (k, message inst slot (CVote rid b)) ∈ sigs -> K k -> wf_rid rid -> true_vote truth s rid b.
Definition WInv (cfg : N -> wconfig) (i : N) (A K : N -> Prop) (truth : N -> N -> N) (w : world) : Prop :=
  CInv (wc_pallet (cfg i)) A K truth (w_chain w i) /\ vote_sigs_true (wc_instance (cfg i)) K truth (w_chain w i) (w_sigs w).

Lemma set_chain_same f i s : set_chain f i s i = s.
Proof. unfold set_chain. now rewrite N.eqb_refl. Qed.
Lemma vote_message inst slot cl inst' slot' rid b : (forall r x, cl = CVote r x -> wf_rid r) -> wf_rid rid ->
  message inst slot cl = message inst' slot' (CVote rid b) -> cl = CVote rid b.
Proof.
  intros Hw Hr E. assert (Hk : kind_byte cl = kind_byte (CVote rid b)).
  { destruct (message_head inst slot cl) as [x E1], (message_head inst' slot' (CVote rid b)) as [x' E2]. rewrite E1, E2 in E. now apply cons_app_inv in E as [-> _]. }
  destruct cl as [| r x | | |]; try discriminate Hk. specialize (Hw r x eq_refl).
  change (message inst slot (CVote r x)) with (message 0 0 (CVote r x)) in E. change (message inst' slot' (CVote rid b)) with (message 0 0 (CVote rid b)) in E.
  apply message_inj in E as [-> _]; [reflexivity|exact Hw|exact Hr|lia|lia].
Qed.

Lemma op_of_vote cl who sg rid a b : op_of cl who sg = OpVote rid a b true -> cl = CVote rid b /\ a = who /\ sg = true.
Proof. destruct cl; try discriminate. cbn. intros E. injection E as -> -> -> ->. auto. Qed.

Lemma WInv_step cfg i A K truth w o : roots_are_words truth -> WInv cfg i A K truth w -> allowed A K truth w o -> on_chain i o ->
  WInv cfg i A K truth (wstep cfg w o).
Proof.
  intros Hw [HC HS] Ha Ho. destruct o as [j n|k m|j cl v|j o]; cbn in Ho; try subst j; cbn [wstep].
  - destruct (worker (cfg i) n (w_chain w i)) as [[v r]|] eqn:Ew; [|split; assumption]. split; [exact HC|]. cbn [w_chain w_sigs].
    intros k slot rid b Hin Hk Hr. apply elem_of_app in Hin as [Hin|Hin]; [|eapply HS; eauto].
    unfold signed_by in Hin. rewrite map_map in Hin. apply elem_of_list_In, in_map_iff in Hin as (cl & E & Hcl). apply pair_equal_spec in E as [<- E].
    pose proof (worker_signed _ _ _ _ _ _ Ew Hcl) as Hp. destruct (worker_validator _ _ _ _ _ Ew) as [Hlv _].
    apply vote_message in E; [|intros r' x ->|exact Hr].
    + subst cl. destruct Hp as (d & ss & h & _ & Hd & _ & Hh & -> & _). exists d. split; [exact Hd|].
      apply (truthful_compute truth) in Hh; [|exact Hw|now apply (Ha v)]. rewrite <- Hh. apply N.eqb_sym.
    + destruct Hp as (d & ss & h & _ & Hd & _). eapply C_wf; eauto.
  - split; [exact HC|]. intros k' slot rid b Hin Hk. apply elem_of_cons in Hin as [E|Hin]; [|now apply (HS k' slot)].
    apply pair_equal_spec in E as [-> _]. contradiction.
  - destruct Ha as [Hv Hwf]. set (sg := bool_decide _). assert (HC' : CInv (wc_pallet (cfg i)) A K truth (step (wc_pallet (cfg i)) (w_chain w i) (op_of cl (v_account v) sg))).
    { apply CInv_step; [exact HC| | |].
      - intros nb h ic who E. destruct cl; try discriminate. cbn in E. injection E as -> -> -> _ _. destruct Hwf as (? & ? & ?). auto.
      - intros rid a b E HAa Hact. apply op_of_vote in E as (-> & -> & E). subst sg. apply bool_decide_eq_true_1 in E.
        eapply HS; [exact E| |exact Hwf]. eapply (C_keys _ _ _ _ _ HC); eauto.
      - destruct cl; discriminate. }
    split; cbn [w_chain w_sigs]; rewrite set_chain_same; [exact HC'|].
    intros k slot rid b Hin Hk Hr. apply true_vote_step; [apply (C_all _ _ _ _ _ HC)|]. eapply HS; eauto.
  - destruct Ha as [Hu Hvals]. split; cbn [w_chain w_sigs]; rewrite set_chain_same.
    + apply CInv_step; [exact HC| | |exact Hvals]; intros; subst o; discriminate.
    + intros k slot rid b Hin Hk Hr. apply true_vote_step; [apply (C_all _ _ _ _ _ HC)|]. eapply HS; eauto.
Qed.
Lemma WInv_run cfg i A K truth ops : forall w, roots_are_words truth -> WInv cfg i A K truth w -> honest_history cfg A K truth w ops -> Forall (on_chain i) ops ->
  WInv cfg i A K truth (wrun cfg w ops).
Proof.
  induction ops as [|o ops IH]; intros w Hw HI Hh Hf; [exact HI|]. destruct Hh as [Ha Hh]. apply Forall_cons in Hf as [Ho Hf]. cbn. apply IH; auto. now apply WInv_step.
Qed.
Lemma WInv_genesis cfg i A K truth vs p v s f : genesis vs p v = Some s -> keys_of_honest A K vs -> f i = s -> WInv cfg i A K truth (mkWorld f []).
Proof.
  intros Hg Hk Hf. split; cbn; rewrite Hf.
  - pose proof (reach_AllInv (wc_pallet (cfg i)) _ _ _ _ [] Hg) as HA. cbn in HA.
    unfold genesis in Hg. destruct vs as [|v0 vs]; [discriminate|]. destruct (_ && _) in Hg; [|discriminate]. injection Hg as <-.
    constructor; [exact HA|cbn; lia|cbn; intros rid d; rewrite lookup_empty; discriminate|exact Hk|cbn; tauto].
  - intros k slot rid b Hin. now apply elem_of_nil in Hin.
Qed.
