(** More proofs about SummaryModel.v: effects of a step, tallies, tilings, slots. *)
From Verif Require Import Base BaseLemmas AvnModel AvnProofs SummaryModel SummarySpec SummaryProofs.

Definition quiet (e : event) : bool :=
  match e with
  | EvVoteAdded _ _ _ | EvVotingEnded _ _ | EvRootValidated _ _ | EvNoSummary _ _ | EvSlotAdvanced _ _ _ _ | EvSummaryCalculated _ _ _ => false
  | _ => true
  end.

(** Everything the later invariants look at, except the events, is unchanged. *)
Record same_core (s s' : st) : Prop := {
  SC_pending : s_pending s' = s_pending s; SC_next : s_next_block s' = s_next_block s;
  SC_last : s_last_summary_slot s' = s_last_summary_slot s; SC_votes : s_votes s' = s_votes s;
  SC_slot : s_slot s' = s_slot s; SC_ingress : s_ingress s' = s_ingress s;
  SC_validated : forall rid, rd_validated <$> s_roots s' !! rid = rd_validated <$> s_roots s !! rid;
  SC_events : exists new, s_events s' = new ++ s_events s /\ forallb quiet new = true }.

Inductive effect (c : config) (s : st) (o : op) (s' : st) : Prop :=
| Eff_quiet : same_core s s' -> (changes_schedule o = false -> s_schedule s' = s_schedule s) -> effect c s o s'
| Eff_record nb h ic who sg : o = OpRecord nb h ic who sg -> record_summary nb h ic who s = (s', Ok tt) -> effect c s o s'
| Eff_vote rid who agree sg v s2 : o = OpVote rid who agree sg -> sg = true ->
    is_validator (s_validators s) who = true -> session_is_active s rid = true ->
    s_votes s !! rid = Some v -> has_voted v who = false ->
    (let s1 := s <| s_votes := <[ rid := cast v who agree ]> (s_votes s) |> in
     (s2 = s1 /\ has_outcome (cast v who agree) = false) \/ end_voting c who rid s1 = (s2, Ok tt)) ->
    s' = s2 <| s_events := EvVoteAdded who rid agree :: s_events s2 |> -> effect c s o s'
| Eff_end rid who sg : o = OpEnd rid who sg -> end_voting c who rid s = (s', Ok tt) -> effect c s o s'
| Eff_slot who : (exists sg, o = OpAdvanceSlot who sg) -> update_slot_number c who s = (s', Ok tt) -> effect c s o s'
| Eff_challenge who r ch ce sg s1 s2 : o = OpChallenge r ch ce who sg ->
    s1 = s <| s_events := EvOffence SlotNotAdvanced [ce] :: s_events s |> ->
    update_slot_number c who s1 = (s2, Ok tt) ->
    s' = s2 <| s_events := EvChallengeAdded ch ce :: s_events s2 |> -> effect c s o s'.

Lemma same_core_refl s : same_core s s.
Proof. constructor; auto. exists []. auto. Qed.

Lemma pub_same_core c rid d s s1 : s_roots s !! rid = Some d -> pub_effect c rid d s s1 ->
  same_core s s1 /\ s_schedule s1 = s_schedule s.
Proof.
  intros Hd [(Hh' & ->) | [(_ & Ha & tx & Htx & ->) | (_ & Ha & Hc & ->)]]; (split; [|reflexivity]).
  - apply same_core_refl.
  - constructor; cbn; auto.
    + intros k. destruct (decide (rid = k)) as [<-|].
      * rewrite lookup_insert, Hd. reflexivity.
      * now rewrite lookup_insert_ne.
    + eexists [_]. split; [reflexivity|reflexivity].
  - constructor; cbn; auto. eexists [_]. split; [reflexivity|reflexivity].
Qed.

Lemma same_core_trans s1 s2 s3 : same_core s1 s2 -> same_core s2 s3 -> same_core s1 s3.
Proof.
  intros [] []. constructor; try congruence.
  destruct SC_events0 as (n1 & E1 & ?), SC_events1 as (n2 & E2 & ?). exists (n2 ++ n1). split; [now rewrite E2, E1, app_assoc|].
    rewrite forallb_app. now apply andb_true_iff.
Qed.

Lemma step_effect c s o : tx_ok s -> step c s o = s \/ effect c s o (step c s o).
Proof.
  intros HT. destruct (step_inv c s o) as [->|[Hval H]]; [auto|]. right.
  set (s' := step c s o) in *. clearbody s'. destruct o; cbn [exec] in H.
  - eapply Eff_record; eauto.
  - apply vote_root_ok in H as (v & Hvd & Hact & Hv & Hnv & s2 & Hend & ->).
    eapply Eff_vote; eauto. cbn in Hval. rewrite !andb_true_iff in Hval. tauto.
  - eapply Eff_end; eauto.
  - eapply Eff_slot; eauto.
  - unfold add_challenge, emit in H.
    apply mbind_ok in H as (? & ? & Hg & H). minv Hg.
    apply mbind_ok in H as (? & ? & Hg & H). minv Hg.
    apply mbind_ok in H as (? & ? & Hg & H). minv Hg.
    apply mbind_ok in H as (s2 & [] & Hg & H). minv H.
    eapply Eff_challenge; eauto.
  - apply set_periods_ok in H as (? & ? & ? & ? & ->). apply Eff_quiet; [|discriminate].
    constructor; cbn; auto. exists []; auto.
  - apply set_admin_ok in H. destruct cfg; [destruct H as (_ & ->)|destruct H as (? & ? & ? & ? & ->)|destruct H as (? & ? & ? & ->)];
    (apply Eff_quiet; [constructor; cbn; auto; exists []; auto|cbn; auto; discriminate]).
  - unfold admin_resolve in H.
    apply mbind_ok in H as (? & ? & Hg & H). minv Hg.
    apply mbind_ok in H as (? & ref_ & Hg & H). minv Hg.
    apply mbind_ok in H as (? & d & Hg & H). unfold try_get_root in Hg. minv Hg.
    apply mbind_ok in H as (? & stt & Hg & H). minv Hg.
    apply mbind_ok in H as (? & ? & Hg & H). minv Hg.
    apply mbind_ok in H as (s1 & [] & Hpub & H).
    apply mbind_ok in H as (s2 & [] & Hcl & H). unfold emit in H. minv H.
    unfold cleanup_external in Hcl. minv Hcl.
    assert (same_core s s1 /\ s_schedule s1 = s_schedule s) as [HS Hsch].
    { destruct accepted.
      + apply process_accepted_ok in Hpub as (d1 & Hd1 & Hpub).
        eapply pub_same_core in Hpub; eauto.
      + minv Hpub. split; [apply same_core_refl|reflexivity]. }
    apply Eff_quiet; [|auto]. eapply same_core_trans; [exact HS|]. constructor; cbn; auto. eexists [_]; split; reflexivity.
  - apply modify_ok in H. subst s'. apply Eff_quiet.
    + unfold external_result. destruct (s_ext_ref s !! ref_) as [rid|]; [|apply same_core_refl].
      assert (HP : same_core s (match s_roots s !! rid with
      | None => s
      | Some _ =>
        let s1 := s <| s_ext_status := <[ rid := ExtAccepted ]> (s_ext_status s) |> in
        match process_accepted_root c rid s1 with
        | (s2, Err _) => s2
        | (s2, Ok _) => fst (cleanup_external rid ref_ s2)
        end
      end)).
    { destruct (s_roots s !! rid); [|apply same_core_refl]. cbv zeta. 
      assert (H0 : same_core s (s <| s_ext_status := <[ rid := ExtAccepted ]> (s_ext_status s) |>)).
      { constructor; cbn; auto. exists []; auto. }
      destruct (process_accepted_root c rid _) as [s2 [[]|e]] eqn:Hp.
      - apply process_accepted_ok in Hp as (d1 & Hd1 & Hpub).
        eapply pub_same_core in Hpub as [? _]; eauto. eapply same_core_trans; [exact H0|]. eapply same_core_trans; [eassumption|].
        constructor; cbn; auto. exists []; auto.
      - apply process_accepted_err in Hp. subst s2. exact H0. }
      destruct r; try exact HP; constructor; cbn; auto; exists []; auto.
    + intros _. unfold external_result. destruct (s_ext_ref s !! ref_) as [rid|]; [|reflexivity].
      assert (HP : s_schedule (match s_roots s !! rid with
      | None => s
      | Some _ =>
        let s1 := s <| s_ext_status := <[ rid := ExtAccepted ]> (s_ext_status s) |> in
        match process_accepted_root c rid s1 with
        | (s2, Err _) => s2
        | (s2, Ok _) => fst (cleanup_external rid ref_ s2)
        end
      end) = s_schedule s).
      { destruct (s_roots s !! rid); [|reflexivity]. cbv zeta.
        destruct (process_accepted_root c rid _) as [s2 [[]|e]] eqn:Hp.
        - apply process_accepted_ok in Hp as (d1 & Hd1 & Hpub).
          eapply pub_same_core in Hpub as [_ E]; eauto.
        - apply process_accepted_err in Hp. subst s2. reflexivity. }
      destruct r; try exact HP; reflexivity.
  - apply modify_ok in H. subst s'. unfold process_result. destruct (s_tx_to_root s !! tx) as [rid|] eqn:E.
    2:{ apply Eff_quiet; [apply same_core_refl|auto]. }
    destruct (matches && succeeded); [|apply Eff_quiet; [apply same_core_refl|auto]].
    destruct (HT _ _ E) as [d Hd]. rewrite Hd. apply Eff_quiet; [|auto]. constructor; cbn; auto.
    + intros k. destruct (decide (rid = k)) as [<-|].
      * rewrite lookup_insert, Hd. reflexivity.
      * now rewrite lookup_insert_ne.
    + exists []; auto.
  - minv H. apply Eff_quiet; [constructor; cbn; auto; exists []; auto|auto].
  - minv H. apply Eff_quiet; [constructor; cbn; auto; exists []; auto|auto].
  - minv H. apply Eff_quiet; [constructor; cbn; auto; exists []; auto|auto].
  - minv H. apply Eff_quiet; [constructor; cbn; auto; exists []; auto|auto].
Qed.

(** What an [end_voting] adds to the log. *)
Definition end_block (rid : root_id) (b : bool) (h : N) (rest : list event) : list event :=
  EvVotingEnded rid b :: (if b then [EvRootValidated rid h] else []) ++ rest.

Lemma end_effect c who rid s s' u :
  end_voting c who rid s = (s', Ok u) ->
  exists d v rest,
    s_roots s !! rid = Some d /\ rd_validated d = false /\ s_pending s !! fst rid = Some (snd rid) /\
    s_votes s !! rid = Some v /\ (has_outcome v = true \/ ss_end v <= s_block s) /\
    s_pending s' = delete (fst rid) (s_pending s) /\ s_votes s' = s_votes s /\ s_slot s' = s_slot s /\
    s_schedule s' = s_schedule s /\
    s_next_block s' = (if is_approved v then snd (fst rid) + 1 else s_next_block s) /\
    s_last_summary_slot s' = (if is_approved v then s_slot s else s_last_summary_slot s) /\
    (forall k, rd_validated <$> s_roots s' !! k = if decide (k = rid) then Some (is_approved v) else rd_validated <$> s_roots s !! k) /\
    s_events s' = end_block rid (is_approved v) (rd_hash d) (rest ++ s_events s) /\ forallb quiet rest = true.
Proof.
  intros H. apply end_voting_fields in H as (d & v & d' & new & Hd & Hval & Hp & Hv & Hout & _ & _ & Esch & Evot & Ein & Esl & _ & _ &
    Evotes & Erev & Epend & Eroots & Hh' & _ & Hv' & Enext & Elast & Eev & Hnew).
  assert (Hq : forallb quiet new = true).
  { destruct Hnew as [(-> & _)|[(_ & _ & _ & -> & _)|(_ & _ & _ & _ & x & [->| ->])]]; reflexivity. }
  exists d, v.
  exists ((if is_approved v then [EvOffence RejectedValidRoot (ss_nays v)]
        else [EvOffence ApprovedInvalidRoot (ss_ayes v); EvOffence CreatedInvalidRoot (match rd_added_by d with Some x => [x] | None => [] end)]) ++ new).
  repeat (split; [assumption|]). split; [|split].
  - intros k. rewrite Eroots. destruct (decide (k = rid)) as [->|].
    + rewrite lookup_insert. cbn. now rewrite Hv'.
    + now rewrite lookup_insert_ne by congruence.
  - rewrite Eev. unfold end_block. destruct (is_approved v); reflexivity.
  - rewrite forallb_app, Hq. destruct (is_approved v); reflexivity.
Qed.

Lemma quiet_lists new evs : forallb quiet new = true ->
  ended (new ++ evs) = ended evs /\ void_slots (new ++ evs) = void_slots evs /\
  approved_ranges (new ++ evs) = approved_ranges evs /\
  (forall rid, yes_votes rid (new ++ evs) = yes_votes rid evs /\ no_votes rid (new ++ evs) = no_votes rid evs) /\
  slot_at (new ++ evs) = slot_at evs /\ approval_slots (new ++ evs) = approval_slots evs /\
  (forall rid b, In (EvVotingEnded rid b) (new ++ evs) <-> In (EvVotingEnded rid b) evs).
Proof.
  induction new as [|e new IH]; [cbn; intuition|]. intros Hq. cbn in Hq. apply andb_true_iff in Hq as [He Hq].
  destruct (IH Hq) as (H1 & H2 & H3 & H4 & H5 & H6 & H7). cbn [app].
  unfold approved_ranges, ended, void_slots, yes_votes, no_votes in *. cbn [rev].
  rewrite omap_app, H3. destruct e; try discriminate; cbn; rewrite ?app_nil_r; repeat split; auto; try apply H4;
    try (intros [E|Hin]; [discriminate|]; apply H7; assumption); try (intros Hin; right; apply H7; assumption).
Qed.

Lemma end_block_lists rid b h rest evs : forallb quiet rest = true ->
  let l := end_block rid b h (rest ++ evs) in
  ended l = rid :: ended evs /\ void_slots l = void_slots evs /\
  approved_ranges l = approved_ranges evs ++ (if b then [fst rid] else []) /\
  (forall r, yes_votes r l = yes_votes r evs /\ no_votes r l = no_votes r evs) /\
  slot_at l = slot_at evs /\ approval_slots l = (if b then [slot_at evs] else []) ++ approval_slots evs /\
  (forall r b', In (EvVotingEnded r b') l <-> (r = rid /\ b' = b) \/ In (EvVotingEnded r b') evs).
Proof.
  intros Hq l. destruct (quiet_lists rest evs Hq) as (H1 & H2 & H3 & H4 & H5 & H6 & H7).
  subst l. unfold end_block.
  unfold approved_ranges, ended, void_slots, yes_votes, no_votes in *. 
  destruct b; cbn -[rev]; cbn [rev]; rewrite ?H1, ?H2, ?H5, ?H6, ?omap_app; cbn; rewrite ?H3, ?app_nil_r; repeat split; auto; try apply H4.
  - intros [E|[E|Hin]]; [injection E as <- <-; auto|discriminate|right; now apply H7].
  - intros [[-> ->]|Hin]; [auto|right; right; now apply H7].
  - intros [E|Hin]; [injection E as <- <-; auto|right; now apply H7].
  - intros [[-> ->]|Hin]; [auto|right; now apply H7].
Qed.

Record Inv2 (s : st) : Prop := {
  J_tally : forall rid v, s_votes s !! rid = Some v ->
     ss_ayes v = rev (yes_votes rid (s_events s)) /\ ss_nays v = rev (no_votes rid (s_events s));
  J_novotes : forall rid, s_votes s !! rid = None -> yes_votes rid (s_events s) = [] /\ no_votes rid (s_events s) = [];
  J_ended : forall rid b, In (EvVotingEnded rid b) (s_events s) ->
     exists v, s_votes s !! rid = Some v /\ b = is_approved v;
  J_pend : forall r ic, s_pending s !! r = Some ic -> ~ In r (approved_ranges (s_events s));
  J_appr : NoDup (approved_ranges (s_events s));
  J_validated : forall r, In r (approved_ranges (s_events s)) <-> exists ic, rd_validated <$> s_roots s !! (r, ic) = Some true;
  J_slot : slot_at (s_events s) = s_slot s;
  J_last : s_last_summary_slot s = hd 0 (approval_slots (s_events s));
  J_le : forall k, In k (approval_slots (s_events s)) -> k <= s_last_summary_slot s <= s_slot s;
  J_void : forall k, 0 < k < s_slot s -> (In k (void_slots (s_events s)) <-> ~ In k (approval_slots (s_events s)));
  J_voidlt : forall k, In k (void_slots (s_events s)) -> 0 < k < s_slot s
}.

Lemma neither_spec s r : neither_pending_nor_approved s r = true ->
  s_pending s !! r = None /\ forall ic, rd_validated <$> s_roots s !! (r, ic) <> Some true.
Proof.
  unfold neither_pending_nor_approved. rewrite andb_true_iff, !negb_true_iff. intros [H1 H2].
  split; [destruct (s_pending s !! r); [discriminate|reflexivity]|]. intros ic E.
  destruct (s_roots s !! (r, ic)) as [d|] eqn:Hd; [|discriminate]. cbn in E. injection E as E.
  assert (existsb (fun kv => bool_decide (fst (fst kv) = r) && rd_validated (snd kv)) (map_to_list (s_roots s)) = true).
  { apply existsb_exists. exists ((r, ic), d). split.
    - apply elem_of_list_In. now apply elem_of_map_to_list.
    - cbn. rewrite E, bool_decide_true by reflexivity. reflexivity. }
  congruence.
Qed.

Lemma Inv2_quiet s s' : Inv2 s -> same_core s s' -> Inv2 s'.
Proof.
  intros [] [EP EN EL EV ES EI EVal (new & Eev & Hq)].
  destruct (quiet_lists new (s_events s) Hq) as (H1 & H2 & H3 & H4 & H5 & H6 & H7).
  constructor; rewrite ?Eev, ?EP, ?EN, ?EL, ?EV, ?ES, ?H1, ?H2, ?H3, ?H5, ?H6; auto.
  - intros rid v. destruct (H4 rid) as [-> ->]. auto.
  - intros rid. destruct (H4 rid) as [-> ->]. auto.
  - intros rid b. rewrite H7. auto.
  - intros r. rewrite J_validated0. split; intros [ic E]; exists ic; rewrite <- E; [|symmetry]; apply EVal.
Qed.

Lemma end_ayes_cast v who agree : is_approved (cast v who agree) = (ss_threshold v <=? N.of_nat (length (ss_ayes (cast v who agree)))).
Proof. destruct agree; reflexivity. Qed.

(** [Inv2] minus the tallies: what [end_voting] maintains. *)
Record Inv2e (s : st) : Prop := {
  K_pend : forall r ic, s_pending s !! r = Some ic -> ~ In r (approved_ranges (s_events s));
  K_appr : NoDup (approved_ranges (s_events s));
  K_validated : forall r, In r (approved_ranges (s_events s)) <-> exists ic, rd_validated <$> s_roots s !! (r, ic) = Some true;
  K_slot : slot_at (s_events s) = s_slot s;
  K_last : s_last_summary_slot s = hd 0 (approval_slots (s_events s));
  K_le : forall k, In k (approval_slots (s_events s)) -> k <= s_last_summary_slot s <= s_slot s;
  K_void : forall k, 0 < k < s_slot s -> (In k (void_slots (s_events s)) <-> ~ In k (approval_slots (s_events s)));
  K_voidlt : forall k, In k (void_slots (s_events s)) -> 0 < k < s_slot s
}.

Lemma Inv2_e s : Inv2 s -> Inv2e s.
Proof. intros []. constructor; auto. Qed.

Lemma Inv2e_end c who rid s s' u : Inv2e s -> end_voting c who rid s = (s', Ok u) -> Inv2e s'.
Proof.
  intros [] H. apply end_effect in H as (d & v & rest & Hd & Hval & Hp & Hv & Hout & Epend & Evotes & Eslot & Esch & Enext & Elast & EVal & Eev & Hq).
  destruct (end_block_lists rid (is_approved v) (rd_hash d) rest (s_events s) Hq) as (H1 & H2 & H3 & H4 & H5 & H6 & H7).
  rewrite <- Eev in *.
  pose proof (K_pend0 _ _ Hp) as Hna.
  assert (Hl : s_last_summary_slot s <= s_slot s).
  { rewrite K_last0. destruct (approval_slots (s_events s)) as [|k l] eqn:E; cbn; [lia|].
    specialize (K_le0 k (or_introl eq_refl)). lia. }
  constructor; rewrite ?H1, ?H2, ?H3, ?H5, ?H6, ?Epend, ?Eslot, ?Elast; auto.
  - intros r ic. rewrite lookup_delete_Some. intros [Hne Hr]. specialize (K_pend0 _ _ Hr). rewrite in_app_iff.
    destruct (is_approved v); cbn; intuition.
  - destruct (is_approved v); [|rewrite app_nil_r; assumption].
    apply NoDup_app. split; [assumption|]. split; [|apply NoDup_singleton].
    intros x Hx. rewrite elem_of_list_In in Hx. rewrite elem_of_list_singleton. intros ->. auto.
  - intros r. rewrite in_app_iff, K_validated0. split.
    + intros [[ic E]|Hin].
      * exists ic. rewrite EVal. destruct (decide ((r, ic) = rid)) as [Er|]; [|exact E].
        rewrite Er, Hd in E. cbn in E. congruence.
      * destruct (is_approved v) eqn:Ha; [|destruct Hin]. destruct Hin as [<-|[]].
        exists (snd rid). rewrite EVal. destruct (decide _) as [|Hn]; [reflexivity|]. destruct rid; cbn in Hn; congruence.
    + intros [ic E]. rewrite EVal in E. destruct (decide ((r, ic) = rid)) as [<-|]; [|left; eauto].
      injection E as ->. right. left. reflexivity.
  - destruct (is_approved v); cbn; [congruence|assumption].
  - intros k. rewrite in_app_iff. destruct (is_approved v); cbn.
    + intros [[<-|[]]|Hin]; [lia|]. specialize (K_le0 k Hin). lia.
    + intros [[]|Hin]. auto.
  - intros k Hk. rewrite (K_void0 k Hk). rewrite in_app_iff. destruct (is_approved v); cbn; [|tauto].
    rewrite K_slot0. intuition lia.
Qed.

Lemma votes_cons_other e evs rid : (forall w r a, e <> EvVoteAdded w r a) ->
  yes_votes rid (e :: evs) = yes_votes rid evs /\ no_votes rid (e :: evs) = no_votes rid evs.
Proof. intros H. destruct e; try (split; reflexivity). exfalso. eapply H. reflexivity. Qed.

Lemma yes_votes_cons w r a evs rid :
  yes_votes rid (EvVoteAdded w r a :: evs) = (if a && bool_decide (r = rid) then [w] else []) ++ yes_votes rid evs.
Proof. unfold yes_votes. cbn. destruct a; cbn; [|reflexivity]. destruct (decide (r = rid)); [rewrite bool_decide_true by assumption|rewrite bool_decide_false by assumption]; reflexivity. Qed.
Lemma no_votes_cons w r a evs rid :
  no_votes rid (EvVoteAdded w r a :: evs) = (if negb a && bool_decide (r = rid) then [w] else []) ++ no_votes rid evs.
Proof. unfold no_votes. cbn. destruct a; cbn; [reflexivity|]. destruct (decide (r = rid)); [rewrite bool_decide_true by assumption|rewrite bool_decide_false by assumption]; reflexivity. Qed.

Lemma Inv2_slot c who s s' u : Inv2 s -> update_slot_number c who s = (s', Ok u) -> Inv2 s'.
Proof.
  intros [] H. apply update_slot_ok in H as (sv & nv & _ & Hsv & _ & _ & _ & _ & _ & ->).
  assert (Hl : s_last_summary_slot s <= s_slot s).
  { rewrite J_last0. destruct (approval_slots (s_events s)) as [|k l] eqn:E; cbn; [lia|].
    specialize (J_le0 k (or_introl eq_refl)). lia. }
  set (new := if s_last_summary_slot s <? s_slot s then _ else _).
  assert (Hy : forall rid, yes_votes rid (new ++ s_events s) = yes_votes rid (s_events s)) by (intros; subst new; destruct (_ <? _); reflexivity).
  assert (Hn : forall rid, no_votes rid (new ++ s_events s) = no_votes rid (s_events s)) by (intros; subst new; destruct (_ <? _); reflexivity).
  assert (Ha : approved_ranges (new ++ s_events s) = approved_ranges (s_events s)).
  { subst new; destruct (_ <? _); [|reflexivity]. unfold approved_ranges. cbn. now rewrite !omap_app, !app_nil_r. }
  assert (Hsl : approval_slots (new ++ s_events s) = approval_slots (s_events s)) by (subst new; destruct (_ <? _); reflexivity).
  assert (He : forall rid b, In (EvVotingEnded rid b) (new ++ s_events s) <-> In (EvVotingEnded rid b) (s_events s)).
  { intros; subst new; destruct (_ <? _); cbn; intuition discriminate. }
  assert (Hvs : void_slots (new ++ s_events s) = (if s_last_summary_slot s <? s_slot s then [s_slot s] else []) ++ void_slots (s_events s)).
  { subst new; destruct (_ <? _); reflexivity. }
  constructor; cbn.
  - intros rid v Hv. unfold yes_votes, no_votes in *. cbn. rewrite Hy, Hn. auto.
  - intros rid Hv. unfold yes_votes, no_votes in *. cbn. rewrite Hy, Hn. auto.
  - intros rid b [E|Hin]; [discriminate|]. apply He in Hin. auto.
  - intros r ic Hr. unfold approved_ranges in *. cbn. rewrite omap_app, Ha, app_nil_r. eauto.
  - unfold approved_ranges in *. cbn. rewrite omap_app, Ha, app_nil_r. auto.
  - unfold approved_ranges in *. cbn. rewrite omap_app, Ha, app_nil_r. auto.
  - reflexivity.
  - now rewrite Hsl.
  - intros k. rewrite Hsl. intros Hk. specialize (J_le0 k Hk). lia.
  - intros k Hk. rewrite Hsl. unfold void_slots in *. cbn. rewrite Hvs, in_app_iff.
    destruct (decide (k = s_slot s)) as [->|Hne].
    + destruct (N.ltb_spec (s_last_summary_slot s) (s_slot s)).
      * split; [|intros; left; cbn; auto]. intros _ Hin. specialize (J_le0 _ Hin). lia.
      * split.
        -- intros [[]|Hin]. specialize (J_voidlt0 _ Hin). lia.
        -- intros Hni. exfalso. apply Hni. assert (s_last_summary_slot s = s_slot s) as E by lia.
           rewrite <- E. rewrite J_last0. destruct (approval_slots (s_events s)); cbn in *; [lia|auto].
    + assert (0 < k < s_slot s) as Hk' by lia. rewrite <- (J_void0 k Hk').
      destruct (_ <? _); cbn; intuition congruence.
  - intros k. unfold void_slots in *. cbn. rewrite Hvs, in_app_iff. 
    destruct (N.ltb_spec (s_last_summary_slot s) (s_slot s)); cbn.
    + intros [[<-|[]]|Hin]; [lia|]. specialize (J_voidlt0 _ Hin). lia.
    + intros [[]|Hin]. specialize (J_voidlt0 _ Hin). lia.
Qed.

Lemma Inv2_record c nb h ic who s s' u : Inv c s -> Inv2 s -> record_summary nb h ic who s = (s', Ok u) -> Inv2 s'.
Proof.
  intros HI [] H. apply record_summary_ok in H as (Hic & Hval & Htgt & Hp & Hv & Hnei & _ & ->).
  set (r := (s_next_block s, nb)) in *. apply neither_spec in Hnei as [_ Hnv].
  assert (Hr : s_roots s !! (r, ic) = None).
  { destruct (s_roots s !! (r, ic)) as [d|] eqn:E; [|reflexivity].
    apply (I_roots_fresh _ _ HI) in E. cbn in E. lia. }
  assert (Ha : forall x, approved_ranges (EvSummaryCalculated x h who :: s_events s) = approved_ranges (s_events s)).
  { intros. unfold approved_ranges. cbn. now rewrite omap_app, app_nil_r. }
  constructor; cbn -[approved_ranges yes_votes no_votes void_slots]; rewrite ?Ha; auto.
  - intros rid v. rewrite lookup_insert_Some. intros [[<- <-]|[_ H]]; [|apply J_tally0; exact H].
    destruct (J_novotes0 _ Hv) as [E1 E2]. unfold yes_votes, no_votes in *. cbn. rewrite E1, E2. auto.
  - intros rid. rewrite lookup_insert_None. intros [H _]. apply J_novotes0 in H as [E1 E2].
    unfold yes_votes, no_votes in *. cbn. auto.
  - intros rid b [E|Hin]; [discriminate|]. destruct (J_ended0 _ _ Hin) as (v & H & ?). exists v.
    rewrite lookup_insert_ne by congruence. auto.
  - intros r' ic'. rewrite lookup_insert_Some. intros [[<- _]|[_ H]]; [|eauto].
    rewrite J_validated0. intros [ic'' E]. exact (Hnv _ E).
  - intros r'. rewrite J_validated0. split; intros [ic' E]; exists ic'.
    + rewrite lookup_insert_ne; [exact E|]. intros E'. rewrite <- E', Hr in E. discriminate.
    + destruct (decide ((r, ic) = (r', ic'))) as [E'|]; [rewrite E', lookup_insert in E; discriminate|].
      rewrite lookup_insert_ne in E; assumption.
Qed.

Lemma Inv2_end c who rid s s' u : Inv2 s -> end_voting c who rid s = (s', Ok u) -> Inv2 s'.
Proof.
  intros HJ H. pose proof (Inv2e_end _ _ _ _ _ _ (Inv2_e _ HJ) H) as [].
  apply end_effect in H as (d & v & rest & Hd & Hval & Hp & Hv & Hout & Epend & Evotes & Eslot & Esch & Enext & Elast & EVal & Eev & Hq).
  destruct (end_block_lists rid (is_approved v) (rd_hash d) rest (s_events s) Hq) as (H1 & H2 & H3 & H4 & H5 & H6 & H7).
  rewrite <- Eev in *. destruct HJ. constructor; auto; rewrite Evotes.
  - intros r v0. destruct (H4 r) as [-> ->]. auto.
  - intros r. destruct (H4 r) as [-> ->]. auto.
  - intros r b. rewrite H7. intros [[-> ->]|Hin]; [eauto|auto].
Qed.

Lemma not_ended_active c s rid : Inv c s -> session_is_active s rid = true -> forall b, ~ In (EvVotingEnded rid b) (s_events s).
Proof.
  intros HI Hact b Hin. apply active_facts in Hact as (d & v & _ & _ & Hp & _).
  apply (I_ended _ _ HI) with (rid := rid); [|exact Hp].
  unfold ended. apply elem_of_list_In, elem_of_list_omap. exists (EvVotingEnded rid b). split; [now apply elem_of_list_In|reflexivity].
Qed.

Lemma Inv2_vote c rid who agree v s s2 :
  Inv c s -> Inv2 s -> session_is_active s rid = true -> s_votes s !! rid = Some v -> has_voted v who = false ->
  (let s1 := s <| s_votes := <[ rid := cast v who agree ]> (s_votes s) |> in
     (s2 = s1 /\ has_outcome (cast v who agree) = false) \/ end_voting c who rid s1 = (s2, Ok tt)) ->
  Inv2 (s2 <| s_events := EvVoteAdded who rid agree :: s_events s2 |>).
Proof.
  intros HI HJ Hact Hv Hnv Hend. cbv zeta in Hend.
  pose proof (not_ended_active c s rid HI Hact) as Hne.
  set (s1 := s <| s_votes := <[ rid := cast v who agree ]> (s_votes s) |>) in *.
  assert (HK1 : Inv2e s1) by (destruct HJ; constructor; auto).
  assert (HK2 : Inv2e s2).
  { destruct Hend as [[-> _]|Hend]; [exact HK1|]. eapply Inv2e_end; eauto. }
  assert (Hev : (forall r, yes_votes r (s_events s2) = yes_votes r (s_events s) /\ no_votes r (s_events s2) = no_votes r (s_events s)) /\
     s_votes s2 = s_votes s1 /\
     (forall r b, In (EvVotingEnded r b) (s_events s2) -> In (EvVotingEnded r b) (s_events s) \/ (r = rid /\ b = is_approved (cast v who agree)))).
  { destruct Hend as [[-> _]|Hend]; [auto|].
    apply end_effect in Hend as (d & v' & rest & Hd & Hval & Hp & Hv' & Hout & Epend & Evotes & Eslot & Esch & Enext & Elast & EVal & Eev & Hq).
    destruct (end_block_lists rid (is_approved v') (rd_hash d) rest (s_events s1) Hq) as (H1 & H2 & H3 & H4 & H5 & H6 & H7).
    rewrite <- Eev in *. split; [exact H4|]. split; [exact Evotes|]. intros r b. rewrite H7.
    subst s1. cbn in Hv'. rewrite lookup_insert in Hv'. injection Hv' as <-. intros [[-> ->]|?]; auto. }
  destruct Hev as (Hyn & Hvs & Hen). destruct HJ, HK2.
  assert (Ha : approved_ranges (EvVoteAdded who rid agree :: s_events s2) = approved_ranges (s_events s2)).
  { intros. unfold approved_ranges. cbn. now rewrite omap_app, app_nil_r. }
  constructor; cbn -[approved_ranges yes_votes no_votes void_slots]; rewrite ?Ha, ?Hvs; auto.
  - intros r v0. subst s1. cbn -[yes_votes no_votes]. rewrite lookup_insert_Some. rewrite yes_votes_cons, no_votes_cons.
    destruct (Hyn r) as [-> ->]. intros [[<- <-]|[Hn H]].
    + rewrite bool_decide_true by reflexivity. destruct (J_tally0 _ _ Hv) as [E1 E2].
      destruct agree; cbn; rewrite E1, E2; auto.
    + rewrite bool_decide_false by congruence. rewrite !andb_false_r. cbn. auto.
  - intros r. subst s1. cbn -[yes_votes no_votes]. rewrite lookup_insert_None. rewrite yes_votes_cons, no_votes_cons.
    destruct (Hyn r) as [-> ->]. intros [H Hn]. rewrite bool_decide_false by congruence. rewrite !andb_false_r. cbn. auto.
  - intros r b [E|Hin]; [discriminate|]. subst s1. cbn -[yes_votes no_votes]. apply Hen in Hin as [Hin|[-> ->]].
    + destruct (J_ended0 _ _ Hin) as (v0 & ? & ?). exists v0. rewrite lookup_insert_ne; [auto|]. intros ->. eapply Hne; eauto.
    + eexists. rewrite lookup_insert. auto.
Qed.

Lemma Inv2_emit s e : quiet e = true -> Inv2 s -> Inv2 (s <| s_events := e :: s_events s |>).
Proof.
  intros He HJ. eapply Inv2_quiet; [exact HJ|]. constructor; cbn; auto. exists [e]. split; [reflexivity|]. cbn. now rewrite He.
Qed.

Lemma step_Inv2 c s o : Inv c s -> tx_ok s -> Inv2 s -> Inv2 (step c s o).
Proof.
  intros HI HT HJ. destruct (step_effect c s o HT) as [->|He]; [exact HJ|].
  set (s' := step c s o) in *. clearbody s'. destruct He; subst.
  - eapply Inv2_quiet; eauto.
  - eapply Inv2_record; eauto.
  - eapply Inv2_vote; eauto.
  - eapply Inv2_end; eauto.
  - eapply Inv2_slot; eauto.
  - apply Inv2_emit; [reflexivity|]. eapply Inv2_slot; [|eauto]. now apply Inv2_emit.
Qed.

Lemma genesis_Inv2 vs p v s : genesis vs p v = Some s -> Inv2 s.
Proof.
  unfold genesis. intros H. destruct vs as [|v0 vs]; [discriminate|].
  destruct (_ && _) eqn:E in H; [|discriminate]. injection H as <-.
  constructor; cbn; auto; try (intros ? ?; rewrite lookup_empty; discriminate); try (intros ? []; fail); try (intros ? ? []; fail).
  - constructor.
  - intros r. split; [intros []|]. intros [ic H]. rewrite lookup_empty in H. discriminate.
  - lia.
Qed.

Definition AllInv c s := Inv c s /\ tx_ok s /\ Inv2 s.
Lemma step_AllInv c s o : AllInv c s -> AllInv c (step c s o).
Proof. intros (H1 & H2 & H3). split; [now apply step_Inv|]. split; [now apply step_tx_ok|now apply step_Inv2]. Qed.
Lemma reach_AllInv c vs p v s ops : genesis vs p v = Some s -> AllInv c (run c s ops).
Proof.
  intros H. apply run_ind; [intros; now apply step_AllInv|].
  destruct (genesis_Inv c _ _ _ _ H). split; [assumption|]. split; [assumption|]. eapply genesis_Inv2; eauto.
Qed.

(** * Tiling *)
Definition pend_exact (s : st) : Prop :=
  forall a t ic, s_pending s !! (a, t) = Some ic -> a = s_next_block s /\ target_block (s_next_block s) (s_schedule s) = Some t.
Definition tiled (s : st) : Prop := tiles 0 (approved_ranges (s_events s)) (s_next_block s).

Lemma tiles_snoc a l b t : tiles a l b -> b <= t -> tiles a (l ++ [(b, t)]) (t + 1).
Proof.
  induction 1; intros Hle; cbn.
  - apply tiles_cons; [exact Hle|]. constructor.
  - apply tiles_cons; auto.
Qed.

Lemma target_le next sch t : MIN_SCHEDULE <= sch -> target_block next sch = Some t -> next <= t.
Proof.
  unfold target_block, safe_add, safe_sub, MIN_SCHEDULE. intros Hs H. destruct (checked_add _ _ _) as [e|] eqn:E; [|discriminate].
  apply checked_add_Some in E as [-> _]. destruct (next =? 0); [injection H as <-; lia|].
  apply checked_sub_Some in H as [-> _]. lia.
Qed.

Lemma tile_end c who rid s s' u : Inv c s -> pend_exact s -> tiled s -> end_voting c who rid s = (s', Ok u) -> 
  pend_exact s' /\ tiled s' /\ (forall r, s_pending s' !! r <> None -> s_pending s !! r <> None).
Proof.
  intros HI HP HT H. apply end_effect in H as (d & v & rest & Hd & Hval & Hp & Hv & Hout & Epend & Evotes & Eslot & Esch & Enext & Elast & EVal & Eev & Hq).
  destruct (end_block_lists rid (is_approved v) (rd_hash d) rest (s_events s) Hq) as (H1 & H2 & H3 & H4 & H5 & H6 & H7).
  rewrite <- Eev in *. destruct rid as [[a t] ic]. cbn [fst snd] in *.
  destruct (HP _ _ _ Hp) as [-> Ht].
  assert (Hu : forall a' t' ic', s_pending s !! (a', t') = Some ic' -> (a', t') = (s_next_block s, t)).
  { intros a' t' ic' Hr. destruct (HP _ _ _ Hr) as [-> Ht']. congruence. }
  split; [|split].
  - intros a' t' ic'. rewrite Epend, lookup_delete_Some. intros [Hne Hr]. apply Hu in Hr. congruence.
  - unfold tiled. rewrite H3, Enext. destruct (is_approved v); [|rewrite app_nil_r; exact HT].
    apply tiles_snoc; [exact HT|]. eapply target_le; [|exact Ht]. apply (I_periods _ _ HI).
  - intros r. rewrite Epend. intros Hn. destruct (decide ((s_next_block s, t) = r)) as [<-|].
    + rewrite lookup_delete in Hn. congruence.
    + now rewrite lookup_delete_ne in Hn.
Qed.

Lemma tile_step c s o : AllInv c s -> pend_exact s -> tiled s ->
  (changes_schedule o = true -> s_pending s = ∅) ->
  pend_exact (step c s o) /\ tiled (step c s o).
Proof.
  intros (HI & HT & HJ) HP HTi Hcalm. destruct (step_effect c s o HT) as [->|He]; [auto|].
  set (s' := step c s o) in *. clearbody s'.
  assert (Hslot : forall who s0 s2, pend_exact s0 -> tiled s0 -> update_slot_number c who s0 = (s2, Ok tt) -> pend_exact s2 /\ tiled s2).
  { intros who0 s0 s2 HP0 HT0 H. apply update_slot_ok in H as (sv & nv & _ & _ & _ & _ & _ & _ & _ & ->). split; [exact HP0|].
    unfold tiled in *. cbn -[approved_ranges]. unfold approved_ranges in *. cbn. rewrite omap_app. cbn. rewrite app_nil_r.
    destruct (_ <? _); cbn; rewrite ?omap_app; cbn; rewrite ?app_nil_r; exact HT0. }
  destruct He as [HS Hsch | nb h ic who sg -> H | rid who agree sg v s2 -> _ Hvd Hact Hv Hnv Hend -> | rid who sg -> H | who [sg ->] H | who r ch ce sg s1 s2 -> -> H -> ].
  - destruct HS as [EP EN EL EV ES EI EVal (new & Eev & Hq)].
    destruct (quiet_lists new (s_events s) Hq) as (H1 & H2 & H3 & H4 & H5 & H6 & H7).
    split; [|unfold tiled; now rewrite Eev, H3, EN].
    intros a t ic. rewrite EP, EN. intros Hr. destruct (changes_schedule o) eqn:Ho.
    + rewrite Hcalm, lookup_empty in Hr by reflexivity. discriminate.
    + rewrite Hsch by reflexivity. eauto.
  - apply record_summary_ok in H as (Hic & Hval & Htgt & Hp & _ & Hnei & _ & ->).
    split.
    + intros a t ic'. cbn. rewrite lookup_insert_Some. intros [[E _]|[_ Hr]]; [|eauto]. injection E as <- <-. auto.
    + unfold tiled in *. cbn. unfold approved_ranges in *. cbn. rewrite omap_app. cbn. now rewrite app_nil_r.
  - cbv zeta in Hend. set (s1 := s <| s_votes := <[ rid := cast v who agree ]> (s_votes s) |>) in *.
    assert (pend_exact s2 /\ tiled s2) as [HP2 HT2].
    { destruct Hend as [[-> _]|Hend]; [auto|]. eapply tile_end in Hend as (? & ? & _); auto. now apply Inv_cast. }
    split; [exact HP2|]. unfold tiled in *. cbn. unfold approved_ranges in *. cbn. rewrite omap_app. cbn. now rewrite app_nil_r.
  - eapply tile_end in H as (? & ? & _); eauto.
  - eapply Hslot; eauto.
  - assert (HTs : tiled (s <| s_events := EvOffence SlotNotAdvanced [ce] :: s_events s |>)).
    { unfold tiled in *. cbn. unfold approved_ranges in *. cbn. rewrite omap_app. cbn. now rewrite app_nil_r. }
    eapply Hslot in H as [HP2 HT2]; [|exact HP|exact HTs]. split; [exact HP2|].
    unfold tiled in *. cbn. unfold approved_ranges in *. cbn. rewrite omap_app. cbn. now rewrite app_nil_r.
Qed.

Lemma tile_run c ops : forall s, AllInv c s -> pend_exact s -> tiled s -> calm c s ops ->
  pend_exact (run c s ops) /\ tiled (run c s ops).
Proof.
  induction ops as [|o ops IH]; intros s HA HP HT; cbn; [auto|]. intros [H1 H2].
  destruct (tile_step c s o HA HP HT H1). apply IH; auto. now apply step_AllInv.
Qed.

Lemma genesis_tiled vs p v s : genesis vs p v = Some s -> pend_exact s /\ tiled s.
Proof.
  unfold genesis. intros H. destruct vs as [|v0 vs]; [discriminate|].
  destruct (_ && _) eqn:E in H; [|discriminate]. injection H as <-. split.
  - intros a t ic. cbn. rewrite lookup_empty. discriminate.
  - constructor.
Qed.

Lemma in_ended rid evs : In rid (ended evs) <-> exists b, In (EvVotingEnded rid b) evs.
Proof.
  unfold ended. rewrite <- elem_of_list_In, elem_of_list_omap. split.
  - intros (e & He & E). destruct e; try discriminate. injection E as ->. exists approved. now apply elem_of_list_In.
  - intros [b Hb]. exists (EvVotingEnded rid b). split; [now apply elem_of_list_In|reflexivity].
Qed.

Lemma cast_same v who agree : ss_threshold (cast v who agree) = ss_threshold v /\ ss_end (cast v who agree) = ss_end v.
Proof. destruct agree; auto. Qed.

(** How the sessions change in a step. *)
Lemma step_votes c s o : AllInv c s ->
  s_votes (step c s o) = s_votes s \/
  (exists nb h ic who sg, o = OpRecord nb h ic who sg /\
     s_votes s !! (s_next_block s, nb, ic) = None /\
     s_votes (step c s o) = <[(s_next_block s, nb, ic) := session_new (avn_quorum (s_validators s)) (s_block s + s_voting s) (s_block s)]> (s_votes s)) \/
  (exists rid who agree v, o = OpVote rid who agree true /\ is_validator (s_validators s) who = true /\
     session_is_active s rid = true /\ s_votes s !! rid = Some v /\ has_voted v who = false /\
     s_votes (step c s o) = <[rid := cast v who agree]> (s_votes s) /\
     ballots (s_events (step c s o)) = (who, rid) :: ballots (s_events s)).
Proof.
  intros (HI & HT & HJ). destruct (step_effect c s o HT) as [->|He]; [auto|].
  set (s' := step c s o) in *. clearbody s'.
  destruct He as [HS Hsch | nb h ic who sg -> H | rid who agree sg v s2 -> -> Hvd Hact Hv Hnv Hend -> | rid who sg -> H | who [sg ->] H | who r ch ce sg s1 s2 -> -> H -> ].
  - left. apply (SC_votes _ _ HS).
  - apply record_summary_ok in H as (Hic & Hval & Htgt & Hp & Hnv & Hnei & _ & ->). right; left.
    exists nb, h, ic, who, sg. auto.
  - right; right. exists rid, who, agree, v. repeat (split; [assumption || reflexivity|]).
    cbn -[ballots]. unfold ballots. cbn. fold (ballots (s_events s2)).
    destruct Hend as [[-> _]|Hend]; [auto|].
    apply end_voting_ballots in Hend as [-> ->]. auto.
  - left. apply end_voting_ballots in H as [_ ->]. reflexivity.
  - left. apply update_slot_ok in H as (? & ? & ? & ? & ? & ? & ? & ? & ? & ->). reflexivity.
  - left. apply update_slot_ok in H as (? & ? & ? & ? & ? & ? & ? & ? & ? & ->). reflexivity.
Qed.

Lemma published_quiet_pub c rid d s s1 : pub_effect c rid d s s1 ->
  published (s_events s1) = published (s_events s) \/ published (s_events s1) = rid :: published (s_events s).
Proof. intros [(Hh' & ->) | [(_ & Ha & tx & Htx & ->) | (_ & Ha & Hc & ->)]]; auto. Qed.

Lemma end_pub c who rid s s' u : end_voting c who rid s = (s', Ok u) ->
  published (s_events s') = published (s_events s) \/
  (published (s_events s') = rid :: published (s_events s) /\ c_ext_enabled c = false).
Proof.
  intros H. apply end_voting_fields in H as (d & v & d' & new & Hd & Hval & Hp & Hv & Hout & _ & _ & Esch & Evot & Ein & Esl & _ & _ &
    Evotes & Erev & Epend & Eroots & Hh' & _ & Hv' & Enext & Elast & Eev & Hnew).
  rewrite Eev. destruct Hnew as [(-> & _)|[(_ & _ & _ & -> & _)|(Ha & _ & He & _ & x & [->| ->])]]; destruct (is_approved v); try discriminate; auto.
Qed.

(** Where publications come from. *)
Lemma step_published c s o :
  published (s_events (step c s o)) = published (s_events s) \/
  exists rid, published (s_events (step c s o)) = rid :: published (s_events s) /\
   ((c_ext_enabled c = false) \/
    (exists ref_ r, o = OpExternal ref_ r /\ (r = PPassed \/ r = PExpired) /\ s_ext_ref s !! ref_ = Some rid) \/
    (o = OpResolve rid true /\ s_ext_status s !! rid = Some ExtPendingAdmin)).
Proof.
  destruct (step_inv c s o) as [->|[Hval H]]; [auto|].
  set (s' := step c s o) in *. clearbody s'. destruct o; cbn [exec] in H.
  - apply record_summary_ok in H as (_ & _ & _ & _ & _ & _ & _ & ->). auto.
  - apply vote_root_ok in H as (v & Hvd & Hact & Hv & Hnv & s2 & Hend & ->).
    destruct Hend as [[-> _]|Hend]; [auto|]. apply end_pub in Hend as [E|[E He]].
    + left. exact E.
    + right. exists rid. auto.
  - apply end_pub in H as [E|[E He]]; [auto|]. right. exists rid. auto.
  - apply update_slot_ok in H as (? & ? & ? & ? & ? & ? & ? & ? & ? & ->). left. cbn. destruct (_ <? _); reflexivity.
  - unfold add_challenge, emit in H.
    apply mbind_ok in H as (? & ? & Hg & H). minv Hg.
    apply mbind_ok in H as (? & ? & Hg & H). minv Hg.
    apply mbind_ok in H as (? & ? & Hg & H). minv Hg.
    apply mbind_ok in H as (s2 & ? & Hg & H). minv H.
    apply update_slot_ok in Hg as (? & ? & ? & ? & ? & ? & ? & ? & ? & ->). left. cbn. destruct (_ <? _); reflexivity.
  - apply set_periods_ok in H as (_ & _ & _ & _ & ->). auto.
  - apply set_admin_ok in H. destruct cfg; [destruct H as (_ & ->)|destruct H as (_ & _ & _ & _ & ->)|destruct H as (_ & _ & _ & ->)]; auto.
  - unfold admin_resolve in H.
    apply mbind_ok in H as (? & ? & Hg & H). minv Hg.
    apply mbind_ok in H as (? & ref_ & Hg & H). minv Hg.
    apply mbind_ok in H as (? & d & Hg & H). unfold try_get_root in Hg. minv Hg.
    apply mbind_ok in H as (? & stt & Hg & H). minv Hg.
    apply mbind_ok in H as (? & ? & Hg & H). minv Hg. apply bool_decide_eq_true in Hens. subst stt.
    apply mbind_ok in H as (s1 & [] & Hpub & H).
    apply mbind_ok in H as (s2 & [] & Hcl & H). unfold emit in H. minv H.
    unfold cleanup_external in Hcl. minv Hcl.
    destruct accepted.
    + apply process_accepted_ok in Hpub as (d1 & Hd1 & Hpub). apply published_quiet_pub in Hpub as [E|E]; [left; exact E|].
      right. exists rid. split; [exact E|]. auto.
    + minv Hpub. auto.
  - apply modify_ok in H. subst s'. unfold external_result. destruct (s_ext_ref s !! ref_) as [rid|] eqn:Hr; [|auto].
    assert (HP : forall s', s' = (match s_roots s !! rid with
      | None => s
      | Some _ =>
        let s1 := s <| s_ext_status := <[ rid := ExtAccepted ]> (s_ext_status s) |> in
        match process_accepted_root c rid s1 with
        | (s2, Err _) => s2
        | (s2, Ok _) => fst (cleanup_external rid ref_ s2)
        end
      end) -> published (s_events s') = published (s_events s) \/ published (s_events s') = rid :: published (s_events s)).
    { intros s' ->. destruct (s_roots s !! rid); [|auto]. cbv zeta. destruct (process_accepted_root c rid _) as [s2 [[]|e]] eqn:Hp.
      - apply process_accepted_ok in Hp as (d1 & Hd1 & Hpub). apply published_quiet_pub in Hpub. exact Hpub.
      - apply process_accepted_err in Hp. subst s2. auto. }
    specialize (HP _ eq_refl).
    destruct r; auto; (destruct HP as [E|E]; [left; exact E|right; exists rid; split; [exact E|eauto 10]]).
  - apply modify_ok in H. subst s'. unfold process_result. destruct (s_tx_to_root s !! tx) as [rid|] eqn:E; [|auto].
    destruct (matches && succeeded); auto.
  - minv H. auto.
  - minv H. auto.
  - minv H. auto.
  - minv H. auto.
Qed.

(** Slots. *)
Lemma step_slot c s o : AllInv c s ->
  s_slot (step c s o) = s_slot s \/
  exists who sv, 
    (o = OpAdvanceSlot who true \/ exists r ch ce, o = OpChallenge r ch ce who true) /\
    is_validator (s_validators s) who = true /\
    s_next_slot_at s <= s_block s /\ s_slot_validator s = Some sv /\
    (c_grace c < s_block s - s_next_slot_at s -> who <> sv) /\
    (s_block s - s_next_slot_at s <= c_grace c -> who = sv) /\
    s_slot (step c s o) = s_slot s + 1 /\
    (exists nv, s_slot_validator (step c s o) = Some nv /\ primary_for_block (s_validators s) (s_slot s + 1) = Ok nv) /\
    s_next_slot_at (step c s o) = s_next_slot_at s + s_schedule s.
Proof.
  intros (HI & HT & HJ). destruct (step_inv c s o) as [->|[Hvu _]]; [auto|].
  destruct (step_effect c s o HT) as [->|He]; [auto|].
  set (s' := step c s o) in *. clearbody s'.
  assert (Hg : forall s0, grace_elapsed c s0 (s_block s0) = (c_grace c <? s_block s0 - s_next_slot_at s0)).
  { intros s0. unfold grace_elapsed, safe_sub, checked_sub. destruct (N.leb_spec (s_next_slot_at s0) (s_block s0)); [reflexivity|].
    f_equal. lia. }
  destruct He as [HS Hsch | nb h ic who sg -> H | rid who agree sg v s2 -> -> Hvd Hact Hv Hnv Hend -> | rid who sg -> H | who [sg ->] H | who r ch ce sg s1 s2 -> -> H -> ].
  - left. apply (SC_slot _ _ HS).
  - left. apply record_summary_ok in H as (_ & _ & _ & _ & _ & _ & _ & ->). reflexivity.
  - left. destruct Hend as [[-> _]|Hend]; [auto|].
    apply end_effect in Hend as (d & v' & rest & Hd & Hval & Hp & Hv' & Hout & Epend & Evotes & Eslot & _). exact Eslot.
  - left. apply end_effect in H as (d & v' & rest & Hd & Hval & Hp & Hv' & Hout & Epend & Evotes & Eslot & _). exact Eslot.
  - right. apply update_slot_ok in H as (sv & nv & H1 & H2 & H3 & H4 & H5 & H6 & H7 & ->). exists who, sv.
    rewrite Hg, ?N.ltb_lt, ?N.ltb_ge in *.
    cbn in Hvu. rewrite H2, !andb_true_iff in Hvu. destruct Hvu as [[_ Hv1] ->].
    split; [auto|]. repeat (split; [assumption|]). split; [reflexivity|]. split; [|reflexivity]. exists nv. auto.
  - right. apply update_slot_ok in H as (sv & nv & H1 & H2 & H3 & H4 & H5 & H6 & H7 & ->). exists who, sv. cbn in * |-.
    match type of H3 with grace_elapsed c ?x _ = _ -> _ => pose proof (Hg x) as Hgx; cbn in Hgx; rewrite Hgx in H3, H4 end.
    rewrite ?N.ltb_lt, ?N.ltb_ge in *. destruct r; [|discriminate]. rewrite !andb_true_iff in Hvu. destruct Hvu as [Hv1 ->].
    split; [eauto|]. repeat (split; [assumption|]). split; [reflexivity|]. split; [|reflexivity]. exists nv. auto.
Qed.
