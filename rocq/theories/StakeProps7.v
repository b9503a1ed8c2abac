(** C37: until a candidate leaves, the recorded total stake is exactly what candidates and nominators have at stake. *)
From Verif Require Import Base BaseLemmas CodecModel SigModel StakeModel StakeSpec StakeBook StakeCross StakeInv StakeOps StakeNom StakeLeave StakeExit StakeCand StakeRun StakeFrame StakeMoves StakeSteps StakeProps StakeProps2 StakeProps3 StakeProps4 StakeProps5 StakeProps6.

Definition exact (s : st) : Prop := s_total s = at_stake s.
Lemma balanced_exact s s' : exact s -> balanced s s' -> exact s'.
Proof. unfold exact, balanced. lia. Qed.
Definition still (s s' : st) : Prop := s_total s' = s_total s /\ at_stake s' = at_stake s.
Lemma still_exact s s' : exact s -> still s s' -> exact s'.
Proof. unfold exact, still. lia. Qed.
Lemma still_same s s' : s_total s' = s_total s -> s_cands s' = s_cands s -> s_nominators s' = s_nominators s -> still s s'.
Proof. intros E1 E2 E3. split; [done|]. unfold at_stake. by rewrite E2, E3. Qed.
Lemma still_cand s s' k x x' : s_cands s !! k = Some x -> k_bond x' = k_bond x -> s_total s' = s_total s -> s_cands s' = <[k := x']> (s_cands s) -> s_nominators s' = s_nominators s -> still s s'.
Proof. intros H B E1 E2 E3. split; [done|]. unfold at_stake. pose proof (cands_sum _ _ _ _ _ H E2) as C. rewrite E3. lia. Qed.
Lemma still_nom s s' w m m' : s_nominators s !! w = Some m -> m_total m' = m_total m -> s_total s' = s_total s -> s_cands s' = s_cands s -> s_nominators s' = <[w := m']> (s_nominators s) -> still s s'.
Proof. intros H B E1 E2 E3. split; [done|]. unfold at_stake. pose proof (noms_sum _ _ _ _ _ H E3) as C. rewrite E2. lia. Qed.
Lemma still_refl s : still s s. Proof. done. Qed.
Lemma still_trans a b d : still a b -> still b d -> still a d.
Proof. unfold still. intuition congruence. Qed.

Ltac quiet_cand := eapply still_cand; [eassumption| |reflexivity|reflexivity|reflexivity]; reflexivity.
Ltac quiet_nom := eapply still_nom; [eassumption| |reflexivity|reflexivity|reflexivity]; reflexivity.
Lemma schedule_leave_still s k h : post (schedule_leave_candidates k h) (fun _ s' => still s s') s.
Proof. unfold schedule_leave_candidates, pool_remove, put_cand. ps. quiet_cand. Qed.
Lemma cancel_leave_still c s k h : post (cancel_leave_candidates c k h) (fun _ s' => still s s') s.
Proof. unfold cancel_leave_candidates, pool_insert, update_active, put_cand. ps. quiet_cand. Qed.
Lemma go_offline_still s k : post (go_offline k) (fun _ s' => still s s') s.
Proof. unfold go_offline, pool_remove, put_cand. ps. quiet_cand. Qed.
Lemma go_online_still c s k : post (go_online c k) (fun _ s' => still s s') s.
Proof. unfold go_online, pool_insert, update_active, put_cand. ps. quiet_cand. Qed.
Lemma schedule_candidate_unbond_still s k x : post (schedule_candidate_unbond k x) (fun _ s' => still s s') s.
Proof. unfold schedule_candidate_unbond, put_cand. ps. quiet_cand. Qed.
Lemma cancel_candidate_unbond_still s k : post (cancel_candidate_unbond k) (fun _ s' => still s s') s.
Proof. unfold cancel_candidate_unbond, put_cand. ps. quiet_cand. Qed.
Lemma schedule_revoke_still c s w k : post (schedule_revoke c w k) (fun _ s' => still s s') s.
Proof. unfold schedule_revoke. ps. destruct (can_push _ _); [|ps; apply still_refl]. unfold set_reqs, set_nominator. ps. quiet_nom. Qed.
Lemma schedule_decrease_still c s w k x : post (schedule_decrease c w k x) (fun _ s' => still s s') s.
Proof. unfold schedule_decrease. ps. destruct (can_push _ _); [|ps; apply still_refl]. unfold set_reqs, set_nominator. ps. quiet_nom. Qed.
Lemma cancel_request_still s w k : post (cancel_request w k) (fun _ s' => still s s') s.
Proof. unfold cancel_request. ps. destruct a0 as [r l]. unfold set_reqs, set_nominator. ps. quiet_nom. Qed.
Lemma schedule_revoke_all_still c s w : post (schedule_revoke_all c w) (fun _ s' => still s s') s.
Proof.
  unfold schedule_revoke_all. p1. p1. p1. p1.
  assert (Hg : forall l acc, m_total (fold_left (revoke_all_step c s w (sat32 (s_era s) (s_delay s))) l acc).1.1 = m_total acc.1.1).
  { induction l as [|[k x] l IH]; intros acc; cbn [fold_left]; [done|]. rewrite IH. destruct acc as [[m n] out]. unfold revoke_all_step.
    destruct (can_push c _); cbn; destruct (take_req _ _) as [[q l2]|]; done. }
  specialize (Hg (nom_list a) (a, 0, [])). destruct (fold_left _ _ _) as [[m' n] out]. cbn in Hg. unfold write_reqs, set_nominator. ps. eapply (still_nom s _ w a m'); done.
Qed.
Lemma cancel_revoke_all_still s w : post (cancel_revoke_all w) (fun _ s' => still s s') s.
Proof.
  unfold cancel_revoke_all. p1. p1. p1. p1. p1. p1.
  assert (Hg : forall l acc, m_total (fold_left (cancel_all_step s w) l acc).1 = m_total acc.1).
  { induction l as [|k l IH]; intros acc; cbn [fold_left]; [done|]. rewrite IH. destruct acc as [m out]. unfold cancel_all_step. destruct (take_req _ _) as [[q l2]|]; done. }
  specialize (Hg (keys (m_noms a)) (a, [])). destruct (fold_left _ _ _) as [m' out]. cbn in Hg. unfold write_reqs, set_nominator. ps. eapply (still_nom s _ w a m'); done.
Qed.
Lemma hotfix_still s l : post (hotfix l) (fun _ s' => still s s') s.
Proof. unfold hotfix. ps. by apply still_same. Qed.
Lemma set_total_selected_still c s x : post (set_total_selected c x) (fun _ s' => still s s') s.
Proof. unfold set_total_selected. ps. by apply still_same. Qed.
Lemma set_blocks_per_era_still c s x : post (set_blocks_per_era c x) (fun _ s' => still s s') s.
Proof. unfold set_blocks_per_era. ps. by apply still_same. Qed.
Lemma set_admin_still c s v : post (set_admin_setting c v) (fun _ s' => still s s') s.
Proof. unfold set_admin_setting. ps. destruct v; by apply still_same. Qed.
Lemma on_initialize_still c s : post (on_initialize c) (fun _ s' => still s s') s.
Proof.
  unfold on_initialize. p1. p1. p1. p1. destruct (_ <=? _); [|ps; by apply still_same].
  p1. eapply (post_mono _ (fun _ s' => still s s')); [|intros ? s1 H1; cbv beta; ps; eapply still_trans; [exact H1|by apply still_same]].
  unfold select_top_candidates. p1. p1. destruct (compute_top_candidates _); ps; by apply still_same.
Qed.

Section exact.
Variable c : config.
Hypothesis Hc : config_ok c.

Lemma noms_le s w m : s_nominators s !! w = Some m -> m_total m <= msum (fun _ m => m_total m) (s_nominators s).
Proof. intros H. pose proof (noms_sum (s_nominators s) _ w m (mkNominator ∅ 0 0) H eq_refl) as E. cbn in E. lia. Qed.
(** One nomination goes. *)
Lemma removed_exact s s' k w a m x new : Inv c s -> exact s -> s_nominators s !! w = Some m -> m_noms m !! k = Some a -> s_cands s !! k = Some x -> k_bond new = k_bond x ->
  s_total s' = saturating_sub (s_total s) a -> s_cands s' = <[k := new]> (s_cands s) -> s_nominators s' = drop_nom k w a (pend (s_reqs s) k w) (s_nominators s) -> exact s'.
Proof.
  intros H He Hm Ha Hx B E1 E2 E3. destruct (nom_cand c s w m k a H Hm Ha) as (_ & _ & _ & _ & _ & _ & _ & _ & _ & _ & Hea & _).
  destruct (cross_remove c Hc _ _ _ _ k w a m (i_cross _ _ H) Hm Hea) as (_ & Hsum & _). pose proof (cands_sum _ _ _ _ _ Hx E2) as C.
  unfold exact, at_stake, saturating_sub in *. rewrite E1, E3. lia.
Qed.
Lemma execute_request_exact s w k : Inv c s -> exact s -> post (execute_request c w k) (fun _ s' => exact s') s.
Proof.
  intros H He. pose proof (i_cross _ _ H) as Hcr. unfold execute_request. p1. p1. p1. p1. p1. p1. destruct a0 as [r l]. p1. p1.
  rename a into m, Hsome into Hm, Hsome0 into Htk. apply N.leb_le in Hens.
  destruct (drop_req_take k w _ r l Htk) as [Hdr Hpe]. destruct (take_req_sub _ _ _ _ Htk) as [Hin _].
  destruct (cr_req _ _ _ _ _ Hcr k w r Hpe) as (a & Hea & Hact).
  assert (Ha : m_noms m !! k = Some a). { rewrite <- (cr_link _ _ _ _ _ Hcr) in Hea. unfold noms_of in Hea. by rewrite Hm in Hea. }
  destruct (nom_cand c s w m k a H Hm Ha) as (_ & _ & _ & _ & _ & _ & _ & _ & _ & _ & _ & _ & _ & Hat & _ & _).
  destruct (r_action r) as [amount|amount] eqn:Er; cbn in Hact.
  - subst amount. ps. unfold rm_nomination. change (m_noms (m <| m_less := saturating_sub (m_less m) (action_amount (Revoke a)) |>)) with (m_noms m).
    rewrite Ha. unfold set_nom_lock. ps. unfold nominator_leaves_candidate. p1. apply post_load. intros y t b Hy Ht Hb. ps. apply rm_kept in Hres as (_ & _ & K). cbn in K.
    unfold sub_total. ps. unfold set_reqs, del_nominator, set_nominator. ps.
    assert (Hd : forall s', s_total s' = saturating_sub (s_total s) a -> s_cands s' = <[k := bk a0]> (s_cands s) -> s_nominators s' = (if N.of_nat (size (m_noms m)) =? 1 then delete w (s_nominators s)
       else <[w := m <| m_less := saturating_sub (m_less m) (action_amount (Revoke a)) |> <| m_noms := delete k (m_noms m) |> <| m_total := saturating_sub (m_total m) a |>]> (s_nominators s)) -> exact s').
    { intros s' E1 E2 Es. eapply (removed_exact s s' k w a m y (bk a0)); try done.
      destruct (cross_remove c Hc _ _ _ _ k w a m Hcr Hm Hea) as (_ & _ & _ & _ & _ & _ & Hgl & Hz & Hsz). rewrite Es. unfold drop_nom. rewrite Hm, Hpe. cbn. rewrite Er. cbn. destruct (decide _) as [Hd|Hd].
      - by rewrite (proj2 (N.eqb_eq _ _)) by (by apply Hsz).
      - rewrite (proj2 (N.eqb_neq _ _)); [done|]. intros Hq. apply Hd. by apply Hsz. }
    destruct (N.of_nat (size (m_noms m)) =? 1) eqn:E1; ps; by apply Hd.
  - p1. rewrite Ha. p1. injection Hsome as <-. ps. apply post_load. intros y t b Hy Ht Hb. unfold set_nom_lock. ps. apply decrease_kept in Hres as (_ & _ & K). cbn in K. unfold sub_total, set_reqs, set_nominator. ps.
    assert (Hd : forall s' m', s_total s' = saturating_sub (s_total s) amount -> s_cands s' = <[k := bk a0]> (s_cands s) -> m_total m' = saturating_sub (m_total m) amount -> s_nominators s' = <[w := m']> (s_nominators s) -> exact s').
    { intros s' m' E1 E2 E3 E4. pose proof (cands_sum _ _ _ _ _ Hy E2) as C. pose proof (noms_sum _ _ _ _ _ Hm E4) as D. pose proof (noms_le s w m Hm). unfold exact, at_stake, saturating_sub in *. apply N.ltb_lt in Hens0. lia. }
    eapply Hd; [reflexivity|reflexivity| |reflexivity]; reflexivity.
Qed.
Lemma leave_loop_exact w l : forall s NN R L m, Inv c (vs s NN R L) -> exact (vs s NN R L) -> NN !! w = Some m -> NoDup (map fst l) ->
  (forall k a, (k, a) ∈ l <-> m_noms m !! k = Some a) ->
  exists s', leave_loop c w l s = (s', Ok tt) /\ s_nominators s' = s_nominators s /\ exact (vs s' (delete w NN) R L).
Proof.
  induction l as [|[k a] l IH]; intros s NN R L m H He Hm Hnd Hl.
  { exfalso. destruct (cr_nom _ _ _ _ _ (i_cross _ _ H) w m Hm) as (Hne & _). apply map_choose in Hne as (k & a & Ha).
    apply Hl in Ha. by apply elem_of_nil in Ha. }
  cbn [map fst] in Hnd. apply NoDup_cons in Hnd as [Hk Hnd].
  assert (Ha : m_noms m !! k = Some a) by (apply Hl; left).
  destruct (nom_cand c (vs s NN R L) w m k a H Hm Ha) as (x & t & b & Hx & Ht & Hb & Hok & Hin & _ & HE & Hea & Hfit & Hmin & Hat & Hw & Hkw).
  cbn in Hx, Ht, Hb.
  destruct (rm_nomination_ok c Hc w a (mkBook x t b) Hok Hfit Hin) as (new & Hnew & Hok' & Hmeta & HP).
  cbn [leave_loop]. unfold mbind_. rewrite (leaves_eq c s k w a x t b new Hx Ht Hb Hnew). pose proof (rm_kept _ _ _ _ _ Hnew) as (_ & _ & K). cbn in K.
  set (s1 := stored k (mkBook x t b) new (s <| s_total := saturating_sub (s_total s) a |>)).
  assert (H1 : Inv c (vs s1 (drop_nom k w a (pend R k w) NN) (drop_req k w R) (drop_lock w (m_total m - a) L))).
  { by eapply (inv_remove c Hc (vs s NN R L) _ k w a m x t b new H). }
  assert (He1 : exact (vs s1 (drop_nom k w a (pend R k w) NN) (drop_req k w R) (drop_lock w (m_total m - a) L))).
  { by eapply (removed_exact (vs s NN R L) _ k w a m x (bk new) H). }
  destruct (cross_remove c Hc _ _ _ _ k w a m (i_cross _ _ H) Hm Hea) as (Hcr & _ & _ & _ & _ & _ & _ & Hz & _). cbn in Hcr.
  unfold drop_nom in H1, He1. rewrite Hm in H1, He1.
  destruct (decide (delete k (m_noms m) = ∅)) as [Hd|Hd].
  - assert (l = []) as ->.
    { destruct l as [|[k2 a2] l]; [done|]. exfalso. assert (Ha2 : m_noms m !! k2 = Some a2) by (apply Hl; right; left).
      assert (Hx2 : delete k (m_noms m) !! k2 = Some a2). { rewrite lookup_delete_ne; [done|]. intros ->. apply Hk. cbn. left. }
      rewrite Hd, lookup_empty in Hx2. done. }
    exists s1. split; [done|]. split; [done|]. exact He1.
  - destruct (IH s1 _ _ _ _ H1 He1 (lookup_insert _ _ _) Hnd) as (s' & Hr & E1 & HI).
    + intros k2 a2. cbn. rewrite lookup_delete_Some, <- Hl, elem_of_cons. split.
      * intros Hin2. split; [|by right]. intros ->. apply Hk. apply elem_of_list_fmap. by exists (k2, a2).
      * intros [Hne [Hin2|Hin2]]; [congruence|done].
    + exists s'. split; [exact Hr|]. split; [by rewrite E1|].
      rewrite !delete_insert_delete in HI. exact HI.
Qed.
Lemma execute_revoke_all_exact s w h : Inv c s -> exact s -> post (execute_revoke_all c w h) (fun _ s' => exact s') s.
Proof.
  intros H He. unfold execute_revoke_all. p1. p1. p1. p1. p1. p1. p1. p1. p1. rename a into m, Hsome into Hm.
  destruct (leave_loop_exact w (nom_list m) s (s_nominators s) (s_reqs s) (s_nom_lock s) m) as (s' & Hr & E1 & HI).
  { by destruct s. } { by destruct s. } { done. } { rewrite nom_list_fst. apply keys_nodup. } { apply nom_list_elem. }
  unfold post at 1. rewrite Hr. unfold set_nom_lock, write_reqs, del_nominator. ps. unfold exact, at_stake in *. cbn in *. rewrite E1. exact HI.
Qed.

Lemma both {A} (m : M st A) s (Q : st -> Prop) : wp m (fun _ s' => Inv c s') s -> post m (fun _ s' => Q s') s -> post m (fun _ s' => Inv c s' /\ Q s') s.
Proof. intros H1 H2. eapply post_mono; [apply (post_and _ _ _ _ (wp_post _ _ _ H1) H2)|]. done. Qed.
Lemma nominate_exact s w k a h1 h2 : Inv c s -> exact s -> post (call_nominate c w k a h1 h2) (fun _ s' => exact s') s.
Proof. intros H He. eapply post_mono; [by apply call_nominate_balanced|]. intros ? s'. by apply balanced_exact. Qed.
Lemma bond_extra_exact s w k x : Inv c s -> exact s -> post (call_bond_extra c w k x) (fun _ s' => exact s') s.
Proof. intros H He. eapply post_mono; [by apply call_bond_extra_raised|]. intros ? s' R. exact (balanced_exact _ _ He (raised_balanced _ _ _ R)). Qed.
Lemma candidate_bond_extra_exact s k x : Inv c s -> exact s -> post (candidate_bond_extra k x) (fun _ s' => exact s') s.
Proof. intros H He. eapply post_mono; [by apply (candidate_bond_extra_raised c)|]. intros ? s' R. exact (balanced_exact _ _ He (raised_balanced _ _ _ R)). Qed.
Lemma join_exact s k b h : Inv c s -> exact s -> post (join_candidates c k b h) (fun _ s' => exact s') s.
Proof. intros H He. eapply post_mono; [by apply join_raised|]. intros ? s' R. exact (balanced_exact _ _ He (raised_balanced _ _ _ R)). Qed.
Lemma execute_candidate_unbond_exact s k : Inv c s -> exact s -> post (execute_candidate_unbond k) (fun _ s' => exact s') s.
Proof. intros H He. eapply post_mono; [by apply (execute_candidate_unbond_lowered c)|]. intros ? s' (x & less & w & _ & _ & E1 & E2). unfold exact in *. lia. Qed.
Ltac quiet L := eapply post_mono; [apply L|]; intros ? ?; by apply still_exact.

Lemma nominate_each_exact w per dust n l : forall i remaining count s, Inv c s -> exact s ->
  post (nominate_each c w per dust n i remaining count l) (fun _ s' => exact s') s.
Proof.
  induction l as [|k l IH]; intros i remaining count s H He; cbn [nominate_each]; ps; [done|].
  eapply post_mono; [apply both; [by apply call_nominate_ok | by apply nominate_exact]|]. intros ? s' [H1 H2]. by apply IH.
Qed.
Lemma bond_extra_each_exact w per dust n l : forall i remaining s, Inv c s -> exact s -> post (bond_extra_each c w per dust n i remaining l) (fun _ s' => exact s') s.
Proof.
  induction l as [|k l IH]; intros i remaining s H He; cbn [bond_extra_each]; ps; [done|].
  eapply post_mono; [apply both; [by apply call_bond_extra_ok | by apply bond_extra_exact]|]. intros ? s' [H1 H2]. by apply IH.
Qed.
Lemma decrease_each_exact w l : forall out s, exact s -> post (decrease_each c w l out) (fun _ s' => exact s') s.
Proof.
  induction l as [|[[k spare] x] l IH]; intros out s He; cbn [decrease_each]; ps; [done|].
  eapply post_mono; [apply schedule_decrease_still|]. intros ? s' H'. apply IH. by eapply still_exact.
Qed.
Lemma execute_each_exact w l : forall s, Inv c s -> exact s -> post (execute_each c w l) (fun _ s' => exact s') s.
Proof.
  induction l as [|k l IH]; intros s H He; cbn [execute_each]; ps; [done|].
  destruct (_ <=? _); [|ps; by apply IH]. eapply post_mono; [apply both; [by apply execute_request_ok | by apply execute_request_exact]|]. intros ? s' [H1 H2]. by apply IH.
Qed.
Lemma call_body_exact w x s : Inv c s -> exact s -> post (call_body c w x) (fun _ s' => exact s') s.
Proof.
  intros H He. destruct x; cbn [call_body].
  - unfold split_and_nominate. ps. by apply nominate_each_exact.
  - unfold bond_extra_all. ps. by apply bond_extra_each_exact.
  - by apply candidate_bond_extra_exact.
  - quiet schedule_candidate_unbond_still.
  - unfold unbond_spread. ps. destruct (withdraw_from _ _ _ _). by apply decrease_each_exact.
  - quiet schedule_revoke_still.
  - quiet schedule_revoke_all_still.
  - ps. by apply execute_revoke_all_exact.
  - unfold execute_all. ps. by apply execute_each_exact.
  - by apply execute_candidate_unbond_exact.
Qed.
Definition is_exit (o : op) : bool := match o with ExecuteLeave _ _ _ => true | _ => false end.
Lemma body_exact cr o s : Inv c s -> exact s -> is_exit o = false -> post (body c cr o) (fun _ s' => exact s') s.
Proof.
  intros H He Ho. destruct o; cbn [body]; try discriminate Ho.
  - by apply join_exact.
  - quiet schedule_leave_still.
  - quiet cancel_leave_still.
  - quiet go_offline_still.
  - quiet go_online_still.
  - by apply candidate_bond_extra_exact.
  - quiet schedule_candidate_unbond_still.
  - by apply execute_candidate_unbond_exact.
  - quiet cancel_candidate_unbond_still.
  - ps. by apply nominate_exact.
  - ps. by apply bond_extra_exact.
  - quiet schedule_revoke_all_still.
  - by apply execute_revoke_all_exact.
  - quiet cancel_revoke_all_still.
  - quiet schedule_revoke_still.
  - quiet schedule_decrease_still.
  - by apply execute_request_exact.
  - quiet cancel_request_still.
  - quiet hotfix_still.
  - unfold signed_call. ps. eapply post_mono; [by apply call_body_exact|]. intros ? s' H'. ps. exact H'.
  - quiet set_total_selected_still.
  - quiet set_blocks_per_era_still.
  - quiet set_admin_still.
  - quiet on_initialize_still.
  - ps. exact He.
  - ps. exact He.
Qed.
End exact.

(** Every call but the one that lets a candidate leave keeps the record exact, also when it fails. *)
Theorem C37_exact_kept c cr s o : reachable c cr s -> s_total s = at_stake s -> (forall w k h, o <> ExecuteLeave w k h) ->
  s_total (step c cr s o) = at_stake (step c cr s o).
Proof.
  intros Hr He Ho. pose proof (proj1 Hr) as Hc. apply reachable_inv in Hr. destruct (not_accepted c cr s o) as [Ha|E]; [|by rewrite E].
  apply (accepted_post c cr s o exact); [|exact Ha]. apply body_exact; [done|done|done|]. destruct o; try reflexivity. exfalso. by eapply Ho.
Qed.
(** From genesis on, as long as no candidate has left, the recorded total is what is at stake. *)
Theorem C37_exact_without_leaving c cr delay min_col min_nom l : config_ok c -> c_min_per_collator c <= min_nom ->
  (forall w k h, ExecuteLeave w k h ∉ l) -> let s := run c cr (genesis c delay min_col min_nom) l in s_total s = at_stake s.
Proof.
  intros Hc Hm Hl. cbv zeta. induction l as [|o l IH] using rev_ind; [done|].
  assert (Hr : reachable c cr (run c cr (genesis c delay min_col min_nom) l)) by (split; [done|]; by exists delay, min_col, min_nom, l).
  unfold run in *. rewrite fold_left_app. cbn [fold_left]. apply C37_exact_kept; [exact Hr| |].
  - apply IH. intros w k h Hin. apply (Hl w k h). apply elem_of_app. by left.
  - intros w k h ->. apply (Hl w k h). apply elem_of_app. right. by left.
Qed.
(** Not vacuous: [ex_ops] has nominations, a kicked nomination, requests; 107 is at stake after it. *)
Example C37_exact_applies : (forall w k h, ExecuteLeave w k h ∉ ex_ops) /\ s_total ex_s = at_stake ex_s /\ 0 < s_total ex_s.
Proof. split; [|split; reflexivity]. intros w k h Hin. unfold ex_ops in Hin. repeat (apply elem_of_cons in Hin as [Hin|Hin]; [discriminate Hin|]). by apply elem_of_nil in Hin. Qed.
