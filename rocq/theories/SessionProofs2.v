(** Departures: when a deregistered collator leaves staking. *)
From Verif Require Import Base BaseLemmas CodecModel SigModel AvnModel StakeModel StakeSpec StakeBook StakeCross StakeInv StakeOps StakeNom StakeLeave StakeExit StakeCand StakeRun StakeFrame StakeMoves StakeSteps StakeProps StakeProps2 StakeProps3 SessionModel SessionProofs.

Section leave.
Variables (c : config) (cr : crypto).
Notation cstep := (cstep c cr).
Notation crun := (crun c cr).
Notation exec := (exec c cr).
Notation step := (step c cr).

(** ** Executing a departure removes that candidate and touches no other, nor the pool *)
Definition kp {A} (m : M st A) : Prop := forall s0, post m (fun _ s' => s_cands s' = s_cands s0 /\ s_pool s' = s_pool s0) s0.
Lemma kp_bind {A B} (m : M st A) (f : A -> M st B) : kp m -> (forall a, kp (f a)) -> kp (mbind_ m f).
Proof. intros Hm Hf s0. apply post_bind. eapply post_mono; [apply Hm|]. intros a s' (E1 & E2). cbn. eapply post_mono; [apply Hf|]. intros b s2 (F1 & F2). split; congruence. Qed.
Lemma kp_rm w k m : kp (rm_nomination w k m).
Proof. intros s0. unfold rm_nomination. destruct (m_noms m !! k); unfold set_nom_lock; by ps. Qed.
Lemma kp_remove k w m : kp (remove_request k w m).
Proof. intros s0. unfold remove_request. ps. destruct (take_req _ _) as [[r l]|]; unfold set_reqs; by ps. Qed.
Lemma kp_return k x : kp (return_stake k x).
Proof.
  unfold return_stake. apply kp_bind; [intros s0; by ps|]. intros s. apply kp_bind; [intros s0; by ps|]. intros m. apply kp_bind; [apply kp_rm|]. intros [m1 [rest|]].
  - apply kp_bind; [apply kp_remove|]. intros m2 s0. destruct (rest =? 0); unfold del_nominator, set_nom_lock, set_nominator; by ps.
  - intros s0. unfold set_nom_lock. by ps.
Qed.
Lemma kp_return_all k l : kp (return_all k l).
Proof. induction l as [|x l IH]; [intros s0; cbn; by ps|]. cbn. apply kp_bind; [apply kp_return|]. intros _. exact IH. Qed.
Lemma leave_effect s k h a s' r : exec (ExecuteLeave a k h) s = (s', Ok r) -> s_cands s' = delete k (s_cands s) /\ s_pool s' = s_pool s /\
  exists x e, s_cands s !! k = Some x /\ k_status x = Leaving e /\ e <= s_era s.
Proof.
  unfold StakeModel.exec, dispatch. cbn [body]. intros E.
  assert (Hp : post (execute_leave_candidates k h) (fun _ s' => s_cands s' = delete k (s_cands s) /\ s_pool s' = s_pool s /\
    exists x e, s_cands s !! k = Some x /\ k_status x = Leaving e /\ e <= s_era s) s).
  { unfold execute_leave_candidates. ps. apply post_load. intros x t b Hx Ht Hb. ps.
    eapply post_mono; [apply kp_return_all|]. intros _ s1 (A1 & A2). cbv beta. ps. eapply post_mono; [apply kp_return_all|]. intros _ s2 (B1 & B2). cbv beta. unfold sub_total. ps. cbn.
    rewrite B1, A1, B2, A2. split; [done|]. split; [done|]. exists x. cbn in *. destruct (k_status x) as [| |e]; try done. exists e. split; [done|]. split; [done|]. by apply N.leb_le. }
  unfold post in Hp. destruct (execute_leave_candidates k h s) as [s1 [[]|e]]; [|done]. injection E as <- _. exact Hp.
Qed.

(** ** The departures of one rotation *)
Lemma exit_one_effect active ch k : let ch' := exit_one c cr active ch k in
  (ch_st ch' = ch_st ch /\ ch_exit ch' = ch_exit ch) \/
  (k ∉ active /\ s_cands (ch_st ch') = delete k (s_cands (ch_st ch)) /\ s_pool (ch_st ch') = s_pool (ch_st ch) /\ ch_exit ch' = ch_exit ch ∖ {[k]} /\
   rest (ch_st ch') = rest (ch_st ch) /\ exists x e, s_cands (ch_st ch) !! k = Some x /\ k_status x = Leaving e /\ e <= s_era (ch_st ch)).
Proof.
  unfold exit_one. destruct (bool_decide _) eqn:Eb; [by left|]. apply bool_decide_eq_false in Eb. destruct (s_cands _ !! k) as [x|] eqn:Ex; [|by left].
  destruct (exec _ _) as [s' [[]|e]] eqn:E; [|by left]. right. cbn. destruct (leave_effect _ _ _ _ _ _ E) as (H1 & H2 & H3). split; [done|]. split; [done|]. split; [done|]. split; [done|].
  rewrite Ex in H3. split; [|done]. rewrite (exec_step c cr _ _ _ _ E). destruct (C41_calls_touch_nothing_else c cr (ch_st ch) (ExecuteLeave k k (k_count x)) eq_refl) as [H H'].
  unfold rest in *. cbn in H. rewrite H' by done. congruence.
Qed.
Lemma exits_effect active l : forall ch, let ch' := fold_left (exit_one c cr active) l ch in
  s_pool (ch_st ch') = s_pool (ch_st ch) /\ rest (ch_st ch') = rest (ch_st ch) /\
  (forall k, s_cands (ch_st ch') !! k = s_cands (ch_st ch) !! k \/
     (s_cands (ch_st ch') !! k = None /\ k ∈ l /\ k ∉ active /\ exists x e, s_cands (ch_st ch) !! k = Some x /\ k_status x = Leaving e /\ e <= s_era (ch_st ch))).
Proof.
  induction l as [|k l IH]; intros ch; [cbn; split; [done|]; split; [done|]; by left|]. cbn. set (ch1 := exit_one c cr active ch k). specialize (IH ch1). cbn in IH. destruct IH as (I1 & I2 & I3).
  destruct (exit_one_effect active ch k) as [[E1 E2]|(E0 & E1 & E2 & E3 & E4 & E5)].
  - fold ch1 in E1, E2. rewrite I1, I2, E1. split; [done|]. split; [done|]. intros q. destruct (I3 q) as [H|(H & Hq & Ha & x & e & H')]; rewrite E1 in *; [by left|]. right. split; [done|]. split; [by right|]. split; [done|]. by exists x, e.
  - fold ch1 in E1, E2, E3, E4. rewrite I1, I2, E2, E4. split; [done|]. split; [done|]. intros q. destruct (decide (q = k)) as [->|Hne].
    + right. destruct (I3 k) as [H|(H & _)]; (split; [rewrite H, ?E1, ?lookup_delete; done|]); (split; [left|]); done.
    + assert (Hera : s_era (ch_st ch1) = s_era (ch_st ch)) by (unfold rest in E4; congruence).
      destruct (I3 q) as [H|(H & Hq & Ha & x & e & H')]; rewrite E1, lookup_delete_ne in * by done; [by left|]. right. split; [done|]. split; [by right|]. split; [done|]. exists x, e. by rewrite <- Hera.
Qed.
(** One whose time has come does leave. *)
Lemma exits_do_leave active l k : forall ch, reachable c cr (ch_st ch) -> k ∈ l -> k ∉ active ->
  (forall x, s_cands (ch_st ch) !! k = Some x -> exists e, k_status x = Leaving e /\ e <= s_era (ch_st ch)) ->
  s_cands (ch_st (fold_left (exit_one c cr active) l ch)) !! k = None.
Proof.
  induction l as [|y l IH]; intros ch Hr Hk Ha Hx; [by apply elem_of_nil in Hk|]. cbn. set (ch1 := exit_one c cr active ch y).
  assert (Hr1 : reachable c cr (ch_st ch1)).
  { destruct (exits_steps c cr active [y] ch) as (ops & E & _). cbn in E. fold ch1 in E. rewrite E. by apply reachable_run. }
  assert (Hgone : forall l ch0, s_cands (ch_st ch0) !! k = None -> s_cands (ch_st (fold_left (exit_one c cr active) l ch0)) !! k = None).
  { intros l0 ch0 H. destruct (exits_effect active l0 ch0) as (_ & _ & H3). destruct (H3 k) as [->|(-> & _)]; done. }
  destruct (decide (y = k)) as [->|Hne].
  - apply Hgone. unfold ch1, exit_one. rewrite bool_decide_eq_false_2 by done. destruct (s_cands (ch_st ch) !! k) as [x|] eqn:Ex; [|done].
    destruct (Hx x eq_refl) as (e & He & Hle). pose proof (C40_due_candidate_leaves c cr (ch_st ch) k x e k (k_count x) Hr Ex He Hle) as Hacc.
    destruct (exec (ExecuteLeave k k (k_count x)) (ch_st ch)) as [s' [[]|er]] eqn:E; cbn.
    + destruct (leave_effect _ _ _ _ _ _ E) as (-> & _). apply lookup_delete.
    + exfalso. specialize (Hacc ltac:(lia)). unfold accepted in Hacc. rewrite E in Hacc. naive_solver.
  - apply elem_of_cons in Hk as [->|Hk]; [done|]. apply IH; try done.
    destruct (exit_one_effect active ch y) as [[E1 E2]|(E0 & E1 & E2 & E3 & E4 & E5)]; fold ch1 in E1; rewrite E1; [done|].
    intros x. rewrite lookup_delete_ne by done. intros H. destruct (Hx x H) as (e & He). exists e. fold ch1 in E4. unfold rest in E4. replace (s_era (ch_st ch1)) with (s_era (ch_st ch)) by congruence. done.
Qed.

(** ** Deregistered collators are out of the selection by the time they may leave *)
Definition leaving_unselected (s : st) : Prop := forall k x e, s_cands s !! k = Some x -> k_status x = Leaving e -> s_era s < e \/ k ∉ s_selected s.
Lemma newblock_cands s s' a : exec NewBlock s = (s', Ok a) -> s_cands s' = s_cands s /\ s_delay s' = s_delay s.
Proof.
  unfold StakeModel.exec, dispatch. cbn [body]. intros E.
  assert (Hp : post (on_initialize c) (fun _ s' => s_cands s' = s_cands s /\ s_delay s' = s_delay s) s).
  { unfold on_initialize. ps. destruct (_ <=? _); [|by ps]. unfold select_top_candidates. ps. destruct (compute_top_candidates _); by ps. }
  unfold post in Hp. destruct (on_initialize c s) as [s1 [[]|e]]; [|done]. injection E as <- _. done.
Qed.
Lemma step_delay s o : 1 <= s_delay s -> 1 <= s_delay (step s o).
Proof.
  intros H. unfold StakeModel.step, StakeModel.exec, dispatch. destruct (body c cr o s) as [s1 [[]|e]] eqn:E; [|done]. cbn [fst]. destruct (staking_call o) eqn:Es.
  - pose proof (body_rest c cr o s Es) as Hb. unfold post in Hb. rewrite E in Hb. unfold rest in Hb. cbn in Hb. replace (s_delay s1) with (s_delay s) by congruence. done.
  - assert (Hp : post (body c cr o) (fun _ s' => 1 <= s_delay s') s); [|unfold post in Hp; by rewrite E in Hp].
    destruct o; try done; cbn [body]; unfold set_total_selected, set_blocks_per_era, set_admin_setting, on_initialize; ps; try done.
    + destruct v; cbn in *; try done. lia.
    + destruct (_ <=? _); [|by ps]. unfold select_top_candidates. ps. destruct (compute_top_candidates _); by ps.
Qed.
Lemma run_delay l : forall s, 1 <= s_delay s -> 1 <= s_delay (run c cr s l).
Proof. induction l as [|o l IH]; intros s H; [done|]. cbn. apply IH. by apply step_delay. Qed.
Lemma step_unselected s o : o <> NewBlock -> 1 <= s_delay s -> s_era s + s_delay s < 2 ^ 32 -> leaving_unselected s -> leaving_unselected (step s o).
Proof.
  intros Ho Hd Hw H k x e Hx He. pose proof (step_clock c cr s o Ho) as Hc. unfold clock in Hc. injection Hc as H1 H2 H3 H4. rewrite H1, H2.
  destruct (step_origin c cr o s) as [_ Hf]. destruct (Hf k x Hx) as [Hs _]. destruct (Hs e He) as [[_ ->]|(y & Hy & Hye)].
  - left. rewrite N.mod_small by lia. lia.
  - by apply (H k y e).
Qed.
(** Some active candidate has the minimum, so a selection can be made. *)
Definition selectable (s : st) : Prop := (exists k x, s_pool s !! k = Some x /\ s_min_col s <= x) /\ 0 < s_total_selected s.
Lemma selectable_top s : selectable s -> compute_top_candidates s <> [].
Proof.
  intros [(k & x & Hk & Hx) Ht] E. destruct (top_candidates_best s) as (T1 & T2 & T3 & T4). rewrite E in T4. destruct (T4 k x Hk Hx) as [E1 _]; [apply not_elem_of_nil|]. cbn in E1. lia.
Qed.
Lemma newblock_unselected s s' a : reachable c cr s -> selectable s -> exec NewBlock s = (s', Ok a) -> leaving_unselected s -> leaving_unselected s'.
Proof.
  intros Hr Hsel E H k x e Hx He. destruct (newblock_cands _ _ _ E) as [Ec _]. rewrite Ec in Hx. destruct (newblock_clock c cr _ _ _ E) as (_ & _ & G).
  destruct (should_end_session s).
  - right. destruct G as (_ & _ & ->). apply selectable_top in Hsel. destruct (top_candidates_best s) as (T1 & T2 & T3 & T4).
    assert (Hn : k ∉ compute_top_candidates s).
    { intros Hk. destruct (T3 k Hk) as (v & Hv & _). rewrite (C39_pool c cr s k Hr), Hx, He in Hv. done. }
    by destruct (compute_top_candidates s).
  - destruct G as (-> & _ & ->). by apply (H k x e).
Qed.
Lemma registered_unselected s r : leaving_unselected s -> leaving_unselected (s <| s_registered := r |>).
Proof. intros H. exact H. Qed.

(** What a block does to the staking state: the departures, then the staking pallet's own hook. *)
Lemma block_parts ch : cstep ch Block = ch \/ (exists s1 r, exec NewBlock s1 = (ch_st (cstep ch Block), Ok r) /\ s_pool s1 = s_pool (ch_st ch) /\
   rest s1 = rest (ch_st ch) /\ (reachable c cr (ch_st ch) -> reachable c cr s1) /\
   (forall k, s_cands s1 !! k = s_cands (ch_st ch) !! k \/
     (s_cands s1 !! k = None /\ should_end_session (ch_st ch) = true /\ k ∈ ch_exit ch /\ k ∉ map fst (ch_queued ch) /\
      exists x e, s_cands (ch_st ch) !! k = Some x /\ k_status x = Leaving e /\ e <= s_era (ch_st ch)))).
Proof.
  cbn [SessionModel.cstep]. unfold block. destruct (should_end_session (ch_st ch)) eqn:Ed.
  - unfold rotate_session. set (active := map fst (ch_queued ch)). set (ch1 := ch <| ch_validators := active |> <| ch_index := _ |> <| ch_queued := _ |> <| ch_qchanged := _ |> <| ch_avn := _ |>).
    destruct (exits_effect active (elements (ch_exit ch)) ch1) as (E1 & E2 & E3). destruct (exits_steps c cr active (elements (ch_exit ch)) ch1) as (ops & E4 & _).
    set (ch2 := fold_left _ _ ch1) in *. destruct (exec NewBlock (ch_st ch2)) as [s' [[]|e]] eqn:E; [|by left].
    right. exists (ch_st ch2), tt. split; [done|]. split; [done|]. split; [done|]. split; [rewrite E4; by apply reachable_run|].
    intros k. destruct (E3 k) as [H|(H & Hl & Ha & Hx)]; [by left|]. right. apply elem_of_elements in Hl. done.
  - destruct (exec NewBlock (ch_st ch)) as [s' [[]|e]] eqn:E; [|by left]. right. exists (ch_st ch), tt. split; [done|]. split; [done|]. split; [done|]. split; [done|]. by left.
Qed.
Lemma rest_fields s s' : rest s' = rest s -> s_era s' = s_era s /\ s_selected s' = s_selected s /\ s_delay s' = s_delay s /\ s_min_col s' = s_min_col s /\ s_total_selected s' = s_total_selected s.
Proof. unfold rest. intros H. repeat split; congruence. Qed.
Lemma cstep_unselected ch o : reachable c cr (ch_st ch) -> 1 <= s_delay (ch_st ch) -> s_era (ch_st ch) + s_delay (ch_st ch) < 2 ^ 32 -> selectable (ch_st ch) ->
  leaving_unselected (ch_st ch) -> leaving_unselected (ch_st (cstep ch o)).
Proof.
  intros Hr Hd Hw Hsel H. destruct o as [x|a k|a|a b|a|].
  - cbn. destruct (users_may x) eqn:Eu; [|done]. cbn. apply step_unselected; try done. by intros ->.
  - cbn. by destruct (key_free _ _ _).
  - done.
  - cbn. by apply step_unselected.
  - cbn. destruct (exec _ _) as [s' [[]|e]] eqn:E; [|done]. cbn. rewrite (exec_step c cr _ _ _ _ E). by apply step_unselected.
  - destruct (block_parts ch) as [->|(s1 & r & E & Hp & Hre & Hr1 & Hc)]; [done|]. destruct (rest_fields _ _ Hre) as (F1 & F2 & F3 & F4 & F5).
    apply (newblock_unselected s1 _ r); [by apply Hr1| |done|].
    + unfold selectable in *. by rewrite Hp, F4, F5.
    + intros k x e Hx He. rewrite F1, F2. destruct (Hc k) as [Hk|(Hk & _)]; rewrite Hk in Hx; [|done]. by apply (H k x e).
Qed.
Lemma crun_unselected ch l : reachable c cr (ch_st ch) -> 1 <= s_delay (ch_st ch) -> leaving_unselected (ch_st ch) ->
  (forall l1 l2, l = l1 ++ l2 -> selectable (ch_st (crun ch l1)) /\ s_era (ch_st (crun ch l1)) + s_delay (ch_st (crun ch l1)) < 2 ^ 32) ->
  leaving_unselected (ch_st (crun ch l)).
Proof.
  intros Hr Hd H. induction l as [|o l IH] using rev_ind; [done|]. intros Hp. rewrite crun_snoc. destruct (Hp l [o] eq_refl) as [Hs Hw].
  apply cstep_unselected; try done; [by apply chain_reachable| |].
  - assert (G : forall l, 1 <= s_delay (ch_st (crun ch l))).
    { clear -Hd. induction l as [|o l IH] using rev_ind; [done|]. rewrite crun_snoc. destruct (cstep_steps c cr (crun ch l) o) as [ops ->]. by apply run_delay. }
    apply G.
  - apply IH. intros l1 l2 ->. apply (Hp l1 (l2 ++ [o])). by rewrite app_assoc.
Qed.
(** Only a rotation removes a candidate, when the time it was given has come and it is not in the session. *)
Lemma cand_gone ch o k x : reachable c cr (ch_st ch) -> s_cands (ch_st ch) !! k = Some x -> s_cands (ch_st (cstep ch o)) !! k = None ->
  o = Block /\ should_end_session (ch_st ch) = true /\ cstep ch o <> ch /\ k ∈ ch_exit ch /\ k ∉ map fst (ch_queued ch) /\ exists e, k_status x = Leaving e /\ e <= s_era (ch_st ch).
Proof.
  intros Hr Hx Hn.
  assert (Hstep : forall o, (forall a h, o <> ExecuteLeave a k h) -> s_cands (step (ch_st ch) o) !! k = None -> False).
  { intros y Hy Hg. destruct (C40_bonds_change_only_so c cr (ch_st ch) y k Hr) as [H|H]; unfold bond_of in H; rewrite Hx, Hg in H; cbn in H; [done|]. inversion H; subst. by eapply Hy. }
  destruct o as [y|a z|a|a b|a|]; cbn [SessionModel.cstep] in Hn.
  - destruct (users_may y) eqn:Eu; [|cbn in Hn; congruence]. cbn in Hn. exfalso. eapply Hstep; [|exact Hn]. intros ? ? ->. done.
  - destruct (key_free _ _ _); cbn in Hn; congruence.
  - cbn in Hn; congruence.
  - exfalso. eapply Hstep; [|exact Hn]. done.
  - destruct (exec _ _) as [s' [[]|e]] eqn:E; cbn in Hn; [|congruence]. rewrite (exec_step c cr _ _ _ _ E) in Hn. exfalso. eapply Hstep; [|exact Hn]. done.
  - destruct (block_parts ch) as [E|(s1 & r & E & Hp & Hre & Hr1 & Hc)]; [cbn [SessionModel.cstep] in E; congruence|]. destruct (newblock_cands _ _ _ E) as [Ec _]. cbn [SessionModel.cstep] in Ec. rewrite Ec in Hn.
    destruct (Hc k) as [Hk|(_ & H1 & H2 & H3 & x' & e & H4 & H5)]; [congruence|]. assert (x' = x) as -> by congruence. split; [done|]. split; [done|]. split.
    { intros Heq. cbn [SessionModel.cstep] in Heq. rewrite Heq in Ec. congruence. } split; [done|]. split; [done|]. by exists e.
Qed.
Lemma rotated ch : should_end_session (ch_st ch) = true -> cstep ch Block <> ch ->
  ch_validators (cstep ch Block) = map fst (ch_queued ch) /\ ch_queued (cstep ch Block) = queue_of ch.
Proof.
  intros Ed Hne. cbn [SessionModel.cstep] in *. unfold block in *. rewrite Ed in *.
  unfold rotate_session in *. set (active := map fst (ch_queued ch)) in *. set (ch1 := ch <| ch_validators := active |> <| ch_index := _ |> <| ch_queued := _ |> <| ch_qchanged := _ |> <| ch_avn := _ |>) in *.
  destruct (exits_sess c cr active (elements (ch_exit ch)) ch1) as (F1 & _). set (ch2 := fold_left _ _ ch1) in *.
  unfold sess in F1. injection F1 as E1 E2 E3 E4 E5 E6.
  destruct (exec NewBlock (ch_st ch2)) as [s' [[]|e]] eqn:En.
  - cbn. rewrite E2, E3. unfold ch1. cbn. unfold queue_of, new_session. split; [done|]. by destruct (s_selected (ch_st ch)).
  - done.
Qed.

(** ** Who begins to leave *)
Definition leaves (s : st) (k : N) : Prop := exists x e, s_cands s !! k = Some x /\ k_status x = Leaving e.
Lemma step_begins s o k : leaves (step s o) k -> leaves s k \/ schedules_leaving o k.
Proof.
  intros (x & e & Hx & He). destruct (step_origin c cr o s) as [_ Hf]. destruct (Hf k x Hx) as [Hs _]. destruct (Hs e He) as [[H _]|(y & Hy & Hye)]; [by right|]. left. by exists y, e.
Qed.
Lemma cstep_begins ch o k : leaves (ch_st (cstep ch o)) k -> leaves (ch_st ch) k \/ o = Resign k.
Proof.
  destruct o as [x|a z|a|a b|a|].
  - cbn. destruct (users_may x) eqn:Eu; [|by left]. cbn. intros H. destruct (step_begins _ _ _ H) as [|H']; [by left|]. by destruct x.
  - cbn. destruct (key_free _ _ _); by left.
  - cbn. by left.
  - cbn. intros H. destruct (step_begins _ _ _ H) as [|H']; [by left|done].
  - cbn. destruct (exec _ _) as [s' [[]|e]] eqn:E; [|by left]. cbn. rewrite (exec_step c cr _ _ _ _ E). intros H. destruct (step_begins _ _ _ H) as [|H']; [by left|]. cbn in H'. subst. by right.
  - destruct (block_parts ch) as [->|(s1 & r & E & _ & _ & _ & Hc)]; [by left|]. intros (x & e & Hx & He). left. destruct (newblock_cands _ _ _ E) as [Ec _]. rewrite Ec in Hx.
    exists x, e. destruct (Hc k) as [Hk|(Hk & _)]; rewrite Hk in Hx; done.
Qed.
Lemma schedule_effect s k h s' r : exec (ScheduleLeave k h) s = (s', Ok r) -> s_pool s' !! k = None /\
  exists x, s_cands s' !! k = Some x /\ k_status x = Leaving ((s_era s + s_delay s) mod 2 ^ 32).
Proof.
  unfold StakeModel.exec, dispatch. cbn [body]. intros E.
  assert (Hp : post (schedule_leave_candidates k h) (fun _ s' => s_pool s' !! k = None /\ exists x, s_cands s' !! k = Some x /\ k_status x = Leaving ((s_era s + s_delay s) mod 2 ^ 32)) s).
  { unfold schedule_leave_candidates, pool_remove, put_cand. ps. split; [cbn; apply lookup_delete|]. eexists. split; [cbn; apply lookup_insert|done]. }
  unfold post in Hp. destruct (schedule_leave_candidates k h s) as [s1 [[]|e]]; [|done]. by injection E as <- _.
Qed.
Lemma exit_one_exit active ch k : ch_exit (exit_one c cr active ch k) ⊆ ch_exit ch.
Proof. unfold exit_one. destruct (bool_decide _); [done|]. destruct (s_cands _ !! k); [|done]. destruct (exec _ _) as [s' [[]|e]]; [|done]. cbn. set_solver. Qed.
Lemma exits_exit active l : forall ch, ch_exit (fold_left (exit_one c cr active) l ch) ⊆ ch_exit ch.
Proof. induction l as [|k l IH]; intros ch; [done|]. cbn. etrans; [apply IH|apply exit_one_exit]. Qed.
Lemma cstep_exit ch o k : k ∈ ch_exit (cstep ch o) -> k ∉ ch_exit ch -> o = Resign k /\ s_pool (ch_st (cstep ch o)) !! k = None /\
  exists x, s_cands (ch_st (cstep ch o)) !! k = Some x /\ k_status x = Leaving ((s_era (ch_st ch) + s_delay (ch_st ch)) mod 2 ^ 32).
Proof.
  destruct o as [x|a z|a|a b|a|]; cbn [SessionModel.cstep].
  - by destruct (users_may x).
  - by destruct (key_free _ _ _).
  - done.
  - done.
  - destruct (exec _ _) as [s' [[]|e]] eqn:E; [|done]. cbn. intros [H|H]%elem_of_union Hn; [done|]. apply elem_of_singleton in H as ->. split; [done|]. by apply (schedule_effect _ _ _ _ _ E).
  - unfold block. destruct (should_end_session (ch_st ch)).
    + unfold rotate_session. set (ch1 := ch <| ch_validators := _ |> <| ch_index := _ |> <| ch_queued := _ |> <| ch_qchanged := _ |> <| ch_avn := _ |>).
      pose proof (exits_exit (map fst (ch_queued ch)) (elements (ch_exit ch)) ch1) as Hs. set (ch2 := fold_left _ _ ch1) in *. destruct (exec NewBlock _) as [s' [[]|e]]; [|done].
      cbn. intros H Hn. exfalso. apply Hn. by apply Hs in H.
    + by destruct (exec NewBlock _) as [s' [[]|e]].
Qed.

(** ** Keys have one owner *)
Definition apart (ks : gmap N N) : Prop := forall a b k, ks !! a = Some k -> ks !! b = Some k -> a = b.
Lemma cstep_apart ch o : apart (ch_keys ch) -> apart (ch_keys (cstep ch o)).
Proof.
  intros H. destruct o as [x|a z|a|a b|a|].
  - cbn. by destruct (users_may x).
  - cbn. destruct (key_free (ch_keys ch) a z) eqn:E; [|done]. unfold key_free in E. apply bool_decide_eq_true in E. cbn.
    intros p q k Hp Hq. destruct (decide (p = a)) as [->|Hpa], (decide (q = a)) as [->|Hqa]; try done.
    + rewrite lookup_insert in Hp. rewrite lookup_insert_ne in Hq by done. injection Hp as ->. destruct (E q k Hq); congruence.
    + rewrite lookup_insert in Hq. rewrite lookup_insert_ne in Hp by done. injection Hq as ->. destruct (E p k Hp); congruence.
    + rewrite lookup_insert_ne in Hp, Hq by done. by apply (H p q k).
  - cbn. intros p q k [_ Hp]%lookup_delete_Some [_ Hq]%lookup_delete_Some. by apply (H p q k).
  - done.
  - cbn. by destruct (exec _ _) as [s' [[]|e]].
  - cbn. unfold block. destruct (should_end_session (ch_st ch)).
    + unfold rotate_session. set (ch1 := ch <| ch_validators := _ |> <| ch_index := _ |> <| ch_queued := _ |> <| ch_qchanged := _ |> <| ch_avn := _ |>).
      destruct (exits_sess c cr (map fst (ch_queued ch)) (elements (ch_exit ch)) ch1) as (F1 & _). set (ch2 := fold_left _ _ ch1) in *. unfold sess in F1. injection F1 as E1 _ _ _ _ _.
      destruct (exec NewBlock _) as [s' [[]|e]]; [|done]. cbn. by rewrite E1.
    + by destruct (exec NewBlock _) as [s' [[]|e]].
Qed.
Lemma cstep_registered ch o : s_registered (ch_st ch) = dom (ch_keys ch) -> s_registered (ch_st (cstep ch o)) = dom (ch_keys (cstep ch o)).
Proof.
  intros H. assert (HC : forall s y, staking_call y = true -> s_registered (step s y) = s_registered s).
  { intros s y Hy. destruct (C41_calls_touch_nothing_else c cr s y Hy) as [E _]. unfold rest in E. cbn in E. congruence. }
  assert (HN : forall s s' r, exec NewBlock s = (s', Ok r) -> s_registered s' = s_registered s).
  { intros s s' r. unfold StakeModel.exec, dispatch. cbn [body]. intros E. assert (Hp : post (on_initialize c) (fun _ s' => s_registered s' = s_registered s) s).
    { unfold on_initialize. ps. destruct (_ <=? _); [|by ps]. unfold select_top_candidates. ps. destruct (compute_top_candidates _); by ps. }
    unfold post in Hp. destruct (on_initialize c s) as [s1 [[]|e]]; [|done]. by injection E as <- _. }
  destruct o as [x|a z|a|a b|a|].
  - cbn. destruct (users_may x) eqn:Eu; [|done]. cbn. rewrite <- H. destruct (staking_call x) eqn:Es; [by apply HC|].
    unfold StakeModel.step, StakeModel.exec, dispatch. destruct (body c cr x (ch_st ch)) as [s1 [[]|e]] eqn:E; [|done]. cbn.
    assert (Hp : post (body c cr x) (fun _ s' => s_registered s' = s_registered (ch_st ch)) (ch_st ch)); [|unfold post in Hp; by rewrite E in Hp].
    destruct x; try done; cbn [body]; unfold set_total_selected, set_blocks_per_era, set_admin_setting; ps; try done. by destruct v.
  - cbn. by destruct (key_free _ _ _).
  - done.
  - cbn. by rewrite HC.
  - cbn. destruct (exec _ _) as [s' [[]|e]] eqn:E; [|done]. cbn. rewrite (exec_step c cr _ _ _ _ E). by rewrite HC.
  - cbn. unfold block. destruct (should_end_session (ch_st ch)).
    + unfold rotate_session. set (ch1 := ch <| ch_validators := _ |> <| ch_index := _ |> <| ch_queued := _ |> <| ch_qchanged := _ |> <| ch_avn := _ |>).
      destruct (exits_sess c cr (map fst (ch_queued ch)) (elements (ch_exit ch)) ch1) as (F1 & _). destruct (exits_effect (map fst (ch_queued ch)) (elements (ch_exit ch)) ch1) as (_ & F2 & _).
      set (ch2 := fold_left _ _ ch1) in *. unfold sess in F1. injection F1 as E1 _ _ _ _ _.
      destruct (exec NewBlock _) as [s' [[]|e]] eqn:E; [|done]. cbn. rewrite E1, (HN _ _ _ E). unfold rest in F2. transitivity (s_registered (ch_st ch1)); [congruence|exact H].
    + destruct (exec NewBlock _) as [s' [[]|e]] eqn:E; [|done]. cbn. by rewrite (HN _ _ _ E).
Qed.
Lemma selected_nodup s : reachable c cr s -> NoDup (s_selected s).
Proof.
  intros (_ & d & m1 & m2 & l & _ & ->). induction l as [|o l IH] using rev_ind; [constructor|]. unfold run in *. rewrite fold_left_app. cbn. set (s := fold_left _ l _) in *.
  assert (D : o = NewBlock \/ o <> NewBlock) by (destruct o; (by left) || (by right)). destruct D as [->|Hne].
  - unfold StakeModel.step. destruct (exec NewBlock s) as [s' [[]|e]] eqn:E; cbn.
    + destruct (newblock_clock c cr _ _ _ E) as (_ & _ & G). destruct (should_end_session s); destruct G as (_ & _ & ->); [|done].
      destruct (top_candidates_best s) as (T1 & _). by destruct (compute_top_candidates s).
    + unfold StakeModel.exec, dispatch in E. cbn [body] in E. destruct (on_initialize c s) as [s1 [[]|e']]; [done|]. by injection E as <- _.
  - pose proof (step_clock c cr s o Hne) as Hc. unfold clock in Hc. injection Hc as _ -> _ _. done.
Qed.
Lemma with_keys_nodup ks l : apart ks -> NoDup l -> NoDup (map fst (with_keys ks l)) /\ NoDup (map snd (with_keys ks l)).
Proof.
  intros Ha Hl. split; [rewrite with_keys_fst; by apply NoDup_filter|]. unfold with_keys. induction Hl as [|a l Hn Hl IH]; [constructor|]. cbn [omap list_omap].
  destruct (ks !! a) as [k|] eqn:E; [|exact IH]. cbn [map snd]. constructor; [|exact IH]. intros Hin. apply elem_of_list_In, in_map_iff in Hin as ([b k'] & Ek & Hb). cbn in Ek. subst k'.
  apply elem_of_list_In, elem_of_list_omap in Hb as (b' & Hb' & E'). destruct (ks !! b') as [k'|] eqn:Eb; [|done]. injection E' as -> ->. by rewrite (Ha a b k E Eb) in Hn.
Qed.
Definition keys_ok (ch : chain) : Prop := apart (ch_keys ch) /\ (NoDup (map fst (ch_queued ch)) /\ NoDup (map snd (ch_queued ch))) /\ (NoDup (map v_account (ch_avn ch)) /\ NoDup (map v_key (ch_avn ch))).
Lemma keys_stay ch l : reachable c cr (ch_st ch) -> keys_ok ch -> keys_ok (crun ch l).
Proof.
  intros Hr H. induction l as [|o l IH] using rev_ind; [done|]. rewrite crun_snoc. pose proof (chain_reachable c cr ch l Hr) as Hl. destruct IH as (I1 & I2 & I3).
  split; [by apply cstep_apart|]. destruct (cstep_kind c cr (crun ch l) o) as [A1 A2 A3 A4 A5 ? ?|? ? ? A1 A2 A3 ? A5 ? ?]; rewrite A2, A5; [done|]. split.
  - apply with_keys_nodup; [done|]. pose proof (selected_nodup _ Hl) as Hn. destruct I2 as [I2 _]. by destruct (s_selected (ch_st (crun ch l))).
  - destruct (ch_qchanged (crun ch l)); [|done]. rewrite !map_map. cbn. done.
Qed.
End leave.
