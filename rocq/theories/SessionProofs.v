(** Proofs about SessionModel.v. *)
From Verif Require Import Base BaseLemmas CodecModel SigModel AvnModel StakeModel StakeSpec StakeBook StakeCross StakeInv StakeOps StakeNom StakeLeave StakeExit StakeCand StakeRun StakeFrame StakeMoves StakeSteps StakeProps StakeProps2 StakeProps3 SessionModel.

Section session.
Variables (c : config) (cr : crypto).
Notation cstep := (cstep c cr).
Notation crun := (crun c cr).

(** Everything but the staking state. *)
Definition sess (ch : chain) := (ch_keys ch, ch_validators ch, ch_queued ch, ch_qchanged ch, ch_index ch, ch_avn ch).
(** What of the staking state only blocks change. *)
Definition clock (s : st) := (s_era s, s_selected s, s_era_first s, s_block s).

Lemma crun_snoc ch l o : crun ch (l ++ [o]) = cstep (crun ch l) o.
Proof. unfold SessionModel.crun. by rewrite fold_left_app. Qed.
Lemma crun_app ch l1 l2 : crun ch (l1 ++ l2) = crun (crun ch l1) l2.
Proof. unfold SessionModel.crun. by rewrite fold_left_app. Qed.

Lemma step_clock s o : o <> NewBlock -> clock (step c cr s o) = clock s.
Proof.
  intros Ho. unfold step, exec, dispatch. destruct (body c cr o s) as [s1 [[]|e]] eqn:E; [|done]. cbn [fst].
  destruct (staking_call o) eqn:Es.
  - pose proof (body_rest c cr o s Es) as Hb. unfold post in Hb. rewrite E in Hb. unfold rest in Hb. unfold clock. cbn in Hb. congruence.
  - assert (Hp : post (body c cr o) (fun _ s' => clock s' = clock s) s).
    { destruct o; try done; cbn [body]; unfold set_total_selected, set_blocks_per_era, set_admin_setting; ps; try done. by destruct v. }
    unfold post in Hp. by rewrite E in Hp.
Qed.
Lemma exec_step s o s' a : exec c cr o s = (s', Ok a) -> s' = step c cr s o.
Proof. unfold step. intros E. by rewrite E. Qed.

(** ** Departures *)
Lemma exit_one_sess active ch k : sess (exit_one c cr active ch k) = sess ch /\ clock (ch_st (exit_one c cr active ch k)) = clock (ch_st ch) /\
  s_era_length (ch_st (exit_one c cr active ch k)) = s_era_length (ch_st ch).
Proof.
  unfold exit_one. destruct (bool_decide _); [done|]. destruct (s_cands _ !! k) as [x|]; [|done].
  destruct (exec c cr _ _) as [s' [[]|e]] eqn:E; [|done]. split; [done|]. cbn. rewrite (exec_step _ _ _ _ E). split; [by apply step_clock|].
  destruct (C41_calls_touch_nothing_else c cr (ch_st ch) (ExecuteLeave k k (k_count x)) eq_refl) as [H _]. unfold rest in H. cbn in H. congruence.
Qed.
Lemma exits_sess active l : forall ch, let ch' := fold_left (exit_one c cr active) l ch in
  sess ch' = sess ch /\ clock (ch_st ch') = clock (ch_st ch) /\ s_era_length (ch_st ch') = s_era_length (ch_st ch).
Proof.
  induction l as [|k l IH]; intros ch; [done|]. cbn. destruct (exit_one_sess active ch k) as (E1 & E2 & E3).
  destruct (IH (exit_one c cr active ch k)) as (F1 & F2 & F3). cbn in *. rewrite F1, F2, F3. done.
Qed.
(** The staking state after the departures is one that calls of the staking pallet lead to. *)
Lemma exits_steps active l : forall ch, exists ops, ch_st (fold_left (exit_one c cr active) l ch) = run c cr (ch_st ch) ops /\
  Forall (fun o => exists k h, o = ExecuteLeave k k h /\ k ∈ l /\ k ∉ active) ops.
Proof.
  induction l as [|k l IH]; intros ch; [by exists []|]. cbn. destruct (IH (exit_one c cr active ch k)) as (ops & E & F). rewrite E.
  assert (F' : Forall (fun o => exists k0 h, o = ExecuteLeave k0 k0 h /\ k0 ∈ k :: l /\ k0 ∉ active) ops).
  { eapply Forall_impl; [exact F|]. intros o (k' & h & -> & Hk & Ha). exists k', h. split; [done|]. split; [by right|done]. }
  unfold exit_one. destruct (bool_decide _) eqn:Eb; [by exists ops|]. destruct (s_cands _ !! k) as [x|]; [|by exists ops].
  destruct (exec c cr _ _) as [s' [[]|e]] eqn:Ex; [|by exists ops]. exists (ExecuteLeave k k (k_count x) :: ops). split.
  - cbn. by rewrite (exec_step _ _ _ _ Ex).
  - constructor; [|done]. exists k, (k_count x). split; [done|]. split; [left|]. by apply bool_decide_eq_false in Eb.
Qed.

(** ** Blocks *)
Lemma newblock_clock s s' a : exec c cr NewBlock s = (s', Ok a) ->
  s_block s' = s_block s + 1 /\ s_era_length s' = s_era_length s /\
  if should_end_session s then s_era s' = sat32 (s_era s) 1 /\ s_era_first s' = s_block s + 1 /\
       s_selected s' = (match compute_top_candidates s with [] => s_selected s | l => l end)
  else s_era s' = s_era s /\ s_era_first s' = s_era_first s /\ s_selected s' = s_selected s.
Proof.
  unfold exec, dispatch. cbn [body]. destruct (on_initialize c s) as [s1 [[]|e]] eqn:E; [|done]. intros [= <- _].
  unfold on_initialize, mbind_, modify, get_st, mret_ in E. cbv beta iota zeta in E. set (s0 := s <| s_block := s_block s + 1 |>) in E.
  unfold should_end_session. change (s_era_length s0 <=? s_block s0 - s_era_first s0) with (s_era_length s <=? s_block s + 1 - s_era_first s) in E.
  destruct (s_era_length s <=? s_block s + 1 - s_era_first s); [|by injection E as <-].
  unfold select_top_candidates, mbind_, get_st in E. cbv beta iota zeta in E. change (compute_top_candidates s0) with (compute_top_candidates s) in E.
  destruct (compute_top_candidates s) as [|y sel] eqn:Ec; unfold ensure, modify in E.
  - destruct (forallb _ _); [|done]. by injection E as <-.
  - destruct (forallb _ _); [|done]. destruct (_ <=? _); [|done]. by injection E as <-.
Qed.

Definition queue_of (ch : chain) : list (N * N) := with_keys (ch_keys ch) (match s_selected (ch_st ch) with [] => map fst (ch_queued ch) | l => l end).
(** What a step is to the session pallet: nothing, or a rotation. *)
Inductive kind_of (ch ch' : chain) (o : cop) : Prop :=
| Quiet : ch_validators ch' = ch_validators ch -> ch_queued ch' = ch_queued ch -> ch_qchanged ch' = ch_qchanged ch -> ch_index ch' = ch_index ch ->
    ch_avn ch' = ch_avn ch -> s_era (ch_st ch') = s_era (ch_st ch) -> s_selected (ch_st ch') = s_selected (ch_st ch) -> kind_of ch ch' o
| Rotation : o = Block -> should_end_session (ch_st ch) = true -> ch_keys ch' = ch_keys ch ->
    ch_validators ch' = map fst (ch_queued ch) -> ch_queued ch' = queue_of ch ->
    (s_selected (ch_st ch) <> [] -> ch_qchanged ch' = true) -> ch_index ch' = ch_index ch + 1 ->
    ch_avn ch' = (if ch_qchanged ch then map (fun x => mkValidator x.1 x.2) (ch_queued ch) else ch_avn ch) ->
    s_era (ch_st ch') = sat32 (s_era (ch_st ch)) 1 -> (s_selected (ch_st ch) <> [] -> s_selected (ch_st ch') <> []) -> kind_of ch ch' o.
Lemma filter_all {A} (l : list A) : List.filter (fun _ => true) l = l.
Proof. induction l; cbn; congruence. Qed.
Lemma block_kind ch : kind_of ch (block c cr ch) Block.
Proof.
  unfold block. destruct (should_end_session (ch_st ch)) eqn:Ed.
  - unfold rotate_session. set (active := map fst (ch_queued ch)). set (ch1 := ch <| ch_validators := active |> <| ch_index := _ |> <| ch_queued := _ |> <| ch_qchanged := _ |> <| ch_avn := _ |>).
    destruct (exits_sess active (elements (ch_exit ch)) ch1) as (F1 & F2 & F3). set (ch2 := fold_left _ _ ch1) in *.
    destruct (exec c cr NewBlock (ch_st ch2)) as [s' [[]|e]] eqn:E; [|by apply Quiet].
    destruct (newblock_clock _ _ _ E) as (G1 & G2 & G3). unfold sess, clock in *. injection F1 as E1 E2 E3 E4 E5 E6. injection F2 as E7 E8 E9 E10.
    assert (Ed' : should_end_session (ch_st ch2) = true). { unfold should_end_session in *. rewrite E9, E10, F3. exact Ed. }
    rewrite Ed' in G3. destruct G3 as (G3 & G4 & G5).
    apply Rotation; try done; cbn.
    + rewrite E3. unfold ch1. cbn. unfold queue_of, new_session. by destruct (s_selected (ch_st ch)).
    + intros Hs. rewrite E4. unfold ch1, new_session. cbn. by destruct (s_selected (ch_st ch)).
    + rewrite E6. unfold ch1. cbn. unfold on_new_session. destruct (ch_qchanged ch); [|done]. by rewrite filter_all.
    + rewrite G3, E7. done.
    + intros Hs. rewrite G5, E8. destruct (compute_top_candidates _); done.
  - destruct (exec c cr NewBlock (ch_st ch)) as [s' [[]|e]] eqn:E; [|by apply Quiet].
    destruct (newblock_clock _ _ _ E) as (G1 & G2 & G3). rewrite Ed in G3. destruct G3 as (G3 & G4 & G5). by apply Quiet.
Qed.
Lemma cstep_kind ch o : kind_of ch (cstep ch o) o.
Proof.
  destruct o as [x|a k|a|a b|a|]; cbn [SessionModel.cstep].
  - destruct (users_may x) eqn:Eu; [|by apply Quiet]. assert (x <> NewBlock) as Hx by (intros ->; done).
    pose proof (step_clock (ch_st ch) x Hx) as Hc. unfold clock in Hc. apply Quiet; cbn; congruence.
  - destruct (key_free _ _ _); by apply Quiet.
  - by apply Quiet.
  - pose proof (step_clock (ch_st ch) (Join a b (pool_size ch)) ltac:(done)) as Hc. unfold clock in Hc. apply Quiet; cbn; congruence.
  - destruct (exec c cr (ScheduleLeave a (pool_size ch)) (ch_st ch)) as [s' [[]|e]] eqn:E; [|by apply Quiet]. apply exec_step in E as ->.
    pose proof (step_clock (ch_st ch) (ScheduleLeave a (pool_size ch)) ltac:(done)) as Hc. unfold clock in Hc. apply Quiet; cbn; congruence.
  - apply block_kind.
Qed.

(** ** Sessions and eras *)
Lemma sat32_lt x : sat32 x 1 < U32_MAX -> sat32 x 1 = x + 1.
Proof. unfold sat32, saturating_add. lia. Qed.
Lemma sat32_succ x : sat32 x 1 = x + 1 -> x < U32_MAX.
Proof. unfold sat32, saturating_add. lia. Qed.
Lemma era_grows ch l : s_era (ch_st (crun ch l)) < U32_MAX -> s_era (ch_st ch) <= s_era (ch_st (crun ch l)).
Proof.
  induction l as [|o l IH] using rev_ind; [done|]. rewrite crun_snoc. intros H. destruct (cstep_kind (crun ch l) o) as [? ? ? ? ? He ?|? ? ? ? ? ? ? ? He ?]; rewrite He in *.
  - by apply IH.
  - pose proof (sat32_lt _ H) as Hs. rewrite Hs in *. etrans; [apply IH|]; lia.
Qed.
Lemma session_per_era ch l : s_era (ch_st (crun ch l)) < U32_MAX ->
  ch_index (crun ch l) + s_era (ch_st ch) = ch_index ch + s_era (ch_st (crun ch l)).
Proof.
  induction l as [|o l IH] using rev_ind; [done|]. rewrite crun_snoc. intros H. destruct (cstep_kind (crun ch l) o) as [? ? ? Hi ? He ?|? ? ? ? ? ? Hi ? He ?]; rewrite Hi, He in *.
  - by apply IH.
  - pose proof (sat32_lt _ H) as Hs. rewrite Hs in *. rewrite <- N.add_assoc, (N.add_comm 1), N.add_assoc, IH by lia. lia.
Qed.
(** Within an era nothing changes. *)
Lemma same_era ch l : s_era (ch_st (crun ch l)) = s_era (ch_st ch) -> s_era (ch_st ch) < U32_MAX ->
  let ch' := crun ch l in ch_validators ch' = ch_validators ch /\ ch_queued ch' = ch_queued ch /\ ch_qchanged ch' = ch_qchanged ch /\
  ch_index ch' = ch_index ch /\ ch_avn ch' = ch_avn ch /\ s_selected (ch_st ch') = s_selected (ch_st ch).
Proof.
  induction l as [|o l IH] using rev_ind; [done|]. rewrite crun_snoc. intros H Hm. cbn in *. destruct (cstep_kind (crun ch l) o) as [A1 A2 A3 A4 A5 A6 A7|? ? ? ? ? ? ? ? He ?].
  - rewrite A6 in H. specialize (IH H Hm). destruct IH as (B1 & B2 & B3 & B4 & B5 & B6). rewrite A1, A2, A3, A4, A5, A7. done.
  - exfalso. rewrite He in H. assert (Hs : s_era (ch_st (crun ch l)) + 1 = s_era (ch_st ch)). { rewrite <- H. symmetry. apply sat32_lt. by rewrite H. }
    pose proof (era_grows ch l ltac:(lia)). lia.
Qed.
Lemma new_era_rotates ch o : s_era (ch_st (cstep ch o)) = s_era (ch_st ch) + 1 -> kind_of ch (cstep ch o) o ->
  ch_keys (cstep ch o) = ch_keys ch /\ ch_validators (cstep ch o) = map fst (ch_queued ch) /\ ch_queued (cstep ch o) = queue_of ch /\
  (s_selected (ch_st ch) <> [] -> ch_qchanged (cstep ch o) = true) /\
  ch_avn (cstep ch o) = (if ch_qchanged ch then map (fun x => mkValidator x.1 x.2) (ch_queued ch) else ch_avn ch).
Proof. intros He [? ? ? ? ? He' ?|]; [lia|done]. Qed.
Lemma with_keys_fst ks l : map fst (with_keys ks l) = filter (fun a => is_Some (ks !! a)) l.
Proof.
  induction l as [|a l IH]; [done|]. rewrite filter_cons. unfold with_keys in *. cbn [omap list_omap map]. destruct (ks !! a) as [k|] eqn:E.
  - rewrite decide_True by done. cbn [map fst]. f_equal. exact IH.
  - rewrite decide_False; [exact IH|]. by intros [? ?].
Qed.
Lemma authors_of_era ch l l' : let ch1 := cstep ch Block in let ch2 := crun ch1 l in let ch3 := cstep ch2 Block in let ch4 := crun ch3 l' in
  s_selected (ch_st ch) <> [] -> s_era (ch_st ch1) = s_era (ch_st ch) + 1 -> s_era (ch_st ch2) = s_era (ch_st ch) + 1 ->
  s_era (ch_st ch3) = s_era (ch_st ch) + 2 -> s_era (ch_st ch4) = s_era (ch_st ch) + 2 -> s_era (ch_st ch) + 2 < U32_MAX ->
  ch_validators ch4 = filter (fun a => is_Some (ch_keys ch !! a)) (s_selected (ch_st ch)) /\
  ch_avn ch4 = map (fun x => mkValidator x.1 x.2) (with_keys (ch_keys ch) (s_selected (ch_st ch))).
Proof.
  intros ch1 ch2 ch3 ch4 Hs H1 H2 H3 H4 Hm.
  destruct (new_era_rotates ch Block H1 (cstep_kind _ _)) as (A1 & A2 & A3 & A4 & A5). fold ch1 in A1, A2, A3, A4, A5.
  destruct (same_era ch1 l ltac:(fold ch2; lia) ltac:(lia)) as (B1 & B2 & B3 & B4 & B5 & B6). fold ch2 in B1, B2, B3, B4, B5, B6.
  destruct (new_era_rotates ch2 Block ltac:(fold ch3; lia) (cstep_kind _ _)) as (D1 & D2 & D3 & D4 & D5). fold ch3 in D1, D2, D3, D4, D5.
  destruct (same_era ch3 l' ltac:(fold ch4; lia) ltac:(lia)) as (F1 & F2 & F3 & F4 & F5 & F6). fold ch4 in F1, F2, F3, F4, F5, F6.
  assert (Hq : queue_of ch = with_keys (ch_keys ch) (s_selected (ch_st ch))) by (unfold queue_of; by destruct (s_selected (ch_st ch))).
  rewrite F1, D2, B2, A3, F5, D5, B3, (A4 Hs), B2, A3, Hq. split; [apply with_keys_fst|done].
Qed.

(** ** The sets do not become empty by themselves *)
Lemma selected_stays ch l : s_selected (ch_st ch) <> [] -> s_selected (ch_st (crun ch l)) <> [].
Proof.
  intros H. induction l as [|o l IH] using rev_ind; [done|]. rewrite crun_snoc.
  destruct (cstep_kind (crun ch l) o) as [? ? ? ? ? ? Hs|? ? ? ? ? ? ? ? ? Hs]; [by rewrite Hs|auto].
Qed.
Lemma validators_stay ch l : s_selected (ch_st ch) <> [] -> ch_validators ch <> [] -> ch_queued ch <> [] ->
  (forall l1 l2, l = l1 ++ l2 -> exists a, a ∈ s_selected (ch_st (crun ch l1)) /\ is_Some (ch_keys (crun ch l1) !! a)) ->
  ch_validators (crun ch l) <> [] /\ ch_queued (crun ch l) <> [].
Proof.
  intros Hs Hv Hq. induction l as [|o l IH] using rev_ind; [done|]. intros Hk. rewrite crun_snoc. destruct IH as [IH1 IH2].
  { intros l1 l2 ->. apply (Hk l1 (l2 ++ [o])). by rewrite app_assoc. }
  destruct (cstep_kind (crun ch l) o) as [A1 A2 ? ? ? ? ?|? ? ? A1 A2 ? ? ? ? ?]; rewrite A1, A2; [done|]. split.
  - by destruct (ch_queued (crun ch l)).
  - destruct (Hk l [o] eq_refl) as (a & Ha & Hsome). intros Hnil. apply (f_equal (map fst)) in Hnil. unfold queue_of in Hnil. rewrite with_keys_fst in Hnil. change (map fst (@nil (N * N))) with (@nil N) in Hnil.
    assert (Hin : a ∈ filter (fun a => is_Some (ch_keys (crun ch l) !! a)) (match s_selected (ch_st (crun ch l)) with [] => map fst (ch_queued (crun ch l)) | l => l end)).
    { apply elem_of_list_filter. split; [done|]. destruct (s_selected (ch_st (crun ch l))); [by apply elem_of_nil in Ha|done]. }
    rewrite Hnil in Hin. by apply elem_of_nil in Hin.
Qed.
(** The list of the AVN pallet is the session's. *)
Definition avn_ok (ch : chain) : Prop := map v_account (ch_avn ch) = ch_validators ch /\ (ch_qchanged ch = true \/ map fst (ch_queued ch) = ch_validators ch).
Lemma map_accounts l : map v_account (map (fun x => mkValidator x.1 x.2) l) = map fst l.
Proof. rewrite map_map. by apply map_ext. Qed.
Lemma avn_stays ch l : s_selected (ch_st ch) <> [] -> avn_ok ch -> avn_ok (crun ch l).
Proof.
  intros Hs H. induction l as [|o l IH] using rev_ind; [done|]. rewrite crun_snoc. destruct IH as [I1 I2].
  destruct (cstep_kind (crun ch l) o) as [A1 A2 A3 A4 A5 ? ?|? ? ? A1 A2 A3 ? A5 ? ?]; unfold avn_ok.
  { by rewrite A1, A2, A3, A5. }
  rewrite A1, A5. split; [|left; apply A3; by apply selected_stays]. destruct (ch_qchanged (crun ch l)) eqn:Eq; [apply map_accounts|]. destruct I2 as [|I2]; [done|]. by rewrite I1, I2.
Qed.

(** ** The staking state is one the staking pallet reaches by itself *)
Lemma reachable_step s o : reachable c cr s -> reachable c cr (step c cr s o).
Proof. intros (Hc & d & m1 & m2 & l & Hm & ->). split; [done|]. exists d, m1, m2, (l ++ [o]). split; [done|]. unfold run. by rewrite fold_left_app. Qed.
Lemma reachable_run s l : reachable c cr s -> reachable c cr (run c cr s l).
Proof. revert s. induction l as [|o l IH]; intros s H; [done|]. cbn. apply IH. by apply reachable_step. Qed.
Lemma cstep_steps ch o : exists ops, ch_st (cstep ch o) = run c cr (ch_st ch) ops.
Proof.
  destruct o as [x|a k|a|a b|a|]; cbn [SessionModel.cstep].
  - destruct (users_may x); [by exists [x] | by exists []].
  - destruct (key_free _ _ _); [|by exists []]. exists [EnvSessions (dom (<[a := k]> (ch_keys ch)))]. done.
  - exists [EnvSessions (dom (delete a (ch_keys ch)))]. done.
  - by exists [Join a b (pool_size ch)].
  - destruct (exec c cr (ScheduleLeave a (pool_size ch)) (ch_st ch)) as [s' [[]|e]] eqn:E; [|by exists []]. apply exec_step in E as ->. by exists [ScheduleLeave a (pool_size ch)].
  - unfold block. destruct (should_end_session (ch_st ch)).
    + unfold rotate_session. set (ch1 := ch <| ch_validators := _ |> <| ch_index := _ |> <| ch_queued := _ |> <| ch_qchanged := _ |> <| ch_avn := _ |>).
      destruct (exits_steps (map fst (ch_queued ch)) (elements (ch_exit ch)) ch1) as (ops & E & _). rewrite E. change (ch_st ch1) with (ch_st ch).
      destruct (exec c cr NewBlock _) as [s' [[]|e]] eqn:En; [|by exists []]. exists (ops ++ [NewBlock]). cbn. unfold run. rewrite fold_left_app. cbn. by apply exec_step in En.
    + destruct (exec c cr NewBlock (ch_st ch)) as [s' [[]|e]] eqn:En; [|by exists []]. exists [NewBlock]. cbn. by apply exec_step in En.
Qed.
Lemma chain_reachable ch l : reachable c cr (ch_st ch) -> reachable c cr (ch_st (crun ch l)).
Proof.
  intros H. induction l as [|o l IH] using rev_ind; [done|]. rewrite crun_snoc. destruct (cstep_steps (crun ch l) o) as [ops ->]. by apply reachable_run.
Qed.
End session.
