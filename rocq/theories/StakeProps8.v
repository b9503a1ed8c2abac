(** C101: the minimum stakes are kept. *)
From Verif Require Import Base BaseLemmas CodecModel SigModel StakeModel StakeSpec StakeBook StakeCross StakeInv StakeOps StakeNom StakeLeave StakeExit StakeCand StakeRun StakeFrame StakeMoves StakeSteps StakeProps StakeProps2 StakeProps3 StakeProps4 StakeProps5 StakeProps6 StakeProps7.

(** What the pending request of a candidate takes from its bond. *)
Definition pending (x : cand) : N := match k_req x with Some (less, _) => less | None => 0 end.

(** ** What a call has to leave *)
Definition unbond_left (k less : N) (s s' : st) : Prop := exists y y', s_cands s !! k = Some y /\ k_req y = None /\ 0 < k_bond y - less /\
  less + s_min_col s <= k_bond y /\ s_cands s' !! k = Some y' /\ k_bond y' = k_bond y /\ k_req y' = Some (less, (s_era s + s_delay s) mod 2 ^ 32).
Lemma schedule_candidate_unbond_left s k less : post (schedule_candidate_unbond k less) (fun _ s' => unbond_left k less s s') s.
Proof.
  unfold schedule_candidate_unbond, put_cand. ps. apply N.ltb_lt in Hens0. apply N.leb_le in Hens1. eexists a, _.
  split; [done|]. split; [by destruct (k_req a)|]. split; [lia|]. split; [lia|]. split; [cbn; apply lookup_insert|]. by split.
Qed.
(** A candidate may ask for a smaller bond only once at a time, and only for one that keeps the minimum. *)
Theorem C101_candidate_unbond_request c cr s k less : accepted c cr s (ScheduleCandidateUnbond k less) ->
  unbond_left k less s (step c cr s (ScheduleCandidateUnbond k less)).
Proof. apply (accepted_post c cr s (ScheduleCandidateUnbond k less) (unbond_left k less s)). apply schedule_candidate_unbond_left. Qed.
(** Through a relayer likewise. *)
Theorem C101_signed_candidate_unbond_request c cr s k p less : accepted c cr s (Signed k p (SCandidateUnbond less)) ->
  unbond_left k less s (step c cr s (Signed k p (SCandidateUnbond less))).
Proof.
  apply (signed_post c cr s k p (SCandidateUnbond less) (unbond_left k less s)); [done|]. cbn [call_body]. apply schedule_candidate_unbond_left.
Qed.
(** Only who is idle goes online; who is leaving cannot. *)
Theorem C101_go_online c cr s k : accepted c cr s (GoOnline k) ->
  k_status <$> s_cands s !! k = Some Idle /\ k_status <$> s_cands (step c cr s (GoOnline k)) !! k = Some Active.
Proof.
  apply (accepted_post c cr s (GoOnline k) (fun s' => k_status <$> s_cands s !! k = Some Idle /\ k_status <$> s_cands s' !! k = Some Active)).
  cbn [body]. unfold go_online, pool_insert, update_active, put_cand. ps. rewrite Hsome. cbn. rewrite lookup_insert. cbn. split; [|done].
  unfold is_active, is_leaving in *. by destruct (k_status a).
Qed.
(** A nominator may ask for less only if the nomination keeps the minimum per nomination and, with all that is already
    asked for, its total keeps the minimum of nominators. *)
Theorem C101_schedule_unbond c cr s w k less : accepted c cr s (ScheduleUnbond w k less) ->
  exists m a, s_nominators s !! w = Some m /\ m_noms m !! k = Some a /\ request_exists s k w = false /\
    less < a /\ c_min_per_collator c + less <= a /\ (0 < less -> less + s_min_nom s + m_less m <= m_total m).
Proof.
  apply (accepted_post c cr s (ScheduleUnbond w k less) (fun _ => exists m a, s_nominators s !! w = Some m /\ m_noms m !! k = Some a /\ request_exists s k w = false /\
    less < a /\ c_min_per_collator c + less <= a /\ (0 < less -> less + s_min_nom s + m_less m <= m_total m))).
  cbn [body]. unfold schedule_decrease. do 12 p1. cbv zeta. p1. p1.
  assert (D : exists m a, s_nominators s !! w = Some m /\ m_noms m !! k = Some a /\ request_exists s k w = false /\
    less < a /\ c_min_per_collator c + less <= a /\ (0 < less -> less + s_min_nom s + m_less m <= m_total m)).
  { exists a, a0. split; [done|]. split; [done|]. split; [by destruct (request_exists s k w)|].
    apply N.ltb_lt in Hens0. apply N.leb_le in Hens1, Hens2. unfold saturating_sub in Hens2. lia. }
  destruct (can_push _ _); [|by ps]. unfold set_reqs, set_nominator. by ps.
Qed.
(** Who joins bonds at least the minimum of candidates; who starts to nominate nominates at least the minimum of
    nominators, and every further nomination is at least the minimum per nomination. *)
Theorem C101_join_minimum c cr s k b h : accepted c cr s (Join k b h) -> s_min_col s <= b.
Proof. apply (accepted_post c cr s (Join k b h) (fun _ => s_min_col s <= b)). cbn [body]. unfold join_candidates, pool_insert, update_active, set_col_lock, put_cand, add_total. ps. all: by apply N.leb_le. Qed.
Theorem C101_nominate_minimum c cr s w k a h1 h2 : accepted c cr s (Nominate w k a h1 h2) ->
  match s_nominators s !! w with None => s_min_nom s <= a | Some m => c_min_per_collator c <= a /\ m_noms m !! k = None end.
Proof.
  apply (accepted_post c cr s (Nominate w k a h1 h2) (fun _ => match s_nominators s !! w with None => s_min_nom s <= a | Some m => c_min_per_collator c <= a /\ m_noms m !! k = None end)).
  cbn [body]. p1. p1. unfold call_nominate. p1. p1. p1. p1.
  set (G := match s_nominators s !! w with None => s_min_nom s <= a | Some m => c_min_per_collator c <= a /\ m_noms m !! k = None end).
  assert (K : forall (A : Type) (m : M st A) s1, G -> post m (fun _ _ => G) s1).
  { intros A m s1 HG. unfold post. by destruct (m s1) as [? [?|?]]. }
  apply post_bind. eapply (post_mono _ (fun _ _ => G)).
  - subst G. clear K. destruct (s_nominators s !! w) as [m|]; [|ps; by apply N.leb_le].
    p1. p1. p1. p1. p1. p1. destruct (m_noms m !! k); ps. split; [by apply N.leb_le|done].
  - intros m s1 HG. by apply K.
Qed.
(** Relayed, spread over several candidates: the whole amount must be free beyond what is already nominated; for new
    nominations it is at least the minimum of nominators for each, for existing ones each gets at least the minimum per
    nomination, up to rounding by half a unit. *)
Lemma one_over_le n x y : n <> 0 -> y <= one_over n x -> 2 * (y * n) <= 2 * x + n.
Proof.
  intros Hn. unfold one_over. rewrite N.max_r by lia. set (P := 1000000000). assert (HP : P = 1000000000) by reflexivity.
  change 500000000 with (500000000). set (p := P / n). assert (Hp : n * p <= P) by (subst p; apply N.mul_div_le; lia). clearbody p.
  pose proof (N.div_mod (x * p) P ltac:(lia)) as E. pose proof (N.mod_lt (x * p) P ltac:(lia)) as L.
  set (q := x * p / P) in *. set (r := x * p mod P) in *. clearbody q r. clearbody P.
  assert (E2 : n * (P * q + r) <= x * P).
  { rewrite <- E. replace (n * (x * p)) with (x * (n * p)) by lia. by apply N.mul_le_mono_l. }
  destruct (N.ltb_spec 500000000 r) as [Hr|Hr]; intros Hy.
  - enough (P * (2 * (y * n)) <= P * (2 * x + n)) as G by (apply N.mul_le_mono_pos_l in G; [done|lia]).
    assert (H1 : y * n <= (q + 1) * n) by (by apply N.mul_le_mono_r). assert (H2 : P * (y * n) <= P * ((q + 1) * n)) by (by apply N.mul_le_mono_l).
    assert (H3 : 500000000 * n <= r * n) by (apply N.mul_le_mono_r; lia).
    assert (H4 : P * ((q + 1) * n) = n * (P * q) + P * n) by lia. assert (H5 : P * n = 1000000000 * n) by (by rewrite HP). 
    assert (H6 : n * (P * q + r) = n * (P * q) + r * n) by lia. lia.
  - enough (P * (y * n) <= P * x) as G by (apply N.mul_le_mono_pos_l in G; lia).
    assert (H1 : y * n <= q * n) by (by apply N.mul_le_mono_r). assert (H2 : P * (y * n) <= P * (q * n)) by (by apply N.mul_le_mono_l). nia.
Qed.
Lemma always {A} (G : Prop) (m : M st A) s : G -> post m (fun _ _ => G) s.
Proof. intros HG. unfold post. by destruct (m s) as [? [?|?]]. Qed.
Lemma stakable_le s w x : x <= nominator_stakable s w -> x = 0 \/ match s_nominators s !! w with Some m => m_total m | None => 0 end + x <= free_of s w.
Proof. unfold nominator_stakable, saturating_sub. destruct (s_nominators s !! w); lia. Qed.
Definition covered (s : st) (w x : N) : Prop := x = 0 \/ match s_nominators s !! w with Some m => m_total m | None => 0 end + x <= mget 0 w (s_free s).
Theorem C101_signed_nominate_minimum c cr s w p l a : s_min_nom s * N.of_nat (length l) < 2 ^ 128 -> accepted c cr s (Signed w p (SNominate l a)) ->
  s_min_nom s * N.of_nat (length l) <= a /\ covered s w a.
Proof.
  intros Hov. set (G := s_min_nom s * N.of_nat (length l) <= a /\ covered s w a).
  apply (signed_post c cr s w p (SNominate l a) (fun _ => G)); [done|]. cbn [call_body]. unfold split_and_nominate. p1. p1. p1. p1. p1. p1.
  apply always. apply N.leb_le in Hens, Hens0. rewrite N.mod_small in Hens by done. split; [done|]. by apply stakable_le.
Qed.
Theorem C101_signed_bond_extra_minimum c cr s w p x : reachable c cr s -> accepted c cr s (Signed w p (SBondExtra x)) ->
  covered s w x /\ exists m, s_nominators s !! w = Some m /\ 2 * (c_min_per_collator c * N.of_nat (size (m_noms m))) <= 2 * x + N.of_nat (size (m_noms m)).
Proof.
  intros Hr. set (G := covered s w x /\ exists m, s_nominators s !! w = Some m /\ 2 * (c_min_per_collator c * N.of_nat (size (m_noms m))) <= 2 * x + N.of_nat (size (m_noms m))).
  apply (signed_post c cr s w p (SBondExtra x) (fun _ => G)); [done|]. cbn [call_body]. unfold bond_extra_all. do 6 p1. cbv zeta. p1. p1.
  apply always. apply N.leb_le in Hens, Hens0. split; [by apply stakable_le|]. exists a. split; [done|].
  destruct (N.eq_dec (N.of_nat (size (m_noms a))) 0) as [->|Hz]; [lia|]. by apply one_over_le.
Qed.
(** When a nominator's request is carried out, who remains a nominator keeps the minimum of nominators. *)
Theorem C101_execute_request_minimum c cr s caller w k : reachable c cr s -> accepted c cr s (ExecuteRequest caller w k) ->
  match s_nominators (step c cr s (ExecuteRequest caller w k)) !! w with None => True | Some m => s_min_nom s <= m_total m end.
Proof.
  intros Hr. pose proof (proj1 Hr) as Hc. apply reachable_inv in Hr as H.
  apply (accepted_post c cr s (ExecuteRequest caller w k) (fun s' => match s_nominators s' !! w with None => True | Some m => s_min_nom s <= m_total m end)).
  cbn [body]. pose proof (i_cross _ _ H) as Hcr. unfold execute_request. p1. p1. p1. p1. p1. p1. destruct a0 as [r l]. p1. p1.
  rename a into m, Hsome into Hm, Hsome0 into Htk.
  destruct (drop_req_take k w _ r l Htk) as [Hdr Hpe].
  destruct (cr_req _ _ _ _ _ Hcr k w r Hpe) as (a & Hea & Hact).
  assert (Ha : m_noms m !! k = Some a). { rewrite <- (cr_link _ _ _ _ _ Hcr) in Hea. unfold noms_of in Hea. by rewrite Hm in Hea. }
  destruct (r_action r) as [amount|amount] eqn:Er; cbn in Hact.
  - subst amount. p1. p1. unfold rm_nomination. cbn [m_noms m_total]. change (m_noms (m <| m_less := saturating_sub (m_less m) (action_amount (Revoke a)) |>)) with (m_noms m).
    rewrite Ha. unfold set_nom_lock. ps. unfold nominator_leaves_candidate. p1. apply post_load. intros y t b Hy Ht Hb. unfold sub_total, set_reqs, del_nominator, set_nominator. ps.
    destruct (_ =? 1) eqn:E1; ps; cbn; [by rewrite lookup_delete|]. rewrite lookup_insert. cbn. rewrite orb_false_l in Hens0. apply N.leb_le in Hens0. clear Hens.
    destruct (nom_cand c s w m k a H Hm Ha) as (_ & _ & _ & _ & _ & _ & _ & _ & _ & _ & _ & _ & Hmin & Hat & _ & _).
    destruct Hc as (_ & _ & _ & Hc4). unfold saturating_sub in *. lia.
  - ps. apply post_load. intros y t b Hy Ht Hb. unfold set_nom_lock. ps. unfold sub_total, set_reqs, set_nominator. ps. cbn. rewrite lookup_insert. cbn.
    by match goal with L : (s_min_nom s <=? _) = true |- _ => apply N.leb_le in L end.
Qed.

(** ** The bond of a candidate never falls below the minimum *)
Definition keeps (B : N) (s : st) : Prop := forall k x, s_cands s !! k = Some x -> B + pending x <= k_bond x.
Lemma execute_candidate_unbond_clears s k : post (execute_candidate_unbond k) (fun _ s' => exists x', s_cands s' !! k = Some x' /\ k_req x' = None) s.
Proof.
  unfold execute_candidate_unbond, sub_total, set_col_lock, put_cand, update_active. ps. destruct a0 as [less when]. ps.
  destruct (is_active a); ps; eexists; (split; [cbn; apply lookup_insert|done]).
Qed.
Lemma step_keeps c cr B s o : reachable c cr s -> B <= s_min_col s -> keeps B s -> keeps B (step c cr s o).
Proof.
  intros Hr HB K. destruct (not_accepted c cr s o) as [Ha| ->]; [|done].
  intros k x' Hx'. pose proof (C40_bonds_change_only_so c cr s o k Hr) as Hb. cbv zeta in Hb.
  destruct (step_origin c cr o s) as [_ Hq]. destruct (Hq k x' Hx') as [_ Hreq]. clear Hq.
  (* a request is either the one just made or was there before *)
  assert (R : (exists less, schedules_unbond o k less /\ B + pending x' <= k_bond x') \/ k_req x' = None \/ exists x, s_cands s !! k = Some x /\ k_req x = k_req x').
  { unfold pending in *. destruct (k_req x') as [q|]; [|by right; left]. destruct (Hreq q eq_refl) as [[Hs _]|(x & Hx & Hxq)]; [|right; right; exists x; by rewrite Hxq].
    left. exists q.1. split; [done|].
    assert (U : forall less, unbond_left k less s (step c cr s o) -> q.1 = less -> B + q.1 <= k_bond x').
    { intros less (y & y' & Hy & _ & _ & Hle & Hy' & Hbd & _) ->. rewrite Hx' in Hy'. injection Hy' as <-. rewrite Hbd. lia. }
    unfold schedules_unbond in Hs. destruct o; try done.
    - destruct Hs as [-> Hz]. destruct q. eapply U; [by apply C101_candidate_unbond_request|done].
    - destruct x; try done. destruct Hs as [-> Hz]. destruct q. eapply U; [by apply C101_signed_candidate_unbond_request|done]. }
  destruct R as [(less & _ & ?)|R]; [done|].
  assert (Hbx : bond_of (step c cr s o) k = Some (k_bond x')) by (unfold bond_of; by rewrite Hx').
  rewrite Hbx in Hb. destruct Hb as [Hb|Hb].
  - unfold bond_of in Hb. destruct (s_cands s !! k) as [x|] eqn:Hx; [|done]. cbn in Hb. injection Hb as Hb. pose proof (K k x Hx) as HK. unfold pending in *.
    rewrite <- Hb in HK. destruct R as [->|(x0 & [= <-] & <-)]; [lia|done].
  - unfold bond_of in Hb. destruct (s_cands s !! k) as [x|] eqn:Hx; cbn in Hb.
    + pose proof (K k x Hx) as HK. inversion Hb as [|b z Ho|caller x0 less e Ho Hx0 Hrq He|]; subst.
      * unfold pending in *. destruct R as [->|(x0 & [= <-] & <-)]; lia.
      * rewrite Hx in Hx0. injection Hx0 as <-. unfold pending in HK. rewrite Hrq in HK.
        assert (N0 : exists y, s_cands (step c cr s o) !! k = Some y /\ k_req y = None).
        { destruct Ho as [->|(p & ->)].
          - apply (accepted_post c cr s (ExecuteCandidateUnbond caller k) (fun s' => exists y, s_cands s' !! k = Some y /\ k_req y = None)); [|done]. apply execute_candidate_unbond_clears.
          - apply (signed_post c cr s caller p (SExecuteCandidateUnbond k) (fun s' => exists y, s_cands s' !! k = Some y /\ k_req y = None)); [done| |done]. apply execute_candidate_unbond_clears. }
        destruct N0 as (y & Hy & Hyn). rewrite Hx' in Hy. injection Hy as <-. unfold pending. rewrite Hyn. lia.
    + inversion Hb as [b h Ho| | |]; subst. apply C101_join_minimum in Ha. unfold pending. destruct R as [->|(x & [=] & _)]. lia.
Qed.
(** As long as the minimum was never set below [B], every bond is at least [B], and still is when the pending request has
    been carried out. *)
Theorem C101_bond_minimum c cr delay min_col min_nom l B : config_ok c -> c_min_per_collator c <= min_nom ->
  let g := genesis c delay min_col min_nom in
  (forall l1 l2, l = l1 ++ l2 -> B <= s_min_col (run c cr g l1)) ->
  forall k x, s_cands (run c cr g l) !! k = Some x -> B + pending x <= k_bond x.
Proof.
  intros Hc Hm g. induction l as [|o l IH] using rev_ind; intros HB; [intros k x Hx; unfold run in Hx; cbn [fold_left] in Hx; change (s_cands g) with (∅ : gmap N cand) in Hx; by rewrite lookup_empty in Hx|].
  rewrite run_snoc. apply step_keeps.
  - split; [done|]. by exists delay, min_col, min_nom, l.
  - apply (HB l [o]). done.
  - intros k x. apply IH. intros l1 l2 ->. apply (HB l1 (l2 ++ [o])). by rewrite app_assoc.
Qed.

(** The minimum of candidates changes only when governance sets it. *)
Lemma step_min_col c cr s o : match o with SetAdmin (SetMinCollator _) => False | _ => True end -> reachable c cr s -> s_min_col (step c cr s o) = s_min_col s.
Proof.
  intros Ho Hr. destruct (staking_call o) eqn:E.
  - destruct (not_accepted c cr s o) as [Ha| ->]; [|done]. revert Ha. apply (accepted_post c cr s o (fun s' => s_min_col s' = s_min_col s)).
    eapply post_mono; [by apply body_rest|]. intros ? s1 Hrest. unfold rest in Hrest. cbn in Hrest. congruence.
  - destruct (not_accepted c cr s o) as [Ha| ->]; [|done]. revert Ha.
    destruct o; try done; apply (accepted_post c cr s _ (fun s' => s_min_col s' = s_min_col s)); cbn [body].
    + unfold set_total_selected. by ps.
    + unfold set_blocks_per_era. by ps.
    + unfold set_admin_setting. ps. by destruct v.
    + unfold on_initialize. ps. destruct (_ <=? _); [|by ps]. unfold select_top_candidates. ps. destruct (compute_top_candidates _); by ps.
    + by ps.
Qed.
Theorem C101_bond_minimum_from_genesis c cr delay min_col min_nom l : config_ok c -> c_min_per_collator c <= min_nom ->
  Forall (fun o => match o with SetAdmin (SetMinCollator _) => False | _ => True end) l ->
  forall k x, s_cands (run c cr (genesis c delay min_col min_nom) l) !! k = Some x -> min_col + pending x <= k_bond x.
Proof.
  intros Hc Hm Hl. apply C101_bond_minimum; [done..|]. intros l1 l2 ->. apply Forall_app in Hl as [Hl _]. clear l2.
  assert (E : s_min_col (run c cr (genesis c delay min_col min_nom) l1) = min_col); [|rewrite E; lia].
  induction l1 as [|o l IH] using rev_ind; [done|]. apply Forall_app in Hl as [Hl Ho]. rewrite run_snoc, step_min_col; [by apply IH| |].
  - by inversion Ho.
  - split; [done|]. by exists delay, min_col, min_nom, l.
Qed.
(** Nominators are not protected in the same way: when a candidate leaves, what remains of a nominator's stake may be less
    than the minimum, and it stays a nominator. *)
Definition leave_ops : list op :=
  [EnvBalances ex_free ∅; EnvSessions {[1; 2; 3]}; Join 1 20 0; Join 2 30 1; Nominate 11 1 10 9 9; Nominate 11 2 1 9 9;
   ScheduleLeave 1 9] ++ replicate 8 NewBlock ++ [ExecuteLeave 99 1 9].
Theorem C101_nominator_minimum_refuted :
  let s := run ex_c ex_cr (genesis ex_c 2 10 5) leave_ops in reachable ex_c ex_cr s /\ s_min_nom s = 5 /\ m_total <$> s_nominators s !! 11 = Some 1.
Proof.
  cbv zeta. split; [|split; by vm_compute]. split; [unfold config_ok; cbn; lia|]. exists 2, 10, 5, leave_ops. split; [cbn; lia|done].
Qed.
(** Nor when a larger nomination pushes one of its own out of full lists. *)
Definition evict_ops : list op :=
  [EnvBalances ex_free ∅; EnvSessions {[1; 2; 3]}; Join 1 20 0; Join 2 30 1; Nominate 11 1 10 9 9; Nominate 12 1 8 9 9;
   Nominate 13 1 12 9 9; Nominate 14 1 6 9 9; Nominate 14 2 1 9 9; Nominate 15 1 20 9 9].
Theorem C101_nominator_minimum_after_eviction_refuted :
  let s := run ex_c ex_cr (genesis ex_c 2 10 5) evict_ops in reachable ex_c ex_cr s /\ s_min_nom s = 5 /\ m_total <$> s_nominators s !! 14 = Some 1.
Proof.
  cbv zeta. split; [|split; by vm_compute]. split; [unfold config_ok; cbn; lia|]. exists 2, 10, 5, evict_ops. split; [cbn; lia|done].
Qed.
(** The hypotheses are met in [ex_s]: 2 asks for 20 less and keeps the 10 that a candidate must have, 21 is refused, and so
    is a second request; 1 goes offline and online again, but not while leaving; 13 asks for 7 less, 8 is refused. *)
Definition after (o : op) : st := step ex_c ex_cr ex_s o.
Definition answer (s : st) (o : op) : res unit := snd (exec ex_c ex_cr o s).
Example C101_example :
  accepted ex_c ex_cr ex_s (ScheduleCandidateUnbond 2 20) /\ answer ex_s (ScheduleCandidateUnbond 2 21) = Err "CandidateBondBelowMin" /\
  answer (after (ScheduleCandidateUnbond 2 20)) (ScheduleCandidateUnbond 2 1) = Err "PendingCandidateRequestAlreadyExists" /\
  accepted ex_c ex_cr (after (GoOffline 1)) (GoOnline 1) /\ answer (after (ScheduleLeave 1 9)) (GoOnline 1) = Err "CannotGoOnlineIfLeaving" /\
  accepted ex_c ex_cr ex_s (ScheduleUnbond 13 1 7) /\ answer ex_s (ScheduleUnbond 13 1 8) = Err "NominatorBondBelowMin" /\
  pending <$> s_cands (after (ScheduleCandidateUnbond 2 20)) !! 2 = Some 20 /\
  accepted ex_c ex_cr ex_s (Signed 16 (ex_p 16) (SNominate [2; 1] 21)) /\ accepted ex_c ex_cr ex_s (Signed 11 (ex_p 11) (SBondExtra 5)).
Proof. by vm_compute. Qed.
