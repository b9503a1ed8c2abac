(** C39 (selection of collators). *)
From Verif Require Import Base BaseLemmas CodecModel SigModel StakeModel StakeSpec StakeBook StakeCross StakeInv StakeOps StakeNom StakeLeave StakeExit StakeCand StakeRun StakeFrame StakeMoves StakeSteps StakeProps StakeProps2.

Lemma ins_asc_sorted x l : StronglySorted (fun a b : N * N => a.2 <= b.2) l -> StronglySorted (fun a b : N * N => a.2 <= b.2) (ins_asc x l).
Proof.
  induction l as [|y l IH]; intros Hs; cbn; [by repeat constructor|]. inversion Hs as [|? ? Hs1 Hs2]; subst. destruct (N.leb_spec y.2 x.2).
  - constructor; [by apply IH|]. rewrite ins_asc_perm. constructor; [done|done].
  - constructor; [done|]. constructor; [lia|]. eapply Forall_impl; [exact Hs2|]. intros z Hz. cbn in Hz. lia.
Qed.
Lemma sort_asc_sorted l : StronglySorted (fun a b : N * N => a.2 <= b.2) (sort_asc l).
Proof.
  unfold sort_asc. assert (G : forall l acc, StronglySorted (fun a b : N * N => a.2 <= b.2) acc -> StronglySorted (fun a b : N * N => a.2 <= b.2) (fold_left (fun acc x => ins_asc x acc) l acc)).
  { clear. induction l as [|x l IH]; intros acc H; cbn; [done|]. apply IH. by apply ins_asc_sorted. }
  apply G. constructor.
Qed.
Lemma sorted_app {A} (R : A -> A -> Prop) l1 l2 x y : StronglySorted R (l1 ++ l2) -> x ∈ l1 -> y ∈ l2 -> R x y.
Proof.
  induction l1 as [|z l1 IH]; intros Hs Hx Hy; [by apply elem_of_nil in Hx|]. inversion Hs as [|? ? Hs1 Hs2]; subst.
  apply elem_of_cons in Hx as [->|Hx]; [|by apply IH]. rewrite Forall_forall in Hs2. apply Hs2. apply elem_of_app. by right.
Qed.
(** The selection: candidates in the pool with at least the minimum; as many as asked for; if one with enough is left
    out, then the selection is complete and nobody in it counts for less. *)
Lemma top_candidates_best s : let sel := compute_top_candidates s in
  NoDup sel /\ N.of_nat (length sel) <= s_total_selected s /\
  (forall k, k ∈ sel -> exists x, s_pool s !! k = Some x /\ s_min_col s <= x) /\
  (forall k x, s_pool s !! k = Some x -> s_min_col s <= x -> k ∉ sel ->
     N.of_nat (length sel) = s_total_selected s /\ forall k' y, k' ∈ sel -> s_pool s !! k' = Some y -> x <= y).
Proof.
  intros sel. set (n := N.to_nat (s_total_selected s)). set (L := reverse (sort_asc (pool_list s))).
  assert (HP : L ≡ₚ pool_list s) by (unfold L; rewrite reverse_Permutation; apply sort_asc_perm).
  assert (Hsel : sel ≡ₚ map fst (List.filter (fun x => s_min_col s <=? x.2) (take n L))) by (unfold sel, compute_top_candidates; apply (merge_sort_Permutation N.le)).
  assert (HndL : NoDup (map fst L)). { rewrite HP. unfold pool_list. rewrite map_map. cbn. rewrite map_id. apply keys_nodup. }
  assert (Hfst : forall l, NoDup (map fst l) -> NoDup (map fst (List.filter (fun x : N * N => s_min_col s <=? x.2) l))).
  { clear. induction l as [|x l IH]; cbn; [done|]. intros [H1 H2]%NoDup_cons. destruct (_ <=? _); [|by apply IH]. cbn. constructor; [|by apply IH].
    intros Hin. apply H1. apply elem_of_list_fmap in Hin as (y & E & Hy). apply elem_of_list_fmap. exists y. split; [done|]. apply elem_of_list_In, filter_In in Hy as [Hy _]. by apply elem_of_list_In. }
  assert (Htk : NoDup (map fst (take n L))). { rewrite <- (take_drop n L), map_app in HndL. apply NoDup_app in HndL. tauto. }
  split; [rewrite Hsel; by apply Hfst|]. split.
  { rewrite (Permutation_length Hsel), map_length. pose proof (filter_len (fun x : N * N => s_min_col s <=? x.2) (take n L)). pose proof (take_length L n). subst n. lia. }
  split; [intros k Hk; by apply top_candidates_elem|].
  intros k x Hx Hmin Hk.
  assert (HinL : (k, x) ∈ take n L ++ drop n L). { rewrite take_drop, HP. by apply pool_list_elem. }
  assert (Hdrop : (k, x) ∈ drop n L).
  { apply elem_of_app in HinL as [Hin|]; [|done]. exfalso. apply Hk. rewrite Hsel. apply elem_of_list_fmap. exists (k, x). split; [done|].
    apply elem_of_list_In, filter_In. split; [by apply elem_of_list_In|]. cbn. lia. }
  assert (Hge : forall y, y ∈ take n L -> x <= y.2).
  { intros y Hy. pose proof (sort_asc_sorted (pool_list s)) as Hs. rewrite <- (reverse_involutive (sort_asc (pool_list s))) in Hs. fold L in Hs.
    rewrite <- (take_drop n L), reverse_app in Hs. apply (sorted_app _ _ _ (k, x) y) in Hs; [done | by apply elem_of_reverse | by apply elem_of_reverse]. }
  assert (Hall : List.filter (fun x => s_min_col s <=? x.2) (take n L) = take n L).
  { clear -Hge Hmin. induction (take n L) as [|y l IH]; [done|]. cbn. pose proof (Hge y ltac:(left)). rewrite (proj2 (N.leb_le _ _)) by lia. f_equal. apply IH. intros z Hz. apply Hge. by right. }
  rewrite Hall in Hsel. split.
  - rewrite (Permutation_length Hsel), map_length, take_length. assert ((n < length L)%nat); [|subst n; lia].
    destruct (decide (n < length L)%nat); [done|]. rewrite drop_ge in Hdrop by lia. by apply elem_of_nil in Hdrop.
  - intros k' y Hk' Hy. rewrite Hsel in Hk'. apply elem_of_list_fmap in Hk' as ([k2 y2] & -> & Hin). cbn in Hy.
    specialize (Hge _ Hin). cbn in Hge. assert (HinL2 : (k2, y2) ∈ pool_list s). { rewrite <- HP, <- (take_drop n L). apply elem_of_app. by left. }
    apply pool_list_elem in HinL2. rewrite Hy in HinL2. injection HinL2 as ->. done.
Qed.
(** Snapshots. *)
Definition withdrawing (s : st) (k w a : N) : N :=
  match find (fun r => r_who r =? w) (reqs_of s k) with
  | Some r => match r_action r with Revoke _ => a | Decrease d => d end
  | None => 0
  end.
Lemma uncounted_sum s k l : lsum l <= U128_MAX -> (forall w a, (w, a) ∈ l -> withdrawing s k w a <= a) ->
  uncounted (reqs_of s k) l + lsum (map (rewardable (reqs_of s k)) l) = lsum l.
Proof.
  intros Hl Hw. unfold uncounted.
  assert (G : forall l acc, acc + lsum l <= U128_MAX -> (forall w a, (w, a) ∈ l -> withdrawing s k w a <= a) ->
     fold_left (fun acc x => match find (of_nominator x.1) (reqs_of s k) with None => acc | Some r => match r_action r with Revoke _ => sat acc x.2 | Decrease d => sat acc d end end) l acc
       + lsum (map (rewardable (reqs_of s k)) l) = acc + lsum l).
  { clear. induction l as [|[w a] l IH]; intros acc Hl Hw; cbn [fold_left map lsum]; [done|]. cbn [lsum snd fst] in *.
    pose proof (Hw w a ltac:(left)) as H1. unfold withdrawing in H1. change (fun r => r_who r =? w) with (of_nominator w) in H1.
    assert (Hw' : forall w a, (w, a) ∈ l -> withdrawing s k w a <= a) by (intros w2 a2 H2; apply Hw; by right).
    unfold rewardable at 1. cbn [fst snd]. destruct (find (of_nominator w) (reqs_of s k)) as [r|]; [destruct (r_action r) as [y|d]|]; cbn [snd].
    - replace (sat acc a) with (acc + a) by (unfold sat, saturating_add; lia). pose proof (IH (acc + a) ltac:(lia) Hw'). lia.
    - replace (sat acc d) with (acc + d) by (unfold sat, saturating_add; lia). pose proof (IH (acc + d) ltac:(lia) Hw'). unfold saturating_sub. lia.
    - pose proof (IH acc ltac:(lia) Hw'). lia. }
  apply (G l 0); done.
Qed.
(** What a snapshot of [k] taken in [s] says: the bond, every counted nomination less what is being withdrawn from it,
    and their sum. *)
Definition true_snapshot (s : st) (k : N) (v : snapshot) : Prop := exists x t, s_cands s !! k = Some x /\ s_top s !! k = Some t /\
  sn_bond v = k_bond x /\
  Forall2 (fun y z => z.1 = y.1 /\ z.2 + withdrawing s k y.1 y.2 = y.2) (n_list t) (sn_noms v) /\
  sn_total v = sn_bond v + lsum (sn_noms v).
Lemma snapshot_true c cr s k v : reachable c cr s -> snapshot_of s k = Some v -> true_snapshot s k v.
Proof.
  intros Hre Hv. apply reachable_inv in Hre as H. unfold snapshot_of in Hv. destruct (s_cands s !! k) as [x|] eqn:Hx; [|done]. destruct (s_top s !! k) as [t|] eqn:Ht; [|done].
  injection Hv as <-. exists x, t. split; [done|]. split; [done|]. split; [done|]. cbn [sn_noms sn_bond sn_total].
  destruct (inv_book c s k x H Hx) as (t' & b & Ht' & Hb & Hok & _). rewrite Ht in Ht'. injection Ht' as <-.
  assert (Hwd : forall w a, (w, a) ∈ n_list t -> withdrawing s k w a <= a).
  { intros w a Hin. unfold withdrawing. destruct (find _ (reqs_of s k)) as [r|] eqn:Ef; [|lia]. apply find_some in Ef as [Hr Hw]. apply elem_of_list_In in Hr. apply N.eqb_eq in Hw.
    destruct (r_action r) eqn:Er; [lia|]. destruct (C32_requests_fit c cr s k r Hre Hr) as [(m & a' & Hm & Ha & Hact) _]. rewrite Er in Hact. rewrite Hw in Hm.
    destruct (proj2 (C32_nominations_are_listed c cr s w k a Hre)) as (m' & Hm' & Ha').
    { exists t, b. split; [done|]. split; [done|]. apply elem_of_app. by left. }
    rewrite Hm in Hm'. injection Hm' as <-. rewrite Ha in Ha'. injection Ha' as ->. lia. }
  split.
  - clear -Hwd. induction (n_list t) as [|[w a] l IH]; cbn [map]; [constructor|]. constructor; [|apply IH; intros; apply Hwd; by right].
    cbn [fst snd]. specialize (Hwd w a ltac:(left)). unfold withdrawing in *. change (fun r => r_who r =? w) with (of_nominator w) in *. unfold rewardable. cbn [fst snd].
    destruct (find (of_nominator w) (reqs_of s k)) as [r|]; [|cbn; lia]. destruct (r_action r); cbn [fst snd]; [lia|]. unfold saturating_sub. split; [done|lia].
  - pose proof (book_fits c s k x t b H Hx Ht Hb) as Hf. unfold all_noms in Hf. cbn in Hf. rewrite lsum_app in Hf.
    pose proof (uncounted_sum s k (n_list t) ltac:(lia) Hwd) as Hu. destruct (C31_record_exact c cr s k x t b Hre Hx Ht Hb) as (_ & -> & _).
    unfold saturating_sub. lia.
Qed.
Lemma snaps_fold_val s sel (acc : gmap N snapshot) k : k ∈ sel -> is_Some (snapshot_of s k) ->
  fold_left (fun acc k => match snapshot_of s k with Some v => <[k := v]> acc | None => acc end) sel acc !! k = snapshot_of s k.
Proof.
  intros Hk [v Hv]. revert acc. assert (G : forall l (acc : gmap N snapshot), acc !! k = Some v -> fold_left (fun acc k => match snapshot_of s k with Some v => <[k := v]> acc | None => acc end) l acc !! k = Some v).
  { induction l as [|y l IH]; intros acc Ha; cbn; [done|]. apply IH. destruct (N.eq_dec y k) as [->|Hne]; [by rewrite Hv, lookup_insert|]. destruct (snapshot_of s y); [|done]. by rewrite lookup_insert_ne. }
  rewrite Hv. induction sel as [|y sel IH]; intros acc; [by apply elem_of_nil in Hk|]. cbn. apply elem_of_cons in Hk as [<-|Hk]; [|by apply IH].
  rewrite Hv. apply G. by rewrite lookup_insert.
Qed.

(** When a block starts a new era and some active candidate has the minimum, the best ones are selected, and the
    snapshot for the era says exactly what each has; otherwise the selection stays. *)
Definition starts_era (s : st) : Prop := s_era_length s <= s_block s + 1 - s_era_first s.
Theorem C39_selection c cr s : reachable c cr s -> accepted c cr s NewBlock -> starts_era s -> let s' := step c cr s NewBlock in
  (exists k x, s_pool s !! k = Some x /\ s_min_col s <= x) -> 0 < s_total_selected s ->
  s_era s' = N.min U32_MAX (s_era s + 1) /\ NoDup (s_selected s') /\ N.of_nat (length (s_selected s')) <= s_total_selected s /\
  (forall k, k ∈ s_selected s' -> exists x v, s_pool s !! k = Some x /\ s_min_col s <= x /\
     mget ∅ (s_era s') (s_snaps s') !! k = Some v /\ true_snapshot s k v) /\
  (forall k x, s_pool s !! k = Some x -> s_min_col s <= x -> k ∉ s_selected s' ->
     N.of_nat (length (s_selected s')) = s_total_selected s /\ forall k' y, k' ∈ s_selected s' -> s_pool s !! k' = Some y -> x <= y).
Proof.
  intros Hre Hacc Hst s' (k0 & x0 & Hk0 & Hx0) Hts. subst s'. unfold step, accepted, exec, dispatch in *. cbn [body] in *. apply reachable_inv in Hre as H.
  destruct (top_candidates_best s) as (T1 & T2 & T3 & T4).
  destruct (on_initialize c s) as [s' [[]|e]] eqn:E; [|done]. cbn [fst]. clear Hacc.
  unfold on_initialize, mbind_, modify, get_st, mret_ in E. cbv beta iota zeta in E. set (s1 := s <| s_block := s_block s + 1 |>) in E.
  rewrite (proj2 (N.leb_le _ _)) in E by exact Hst.
  unfold select_top_candidates, mbind_, get_st in E. cbv beta iota zeta in E. change (compute_top_candidates s1) with (compute_top_candidates s) in E.
  destruct (compute_top_candidates s) as [|y sel] eqn:Ec.
  { exfalso. destruct (T4 k0 x0 Hk0 Hx0) as [E1 _]; [apply not_elem_of_nil|]. cbn in E1. lia. }
  change (snapshot_of s1) with (snapshot_of s) in E. unfold ensure in E.
  assert (E1 : forallb (fun k => match snapshot_of s k with Some _ => true | None => false end) (y :: sel) = true).
  { apply forallb_forall. intros k Hk. apply elem_of_list_In in Hk. destruct (T3 k Hk) as (v & Hv & _). destruct (snapshot_some c s k v H Hv) as [z ->]. done. }
  rewrite E1 in E. cbv beta iota in E. destruct (N.of_nat (length (y :: sel)) <=? c_max_cands c); [|done]. cbv beta iota in E. unfold modify in E. injection E as <-.
  cbn -[fold_left]. split; [done|]. split; [done|]. split; [done|]. split.
  - intros k Hk. destruct (T3 k Hk) as (x & Hx & Hmin). destruct (snapshot_some c s k x H Hx) as [v Hv]. exists x, v. split; [done|]. split; [done|]. split.
    + unfold mget at 1. rewrite lookup_insert. cbn -[fold_left]. rewrite <- Hv. apply (snaps_fold_val s (y :: sel)); [done|]. by rewrite Hv.
    + by apply (snapshot_true c cr).
  - intros k x Hx Hmin Hk. exact (T4 k x Hx Hmin Hk).
Qed.
Theorem C39_selection_stays c cr s : reachable c cr s -> let s' := step c cr s NewBlock in
  ~ starts_era s \/ (forall k x, s_pool s !! k = Some x -> x < s_min_col s) -> s_selected s' = s_selected s.
Proof.
  intros Hre s' Hno. subst s'. unfold step, exec, dispatch. cbn [body].
  destruct (top_candidates_best s) as (T1 & T2 & T3 & T4).
  destruct (on_initialize c s) as [s' [[]|e]] eqn:E; [|done]. cbn [fst].
  unfold on_initialize, mbind_, modify, get_st, mret_ in E. cbv beta iota zeta in E. set (s1 := s <| s_block := s_block s + 1 |>) in E.
  destruct (N.leb_spec (s_era_length s1) (s_block s1 - s_era_first s1)) as [Hs|Hs]; [|by injection E as <-].
  destruct Hno as [Hno|Hno]; [done|].
  unfold select_top_candidates, mbind_, get_st in E. cbv beta iota zeta in E. change (compute_top_candidates s1) with (compute_top_candidates s) in E.
  destruct (compute_top_candidates s) as [|y sel] eqn:Ec.
  - unfold ensure, modify in E. destruct (forallb _ _); [|done]. by injection E as <-.
  - exfalso. destruct (T3 y ltac:(left)) as (x & Hx & Hmin). specialize (Hno y x Hx). lia.
Qed.
(** Only new blocks change the selection. *)
Theorem C39_only_blocks_select c cr s o : o <> NewBlock -> s_selected (step c cr s o) = s_selected s /\ s_snaps (step c cr s o) = s_snaps s.
Proof.
  intros Ho. unfold step, exec, dispatch. destruct (body c cr o s) as [s1 [[]|e]] eqn:E; [|done]. cbn [fst].
  destruct (staking_call o) eqn:Es.
  - pose proof (body_rest c cr o s Es) as Hb. unfold post in Hb. rewrite E in Hb. unfold rest in Hb. cbn in Hb. split; congruence.
  - assert (Hp : post (body c cr o) (fun _ s' => s_selected s' = s_selected s /\ s_snaps s' = s_snaps s) s).
    { destruct o; try done; cbn [body]; unfold set_total_selected, set_blocks_per_era, set_admin_setting; ps; try done. by destruct v. }
    unfold post in Hp. by rewrite E in Hp.
Qed.
(** A call of a candidate or a nominator changes no balance, era, setting, selection, snapshot or session key; the
    nonces only if it is relayed. *)
Theorem C41_calls_touch_nothing_else c cr s o : staking_call o = true -> let s' := step c cr s o in
  rest (s' <| s_nonces := s_nonces s |>) = rest s /\ ((forall w p x, o <> Signed w p x) -> s_nonces s' = s_nonces s).
Proof.
  intros Es. unfold step, exec, dispatch. cbv zeta. destruct (body c cr o s) as [s1 [[]|e]] eqn:E; [|split; [by destruct s|done]]. cbn [fst].
  pose proof (body_rest c cr o s Es) as Hb. unfold post in Hb. rewrite E in Hb. split; [exact Hb|].
  intros Hn. assert (Hk : post (body c cr o) (fun _ s' => s_nonces s' = s_nonces s) s); [|unfold post in Hk; by rewrite E in Hk].
  assert (HK : forall m : M st unit, kb m -> post m (fun _ s' => s_nonces s' = s_nonces s) s).
  { intros m Hm. eapply post_mono; [apply Hm|]. intros ? s' E'. unfold rest in E'. congruence. }
  apply HK. destruct o; try done; try (exfalso; by eapply Hn); cbn [body].
  all: unfold join_candidates, schedule_leave_candidates, execute_leave_candidates, cancel_leave_candidates, go_offline, go_online, candidate_bond_extra, schedule_candidate_unbond,
    execute_candidate_unbond, cancel_candidate_unbond, schedule_revoke_all, cancel_revoke_all, schedule_revoke, cancel_request, hotfix,
    pool_insert, pool_remove, update_active, set_col_lock, put_cand, add_total, sub_total, write_reqs, set_nominator, set_reqs; kbs.
  all: first [apply kb_load | apply kb_return_all | apply kb_nominate | apply kb_bond_extra | apply kb_revoke_all | apply kb_schedule_decrease | apply kb_execute].
Qed.

(** The example: two eras later the selection has followed the stakes. *)
Definition ex_select : list op := [EnvBalances ex_free ∅; EnvSessions {[1; 2; 3]}; Join 1 20 0; Join 2 30 1; Join 3 9 2; Nominate 11 1 15 9 9; ScheduleUnbond 11 1 4; NewBlock; NewBlock].
Definition ex_before : st := run ex_c ex_cr (genesis ex_c 2 10 5) ex_select.
Example C39_example : reachable ex_c ex_cr ex_before /\ accepted ex_c ex_cr ex_before NewBlock /\ starts_era ex_before /\
  (exists k x, s_pool ex_before !! k = Some x /\ s_min_col ex_before <= x) /\ 0 < s_total_selected ex_before /\
  s_selected (step ex_c ex_cr ex_before NewBlock) = [1] /\
  mget ∅ 2 (s_snaps (step ex_c ex_cr ex_before NewBlock)) !! 1 = Some (mkSnap 20 [(11, 11)] 31).
Proof.
  split. { split; [unfold config_ok; cbn; lia|]. exists 2, 10, 5, ex_select. split; [cbn; lia|done]. }
  split; [by vm_compute|]. split; [by vm_compute|]. split; [exists 2, 30; by vm_compute|]. by vm_compute.
Qed.
