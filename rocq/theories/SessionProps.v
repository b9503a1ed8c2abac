(** C75-C77: who authors blocks in which era, that the set of authors does not become empty, and when a collator that was
    deregistered leaves staking. *)
From Verif Require Import Base BaseLemmas CodecModel SigModel AvnModel StakeModel StakeSpec StakeBook StakeCross StakeInv StakeOps StakeNom StakeLeave StakeExit StakeCand StakeRun StakeFrame StakeMoves StakeSteps StakeProps StakeProps2 StakeProps3 SessionModel SessionProofs SessionProofs2.
From Verif Require RewardModel RewardProofs.

(** ** Specification *)
(** Abbreviations: the era, the collators selected for it, who may author blocks. *)
Definition era (ch : chain) : N := s_era (ch_st ch).
Definition selected (ch : chain) : list N := s_selected (ch_st ch).
Definition authors (ch : chain) : list N := ch_validators ch.
Definition has_keys (ch : chain) (a : N) : Prop := is_Some (ch_keys ch !! a).
#[export] Instance has_keys_dec ch a : Decision (has_keys ch a).
Proof. unfold has_keys. apply _. Defined.
(** A chain some history leads to: it begins with collators [l] (account, key), who have registered their session keys, in
    a staking state [s] in which nobody is about to leave and the delay is at least one era. *)
Definition chain_genesis (c : config) (cr : crypto) (s : st) (l : list (N * N)) : Prop :=
  reachable c cr s /\ 1 <= s_delay s /\ (forall k x, s_cands s !! k = Some x -> is_leaving x = false) /\ NoDup (map fst l) /\ NoDup (map snd l) /\ s_registered s = list_to_set (map fst l).

(** ** C75 *)

(** Sessions change exactly when eras do: in every history the session index and the era number grow together. *)
Theorem C75_one_session_per_era c cr ch l : let ch' := crun c cr ch l in era ch' < U32_MAX -> ch_index ch' + era ch = ch_index ch + era ch'.
Proof. apply session_per_era. Qed.
(** Within an era the authors, the AVN pallet's list and the selection stay the same, whatever is called. *)
Theorem C75_fixed_within_an_era c cr ch l : let ch' := crun c cr ch l in era ch' = era ch -> era ch < U32_MAX ->
  authors ch' = authors ch /\ ch_avn ch' = ch_avn ch /\ selected ch' = selected ch /\ ch_index ch' = ch_index ch.
Proof. intros ch' H Hm. destruct (same_era c cr ch l H Hm) as (? & ? & ? & ? & ? & ?). done. Qed.
(** All through era e+2 the authors are those selected for era e who had session keys when era e+1 began, in the same order;
    the AVN pallet's list has them with the keys of that moment. *)
Theorem C75_authors_of_an_era c cr ch l l' :
  let ch1 := cstep c cr ch Block in let ch2 := crun c cr ch1 l in let ch3 := cstep c cr ch2 Block in let ch4 := crun c cr ch3 l' in
  selected ch <> [] -> era ch1 = era ch + 1 -> era ch2 = era ch + 1 -> era ch3 = era ch + 2 -> era ch4 = era ch + 2 -> era ch + 2 < U32_MAX ->
  authors ch4 = filter (has_keys ch) (selected ch) /\
  map v_account (ch_avn ch4) = authors ch4 /\ Forall (fun v => ch_keys ch !! v_account v = Some (v_key v)) (ch_avn ch4).
Proof.
  intros ch1 ch2 ch3 ch4 Hs H1 H2 H3 H4 Hm. destruct (authors_of_era c cr ch l l' Hs H1 H2 H3 H4 Hm) as [E1 E2]. fold ch1 ch2 ch3 ch4 in E1, E2.
  assert (E3 : authors ch4 = filter (has_keys ch) (selected ch)).
  { unfold authors. rewrite E1. unfold selected, has_keys. apply list_filter_iff. done. }
  split; [exact E3|]. rewrite E2, map_accounts, with_keys_fst. split; [symmetry; exact E1|].
  apply Forall_forall. intros v Hv. apply elem_of_list_fmap in Hv as ([a k] & -> & Hak). unfold with_keys in Hak. apply elem_of_list_omap in Hak as (b & _ & Hb).
  cbn. destruct (ch_keys ch !! b) as [k'|] eqn:E; [|done]. by injection Hb as -> ->.
Qed.
(** So somebody who is not selected in an era and the ones after it is no author two eras later. *)
Theorem C75_unselected_stop c cr ch l l' a :
  let ch1 := cstep c cr ch Block in let ch2 := crun c cr ch1 l in let ch3 := cstep c cr ch2 Block in let ch4 := crun c cr ch3 l' in
  selected ch <> [] -> era ch1 = era ch + 1 -> era ch2 = era ch + 1 -> era ch3 = era ch + 2 -> era ch4 = era ch + 2 -> era ch + 2 < U32_MAX ->
  a ∉ selected ch -> a ∉ authors ch4 /\ is_validator (ch_avn ch4) a = false.
Proof.
  intros ch1 ch2 ch3 ch4 Hs H1 H2 H3 H4 Hm Ha. destruct (C75_authors_of_an_era c cr ch l l' Hs H1 H2 H3 H4 Hm) as (E1 & E2 & _). fold ch1 ch2 ch3 ch4 in E1, E2.
  assert (Hn : a ∉ authors ch4). { rewrite E1. intros [_ H]%elem_of_list_filter. done. }
  split; [done|]. apply not_true_is_false. unfold is_validator. intros (v & Hv & Hva)%existsb_exists. apply N.eqb_eq in Hva. apply Hn. rewrite <- E2. subst a. apply elem_of_list_In, in_map. done.
Qed.
(** The list of the AVN pallet, from which quorums and votes are counted, is the set of authors in every state. *)
Theorem C75_avn_list_is_the_authors c cr s l ops : chain_genesis c cr s l -> s_selected s <> [] ->
  let ch := crun c cr (cgenesis s l) ops in map v_account (ch_avn ch) = authors ch.
Proof.
  intros _ Hs. cbv zeta. refine (proj1 (avn_stays c cr (cgenesis s l) ops Hs _)). split; cbn; [apply map_accounts|by right].
Qed.

(** No account and no key is twice among the validators of the AVN pallet, a session key has one owner, and staking takes exactly
    the accounts with session keys for registered. *)
Theorem C75_keys_have_one_owner c cr s l ops : chain_genesis c cr s l -> let ch := crun c cr (cgenesis s l) ops in
  NoDup (map v_account (ch_avn ch)) /\ NoDup (map v_key (ch_avn ch)) /\ (forall a b k, ch_keys ch !! a = Some k -> ch_keys ch !! b = Some k -> a = b) /\
  (forall a, a ∈ s_registered (ch_st ch) <-> has_keys ch a).
Proof.
  intros (Hr & _ & _ & Hn1 & Hn2 & Hreg) ch.
  destruct (keys_stay c cr (cgenesis s l) ops Hr) as (H1 & _ & H2 & H3).
  { split; [|split; [done|]].
    - cbn. intros a b k Ha Hb. apply elem_of_list_to_map in Ha, Hb; [|done..]. apply elem_of_list_lookup in Ha as [i Hi], Hb as [j Hj].
      assert (Hij : i = j). { apply (NoDup_lookup (map snd l) i j k Hn2); [change (map snd l) with (snd <$> l); rewrite list_lookup_fmap, Hi | change (map snd l) with (snd <$> l); rewrite list_lookup_fmap, Hj]; done. }
      subst j. congruence.
    - cbn. rewrite !map_map. done. }
  split; [done|]. split; [done|]. split; [done|]. intros a.
  assert (HR : s_registered (ch_st ch) = dom (ch_keys ch)).
  { unfold ch. clear -Hreg. induction ops as [|o ops IH] using rev_ind; [|rewrite crun_snoc; by apply cstep_registered].
    cbn. rewrite Hreg. apply leibniz_equiv. intros x. rewrite elem_of_list_to_set, elem_of_dom. change (map fst l) with (l.*1). split.
    - intros Hx. destruct ((list_to_map l : gmap N N) !! x) eqn:E; [done|]. by apply not_elem_of_list_to_map in E.
    - intros [k Hk]. apply elem_of_list_fmap. exists (x, k). split; [done|]. by apply elem_of_list_to_map_2. }
  rewrite HR. apply elem_of_dom.
Qed.

(** The example: keys for three accounts, two of them candidates; the second is selected, then the first overtakes it. *)
Definition sx_ops : list op := [EnvBalances ex_free ∅; EnvSessions {[1; 2; 3]}; Join 1 20 0; Join 2 30 1; NewBlock; NewBlock; NewBlock].
Definition sx : st := run ex_c ex_cr (genesis ex_c 2 10 5) sx_ops.
Definition sx_keys : list (N * N) := [(1, 101); (2, 102); (3, 103)].
Definition sx_chain : chain := cgenesis sx sx_keys.
Lemma sx_genesis : chain_genesis ex_c ex_cr sx sx_keys /\ s_selected sx <> [].
Proof.
  split; [|by vm_compute]. split.
  { split; [unfold config_ok; cbn; lia|]. exists 2, 10, 5, sx_ops. split; [cbn; lia|done]. }
  split; [by vm_compute|]. split.
  { intros k x H. assert (F : map_Forall (fun _ x => is_leaving x = false) (s_cands sx)) by (refine (proj1 (bool_decide_eq_true _) _); by vm_compute). by apply (F k). }
  split; [refine (proj1 (bool_decide_eq_true _) _); by vm_compute|]. split; refine (proj1 (bool_decide_eq_true _) _); by vm_compute.
Qed.
Definition sx_era : list cop := [Block; Block].
(** The era in which the first is selected, begun. *)
Definition sx_ch : chain := crun ex_c ex_cr sx_chain [Stake (CandidateBondExtra 1 40); Block; Block; Block; Block; Block].
Example C75_example : let ch := sx_ch in
  let ch1 := cstep ex_c ex_cr ch Block in let ch2 := crun ex_c ex_cr ch1 sx_era in let ch3 := cstep ex_c ex_cr ch2 Block in let ch4 := crun ex_c ex_cr ch3 sx_era in
  selected ch = [1] /\ era ch = 3 /\ era ch1 = 4 /\ era ch2 = 4 /\ era ch3 = 5 /\ era ch4 = 5 /\ authors ch = [1; 2; 3] /\ authors ch2 = [2] /\ authors ch4 = [1].
Proof. by vm_compute. Qed.

(** Refuted: the collators selected for an era author its blocks.  In the era for which only the first is selected the second
    and only author is not selected and has no stake on record for it. *)
Theorem C75_selected_author_refuted : exists c cr s l ops, chain_genesis c cr s l /\ s_selected s <> [] /\
  let ch := crun c cr (cgenesis s l) ops in
  selected ch = [1] /\ authors ch = [2] /\ Forall (has_keys ch) [1; 2] /\ mget ∅ (era ch) (s_snaps (ch_st ch)) !! 2 = None.
Proof.
  exists ex_c, ex_cr, sx, sx_keys, [Stake (CandidateBondExtra 1 40); Block; Block; Block; Block; Block; Block]. split; [apply sx_genesis|]. split; [apply sx_genesis|].
  cbv zeta. split; [by vm_compute|]. split; [by vm_compute|]. split; [|by vm_compute]. repeat constructor; by eexists; vm_compute.
Qed.

(** ** C76 *)

(** Once somebody is selected, somebody always is. *)
Theorem C76_selection_never_empties c cr ch l : selected ch <> [] -> selected (crun c cr ch l) <> [].
Proof. apply selected_stays. Qed.
(** As long as one selected collator keeps session keys, there are authors in every state. *)
Theorem C76_authors_never_run_out c cr s l ops : chain_genesis c cr s l -> s_selected s <> [] -> l <> [] ->
  (forall o1 o2, ops = o1 ++ o2 -> exists a, a ∈ selected (crun c cr (cgenesis s l) o1) /\ has_keys (crun c cr (cgenesis s l) o1) a) ->
  authors (crun c cr (cgenesis s l) ops) <> [].
Proof.
  intros _ Hs Hl H. apply (proj1 (validators_stay c cr (cgenesis s l) ops Hs ltac:(cbn; by destruct l) Hl H)).
Qed.
(** A block is never impossible before the last era number: no hook of staking panics, whatever happened. *)
Theorem C76_blocks_go_on c cr s l ops : chain_genesis c cr s l -> let ch := crun c cr (cgenesis s l) ops in
  era ch < U32_MAX -> s_block (ch_st (cstep c cr ch Block)) = s_block (ch_st ch) + 1.
Proof.
  intros (Hr & _) ch He. pose proof (chain_reachable c cr (cgenesis s l) ops Hr) as Hre. fold ch in Hre.
  assert (HN : forall s0, reachable c cr s0 -> s_era s0 = era ch -> s_block s0 = s_block (ch_st ch) -> exists s', exec c cr NewBlock s0 = (s', Ok tt) /\ s_block s' = s_block (ch_st ch) + 1).
  { intros s0 H0 E0 B0. destruct (exec c cr NewBlock s0) as [s' [[]|e]] eqn:E.
    - exists s'. split; [done|]. destruct (newblock_clock c cr _ _ _ E) as (-> & _). by rewrite B0.
    - exfalso. assert (e = "panic"%string) as ->.
      { unfold exec, dispatch in E. cbn [body] in E. destruct (on_initialize c s0) as [s1 [[]|e']] eqn:E1; [done|]. injection E as _ ->.
        unfold on_initialize, mbind_, modify, get_st, mret_ in E1. cbv beta iota zeta in E1. destruct (_ <=? _); [|done].
        unfold select_top_candidates, mbind_, get_st, ensure in E1. cbv beta iota zeta in E1. destruct (compute_top_candidates _) as [|y sel].
        - unfold modify in E1. cbv beta iota zeta in E1. destruct (forallb _ _); [done|]. by injection E1.
        - destruct (forallb _ _); [|by injection E1]. destruct (_ <=? _); [done|]. by injection E1. }
      destruct (C41_no_panic c cr s0 NewBlock s' H0 E) as [_ E2]. lia. }
  cbn [cstep]. unfold block. destruct (should_end_session (ch_st ch)).
  - unfold rotate_session. set (ch1 := ch <| ch_validators := _ |> <| ch_index := _ |> <| ch_queued := _ |> <| ch_qchanged := _ |> <| ch_avn := _ |>).
    destruct (exits_steps c cr (map fst (ch_queued ch)) (elements (ch_exit ch)) ch1) as (sops & E1 & _).
    destruct (exits_sess c cr (map fst (ch_queued ch)) (elements (ch_exit ch)) ch1) as (_ & E2 & _). set (ch2 := fold_left _ _ ch1) in *.
    unfold clock in E2. injection E2 as F1 F2 F3 F4.
    destruct (HN (ch_st ch2)) as (s' & E & Eb); [rewrite E1; by apply reachable_run|done|done|]. rewrite E. exact Eb.
  - destruct (HN (ch_st ch) Hre eq_refl eq_refl) as (s' & E & Eb). rewrite E. exact Eb.
Qed.
(** Refuted: refusing an empty selection (session_handler.rs:20-25) keeps the set of authors from becoming empty.  Session keys
    can be taken back by their owner, and selected collators without keys are dropped silently: with all of them gone there
    is no author, the AVN pallet has no validator and its quorum is zero. *)
Theorem C76_guard_suffices_refuted : exists c cr s l ops, chain_genesis c cr s l /\ s_selected s <> [] /\ l <> [] /\
  let ch := crun c cr (cgenesis s l) ops in selected ch = [2] /\ authors ch = [] /\ ch_avn ch = [] /\ avn_quorum (ch_avn ch) = 0.
Proof.
  exists ex_c, ex_cr, sx, sx_keys, (PurgeKeys 2 :: repeat Block 6). split; [apply sx_genesis|]. split; [apply sx_genesis|]. split; [done|]. by vm_compute.
Qed.
(** Beside it: with the keys kept the same history has an author. *)
Example C76_example : authors (crun ex_c ex_cr sx_chain (repeat Block 6)) = [2] /\ selected (crun ex_c ex_cr sx_chain (repeat Block 6)) = [2].
Proof. by vm_compute. Qed.

(** ** C77 *)

(** The deregistered leave staking (and get their bond back) only by the change of a session, after the delay, when they
    neither author in the new session nor are queued for the next one: provided that at every point some candidate can be
    selected and the delay does not run over the last era number. *)
Theorem C77_leaves_only_when_out c cr s l ops o k x : chain_genesis c cr s l ->
  (forall o1 o2, ops = o1 ++ o2 -> let ch := crun c cr (cgenesis s l) o1 in
     (exists a y, s_pool (ch_st ch) !! a = Some y /\ s_min_col (ch_st ch) <= y) /\ 0 < s_total_selected (ch_st ch) /\ era ch + s_delay (ch_st ch) < 2 ^ 32) ->
  let ch := crun c cr (cgenesis s l) ops in let ch' := cstep c cr ch o in
  s_cands (ch_st ch) !! k = Some x -> s_cands (ch_st ch') !! k = None ->
  o = Block /\ k ∈ ch_exit ch /\ k ∉ authors ch' /\ k ∉ map fst (ch_queued ch') /\ k ∉ selected ch /\
  exists e, k_status x = Leaving e /\ e <= era ch.
Proof.
  intros (Hr & Hd & Hn & _) Hp ch ch' Hx Hgone. pose proof (chain_reachable c cr (cgenesis s l) ops Hr) as Hre. fold ch in Hre.
  destruct (cand_gone c cr ch o k x Hre Hx Hgone) as (-> & Hend & Hne & Hex & Hq & e & He & Hle). destruct (rotated c cr ch Hend Hne) as (Hv & Hq').
  assert (HU : leaving_unselected (ch_st ch)).
  { apply (crun_unselected c cr (cgenesis s l) ops Hr Hd).
    - intros k' x' e' Hk' He'. specialize (Hn k' x' Hk'). unfold is_leaving in Hn. by rewrite He' in Hn.
    - intros o1 o2 E. destruct (Hp o1 o2 E) as (A1 & A2 & A3). done. }
  assert (Hs : k ∉ selected ch). { destruct (HU k x e Hx He) as [H|H]; [|done]. exfalso. unfold era in *. lia. }
  split; [done|]. split; [done|]. split; [unfold authors, ch'; by rewrite Hv|]. split; [|split; [done|by exists e]].
  unfold ch'. rewrite Hq'. unfold queue_of. rewrite with_keys_fst. intros [_ H]%elem_of_list_filter. unfold selected in Hs. by destruct (s_selected (ch_st ch)).
Qed.
(** Nobody begins to leave but by a deregistration; that takes it out of the candidates that can be selected at once, and sets the time
    from which on it may leave. *)
Theorem C77_only_deregistration_begins_it c cr ch o k x e : let ch' := cstep c cr ch o in
  s_cands (ch_st ch') !! k = Some x -> k_status x = Leaving e -> (forall y e', s_cands (ch_st ch) !! k = Some y -> k_status y <> Leaving e') -> o = Resign k.
Proof.
  intros ch' Hx He Hn. destruct (cstep_begins c cr ch o k) as [(y & e' & Hy & Hye)|]; [by exists x, e| |done]. exfalso. by apply (Hn y e').
Qed.
Theorem C77_deregistration_begins_it c cr ch o k : let ch' := cstep c cr ch o in k ∈ ch_exit ch' -> k ∉ ch_exit ch ->
  o = Resign k /\ s_pool (ch_st ch') !! k = None /\ exists x, s_cands (ch_st ch') !! k = Some x /\ k_status x = Leaving ((era ch + s_delay (ch_st ch)) mod 2 ^ 32).
Proof. apply cstep_exit. Qed.
(** And they do leave: at the first change of the session after the delay in which they have no part. *)
Theorem C77_does_leave c cr s l ops k x e : chain_genesis c cr s l -> let ch := crun c cr (cgenesis s l) ops in let ch' := cstep c cr ch Block in
  era ch' = era ch + 1 -> era ch' < U32_MAX -> k ∈ ch_exit ch -> s_cands (ch_st ch) !! k = Some x -> k_status x = Leaving e -> e <= era ch ->
  k ∉ authors ch' -> s_cands (ch_st ch') !! k = None.
Proof.
  intros (Hr & _) ch ch' He Hm Hex Hx Hst Hle Ha. pose proof (chain_reachable c cr (cgenesis s l) ops Hr) as Hre. fold ch in Hre.
  destruct (new_era_rotates c cr ch Block He (cstep_kind c cr _ _)) as (_ & Hv & _). unfold authors, ch' in Ha. rewrite Hv in Ha.
  assert (Hend : should_end_session (ch_st ch) = true).
  { destruct (cstep_kind c cr ch Block) as [? ? ? ? ? He' ?|]; [|done]. unfold era, ch' in *. lia. }
  unfold ch' in *. cbn [cstep] in *. unfold block in *. rewrite Hend in *. unfold rotate_session in *. set (active := map fst (ch_queued ch)) in *.
  set (ch1 := ch <| ch_validators := active |> <| ch_index := _ |> <| ch_queued := _ |> <| ch_qchanged := _ |> <| ch_avn := _ |>) in *.
  assert (HG : s_cands (ch_st (fold_left (exit_one c cr active) (elements (ch_exit ch)) ch1)) !! k = None).
  { apply exits_do_leave; [done|by apply elem_of_elements|done|]. intros y Hy. cbn in Hy. exists e. assert (y = x) as -> by congruence. done. }
  set (ch2 := fold_left _ _ ch1) in *. destruct (exec c cr NewBlock (ch_st ch2)) as [s' [[]|er]] eqn:E.
  - cbn. destruct (newblock_cands c cr _ _ _ E) as [-> _]. done.
  - exfalso. unfold era in He. lia.
Qed.
(** The example: the second candidate is deregistered in era 2 and may leave from era 4 on; it is the only author of era 4 and
    leaves when era 5 begins. *)
Definition sx_leave (n : nat) : chain := crun ex_c ex_cr sx_chain (Resign 2 :: repeat Block n).
(** A state that does not meet the conditions of C77_leaves_only_when_out. *)
Definition stuck (ch : chain) : bool :=
  bool_decide (map_Forall (fun _ y => ~ s_min_col (ch_st ch) <= y) (s_pool (ch_st ch))) || (s_total_selected (ch_st ch) =? 0) || (2 ^ 32 <=? era ch + s_delay (ch_st ch)).
Example C77_example : era (sx_leave 8) = 4 /\ authors (sx_leave 8) = [2] /\ 2 ∈ ch_exit (sx_leave 8) /\
  (exists x, s_cands (ch_st (sx_leave 8)) !! 2 = Some x /\ k_status x = Leaving 4) /\ era (sx_leave 9) = 5 /\ authors (sx_leave 9) = [1] /\ s_cands (ch_st (sx_leave 9)) !! 2 = None /\
  forallb (fun n => negb (stuck (crun ex_c ex_cr sx_chain (take n (Resign 2 :: repeat Block 9))))) (seq 0 11) = true.
Proof.
  split; [by vm_compute|]. split; [by vm_compute|]. split; [refine (proj1 (bool_decide_eq_true _) _); by vm_compute|].
  split; [eexists; by vm_compute|]. by vm_compute.
Qed.
(** Refuted without a selectable candidate: the selection then stays, so that a deregistered collator that takes its session keys
    back for an era leaves staking while it is queued again, and authors blocks afterwards with nothing at stake. *)
Theorem C77_without_candidates_refuted : exists c cr s l ops k x, chain_genesis c cr s l /\ s_selected s <> [] /\
  let ch := crun c cr (cgenesis s l) ops in let ch' := cstep c cr ch Block in let later := crun c cr ch' [Block; Block; Block] in
  s_cands (ch_st ch) !! k = Some x /\ s_cands (ch_st ch') !! k = None /\ k ∈ map fst (ch_queued ch') /\ authors later = [k] /\ s_cands (ch_st later) !! k = None.
Proof.
  exists ex_c, ex_cr, sx, sx_keys, ([Resign 2; Stake (GoOffline 1)] ++ repeat Block 5 ++ [PurgeKeys 2; Block; SetKeys 2 102; Block; Block]), 2.
  eexists. split; [apply sx_genesis|]. split; [apply sx_genesis|]. cbv zeta. split; [by vm_compute|]. split; [by vm_compute|].
  split; [|by vm_compute]. refine (proj1 (bool_decide_eq_true _) _). by vm_compute.
Qed.

(** Whoever authors in an era without being selected for it (C75_selected_author_refuted) has no stake on record for it, and is
    paid the whole share of the reward that its blocks earned; nobody who nominated it is paid. *)
Theorem C77_author_without_record_keeps_all c s e reward order k :
  let pts := mget 0 k (RewardModel.awarded_in s e) in let due := RewardModel.perbill_mul (RewardModel.perbill_ratio pts (RewardModel.points_of s e)) reward in
  RewardModel.points_of s e <> 0 -> RewardModel.pick order (RewardModel.awarded_in s e) = Some k -> mget ∅ e (RewardModel.s_snaps s) !! k = None ->
  let s' := fst (RewardModel.pay_one_collator c e reward order s) in
  RewardModel.s_events s' = RewardModel.Rewarded k due :: RewardModel.s_events s \/ RewardModel.s_events s' = RewardModel.ErrorPaying k due :: RewardModel.s_events s.
Proof.
  intros pts due Hp Hk Hs s'. subst s'. unfold RewardModel.pay_one_collator, mbind_, get_st. cbv beta iota zeta.
  rewrite (proj2 (N.eqb_neq _ _)) by exact Hp. rewrite Hk. unfold modify. cbv beta iota zeta. assert (Hv : mget (RewardModel.mkSnap 0 [] 0) k (mget ∅ e (RewardModel.s_snaps s)) = RewardModel.mkSnap 0 [] 0) by (unfold mget at 1; by rewrite Hs).
  rewrite Hv. cbn [default RewardModel.sn_bond RewardModel.sn_total RewardModel.sn_noms].
  fold pts. fold due. assert (HB : RewardModel.perbill_mul (RewardModel.perbill_ratio 0 0) due = due).
  { change (RewardModel.perbill_ratio 0 0) with RewardModel.BILLION. pose proof (RewardProofs.mul_nearest RewardModel.BILLION due) as H. unfold RewardModel.BILLION in *. lia. }
  rewrite HB. cbn [RewardModel.pay_nominators]. unfold mret_. unfold RewardModel.pay_reward. set (s1 := s <| RewardModel.s_awarded := _ |> <| RewardModel.s_snaps := _ |>).
  assert (HE : forall s2 r, RewardModel.pot_transfer c k due s1 = (s2, r) -> RewardModel.s_events s2 = RewardModel.s_events s).
  { intros s2 r. unfold RewardModel.pot_transfer, mbind_, get_st, mret_. cbv beta iota zeta. destruct (_ || _); [by intros [= <- _]|]. unfold ensure, modify.
    destruct (_ <=? _); [|by intros [= <- _]]. destruct (_ <=? _); by intros [= <- _]. }
  destruct (RewardModel.pot_transfer c k due s1) as [s2 [[]|er]] eqn:E; specialize (HE _ _ eq_refl); cbn; rewrite HE; auto.
Qed.
