(** C37: what each call adds to the recorded total stake is exactly what it adds to the stake. *)
From Verif Require Import Base BaseLemmas CodecModel SigModel StakeModel StakeSpec StakeBook StakeCross StakeInv StakeOps StakeNom StakeLeave StakeExit StakeCand StakeRun StakeFrame StakeMoves StakeSteps StakeProps StakeProps2 StakeProps3 StakeProps4 StakeProps5.

Definition raised (x : N) (s s' : st) : Prop := s_total s' = s_total s + x /\ at_stake s' = at_stake s + x.
Lemma cands_sum (f g : gmap N cand) k x x' : f !! k = Some x -> g = <[k := x']> f ->
  msum (fun _ x => k_bond x) g + k_bond x = msum (fun _ x => k_bond x) f + k_bond x'.
Proof. intros H ->. pose proof (msum_insert (fun _ x => k_bond x) f k x') as E. rewrite H in E. exact E. Qed.
Lemma noms_sum (f g : gmap N nominator) w m m' : f !! w = Some m -> g = <[w := m']> f ->
  msum (fun _ m => m_total m) g + m_total m = msum (fun _ m => m_total m) f + m_total m'.
Proof. intros H ->. pose proof (msum_insert (fun _ m => m_total m) f w m') as E. rewrite H in E. exact E. Qed.

Lemma call_bond_extra_raised c s w k x : config_ok c -> Inv c s -> post (call_bond_extra c w k x) (fun _ s' => raised x s s') s.
Proof.
  intros Hc H. unfold call_bond_extra. p1. p1. p1. p1. p1. p1. p1. p1. rename a into m, a0 into a, Hsome into Hm, Hsome0 into Ha.
  unfold lock_more, set_nom_lock. cbn [m_total m_noms]. ps. apply N.leb_le in Hens0. destruct (nominator_room0 c s w m x H Hm Hens0) as (R1 & R2 & R3).
  apply post_load. intros y t b Hy Ht Hb. change (s_cands s !! k = Some y) in Hy. ps. apply increase_kept in Hres as (_ & _ & K). unfold store, add_total, set_nominator, update_active. ps.
  assert (S : sat (m_total m) x = m_total m + x) by (unfold sat, saturating_add; lia).
  pose proof (i_total _ _ H) as T. change (staked s) with (at_stake s) in R1, T.
  assert (S2 : sat (s_total s) x = s_total s + x) by (unfold sat, saturating_add; lia).
  assert (D : forall s', s_total s' = sat (s_total s) x -> s_cands s' = <[k := bk a0]> (s_cands s) ->
     s_nominators s' = <[w := m <| m_noms := <[k := sat a x]> (m_noms m) |> <| m_total := sat (m_total m) x |>]> (s_nominators s) -> raised x s s').
  { intros s' E1 E2 E3. split; [congruence|]. unfold at_stake.
    pose proof (cands_sum _ _ _ _ _ Hy E2) as C. pose proof (noms_sum _ _ _ _ _ Hm E3) as M. cbn [m_total set] in M. cbn in M. rewrite S in M. cbn in K. rewrite K in C. lia. }
  all: apply D; reflexivity.
Qed.
Lemma candidate_bond_extra_raised c s k x : config_ok c -> Inv c s -> post (candidate_bond_extra k x) (fun _ s' => raised x s s') s.
Proof.
  intros Hc H. unfold candidate_bond_extra, add_total, set_col_lock, put_cand, update_active. ps. apply N.leb_le in Hens.
  destruct (collator_room0 c s k a x H Hsome Hens) as (R1 & R2). destruct (inv_pool c s k a H Hsome) as (Hp & Hl & Hb).
  pose proof (bond_le s k a Hsome) as BL. pose proof (i_total _ _ H) as T. unfold staked in BL, R1, T.
  assert (S : sat (k_bond a) x = k_bond a + x) by (unfold sat, saturating_add; lia).
  assert (S2 : sat (s_total s) x = s_total s + x) by (unfold sat, saturating_add; lia).
  assert (D : forall s', s_total s' = sat (s_total s) x -> s_nominators s' = s_nominators s ->
     s_cands s' = <[k := a <| k_bond := sat (k_bond a) x |> <| k_counted := sat (k_counted a) x |>]> (s_cands s) -> raised x s s').
  { intros s' E1 E2 E3. split; [congruence|]. unfold at_stake. pose proof (cands_sum _ _ _ _ _ Hsome E3) as C. cbn in C. rewrite E2. lia. }
  destruct (is_active a); ps; apply D; reflexivity.
Qed.
Lemma join_raised c s k b hint : config_ok c -> Inv c s -> post (join_candidates c k b hint) (fun _ s' => raised b s s') s.
Proof.
  intros Hc H. unfold join_candidates, pool_insert, update_active, set_col_lock, put_cand, add_total. ps.
  destruct (s_cands s !! k) eqn:Hk; [done|]. destruct (s_nominators s !! k) eqn:Hn; [done|].
  match goal with L : (b <=? collator_stakable s k) = true |- _ => apply N.leb_le in L end.
  assert (R1 : staked s + b <= U128_MAX).
  { destruct (N.eq_dec b 0) as [->|Hb]; [pose proof (staked_le c s H); lia|]. by apply (collator_room c s k b H Hn ltac:(assumption) ltac:(lia)). }
  pose proof (i_total _ _ H) as T. split.
  - cbn. unfold sat, saturating_add. lia.
  - unfold at_stake. cbn. rewrite (msum_insert_new (fun _ x => k_bond x)) by exact Hk. unfold new_cand. cbn. lia.
Qed.
Lemma execute_candidate_unbond_lowered c s k : config_ok c -> Inv c s ->
  post (execute_candidate_unbond k) (fun _ s' => exists x less when, s_cands s !! k = Some x /\ k_req x = Some (less, when) /\
    s_total s' = s_total s - less /\ at_stake s' + less = at_stake s) s.
Proof.
  intros Hc H. unfold execute_candidate_unbond, sub_total, set_col_lock, put_cand, update_active. ps. destruct a0 as [less when]. ps.
  pose proof (inv_req_ok c s k a H Hsome) as Hq. unfold req_ok in Hq. rewrite Hsome0 in Hq.
  assert (D : forall s', s_total s' = saturating_sub (s_total s) less -> s_nominators s' = s_nominators s ->
     s_cands s' = <[k := a <| k_bond := saturating_sub (k_bond a) less |> <| k_counted := saturating_sub (k_counted a) less |> <| k_req := None |>]> (s_cands s) ->
     exists x less when, s_cands s !! k = Some x /\ k_req x = Some (less, when) /\ s_total s' = s_total s - less /\ at_stake s' + less = at_stake s).
  { intros s' E1 E2 E3. exists a, less, when. split; [exact Hsome|]. split; [exact Hsome0|]. split; [rewrite E1; unfold saturating_sub; lia|]. unfold at_stake. pose proof (cands_sum _ _ _ _ _ Hsome E3) as C. cbn in C.
    unfold saturating_sub in C. rewrite E2. lia. }
  destruct (is_active a); ps; apply D; reflexivity.
Qed.
Definition balanced (s s' : st) : Prop := s_total s' + at_stake s = s_total s + at_stake s'.
Lemma raised_balanced x s s' : raised x s s' -> balanced s s'.
Proof. unfold raised, balanced. lia. Qed.
Lemma call_nominate_balanced c s w k amount h1 h2 : config_ok c -> Inv c s -> post (call_nominate c w k amount h1 h2) (fun _ s' => balanced s s') s.
Proof.
  intros Hc H. pose proof (i_cross _ _ H) as Hcr. unfold call_nominate. p1. p1. p1. p1.
  set (noms := match s_nominators s !! w with Some m => m_noms m | None => ∅ end).
  set (total := match s_nominators s !! w with Some m => m_total m | None => 0 end).
  apply post_bind.
  eapply (post_mono _ (fun m s1 => s1 = s /\ m_noms m = <[k := amount]> noms /\ m_total m = total + amount /\ noms !! k = None /\ s_cands s !! w = None /\ staked s + amount <= U128_MAX)).
  { subst noms total. destruct (s_nominators s !! w) as [m|] eqn:Em.
    - ps. destruct (m_noms m !! k) eqn:Ek; ps. cbn. apply N.leb_le in Hens. destruct (nominator_room0 c s w m amount H Em Hens) as (R1 & R2 & R3).
      split; [done|]. split; [done|]. split; [unfold sat, saturating_add; lia|]. split; [done|]. split; [by eapply i_excl|]. done.
    - ps. cbn. destruct (s_cands s !! w) eqn:Ew; [done|]. apply N.leb_le in Hens.
      pose proof (i_min _ _ H) as Hmin. destruct Hc as (_ & _ & Hc3 & Hc4).
      destruct (nominator_room c s w amount H Ew ltac:(lia) Hens) as (R1 & R2 & R3).
      split; [done|]. split; [done|]. split; [lia|]. split; [apply lookup_empty|]. done. }
  intros m s1 (-> & Hn & Ht & Hk & Hw & Hroom).
  assert (He : E_of s k w = None).
  { rewrite <- (cr_link _ _ _ _ _ Hcr). unfold noms_of. subst noms. destruct (s_nominators s !! w); [exact Hk|done]. }
  p1. apply post_load. intros x t b Hcx Hct Hcb. p1. p1.
  destruct (inv_book c s k x H Hcx) as (t' & b' & Ht' & Hb' & Hok & _ & _ & HE). rewrite Hct in Ht'. rewrite Hcb in Hb'. injection Ht' as <-. injection Hb' as <-.
  set (old := mkBook x t b) in *.
  pose proof (nodup_all c _ Hok) as Hnd.
  assert (Hamt : amount_in w (all_noms old) = None) by (rewrite <- HE; exact He).
  pose proof (lsum_book c s k x t b H Hcx Hct Hcb) as Hls. pose proof (bond_le s k x Hcx) as Hbl.
  unfold staked in Hroom.
  pose proof (add_nomination_ok c Hc (w, amount) old Hok) as Hadd. cbn [fst snd] in Hadd.
  specialize (Hadd (proj1 (amount_in_none _ _) Hamt)). fold old in Hls. change (bk old) with x in Hadd. specialize (Hadd ltac:(lia)).
  p1. p1. destruct a as [[new lost] kicked]. pose proof (add_kept _ _ _ _ _ _ Hres) as (_ & _ & KB). change (bk old) with x in KB. rewrite Hres in Hadd.
  destruct Hadd as (Hok' & Hmeta & Hkick). pose proof (i_total _ _ H) as Htot. unfold staked in Htot.
  p1. destruct kicked as [[y a]|].
  - destruct Hkick as (-> & Hy & Hlt & HP). cbn [snd] in *.
    assert (Hyin : (y, a) ∈ all_noms old) by (unfold all_noms; apply elem_of_app; by right).
    pose proof (nodup_all c _ Hok') as Hnd'. destruct (kicked_amounts w amount y a _ _ HP Hnd' Hnd Hamt Hyin) as (Hyw & Ha1 & Ha2 & Ha3 & Ha4).
    assert (Hey : E_of s k y = Some a) by (rewrite HE; by apply (amount_in_elem _ _ _ Hnd)).
    eapply post_mono; [apply wp_post, (kick_ok c Hc _ s k y a Hcr Hey)|]. intros _ s1 (my & Hmy & ->). cbv beta.
    destruct (cross_remove c Hc _ _ _ _ k y a my Hcr Hmy Hey) as (Hcr1 & Hsum1 & Hoth1 & Hle1 & _).
    pose proof (Hoth1 w ltac:(congruence)) as Hw1.
    unfold lock_more, set_nom_lock, add_total, set_nominator. ps.
    all: unfold balanced, at_stake; cbn; unfold sat, saturating_add, saturating_sub;
      pose proof (cands_sum _ _ _ _ (bk new) Hcx eq_refl) as C; rewrite KB in C;
      pose proof (msum_insert (fun _ m => m_total m) (drop_nom k y a (pend (s_reqs s) k y) (s_nominators s)) w m) as Hi; rewrite Hw1 in Hi; cbn in Hi;
      subst total; destruct (s_nominators s !! w); cbn in Hi; lia.
  - destruct Hkick as (-> & HP). p1. unfold lock_more, set_nom_lock, add_total, set_nominator. ps.
    all: unfold balanced, at_stake; cbn; unfold sat, saturating_add, saturating_sub;
      pose proof (cands_sum _ _ _ _ (bk new) Hcx eq_refl) as C; rewrite KB in C;
      pose proof (msum_insert (fun _ m => m_total m) (s_nominators s) w m) as Hi; cbn in Hi;
      subst total; destruct (s_nominators s !! w); cbn in Hi; lia.
Qed.

(** ** What the calls add and take *)
Theorem C37_join_counted c cr s k b hint : reachable c cr s -> accepted c cr s (Join k b hint) -> raised b s (step c cr s (Join k b hint)).
Proof. intros Hr. pose proof (proj1 Hr) as Hc. apply reachable_inv in Hr. apply (accepted_post c cr s (Join k b hint) (raised b s)). exact (join_raised c s k b hint Hc Hr). Qed.
Theorem C37_candidate_bond_extra_counted c cr s k x : reachable c cr s -> accepted c cr s (CandidateBondExtra k x) -> raised x s (step c cr s (CandidateBondExtra k x)).
Proof. intros Hr. pose proof (proj1 Hr) as Hc. apply reachable_inv in Hr. apply (accepted_post c cr s (CandidateBondExtra k x) (raised x s)). exact (candidate_bond_extra_raised c s k x Hc Hr). Qed.
Theorem C37_bond_extra_counted c cr s w k x : reachable c cr s -> accepted c cr s (BondExtra w k x) -> raised x s (step c cr s (BondExtra w k x)).
Proof.
  intros Hr. pose proof (proj1 Hr) as Hc. apply reachable_inv in Hr. apply (accepted_post c cr s (BondExtra w k x) (raised x s)). cbn [body]. p1. p1. exact (call_bond_extra_raised c s w k x Hc Hr).
Qed.
(** A nomination may push out another one; the record follows the stake all the same. *)
Theorem C37_nominate_counted c cr s w k a h1 h2 : reachable c cr s -> accepted c cr s (Nominate w k a h1 h2) -> balanced s (step c cr s (Nominate w k a h1 h2)).
Proof.
  intros Hr. pose proof (proj1 Hr) as Hc. apply reachable_inv in Hr. apply (accepted_post c cr s (Nominate w k a h1 h2) (balanced s)). cbn [body]. p1. p1. exact (call_nominate_balanced c s w k a h1 h2 Hc Hr).
Qed.
(** They are met: in [ex_s] nominator 11 adds 3 to what it nominates candidate 1 with, candidate 2 adds 5 to its bond, 3 joins. *)
Example C37_counted_applies : accepted ex_c ex_cr ex_s (BondExtra 11 1 3) /\ accepted ex_c ex_cr ex_s (CandidateBondExtra 2 5) /\
  accepted ex_c ex_cr ex_s (Join 3 15 9) /\ accepted ex_c ex_cr ex_s (Nominate 16 1 30 9 9) /\
  (s_total ex_s, s_total (step ex_c ex_cr ex_s (BondExtra 11 1 3)), s_total (step ex_c ex_cr ex_s (Nominate 16 1 30 9 9))) = (at_stake ex_s, at_stake ex_s + 3, at_stake (step ex_c ex_cr ex_s (Nominate 16 1 30 9 9))).
Proof. repeat split. Qed.
