(** C31, C32, C37-C39, C41: what every reachable state of the staking pallet satisfies. *)
From Verif Require Import Base BaseLemmas CodecModel SigModel StakeModel StakeSpec StakeBook StakeCross StakeInv StakeOps StakeNom StakeLeave StakeExit StakeCand StakeRun.

Lemma reachable_inv c cr s : reachable c cr s -> Inv c s.
Proof. intros (Hc & d & mc & mn & l & Hm & ->). apply run_ok; [done|]. by apply genesis_ok. Qed.

(** A history with full lists, a kicked nominator, pending requests, an era change and a candidate leaving. *)
Definition ex_c : config := mkConfig 2 2 3 1 5 1 1 true.
Definition ex_cr : crypto := mkCrypto (fun _ _ _ => true) (fun _ _ => None).
Definition ex_free : gmap N N := list_to_map (map (fun a => (a, 100)) [1; 2; 3; 11; 12; 13; 14; 15; 16]).
Definition ex_ops : list op :=
  [EnvBalances ex_free ∅; EnvSessions {[1; 2; 3]}; Join 1 20 0; Join 2 30 1;
   Nominate 11 1 10 9 9; Nominate 12 1 8 9 9; Nominate 13 1 12 9 9; Nominate 14 1 6 9 9; Nominate 11 2 9 9 9;
   Nominate 15 1 20 9 9;                        (* 14 is kicked out: nothing of its stake stays locked *)
   ScheduleRevoke 12 1; ScheduleUnbond 11 2 3; ScheduleUnbond 11 1 2;
   NewBlock; NewBlock; NewBlock; NewBlock].
Definition ex_s : st := run ex_c ex_cr (genesis ex_c 2 10 5) ex_ops.
Lemma ex_reachable : reachable ex_c ex_cr ex_s.
Proof. split; [unfold config_ok; cbn; lia|]. exists 2, 10, 5, ex_ops. split; [cbn; lia|done]. Qed.
Example C31_example :
  s_top ex_s !! 1 = Some (mkNoms [(15, 20); (13, 12)] 32) /\ s_bot ex_s !! 1 = Some (mkNoms [(11, 10); (12, 8)] 18) /\
  s_nominators ex_s !! 14 = None /\ s_nom_lock ex_s !! 14 = None /\ s_nom_lock ex_s !! 11 = Some 19 /\
  k_counted <$> s_cands ex_s !! 1 = Some 52 /\ s_pool ex_s !! 1 = Some 52 /\ s_total ex_s = 109 /\ s_era ex_s = 2 /\
  s_reqs ex_s !! 1 = Some [mkReq 12 3 (Revoke 8); mkReq 11 3 (Decrease 2)] /\ s_selected ex_s = [1].
Proof. by vm_compute. Qed.

(** ** C31 *)

(** The lists of a candidate: counted before uncounted, each from greatest to least, within their limits, the
    uncounted one in use only when the counted one is full, and nobody in them twice. *)
Theorem C31_lists c cr s k x : reachable c cr s -> s_cands s !! k = Some x ->
  exists t b, s_top s !! k = Some t /\ s_bot s !! k = Some b /\
    descending (n_list t) /\ descending (n_list b) /\
    (forall y z, y ∈ n_list t -> z ∈ n_list b -> z.2 <= y.2) /\
    N.of_nat (length (n_list t)) <= c_max_top c /\ N.of_nat (length (n_list b)) <= c_max_bot c /\
    (n_list b <> [] -> N.of_nat (length (n_list t)) = c_max_top c) /\
    NoDup (map fst (n_list t ++ n_list b)).
Proof.
  intros H Hx. apply reachable_inv in H. destruct (inv_book c s k x H Hx) as (t & b & Ht & Hb & Hok & _). exists t, b.
  destruct (bo_lists _ _ Hok). done.
Qed.
(** What the candidate's record says about the lists is exact. *)
Theorem C31_record_exact c cr s k x t b : reachable c cr s -> s_cands s !! k = Some x -> s_top s !! k = Some t -> s_bot s !! k = Some b ->
  n_total t = lsum (n_list t) /\ k_counted x = k_bond x + lsum (n_list t) /\
  k_count x = N.of_nat (length (n_list t ++ n_list b)) /\
  (forall y, last (n_list t) = Some y -> k_low_top x = y.2) /\
  (forall y, last (n_list b) = Some y -> k_low_bot x = y.2) /\
  (forall y, head (n_list b) = Some y -> k_high_bot x = y.2) /\
  (k_top_cap x = Full <-> N.of_nat (length (n_list t)) = c_max_top c) /\ (k_top_cap x = Empty <-> n_list t = []) /\
  (k_bot_cap x = Full <-> N.of_nat (length (n_list b)) = c_max_bot c) /\ (k_bot_cap x = Empty <-> n_list b = []).
Proof.
  intros H Hx Ht Hb. pose proof (proj1 H) as (C1 & C2 & _). apply reachable_inv in H.
  destruct (inv_book c s k x H Hx) as (t' & b' & Ht' & Hb' & [Hl E1 E2 E3 E4 E5 E6 E7 E8 E9] & _).
  rewrite Ht in Ht'. rewrite Hb in Hb'. injection Ht' as <-. injection Hb' as <-. cbn in *.
  assert (Hcap : forall max l, 1 <= max -> N.of_nat (length l) <= max ->
     (cap_of max l = Full <-> N.of_nat (length l) = max) /\ (cap_of max l = Empty <-> l = [])).
  { intros max l Hm Hlen. unfold cap_of. destruct (N.leb_spec max (N.of_nat (length l))); destruct l; cbn in *; split; split; try done; try lia. }
  destruct Hl as [_ _ _ L1 L2 _ _]. destruct (Hcap _ _ (proj1 C1) L1) as [F1 F2]. destruct (Hcap _ _ (proj1 C2) L2) as [F3 F4].
  rewrite E8, E9. split; [done|]. split; [done|]. split; [done|].
  split; [intros y Hy; rewrite E5; unfold lowest; by rewrite Hy|].
  split; [intros y Hy; rewrite E7; unfold lowest; by rewrite Hy|].
  split; [intros y Hy; rewrite E6; destruct (n_list b) as [|z l0]; [done|]; cbn in Hy; by injection Hy as ->|]. done.
Qed.
(** Lists exist only for candidates. *)
Theorem C31_no_candidate_no_lists c cr s k : reachable c cr s -> s_cands s !! k = None -> s_top s !! k = None /\ s_bot s !! k = None.
Proof. intros H Hx. apply reachable_inv in H. pose proof (i_cand _ _ H k) as Hk. unfold cand_ok in Hk. rewrite Hx in Hk. naive_solver. Qed.

(** ** C32 *)

(** The record of a nominator is exact: the total is the sum of its nominations, what is being withdrawn is the sum
    of its pending requests, which never exceeds the total; it has at least one nomination, at most the maximum and
    none below the minimum. *)
Definition pending (s : st) (k w : N) : N :=
  match find (fun r => r_who r =? w) (reqs_of s k) with Some r => action_amount (r_action r) | None => 0 end.
Theorem C32_nominator_exact c cr s w m : reachable c cr s -> s_nominators s !! w = Some m ->
  m_total m = msum (fun _ a => a) (m_noms m) /\ m_less m = msum (fun k _ => pending s k w) (m_noms m) /\ m_less m <= m_total m /\
  m_noms m <> ∅ /\ N.of_nat (size (m_noms m)) <= c_max_per_nominator c /\
  (forall k a, m_noms m !! k = Some a -> c_min_per_collator c <= a).
Proof.
  intros H Hm. apply reachable_inv in H. pose proof (i_cross _ _ H) as Hx. pose proof (less_le_total _ _ _ _ _ w m Hx Hm) as Hle.
  destruct (cr_nom _ _ _ _ _ Hx w m Hm) as (E1 & E2 & E3 & E4 & E5). done.
Qed.
(** A nominator nominates a candidate with an amount exactly when the candidate's lists say so. *)
Theorem C32_nominations_are_listed c cr s w k a : reachable c cr s ->
  (exists m, s_nominators s !! w = Some m /\ m_noms m !! k = Some a) <->
  (exists t b, s_top s !! k = Some t /\ s_bot s !! k = Some b /\ (w, a) ∈ n_list t ++ n_list b).
Proof.
  intros H. apply reachable_inv in H. split.
  - intros (m & Hm & Ha). destruct (inv_nomination c s w m k a H Hm Ha) as (x & t & b & _ & Ht & Hb & _ & Hin). by exists t, b.
  - intros (t & b & Ht & Hb & Hin). destruct (s_cands s !! k) as [x|] eqn:Hx; [by apply (inv_entry c s k x t b w a H Hx Ht Hb)|].
    pose proof (i_cand _ _ H k) as Hk. unfold cand_ok in Hk. rewrite Hx in Hk. destruct Hk as (Hk & _). congruence.
Qed.
Lemma find_who w r l : r ∈ l -> NoDup (map r_who l) -> r_who r = w -> find (of_nominator w) l = Some r.
Proof.
  intros Hr Hnd Hw. induction l as [|q l IH]; [by apply elem_of_nil in Hr|]. cbn in Hnd. apply NoDup_cons in Hnd as [Hq Hnd]. cbn. unfold of_nominator at 1.
  apply elem_of_cons in Hr as [<-|Hr]; [by rewrite Hw, N.eqb_refl|]. destruct (N.eqb_spec (r_who q) w) as [E|E]; [|by apply IH].
  exfalso. apply Hq. apply elem_of_list_fmap. exists r. split; [congruence|done].
Qed.
(** Every pending request belongs to an existing nomination: a revocation is for exactly its amount, a decrease
    leaves at least the minimum; a nominator has at most one for a candidate. *)
Theorem C32_requests_fit c cr s k r : reachable c cr s -> r ∈ reqs_of s k ->
  (exists m a, s_nominators s !! r_who r = Some m /\ m_noms m !! k = Some a /\
    match r_action r with Revoke y => y = a | Decrease y => y + c_min_per_collator c <= a end) /\
  (forall r', r' ∈ reqs_of s k -> r_who r' = r_who r -> r' = r).
Proof.
  intros H Hr. apply reachable_inv in H. pose proof (i_cross _ _ H) as Hx. destruct (cr_reqs _ _ _ _ _ Hx k) as [Hnd _].
  assert (Hp : forall q, q ∈ reqs_of s k -> pend (s_reqs s) k (r_who q) = Some q) by (intros q Hq; by apply find_who).
  split.
  - destruct (cr_req _ _ _ _ _ Hx k (r_who r) r (Hp r Hr)) as (a & Ea & Ha). rewrite <- (cr_link _ _ _ _ _ Hx) in Ea.
    unfold noms_of in Ea. destruct (s_nominators s !! r_who r) as [m|] eqn:Em; [|done]. cbn in Ea. exists m, a. done.
  - intros r' Hr' E. pose proof (Hp _ Hr') as P1. rewrite E, (Hp _ Hr) in P1. by injection P1.
Qed.
(** Nobody is both candidate and nominator. *)
Theorem C32_not_both c cr s w m : reachable c cr s -> s_nominators s !! w = Some m -> s_cands s !! w = None.
Proof. intros H Hm. apply reachable_inv in H. by apply (i_excl _ _ H w m). Qed.

(** ** C37 *)

(** The recorded total stake never exceeds what candidates and nominators have at stake, which always fits a u128. *)
Theorem C37_never_overstated c cr s : reachable c cr s -> s_total s <= at_stake s <= U128_MAX.
Proof. intros H. apply reachable_inv in H. split; [apply (i_total _ _ H) | by apply (staked_le c)]. Qed.
(** It can be less: decreasing an uncounted nomination leaves the recorded sum of uncounted nominations too high, and
    when the candidate leaves that sum is subtracted from the total. *)
Definition ex_leave_ops : list op :=
  ex_ops ++ [NewBlock; NewBlock; NewBlock; ExecuteRequest 99 11 1; ScheduleLeave 1 9; NewBlock; NewBlock; NewBlock; NewBlock; NewBlock; NewBlock; ExecuteLeave 99 1 9].
Theorem C37_exact_refuted : exists c cr s, reachable c cr s /\ s_total s < at_stake s.
Proof.
  exists ex_c, ex_cr, (run ex_c ex_cr (genesis ex_c 2 10 5) ex_leave_ops). split.
  - split; [unfold config_ok; cbn; lia|]. exists 2, 10, 5, ex_leave_ops. split; [cbn; lia|done].
  - vm_compute. done.
Qed.

(** ** C38 *)

(** A nominator's tokens are locked for exactly its total, a candidate's for exactly its bond, nobody else's are
    locked, and the owner has the tokens. *)
Theorem C38_nominator_lock c cr s w : reachable c cr s -> s_nom_lock s !! w = m_total <$> s_nominators s !! w.
Proof. intros H. apply reachable_inv in H. apply (cr_lock _ _ _ _ _ (i_cross _ _ H)). Qed.
Theorem C38_candidate_lock c cr s k : reachable c cr s -> s_col_lock s !! k = k_bond <$> s_cands s !! k.
Proof.
  intros H. apply reachable_inv in H. pose proof (i_cand _ _ H k) as Hk. unfold cand_ok in Hk. destruct (s_cands s !! k); naive_solver.
Qed.
Theorem C38_locks_covered c cr s : reachable c cr s ->
  (forall w m, s_nominators s !! w = Some m -> m_total m <= free_of s w + held_of s w) /\
  (forall k x, s_cands s !! k = Some x -> k_bond x <= free_of s k + held_of s k).
Proof.
  intros H. apply reachable_inv in H. split; [intros w m; apply (nom_bal c s w m H) | intros k x; apply (cand_bal c s k x H)].
Qed.

(** ** C39 *)

(** The pool holds exactly the active candidates, each with what counts for it, and at most the maximum. *)
Theorem C39_pool c cr s k : reachable c cr s ->
  s_pool s !! k = match s_cands s !! k with
                  | Some x => match k_status x with Active => Some (k_counted x) | _ => None end
                  | None => None
                  end.
Proof.
  intros H. apply reachable_inv in H. pose proof (i_cand _ _ H k) as Hk. unfold cand_ok in Hk. destruct (s_cands s !! k) as [x|]; [|naive_solver].
  destruct Hk as (t & b & _ & _ & _ & _ & -> & _). unfold is_active. by destruct (k_status x).
Qed.
Theorem C39_pool_limit c cr s : reachable c cr s -> N.of_nat (size (s_pool s)) <= c_max_cands c.
Proof. intros H. apply reachable_inv in H. apply (i_size _ _ H). Qed.

(** ** C41 *)

(** No call panics; only a block at the last era number could. *)
Theorem C41_no_panic c cr s o s' : reachable c cr s -> exec c cr o s = (s', Err "panic") -> o = NewBlock /\ s_era s = U32_MAX.
Proof.
  intros H E. pose proof (proj1 H) as Hc. apply reachable_inv in H. pose proof (body_ok c Hc cr o s H) as Hb.
  unfold exec, dispatch in E. destruct (body c cr o s) as [s1 [[]|e]]; [done|]. injection E as _ ->. destruct (Hb eq_refl) as [-> He].
  split; [done|]. pose proof (i_era _ _ H). lia.
Qed.
(** A failed call changes nothing. *)
Theorem C41_failure_changes_nothing c cr s o s' e : exec c cr o s = (s', Err e) -> s' = s.
Proof. unfold exec, dispatch. destruct (body c cr o s) as [s1 [[]|e']]; [done|]. by intros [= <-]. Qed.
