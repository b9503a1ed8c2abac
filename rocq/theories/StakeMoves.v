(** How each call changes nominations and bonds. *)
From Verif Require Import Base BaseLemmas CodecModel SigModel StakeModel StakeSpec StakeBook StakeCross StakeInv StakeOps StakeNom StakeLeave StakeExit StakeCand StakeRun StakeFrame.

Section moves.
Variable c : config.
Hypothesis Hc : config_ok c.

Lemma nomination_of s w k : nomination s w k = noms_of (s_nominators s) w k.
Proof. unfold nomination, noms_of. by destruct (s_nominators s !! w). Qed.
Lemma nomination_E s w k : Inv c s -> nomination s w k = E_of s k w.
Proof. intros H. rewrite nomination_of. apply (cr_link _ _ _ _ _ (i_cross _ _ H)). Qed.
Definition same_noms (s s' : st) : Prop := forall w k, nomination s' w k = nomination s w k.
Definition others_same (s s' : st) (w k : N) : Prop := forall v k', (v, k') <> (w, k) -> nomination s' v k' = nomination s v k'.
Lemma same_nominators s s' : s_nominators s' = s_nominators s -> same_noms s s'.
Proof. intros E w k. unfold nomination. by rewrite E. Qed.
Lemma same_set s s' w m m' : s_nominators s !! w = Some m -> m_noms m' = m_noms m -> s_nominators s' = <[w := m']> (s_nominators s) -> same_noms s s'.
Proof.
  intros Hm E Es v k. unfold nomination. rewrite Es. destruct (N.eq_dec v w) as [->|Hne]; [by rewrite lookup_insert, Hm, E|]. by rewrite lookup_insert_ne.
Qed.
Lemma set_one s s' w k x m m' : s_nominators s !! w = Some m -> m_noms m' = <[k := x]> (m_noms m) -> s_nominators s' = <[w := m']> (s_nominators s) ->
  nomination s' w k = Some x /\ others_same s s' w k.
Proof.
  intros Hm E Es. unfold others_same, nomination. rewrite Es. split; [by rewrite lookup_insert, E, lookup_insert|].
  intros v k' Hne. destruct (N.eq_dec v w) as [->|Hv]; [|by rewrite lookup_insert_ne]. rewrite lookup_insert, Hm, E. rewrite lookup_insert_ne; [done|]. congruence.
Qed.
Lemma dropped_nom s s' k w a : cross c (E_of s) (s_nominators s) (s_reqs s) (s_nom_lock s) -> E_of s k w = Some a ->
  s_nominators s' = drop_nom k w a (pend (s_reqs s) k w) (s_nominators s) -> nomination s' w k = None /\ others_same s s' w k.
Proof.
  intros H Ha E. pose proof (cr_link _ _ _ _ _ H w k) as Hlk. unfold noms_of in Hlk. rewrite Ha in Hlk. destruct (s_nominators s !! w) as [m|] eqn:Hm; [|done].
  destruct (cross_remove c Hc _ _ _ _ k w a m H Hm Ha) as (Hcr & _). pose proof (cr_link _ _ _ _ _ Hcr) as L. rewrite <- E in L.
  split.
  - rewrite nomination_of, L. unfold E_rm. by rewrite !N.eqb_refl.
  - intros v k' Hne. rewrite !nomination_of, L, (cr_link _ _ _ _ _ H). unfold E_rm. destruct (N.eqb_spec k' k), (N.eqb_spec v w); cbn; try done. congruence.
Qed.

(** Nominating. *)
Definition nominated (w k a : N) (s s' : st) : Prop :=
  nomination s w k = None /\ nomination s' w k = Some a /\ (forall k', k' <> k -> nomination s' w k' = nomination s w k') /\
  (forall v k', v <> w -> nomination s' v k' = nomination s v k' \/
     (k' = k /\ nomination s' v k = None /\ exists b, nomination s v k = Some b /\ b < a)).
Lemma call_nominate_moves s w k amount h1 h2 : Inv c s -> post (call_nominate c w k amount h1 h2) (fun _ s' => nominated w k amount s s') s.
Proof.
  intros H. pose proof (i_cross _ _ H) as Hcr. unfold call_nominate. p1. p1. p1. p1.
  set (noms := match s_nominators s !! w with Some m => m_noms m | None => ∅ end).
  apply post_bind.
  eapply (post_mono _ (fun m s1 => s1 = s /\ m_noms m = <[k := amount]> noms /\ noms !! k = None /\ s_cands s !! w = None /\ staked s + amount <= U128_MAX)).
  { subst noms. destruct (s_nominators s !! w) as [m|] eqn:Em.
    - ps. destruct (m_noms m !! k) eqn:Ek; ps. cbn. apply N.leb_le in Hens. destruct (nominator_room0 c s w m amount H Em Hens) as (R1 & R2 & R3).
      split; [done|]. split; [done|]. split; [done|]. split; [by eapply i_excl|]. done.
    - ps. cbn. destruct (s_cands s !! w) eqn:Ew; [done|]. apply N.leb_le in Hens.
      pose proof (i_min _ _ H) as Hmin. destruct Hc as (_ & _ & Hc3 & Hc4).
      destruct (nominator_room c s w amount H Ew ltac:(lia) Hens) as (R1 & R2 & R3).
      split; [done|]. split; [done|]. split; [apply lookup_empty|]. done. }
  intros m s1 (-> & Hn & Hk & Hw & Hroom).
  assert (Hnn : forall k', nomination s w k' = noms !! k').
  { intros k'. unfold nomination. subst noms. destruct (s_nominators s !! w); [done | by rewrite lookup_empty]. }
  assert (He : E_of s k w = None) by (by rewrite <- nomination_E, Hnn).
  p1. apply post_load. intros x t b Hcx Hct Hcb. p1. p1.
  destruct (inv_book c s k x H Hcx) as (t' & b' & Ht' & Hb' & Hok & _ & _ & HE). rewrite Hct in Ht'. rewrite Hcb in Hb'. injection Ht' as <-. injection Hb' as <-.
  set (old := mkBook x t b) in *.
  pose proof (nodup_all c _ Hok) as Hnd.
  assert (Hamt : amount_in w (all_noms old) = None) by (rewrite <- HE; exact He).
  pose proof (lsum_book c s k x t b H Hcx Hct Hcb) as Hls. pose proof (bond_le s k x Hcx) as Hbl.
  unfold staked in Hroom.
  pose proof (add_nomination_ok c Hc (w, amount) old Hok) as Hadd. cbn [fst snd] in Hadd.
  specialize (Hadd (proj1 (amount_in_none _ _) Hamt)). fold old in Hls. change (bk old) with x in Hadd. specialize (Hadd ltac:(lia)).
  p1. p1. destruct a as [[new lost] kicked]. rewrite Hres in Hadd.
  destruct Hadd as (Hok' & Hmeta & Hkick).
  assert (Hfin : forall s1 s', s_nominators s' = <[w := m]> (s_nominators s1) ->
     (forall v k', v <> w -> nomination s1 v k' = nomination s v k' \/ (k' = k /\ nomination s1 v k = None /\ exists b, nomination s v k = Some b /\ b < amount)) ->
     nominated w k amount s s').
  { intros s1 s' E Ho. unfold nominated.
    assert (Es : forall k', nomination s' w k' = <[k := amount]> noms !! k') by (intros k'; unfold nomination; by rewrite E, lookup_insert, Hn).
    split; [by rewrite Hnn|]. split; [by rewrite Es, lookup_insert|]. split; [intros k' Hne; rewrite Es, Hnn; by apply lookup_insert_ne|].
    intros v k' Hv. assert (Eq : forall k', nomination s' v k' = nomination s1 v k') by (intros k2; unfold nomination; by rewrite E, lookup_insert_ne by done).
    rewrite !Eq. by apply Ho. }
  p1. destruct kicked as [[y a]|].
  - destruct Hkick as (-> & Hy & Hlt & HP). cbn [snd] in *.
    assert (Hyin : (y, a) ∈ all_noms old) by (unfold all_noms; apply elem_of_app; by right).
    assert (Hey : E_of s k y = Some a) by (rewrite HE; by apply (amount_in_elem _ _ _ Hnd)).
    eapply post_mono; [apply wp_post, (kick_ok c Hc _ s k y a Hcr Hey)|]. intros _ s1 (my & Hmy & Es1). cbv beta.
    destruct (dropped_nom s s1 k y a Hcr Hey) as [D1 D2]; [by rewrite Es1|].
    unfold lock_more, set_nom_lock, add_total, set_nominator. ps. eapply (Hfin s1); [reflexivity|].
    intros v k' Hv. destruct (decide ((v, k') = (y, k))) as [E|E]; [|left; by apply D2]. injection E as -> ->. right. split; [done|]. split; [done|].
    exists a. rewrite (nomination_E s) by done. done.
  - p1. unfold lock_more, set_nom_lock, add_total, set_nominator. ps. eapply (Hfin s); [reflexivity|]. by left.
Qed.
(** Bonding more. *)
Definition grown (w k x : N) (s s' : st) : Prop :=
  (exists a, nomination s w k = Some a /\ nomination s' w k = Some (a + x)) /\ others_same s s' w k.
Lemma call_bond_extra_moves s w k x : Inv c s -> post (call_bond_extra c w k x) (fun _ s' => grown w k x s s') s.
Proof.
  intros H. unfold call_bond_extra. p1. p1. p1. p1. p1. p1. p1. p1. rename a into m, a0 into a, Hsome into Hm, Hsome0 into Ha.
  unfold lock_more, set_nom_lock. cbn [m_total m_noms]. ps. apply N.leb_le in Hens0. destruct (nominator_room0 c s w m x H Hm Hens0) as (R1 & R2 & R3).
  pose proof (nom_le_total c s w m k a H Hm Ha) as Hle. assert (Hsat2 : sat a x = a + x) by (unfold sat, saturating_add; lia).
  apply post_load. intros y t b Hy Ht Hb. ps. unfold add_total, set_nominator. ps.
  match goal with |- grown _ _ _ _ ?s' => assert (D : nomination s' w k = Some (a + x) /\ others_same s s' w k) end.
  { eapply (set_one s _ w k (a + x) m); [exact Hm | | reflexivity]. cbn. by rewrite Hsat2. }
  destruct D as [D1 D2]. split; [|exact D2]. exists a. split; [unfold nomination; by rewrite Hm|exact D1].
Qed.
(** Executing a request. *)
Definition executed (w k : N) (s s' : st) : Prop :=
  (exists r a, r ∈ reqs_of s k /\ r_who r = w /\ r_when r <= s_era s /\ nomination s w k = Some a /\
     nomination s' w k = match r_action r with Revoke _ => None | Decrease d => Some (a - d) end) /\ others_same s s' w k.
Lemma execute_request_moves s w k : Inv c s -> post (execute_request c w k) (fun _ s' => executed w k s s') s.
Proof.
  intros H. pose proof (i_cross _ _ H) as Hcr. unfold execute_request. p1. p1. p1. p1. p1. p1. destruct a0 as [r l]. p1. p1.
  rename a into m, Hsome into Hm, Hsome0 into Htk. apply N.leb_le in Hens.
  destruct (drop_req_take k w _ r l Htk) as [Hdr Hpe]. destruct (take_req_sub _ _ _ _ Htk) as [Hin _].
  destruct (cr_req _ _ _ _ _ Hcr k w r Hpe) as (a & Hea & Hact).
  assert (Ha : m_noms m !! k = Some a). { rewrite <- (cr_link _ _ _ _ _ Hcr) in Hea. unfold noms_of in Hea. by rewrite Hm in Hea. }
  assert (Hna : nomination s w k = Some a) by (unfold nomination; by rewrite Hm).
  assert (Hw : r_who r = w) by (by eapply pend_who).
  assert (Hfin : forall s', nomination s' w k = match r_action r with Revoke _ => None | Decrease d => Some (a - d) end /\ others_same s s' w k -> executed w k s s').
  { intros s' [D1 D2]. split; [|done]. by exists r, a. }
  destruct (r_action r) as [amount|amount] eqn:Er; cbn in Hact.
  - subst amount. ps. unfold rm_nomination. change (m_noms (m <| m_less := saturating_sub (m_less m) (action_amount (Revoke a)) |>)) with (m_noms m).
    rewrite Ha. unfold set_nom_lock. ps. unfold nominator_leaves_candidate. p1. apply post_load. intros y t b Hy Ht Hb. ps.
    unfold sub_total. ps. unfold set_reqs, del_nominator, set_nominator. ps.
    assert (Hd : forall s', s_nominators s' = (if N.of_nat (size (m_noms m)) =? 1 then delete w (s_nominators s)
       else <[w := m <| m_less := saturating_sub (m_less m) (action_amount (Revoke a)) |> <| m_noms := delete k (m_noms m) |> <| m_total := saturating_sub (m_total m) a |>]> (s_nominators s)) -> executed w k s s').
    { intros s' Es. apply Hfin. destruct (cross_remove c Hc _ _ _ _ k w a m Hcr Hm Hea) as (_ & _ & _ & _ & _ & _ & Hgl & Hz & Hsz).
      apply (dropped_nom s s' k w a Hcr Hea). rewrite Es. unfold drop_nom. rewrite Hm, Hpe. cbn. rewrite Er. cbn. destruct (decide _) as [Hd|Hd].
      - by rewrite (proj2 (N.eqb_eq _ _)) by (by apply Hsz).
      - rewrite (proj2 (N.eqb_neq _ _)); [done|]. intros Hq. apply Hd. by apply Hsz. }
    destruct (N.of_nat (size (m_noms m)) =? 1) eqn:E1; ps; by apply Hd.
  - p1. rewrite Ha. p1. injection Hsome as <-. ps. apply post_load. intros y t b Hy Ht Hb. unfold set_nom_lock. ps. unfold sub_total, set_reqs, set_nominator. ps.
    apply Hfin. eapply (set_one s _ w k (a - amount) m); [exact Hm | | reflexivity]. reflexivity.
Qed.
(** Leaving as a nominator. *)
Definition left_all (w : N) (s s' : st) : Prop :=
  (forall k, nomination s' w k = None) /\ (forall v k, v <> w -> nomination s' v k = nomination s v k) /\
  (forall k a, nomination s w k = Some a -> exists r, r ∈ reqs_of s k /\ r_who r = w /\ r_when r <= s_era s /\ r_action r = Revoke a).
Lemma execute_revoke_all_moves s w h : Inv c s -> post (execute_revoke_all c w h) (fun _ s' => left_all w s s') s.
Proof.
  intros H. pose proof (i_cross _ _ H) as Hcr. unfold execute_revoke_all. p1. p1. p1. p1. p1. p1. p1. p1. p1. rename a into m, Hsome into Hm.
  destruct (leave_loop_ok c Hc w (nom_list m) s (s_nominators s) (s_reqs s) (s_nom_lock s) m) as (s' & Hr & E1 & E2 & E3 & _).
  { by destruct s. } { done. } { rewrite nom_list_fst. apply keys_nodup. } { apply nom_list_elem. }
  unfold post at 1. rewrite Hr. unfold set_nom_lock, write_reqs, del_nominator. ps. unfold left_all, nomination. cbn. rewrite E1. split; [|split].
  - intros k. by rewrite lookup_delete.
  - intros v k Hv. by rewrite lookup_delete_ne.
  - rewrite Hm. intros k a Ha. rewrite forallb_forall in Hens0. specialize (Hens0 k).
    destruct (take_req (revoke_of w) (reqs_of s k)) as [[r l]|] eqn:Er.
    + destruct (take_req_sub _ _ _ _ Er) as [Hin _]. apply take_req_eq in Er as (l1 & l2 & Hl & _ & Hp & _). unfold revoke_of in Hp. apply andb_prop in Hp as [Hp1 Hp2].
      apply N.eqb_eq in Hp1. exists r. split; [done|]. split; [done|].
      split. { apply N.leb_le, Hens0. apply elem_of_list_In, keys_elem. eauto. }
      destruct (cr_reqs _ _ _ _ _ Hcr k) as [Hnd _].
      assert (Hpe : pend (s_reqs s) k w = Some r).
      { unfold pend. clear -Hin Hnd Hp1. unfold reqs_of in Hin. induction (mget [] k (s_reqs s)) as [|q l IH]; [by apply elem_of_nil in Hin|]. cbn in Hnd. apply NoDup_cons in Hnd as [Hq Hnd]. cbn. unfold of_nominator at 1.
        apply elem_of_cons in Hin as [<-|Hin]; [by rewrite Hp1, N.eqb_refl|]. destruct (N.eqb_spec (r_who q) w) as [E|E]; [|by apply IH].
        exfalso. apply Hq. apply elem_of_list_fmap. exists r. split; [congruence|done]. }
      destruct (cr_req _ _ _ _ _ Hcr k w r Hpe) as (a2 & Hea & Hact). rewrite <- (cr_link _ _ _ _ _ Hcr) in Hea. unfold noms_of in Hea. rewrite Hm in Hea. cbn in Hea.
      rewrite Ha in Hea. injection Hea as <-. destruct (r_action r); [by cbn in Hact; subst|done].
    + exfalso. assert (false = true) as Hf; [|done]. apply Hens0. apply elem_of_list_In, keys_elem. eauto.
Qed.
(** A candidate leaving. *)
Definition candidate_left (k : N) (s s' : st) : Prop :=
  (exists x e, s_cands s !! k = Some x /\ k_status x = Leaving e /\ e <= s_era s) /\
  (forall v, nomination s' v k = None) /\ (forall v k', k' <> k -> nomination s' v k' = nomination s v k').
Lemma return_all_lists k l s : post (return_all k l) (fun _ s' => s_top s' = s_top s /\ s_bot s' = s_bot s /\ s_cands s' = s_cands s) s.
Proof.
  revert s. induction l as [|x l IH]; intros s; cbn [return_all]; [by ps|]. p1. eapply (post_mono _ (fun _ s' => s_top s' = s_top s /\ s_bot s' = s_bot s /\ s_cands s' = s_cands s)).
  - unfold return_stake, rm_nomination, remove_request, set_nom_lock, set_reqs, del_nominator, set_nominator. ps. destruct (m_noms a !! k); ps; [|done].
    destruct (take_req _ _) as [[? ?]|]; ps; destruct (_ =? 0); by ps.
  - intros _ s1 (A1 & A2 & A3). cbv beta. eapply post_mono; [apply IH|]. intros _ s2 (B1 & B2 & B3). by rewrite B1, B2, B3.
Qed.
Lemma execute_leave_moves s k h : Inv c s -> post (execute_leave_candidates k h) (fun _ s' => candidate_left k s s') s.
Proof.
  intros H. assert (Hx : post (execute_leave_candidates k h) (fun _ s' => (exists x e, s_cands s !! k = Some x /\ k_status x = Leaving e /\ e <= s_era s) /\
     s_top s' = delete k (s_top s) /\ s_bot s' = delete k (s_bot s)) s).
  { unfold execute_leave_candidates. p1. p1. p1. apply post_load. intros x t b Hx Ht Hb. p1. p1. p1. p1. p1. p1. cbn [bk bt bb] in *.
    p1. eapply post_mono; [apply return_all_lists|]. intros _ s1 (A1 & A2 & A3). cbv beta. p1. eapply post_mono; [apply return_all_lists|]. intros _ s2 (B1 & B2 & B3). cbv beta.
    unfold sub_total. ps. cbn. rewrite B1, B2, A1, A2. split; [|done]. exists x. destruct (k_status x) as [| |e]; [done|done|]. exists e. apply N.leb_le in Hens1. done. }
  pose proof (wp_post _ _ _ (execute_leave_ok c Hc s k h H)) as HI. eapply post_mono; [apply (post_and _ _ _ _ Hx HI)|].
  intros _ s' ((Hl & Et & Eb) & H'). split; [done|]. split.
  - intros v. rewrite (nomination_E s' v k H'). unfold E_of. by rewrite Et, lookup_delete.
  - intros v k' Hne. rewrite (nomination_E s' v k' H'), (nomination_E s v k' H). unfold E_of. by rewrite Et, Eb, !lookup_delete_ne by done.
Qed.
(** Scheduling and cancelling. *)
Lemma schedule_revoke_moves s w k : post (schedule_revoke c w k) (fun _ s' => same_noms s s') s.
Proof.
  unfold schedule_revoke. ps. destruct (can_push _ _); [|ps; by intros ? ?]. unfold set_reqs, set_nominator. ps. eapply (same_set s _ w a); [exact Hsome | | reflexivity]; try done.
Qed.
Lemma schedule_decrease_moves s w k x : post (schedule_decrease c w k x) (fun _ s' => same_noms s s') s.
Proof.
  unfold schedule_decrease. ps. destruct (can_push _ _); [|ps; by intros ? ?]. unfold set_reqs, set_nominator. ps. eapply (same_set s _ w a); [exact Hsome | | reflexivity]; try done.
Qed.
Lemma cancel_request_moves s w k : post (cancel_request w k) (fun _ s' => same_noms s s') s.
Proof. unfold cancel_request. ps. destruct a0 as [r l]. unfold set_reqs, set_nominator. ps. eapply (same_set s _ w a); [exact Hsome | | reflexivity]; try done. Qed.
Lemma schedule_revoke_all_moves s w : post (schedule_revoke_all c w) (fun _ s' => same_noms s s') s.
Proof.
  unfold schedule_revoke_all. p1. p1. p1. p1.
  assert (Hg : forall l acc, m_noms (fold_left (revoke_all_step c s w (sat32 (s_era s) (s_delay s))) l acc).1.1 = m_noms acc.1.1).
  { induction l as [|[k x] l IH]; intros acc; cbn [fold_left]; [done|]. rewrite IH. destruct acc as [[m n] out]. unfold revoke_all_step.
    destruct (can_push c _); cbn; destruct (take_req _ _) as [[q l2]|]; done. }
  specialize (Hg (nom_list a) (a, 0, [])). destruct (fold_left _ _ _) as [[m' n] out]. cbn in Hg. unfold write_reqs, set_nominator. ps. eapply (same_set s _ w a); [exact Hsome | | reflexivity]; try done.
Qed.
Lemma cancel_revoke_all_moves s w : post (cancel_revoke_all w) (fun _ s' => same_noms s s') s.
Proof.
  unfold cancel_revoke_all. p1. p1. p1. p1. p1. p1.
  assert (Hg : forall l acc, m_noms (fold_left (cancel_all_step s w) l acc).1 = m_noms acc.1).
  { induction l as [|k l IH]; intros acc; cbn [fold_left]; [done|]. rewrite IH. destruct acc as [m out]. unfold cancel_all_step. destruct (take_req _ _) as [[q l2]|]; done. }
  specialize (Hg (keys (m_noms a)) (a, [])). destruct (fold_left _ _ _) as [m' out]. cbn in Hg. unfold write_reqs, set_nominator. ps. eapply (same_set s _ w a); [exact Hsome | | reflexivity]; try done.
Qed.
End moves.

(** ** Locks of candidates *)
Definition kc {A} (m : M st A) : Prop := forall s, post m (fun _ s' => s_col_lock s' = s_col_lock s) s.
Lemma kc_bind {A B} (m : M st A) (f : A -> M st B) : kc m -> (forall a, kc (f a)) -> kc (mbind_ m f).
Proof.
  intros Hm Hf s. apply post_bind. eapply post_mono; [apply Hm|]. intros a s1 H1. cbv beta. eapply post_mono; [apply Hf|]. intros b s2 H2. congruence.
Qed.
Lemma kc_get : kc get_st. Proof. intros s. by ps. Qed.
Lemma kc_gets {A} (f : st -> A) : kc (gets f). Proof. intros s. by ps. Qed.
Lemma kc_ret {A} (a : A) : kc (mret_ a). Proof. intros s. by ps. Qed.
Lemma kc_fail {A} e : kc (@fail st A e). Proof. intros s. by ps. Qed.
Lemma kc_some_or {A} (o : option A) e : kc (some_or o e). Proof. intros s. by ps. Qed.
Lemma kc_lift {A} (o : res A) : kc (lift_res o). Proof. intros s. by ps. Qed.
Lemma kc_ensure b e : kc (ensure b e). Proof. intros s. by ps. Qed.
Lemma kc_modify f : (forall s, s_col_lock (f s) = s_col_lock s) -> kc (modify f). Proof. intros H s. ps. apply H. Qed.
Ltac kc_step := lazymatch goal with
  | |- kc (mbind_ _ _) => apply kc_bind; [|intros ?]
  | |- kc get_st => apply kc_get | |- kc (gets _) => apply kc_gets | |- kc (mret_ _) => apply kc_ret | |- kc (fail _) => apply kc_fail
  | |- kc (some_or _ _) => apply kc_some_or | |- kc (lift_res _) => apply kc_lift | |- kc (ensure _ _) => apply kc_ensure
  | |- kc (modify _) => apply kc_modify; reflexivity
  | |- kc (match ?x with _ => _ end) => destruct x
  end.
Ltac kcs := repeat kc_step.
Lemma kc_load k : kc (load k). Proof. unfold load. kcs. Qed.
Lemma kc_store k a b : kc (store k a b). Proof. unfold store, update_active. kcs. Qed.
Lemma kc_kick k x : kc (kick k x).
Proof. unfold kick, rm_nomination, remove_request, set_nom_lock, set_reqs, del_nominator, set_nominator. kcs. Qed.
Lemma kc_return_all k l : kc (return_all k l).
Proof. induction l as [|x l IH]; cbn [return_all]; [kcs|]. apply kc_bind; [|intros ?; apply IH]. unfold return_stake, rm_nomination, remove_request, set_nom_lock, set_reqs, del_nominator, set_nominator. kcs. Qed.
Lemma kc_nominate c w k x h1 h2 : kc (call_nominate c w k x h1 h2).
Proof.
  unfold call_nominate, lock_more, set_nom_lock, add_total, set_nominator. kcs.
  all: first [apply kc_load | apply kc_store | apply kc_kick | idtac]. 
Qed.
Lemma kc_bond_extra c w k x : kc (call_bond_extra c w k x).
Proof. unfold call_bond_extra, lock_more, set_nom_lock, add_total, set_nominator. kcs. all: first [apply kc_load | apply kc_store]. Qed.
Lemma kc_leaves c k w a : kc (nominator_leaves_candidate c k w a).
Proof. unfold nominator_leaves_candidate, sub_total. kcs. all: first [apply kc_load | apply kc_store]. Qed.
Lemma kc_execute c w k : kc (execute_request c w k).
Proof.
  unfold execute_request, rm_nomination, set_nom_lock, set_reqs, del_nominator, set_nominator, sub_total. kcs. all: first [apply kc_load | apply kc_store | apply kc_leaves].
Qed.
Lemma kc_leave_loop c w l : kc (leave_loop c w l).
Proof.
  induction l as [|[k a] l IH]; cbn [leave_loop]; [kcs|]. apply kc_bind; [|intros ?; apply IH]. intros s. unfold post.
  pose proof (kc_leaves c k w a s) as H. unfold post in H. by destruct (nominator_leaves_candidate c k w a s) as [s1 [u|e]].
Qed.
Lemma kc_revoke_all c w h : kc (execute_revoke_all c w h).
Proof. unfold execute_revoke_all, set_nom_lock, write_reqs, del_nominator. kcs. apply kc_leave_loop. Qed.
Lemma kc_schedule_all c w : kc (schedule_revoke_all c w).
Proof. unfold schedule_revoke_all, write_reqs, set_nominator. kcs. Qed.
Lemma kc_cancel_all w : kc (cancel_revoke_all w).
Proof. unfold cancel_revoke_all, write_reqs, set_nominator. kcs. Qed.
Lemma kc_schedule_revoke c w k : kc (schedule_revoke c w k). Proof. unfold schedule_revoke, set_reqs, set_nominator. kcs. Qed.
Lemma kc_schedule_decrease c w k x : kc (schedule_decrease c w k x). Proof. unfold schedule_decrease, set_reqs, set_nominator. kcs. Qed.
Lemma kc_cancel w k : kc (cancel_request w k). Proof. unfold cancel_request, set_reqs, set_nominator. kcs. Qed.
Lemma kc_nominate_each c w per dust n l : forall i remaining count, kc (nominate_each c w per dust n i remaining count l).
Proof. induction l as [|k l IH]; intros i remaining count; cbn [nominate_each]; kcs; [apply kc_nominate | apply IH]. Qed.
Lemma kc_bond_extra_each c w per dust n l : forall i remaining, kc (bond_extra_each c w per dust n i remaining l).
Proof. induction l as [|k l IH]; intros i remaining; cbn [bond_extra_each]; kcs; [apply kc_bond_extra | apply IH]. Qed.
Lemma kc_decrease_each c w l : forall out, kc (decrease_each c w l out).
Proof. induction l as [|[[k a] b] l IH]; intros out; cbn [decrease_each]; kcs; [apply kc_schedule_decrease | apply IH]. Qed.
Lemma kc_execute_each c w l : kc (execute_each c w l).
Proof. induction l as [|k l IH]; cbn [execute_each]; kcs; [apply kc_execute | apply IH]. Qed.
Lemma kc_new_block c : kc (on_initialize c).
Proof. unfold on_initialize, select_top_candidates. kcs. Qed.
Lemma kc_hotfix l : kc (hotfix l). Proof. unfold hotfix. kcs. Qed.
