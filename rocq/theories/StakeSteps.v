(** How one operation changes nominations and bonds. *)
From Verif Require Import Base BaseLemmas CodecModel SigModel StakeModel StakeSpec StakeBook StakeCross StakeInv StakeOps StakeNom StakeLeave StakeExit StakeCand StakeRun StakeFrame StakeMoves.

(** ** What the calls of candidates and nominators do not touch *)
Definition kb {A} (m : M st A) : Prop := forall s, post m (fun _ s' => rest s' = rest s) s.
Lemma kb_bind {A B} (m : M st A) (f : A -> M st B) : kb m -> (forall a, kb (f a)) -> kb (mbind_ m f).
Proof.
  intros Hm Hf s. apply post_bind. eapply post_mono; [apply Hm|]. intros a s1 H1. cbv beta. eapply post_mono; [apply Hf|]. intros b s2 H2. congruence.
Qed.
Lemma kb_get : kb get_st. Proof. intros s. by ps. Qed.
Lemma kb_ret {A} (a : A) : kb (mret_ a). Proof. intros s. by ps. Qed.
Lemma kb_fail {A} e : kb (@fail st A e). Proof. intros s. by ps. Qed.
Lemma kb_some_or {A} (o : option A) e : kb (some_or o e). Proof. intros s. by ps. Qed.
Lemma kb_lift {A} (o : res A) : kb (lift_res o). Proof. intros s. by ps. Qed.
Lemma kb_gets {A} (f : st -> A) : kb (gets f). Proof. intros s. by ps. Qed.
Lemma kb_ensure b e : kb (ensure b e). Proof. intros s. by ps. Qed.
Lemma kb_modify f : (forall s, rest (f s) = rest s) -> kb (modify f). Proof. intros H s. ps. apply H. Qed.
Ltac kb_step := lazymatch goal with
  | |- kb (mbind_ _ _) => apply kb_bind; [|intros ?]
  | |- kb get_st => apply kb_get | |- kb (gets _) => apply kb_gets | |- kb (mret_ _) => apply kb_ret | |- kb (fail _) => apply kb_fail
  | |- kb (some_or _ _) => apply kb_some_or | |- kb (lift_res _) => apply kb_lift | |- kb (ensure _ _) => apply kb_ensure
  | |- kb (modify _) => apply kb_modify; reflexivity
  | |- kb (match ?x with _ => _ end) => destruct x
  end.
Ltac kbs := repeat kb_step.
Lemma kb_load k : kb (load k). Proof. unfold load. kbs. Qed.
Lemma kb_store k a b : kb (store k a b). Proof. unfold store, update_active. kbs. Qed.
Lemma kb_kick k x : kb (kick k x).
Proof. unfold kick, rm_nomination, remove_request, set_nom_lock, set_reqs, del_nominator, set_nominator. kbs. Qed.
Lemma kb_nominate c w k x h1 h2 : kb (call_nominate c w k x h1 h2).
Proof.
  unfold call_nominate, lock_more, set_nom_lock, add_total, set_nominator. kbs.
  all: first [apply kb_load | apply kb_store | apply kb_kick | idtac].
Qed.
Lemma kb_bond_extra c w k x : kb (call_bond_extra c w k x).
Proof. unfold call_bond_extra, lock_more, set_nom_lock, add_total, set_nominator. kbs. all: first [apply kb_load | apply kb_store]. Qed.
Lemma kb_leaves c k w a : kb (nominator_leaves_candidate c k w a).
Proof. unfold nominator_leaves_candidate, sub_total. kbs. all: first [apply kb_load | apply kb_store]. Qed.
Lemma kb_execute c w k : kb (execute_request c w k).
Proof.
  unfold execute_request, rm_nomination, set_nom_lock, set_reqs, del_nominator, set_nominator, sub_total. kbs. all: first [apply kb_load | apply kb_store | apply kb_leaves].
Qed.
Lemma kb_leave_loop c w l : kb (leave_loop c w l).
Proof.
  induction l as [|[k a] l IH]; cbn [leave_loop]; [kbs|]. apply kb_bind; [|intros ?; apply IH]. intros s. unfold post.
  pose proof (kb_leaves c k w a s) as H. unfold post in H. by destruct (nominator_leaves_candidate c k w a s) as [s1 [u|e]].
Qed.
Lemma kb_revoke_all c w h : kb (execute_revoke_all c w h).
Proof. unfold execute_revoke_all, set_nom_lock, write_reqs, del_nominator. kbs. apply kb_leave_loop. Qed.
Lemma kb_schedule_decrease c w k x : kb (schedule_decrease c w k x). Proof. unfold schedule_decrease, set_reqs, set_nominator. kbs. Qed.
Lemma kb_nominate_each c w per dust n l : forall i remaining count, kb (nominate_each c w per dust n i remaining count l).
Proof. induction l as [|k l IH]; intros i remaining count; cbn [nominate_each]; kbs; [apply kb_nominate | apply IH]. Qed.
Lemma kb_bond_extra_each c w per dust n l : forall i remaining, kb (bond_extra_each c w per dust n i remaining l).
Proof. induction l as [|k l IH]; intros i remaining; cbn [bond_extra_each]; kbs; [apply kb_bond_extra | apply IH]. Qed.
Lemma kb_decrease_each c w l : forall out, kb (decrease_each c w l out).
Proof. induction l as [|[[k a] b] l IH]; intros out; cbn [decrease_each]; kbs; [apply kb_schedule_decrease | apply IH]. Qed.
Lemma kb_execute_each c w l : kb (execute_each c w l).
Proof. induction l as [|k l IH]; cbn [execute_each]; kbs; [apply kb_execute | apply IH]. Qed.
Lemma kb_return_all k l : kb (return_all k l).
Proof. induction l as [|x l IH]; cbn [return_all]; [kbs|]. apply kb_bind; [|intros ?; apply IH]. unfold return_stake, rm_nomination, remove_request, set_nom_lock, set_reqs, del_nominator, set_nominator. kbs. Qed.
Lemma kb_call_body c w x : kb (call_body c w x).
Proof.
  destruct x; cbn [call_body].
  - unfold split_and_nominate. kbs. apply kb_nominate_each.
  - unfold bond_extra_all. kbs. apply kb_bond_extra_each.
  - unfold candidate_bond_extra, add_total, set_col_lock, put_cand, update_active. kbs.
  - unfold schedule_candidate_unbond, put_cand. kbs.
  - unfold unbond_spread. kbs. apply kb_decrease_each.
  - unfold schedule_revoke, set_reqs, set_nominator. kbs.
  - unfold schedule_revoke_all, write_reqs, set_nominator. kbs.
  - kbs. apply kb_revoke_all.
  - unfold execute_all. kbs. apply kb_execute_each.
  - unfold execute_candidate_unbond, sub_total, set_col_lock, put_cand, update_active. kbs.
Qed.
(** Every call of a candidate or nominator, except for the nonce of a relayed one. *)
Lemma body_rest c cr o s : staking_call o = true -> post (body c cr o) (fun _ s' => rest (s' <| s_nonces := s_nonces s |>) = rest s) s.
Proof.
  assert (HK : forall m : M st unit, kb m -> post m (fun _ s' => rest (s' <| s_nonces := s_nonces s |>) = rest s) s).
  { intros m Hm. eapply post_mono; [apply Hm|]. intros ? s' E. unfold rest in *. cbn. congruence. }
  intros Ho. destruct o; try done; cbn [body]; lazymatch goal with |- context[signed_call] => idtac | _ => apply HK end.
  - unfold join_candidates, pool_insert, update_active, set_col_lock, put_cand, add_total. kbs.
  - unfold schedule_leave_candidates, pool_remove, put_cand. kbs.
  - unfold execute_leave_candidates, sub_total. kbs; first [apply kb_load | apply kb_return_all].
  - unfold cancel_leave_candidates, pool_insert, update_active, put_cand. kbs.
  - unfold go_offline, pool_remove, put_cand. kbs.
  - unfold go_online, pool_insert, update_active, put_cand. kbs.
  - unfold candidate_bond_extra, add_total, set_col_lock, put_cand, update_active. kbs.
  - unfold schedule_candidate_unbond, put_cand. kbs.
  - unfold execute_candidate_unbond, sub_total, set_col_lock, put_cand, update_active. kbs.
  - unfold cancel_candidate_unbond, put_cand. kbs.
  - kbs. apply kb_nominate.
  - kbs. apply kb_bond_extra.
  - unfold schedule_revoke_all, write_reqs, set_nominator. kbs.
  - apply kb_revoke_all.
  - unfold cancel_revoke_all, write_reqs, set_nominator. kbs.
  - unfold schedule_revoke, set_reqs, set_nominator. kbs.
  - apply kb_schedule_decrease.
  - apply kb_execute.
  - unfold cancel_request, set_reqs, set_nominator. kbs.
  - unfold hotfix. kbs.
  - unfold signed_call. ps. eapply post_mono; [apply kb_call_body|]. intros ? s1 E. ps. unfold rest in *. cbn. congruence.
Qed.

(** ** The parts into which an amount is split *)
Fixpoint nsum (l : list N) : N := match l with [] => 0 | x :: r => x + nsum r end.
Fixpoint parts {A} (per dust d i remaining : N) (l : list A) : list N :=
  match l with
  | [] => []
  | _ :: r => let a := N.min remaining (if negb (dust =? 0) && (i =? d) then per + dust else per) in
              a :: parts per dust d (i + 1) (remaining - a) r
  end.
Lemma parts_length {A} per dust d (l : list A) : forall i remaining, length (parts per dust d i remaining l) = length l.
Proof. induction l as [|x l IH]; intros; cbn; [done|]. by rewrite IH. Qed.
Lemma parts_sum {A} per dust d (l : list A) : forall i remaining,
  nsum (parts per dust d i remaining l) = N.min remaining (per * N.of_nat (length l) + if (i <=? d) && (d <? i + N.of_nat (length l)) then dust else 0).
Proof.
  induction l as [|x l IH]; intros i remaining; cbn [parts nsum length].
  - change (N.of_nat 0) with 0. destruct (N.leb_spec i d), (N.ltb_spec d (i + 0)); cbn [andb]; lia.
  - rewrite IH. clear IH. set (n := N.of_nat (length l)). replace (N.of_nat (S (length l))) with (n + 1) by lia.
    replace (per * (n + 1)) with (per + per * n) by lia. generalize (per * n). intros q.
    destruct (N.eqb_spec dust 0) as [->|Hd]; cbn [negb andb].
    + assert (E0 : forall b : bool, (if b then 0 else 0) = 0) by (by intros []). rewrite !E0. cbn. lia.
    + destruct (N.eqb_spec i d) as [->|Hi].
      * rewrite (proj2 (N.leb_gt (d + 1) d)) by lia. rewrite (proj2 (N.leb_le d d)) by lia. rewrite (proj2 (N.ltb_lt d (d + (n + 1)))) by lia. cbn [andb]. lia.
      * destruct (N.leb_spec (i + 1) d), (N.leb_spec i d); try lia; cbn [andb]; [|lia].
        destruct (N.ltb_spec d (i + 1 + n)), (N.ltb_spec d (i + (n + 1))); try lia.
Qed.
Lemma parts_exact {A} per amount block (l : list A) : l <> [] -> let n := N.of_nat (length l) in
  nsum (parts per (saturating_sub amount ((per * n) mod 2 ^ 128)) (block mod n) 0 amount l) = amount.
Proof.
  intros Hl n. assert (Hn : n <> 0) by (subst n; destruct l; [done|cbn; lia]). rewrite parts_sum. fold n.
  pose proof (N.mod_lt block n Hn) as Hd. rewrite (proj2 (N.leb_le 0 _)) by lia. rewrite N.add_0_l, (proj2 (N.ltb_lt _ n)) by done. cbn [andb].
  pose proof (N.mod_le (per * n) (2 ^ 128) ltac:(done)) as Hm. unfold saturating_sub. revert Hm. generalize ((per * n) mod 2 ^ 128), (per * n). intros. lia.
Qed.
Lemma parts_le {A} per dust d (l : list A) : forall i remaining a, a ∈ parts per dust d i remaining l -> a <= remaining.
Proof. induction l as [|x l IH]; intros i remaining a Ha; cbn in Ha; [by apply elem_of_nil in Ha|]. apply elem_of_cons in Ha as [->|Ha]; [lia|]. apply IH in Ha. lia. Qed.

Section steps.
Variable c : config.
Hypothesis Hc : config_ok c.

(** ** Relayed nominations *)
Definition spread_nominated (w : N) (l amounts : list N) (s s' : st) : Prop :=
  Forall2 (fun k a => nomination s w k = None /\ nomination s' w k = Some a) l amounts /\
  (forall k, k ∉ l -> nomination s' w k = nomination s w k) /\
  (forall v k, v <> w -> nomination s' v k = nomination s v k \/
     (k ∈ l /\ nomination s' v k = None /\ exists b a, nomination s v k = Some b /\ nomination s' w k = Some a /\ b < a)).
Lemma nominate_each_moves w per dust n l : forall i remaining count s, Inv c s ->
  post (nominate_each c w per dust n i remaining count l) (fun _ s' => spread_nominated w l (parts per dust (s_block s mod n) i remaining l) s s') s.
Proof.
  induction l as [|k l IH]; intros i remaining count s H; cbn [nominate_each parts].
  { ps. split; [constructor|]. split; [done|]. by left. }
  p1. p1. p1. p1. p1. unfold gets_dust. rename a into a0. set (a := N.min remaining _). clear Hsome.
  pose proof (call_nominate_moves c Hc s w k a (k_count a0) count H) as P1. pose proof (wp_post _ _ _ (call_nominate_ok c Hc s w k a (k_count a0) count H)) as P2.
  pose proof (kb_nominate c w k a (k_count a0) count s) as P3'.
  assert (P3 : post (call_nominate c w k a (k_count a0) count) (fun _ s' => s_block s' = s_block s) s) by (eapply post_mono; [exact P3'|]; intros ? s' E; unfold rest in E; congruence). clear P3'.
  eapply post_mono; [apply (post_and _ _ _ _ P1 (post_and _ _ _ _ P2 P3))|]. intros ? s1 ((N1 & N2 & N3 & N4) & H1 & B1). cbv beta.
  eapply post_mono; [apply (IH _ _ _ s1 H1)|]. intros ? s2 (M1 & M2 & M3). rewrite B1 in M1.
  assert (Hk : k ∉ l).
  { intros Hk. clear -M1 Hk N2. revert Hk. induction M1 as [|k' a' l' la [E _] M1 IH]; intros Hk; [by apply elem_of_nil in Hk|].
    apply elem_of_cons in Hk as [<-|Hk]; [congruence|by apply IH]. }
  assert (Hw2 : nomination s2 w k = Some a) by (by rewrite M2).
  split; [|split].
  - constructor; [by split|]. clear -M1 N3 Hk. induction M1 as [|k' a' l' la [E1 E2] M1 IH]; [constructor|]. apply not_elem_of_cons in Hk as [Hk1 Hk2].
    constructor; [|by apply IH]. split; [by rewrite <- N3|done].
  - intros k' Hk'. apply not_elem_of_cons in Hk' as [Hk1 Hk2]. by rewrite M2, N3.
  - intros v k' Hv. destruct (M3 v k' Hv) as [E|(Ein & E & b & a' & E1 & E2 & E3)].
    + destruct (N4 v k' Hv) as [E'|(-> & E' & b & E1 & E2)]; [left; congruence|]. right. split; [left|]. split; [by rewrite E|].
      exists b, a. done.
    + right. split; [by right|]. split; [done|]. exists b, a'. split; [|done].
      destruct (N4 v k' Hv) as [E'|(-> & E' & _)]; [congruence|congruence].
Qed.
(** ** Relayed bonding *)
Definition spread_grown (w : N) (l xs : list N) (s s' : st) : Prop :=
  Forall2 (fun k x => exists a, nomination s w k = Some a /\ nomination s' w k = Some (a + x)) l xs /\
  (forall v k, v <> w \/ k ∉ l -> nomination s' v k = nomination s v k).
Lemma bond_extra_each_moves w per dust n l : forall i remaining s, NoDup l -> Inv c s ->
  post (bond_extra_each c w per dust n i remaining l) (fun _ s' => spread_grown w l (parts per dust (s_block s mod n) i remaining l) s s') s.
Proof.
  induction l as [|k l IH]; intros i remaining s Hnd H; cbn [bond_extra_each parts].
  { ps. split; [constructor|]. done. }
  apply NoDup_cons in Hnd as [Hk Hnd]. p1. p1. p1. unfold gets_dust. set (a := N.min remaining _).
  pose proof (call_bond_extra_moves c s w k a H) as P1. pose proof (wp_post _ _ _ (call_bond_extra_ok c Hc s w k a H)) as P2.
  pose proof (kb_bond_extra c w k a s) as P3'.
  assert (P3 : post (call_bond_extra c w k a) (fun _ s' => s_block s' = s_block s) s) by (eapply post_mono; [exact P3'|]; intros ? s' E; unfold rest in E; congruence). clear P3'.
  eapply post_mono; [apply (post_and _ _ _ _ P1 (post_and _ _ _ _ P2 P3))|]. intros ? s1 (((b & N1 & N2) & N3) & H1 & B1). cbv beta.
  eapply post_mono; [apply (IH _ _ s1 Hnd H1)|]. intros ? s2 (M1 & M2). rewrite B1 in M1.
  split.
  - constructor; [exists b; split; [done|]; rewrite M2 by (by right); done|].
    clear -M1 N3 Hk. induction M1 as [|k' a' l' la (b & E1 & E2) M1 IH]; [constructor|]. apply not_elem_of_cons in Hk as [Hk1 Hk2].
    constructor; [|by apply IH]. exists b. split; [|done]. rewrite <- N3; [done|congruence].
  - intros v k' Hv. rewrite M2 by (rewrite not_elem_of_cons in Hv; tauto). apply N3. rewrite not_elem_of_cons in Hv. intros [= -> ->]. naive_solver.
Qed.
(** ** Relayed execution of requests *)
Definition spread_executed (w : N) (l : list N) (s s' : st) : Prop :=
  forall v k, nomination s' v k = nomination s v k \/
    (v = w /\ k ∈ l /\ exists r a, r ∈ reqs_of s k /\ r_who r = w /\ r_when r <= s_era s /\ nomination s w k = Some a /\
       nomination s' w k = match r_action r with Revoke _ => None | Decrease d => Some (a - d) end).
Definition never1 (k : N) (r : req) : Prop := False.
Definition never2 (k e : N) : Prop := False.
Definition never3 (k : N) (q : N * N) : Prop := False.
Lemma execute_each_moves w l : forall s, NoDup l -> Inv c s -> post (execute_each c w l) (fun _ s' => spread_executed w l s s') s.
Proof.
  induction l as [|k l IH]; intros s Hnd H; cbn [execute_each]; [ps; by left|].
  apply NoDup_cons in Hnd as [Hk Hnd]. p1. p1. p1. p1. p1. destruct (r_when a <=? s_era s); cycle 1.
  { ps. eapply post_mono; [by apply IH|]. intros ? s' Hs v k'. destruct (Hs v k') as [?|(? & ? & ?)]; [by left|]. right. split; [done|]. split; [by right|done]. }
  pose proof (execute_request_moves c Hc s w k H) as P1. pose proof (wp_post _ _ _ (execute_request_ok c Hc s w k H)) as P2.
  pose proof (execute_request_pres never1 never2 never3 c w k s) as P3.
  eapply post_mono; [apply (post_and _ _ _ _ P1 (post_and _ _ _ _ P2 P3))|]. intros ? s1 (((r & b & R1 & R2 & R3 & R4 & R5) & R6) & H1 & F). cbv beta.
  eapply post_mono; [by apply (IH s1)|]. intros ? s2 Hs v k'.
  destruct (Hs v k') as [E|(-> & Hin & r' & a' & Q1 & Q2 & Q3 & Q4 & Q5)].
  - destruct (decide ((v, k') = (w, k))) as [[= -> ->]|Hne]; [|left; rewrite E; by apply R6].
    right. split; [done|]. split; [left|]. exists r, b. rewrite E. done.
  - right. split; [done|]. split; [by right|]. exists r', a'.
    destruct F as [F1 F2 F3 F4]. split. { destruct (F3 k' r' Q1) as [[]|?]; done. } split; [done|]. split; [by rewrite <- F1|]. split; [|done].
    rewrite <- R6; [done|]. intros [= ->]. done.
Qed.
Lemma decrease_each_moves w l : forall out s, post (decrease_each c w l out) (fun _ s' => same_noms s s') s.
Proof.
  induction l as [|[[k sp] x] l IH]; intros out s; cbn [decrease_each]; [ps; by intros ? ?|].
  apply post_bind. eapply post_mono; [apply schedule_decrease_moves|]. intros ? s1 E1. cbv beta. eapply post_mono; [apply IH|]. intros ? s2 E2 v k'.
  rewrite E2. apply E1.
Qed.

(** ** Every operation *)
Definition changes (s : st) (o : op) (s' : st) : Prop := forall w k,
  nomination s' w k = nomination s w k \/ nomination_change s s' o w k (nomination s w k) (nomination s' w k).
Lemma same_changes s o s' : same_noms s s' -> changes s o s'. Proof. intros H w k. left. apply H. Qed.
Lemma keys_changes s o s' : s_nominators s' = s_nominators s -> changes s o s'. Proof. intros H. by apply same_changes, same_nominators. Qed.
Lemma forall2_elem {A B} (P : A -> B -> Prop) l l' x : Forall2 P l l' -> x ∈ l -> exists y, y ∈ l' /\ P x y.
Proof.
  induction 1 as [|a b l l' HP HF IH]; intros Hx; [by apply elem_of_nil in Hx|]. apply elem_of_cons in Hx as [->|Hx]; [exists b; split; [left|done]|].
  destruct (IH Hx) as (y & Hy & HPy). exists y. split; [by right|done].
Qed.
Lemma change_ext s s1 s2 o w k x y : nomination_change s s1 o w k x y -> (forall w k, nomination s2 w k = nomination s1 w k) -> nomination_change s s2 o w k x y.
Proof.
  intros Hn E. destruct Hn as [a h1 h2 Ho|p l x a Ho Hk Ha|a x Ho|p y a x Ho Hx|caller r a Ho Hr Hw He|caller h r a Ho Hr Hw He Hact|caller h x e a Ho Hx Hs He|w' a a' Hne Ho Hnew Hnom Hlt].
  - by eapply NewNomination. - by eapply NewRelayedNomination. - by eapply MoreBonded. - by eapply MoreRelayedBonded. - by eapply RequestExecuted.
  - by eapply NominatorLeft. - by eapply CandidateLeft. - eapply Outbid; try done. by rewrite E.
Qed.
Lemma call_body_moves w p x s : Inv c s -> post (call_body c w x) (fun _ s' => changes s (Signed w p x) s') s.
Proof.
  intros H. destruct x as [l a|a|a|a|a|k| |v|v|k]; cbn [call_body].
  - unfold split_and_nominate. ps. eapply post_mono; [by apply nominate_each_moves|]. intros ? s' (M1 & M2 & M3) v k.
    destruct (N.eq_dec v w) as [->|Hv].
    + destruct (decide (k ∈ l)) as [Hk|Hk]; [|left; by apply M2]. destruct (forall2_elem _ _ _ _ M1 Hk) as (y & Hy & E1 & E2). right. rewrite E1, E2.
      eapply NewRelayedNomination; [done|done|]. by eapply parts_le.
    + destruct (M3 v k Hv) as [E|(Hk & E & b & a' & E1 & E2 & E3)]; [by left|]. right. rewrite E, E1.
      destruct (forall2_elem _ _ _ _ M1 Hk) as (y & _ & E0 & _).
      eapply (Outbid _ _ _ _ _ w); [done|right; by eauto|done|done|done].
  - unfold bond_extra_all. ps. eapply post_mono; [apply bond_extra_each_moves; [apply keys_nodup|done]|]. intros ? s' (M1 & M2) v k.
    destruct (decide (v = w /\ k ∈ keys (m_noms a0))) as [[-> Hk]|Hn].
    + destruct (forall2_elem _ _ _ _ M1 Hk) as (y & Hy & b & E1 & E2). right. rewrite E1, E2. eapply MoreRelayedBonded; [done|]. by eapply parts_le.
    + left. apply M2. destruct (N.eq_dec v w); [right; naive_solver | by left].
  - unfold candidate_bond_extra, add_total, set_col_lock, put_cand, update_active. ps. destruct (is_active _); ps; by apply keys_changes.
  - unfold schedule_candidate_unbond, put_cand. ps. by apply keys_changes.
  - unfold unbond_spread. ps. destruct (withdraw_from _ _ _ _). eapply post_mono; [apply decrease_each_moves|]. intros ? s'. apply same_changes.
  - eapply post_mono; [apply schedule_revoke_moves|]. intros ? s'. apply same_changes.
  - eapply post_mono; [apply schedule_revoke_all_moves|]. intros ? s'. apply same_changes.
  - ps. eapply post_mono; [by apply execute_revoke_all_moves|]. intros ? s' (M1 & M2 & M3) v' k. destruct (N.eq_dec v' v) as [->|Hv]; [|left; by apply M2].
    destruct (nomination s v k) as [b|] eqn:E; [|left; by rewrite M1]. right. rewrite M1. destruct (M3 k b E) as (r & R1 & R2 & R3 & R4).
    apply (NominatorLeft _ _ _ _ _ w 0 r); try done. right. by exists p.
  - unfold execute_all. ps. eapply post_mono; [apply execute_each_moves; [apply keys_nodup|done]|]. intros ? s' Hs v' k.
    destruct (Hs v' k) as [E|(-> & Hk & r & b & R1 & R2 & R3 & R4 & R5)]; [by left|]. right. rewrite R4, R5.
    apply (RequestExecuted _ _ _ _ _ w); try done. right. by exists p.
  - unfold execute_candidate_unbond, sub_total, set_col_lock, put_cand, update_active. ps. destruct a0 as [less e]. ps. destruct (is_active _); ps; by apply keys_changes.
Qed.
Lemma body_moves cr o s : Inv c s -> post (body c cr o) (fun _ s' => changes s o s') s.
Proof.
  intros H. destruct o; cbn [body].
  - unfold join_candidates, pool_insert, update_active, set_col_lock, put_cand, add_total. ps. by apply keys_changes.
  - unfold schedule_leave_candidates, pool_remove, put_cand. ps. by apply keys_changes.
  - eapply post_mono; [by apply (execute_leave_moves c Hc)|]. intros ? s' ((x & e & L1 & L2 & L3) & L4 & L5) w k'. destruct (N.eq_dec k' k) as [->|Hk]; [|left; by apply L5].
    destruct (nomination s w k) as [b|] eqn:E; [|left; by rewrite L4]. right. rewrite L4. by eapply CandidateLeft.
  - unfold cancel_leave_candidates, pool_insert, update_active, put_cand. ps. by apply keys_changes.
  - unfold go_offline, pool_remove, put_cand. ps. by apply keys_changes.
  - unfold go_online, pool_insert, update_active, put_cand. ps. by apply keys_changes.
  - unfold candidate_bond_extra, add_total, set_col_lock, put_cand, update_active. ps. destruct (is_active _); ps; by apply keys_changes.
  - unfold schedule_candidate_unbond, put_cand. ps. by apply keys_changes.
  - unfold execute_candidate_unbond, sub_total, set_col_lock, put_cand, update_active. ps. destruct a0 as [less e]. ps. destruct (is_active _); ps; by apply keys_changes.
  - unfold cancel_candidate_unbond, put_cand. ps. by apply keys_changes.
  - p1. p1. eapply post_mono; [by apply call_nominate_moves|]. intros ? s' (N1 & N2 & N3 & N4) v k'. destruct (N.eq_dec v who) as [->|Hv].
    + destruct (N.eq_dec k' k) as [->|Hk]; [|left; by apply N3]. right. rewrite N1, N2. by eapply NewNomination.
    + destruct (N4 v k' Hv) as [E|(-> & E & b & E1 & E2)]; [by left|]. right. rewrite E, E1. eapply (Outbid _ _ _ _ _ who b amount); try done. left. by eauto.
  - p1. p1. eapply post_mono; [by apply call_bond_extra_moves|]. intros ? s' ((a & A1 & A2) & A3) v k'.
    destruct (decide ((v, k') = (who, k))) as [[= -> ->]|Hn]; [|left; by apply A3]. right. rewrite A1, A2. by eapply MoreBonded.
  - eapply post_mono; [apply schedule_revoke_all_moves|]. intros ? s'. apply same_changes.
  - eapply post_mono; [by apply execute_revoke_all_moves|]. intros ? s' (M1 & M2 & M3) v' k. destruct (N.eq_dec v' w) as [->|Hv]; [|left; by apply M2].
    destruct (nomination s w k) as [b|] eqn:E; [|left; by rewrite M1]. right. rewrite M1. destruct (M3 k b E) as (r & R1 & R2 & R3 & R4).
    apply (NominatorLeft _ _ _ _ _ caller hint r); try done. by left.
  - eapply post_mono; [apply cancel_revoke_all_moves|]. intros ? s'. apply same_changes.
  - eapply post_mono; [apply schedule_revoke_moves|]. intros ? s'. apply same_changes.
  - eapply post_mono; [apply schedule_decrease_moves|]. intros ? s'. apply same_changes.
  - eapply post_mono; [by apply execute_request_moves|]. intros ? s' ((r & a & R1 & R2 & R3 & R4 & R5) & R6) v k'.
    destruct (decide ((v, k') = (w, k))) as [[= -> ->]|Hn]; [|left; by apply R6]. right. rewrite R4, R5. apply (RequestExecuted _ _ _ _ _ caller); try done. by left.
  - eapply post_mono; [apply cancel_request_moves|]. intros ? s'. apply same_changes.
  - unfold hotfix. ps. by apply keys_changes.
  - unfold signed_call. ps. eapply post_mono; [by apply (call_body_moves who p x)|]. intros ? s1 Hs. ps. intros w k. destruct (Hs w k) as [?|Hn]; [by left|]. right.
    by apply (change_ext s s1).
  - unfold set_total_selected. ps. by apply keys_changes.
  - unfold set_blocks_per_era. ps. by apply keys_changes.
  - unfold set_admin_setting. ps. destruct v; by apply keys_changes.
  - unfold on_initialize. ps. destruct (_ <=? _); [|ps; by apply keys_changes]. unfold select_top_candidates. ps. destruct (compute_top_candidates _); ps; by apply keys_changes.
  - ps. by apply keys_changes.
  - ps. by apply keys_changes.
Qed.
Lemma step_moves cr s o : Inv c s -> changes s o (step c cr s o).
Proof.
  intros H. unfold step, exec, dispatch. pose proof (body_moves cr o s H) as Hb. unfold post in Hb. destruct (body c cr o s) as [s1 [[]|e]]; [done|].
  cbn. by apply keys_changes.
Qed.
End steps.

(** ** Bonds *)
Section bonds.
Variable c : config.
Hypothesis Hc : config_ok c.
Definition bonds (s : st) (o : op) (s' : st) : Prop := forall k,
  s_col_lock s' !! k = s_col_lock s !! k \/ bond_change s o k (s_col_lock s !! k) (s_col_lock s' !! k).
Lemma lock_bond s k : Inv c s -> s_col_lock s !! k = bond_of s k.
Proof. intros H. pose proof (i_cand _ _ H k) as Hk. unfold cand_ok, bond_of in *. destruct (s_cands s !! k); naive_solver. Qed.
Lemma kept_bonds s o s' : s_col_lock s' = s_col_lock s -> bonds s o s'.
Proof. intros E k. left. by rewrite E. Qed.
Lemma kc_bonds (m : M st unit) o s : kc m -> post m (fun _ s' => bonds s o s') s.
Proof. intros H. eapply post_mono; [apply H|]. intros ? s'. apply kept_bonds. Qed.
Lemma one_bond s o s' k a b : s_col_lock s !! k = a -> bond_change s o k a (Some b) -> s_col_lock s' = <[k := b]> (s_col_lock s) -> bonds s o s'.
Proof.
  intros Ha Hb E k'. rewrite E. destruct (N.eq_dec k' k) as [->|Hne]; [right; by rewrite lookup_insert, Ha | left; by rewrite lookup_insert_ne].
Qed.
Lemma candidate_bond_extra_bonds s o k x : Inv c s -> o = CandidateBondExtra k x \/ (exists p, o = Signed k p (SCandidateBondExtra x)) ->
  post (candidate_bond_extra k x) (fun _ s' => bonds s o s') s.
Proof.
  intros H Ho. unfold candidate_bond_extra, add_total, set_col_lock, put_cand, update_active. ps. apply N.leb_le in Hens.
  destruct (collator_room0 c s k a x H Hsome Hens) as (R1 & R2).
  pose proof (lock_bond s k H) as Hl. unfold bond_of in Hl. rewrite Hsome in Hl. cbn in Hl.
  assert (S1 : sat (k_bond a) x = k_bond a + x).
  { pose proof (bond_le s k a Hsome) as Hbl. unfold staked in R1. unfold sat, saturating_add. lia. }
  destruct (is_active _); ps; (eapply (one_bond s _ _ k _ (k_bond a + x)); [exact Hl | by apply BondMore | cbn; by rewrite S1]).
Qed.
Lemma execute_candidate_unbond_bonds s o caller k : Inv c s -> o = ExecuteCandidateUnbond caller k \/ (exists p, o = Signed caller p (SExecuteCandidateUnbond k)) ->
  post (execute_candidate_unbond k) (fun _ s' => bonds s o s') s.
Proof.
  intros H Ho. unfold execute_candidate_unbond, sub_total, set_col_lock, put_cand, update_active. ps. destruct a0 as [less e]. ps. apply N.leb_le in Hens.
  pose proof (lock_bond s k H) as Hl. unfold bond_of in Hl. rewrite Hsome in Hl. cbn in Hl.
  destruct (is_active _); ps; (eapply (one_bond s _ _ k _ (k_bond a - less)); [exact Hl | by eapply BondLess | done]).
Qed.
Lemma call_body_bonds w p x s : Inv c s -> post (call_body c w x) (fun _ s' => bonds s (Signed w p x) s') s.
Proof.
  intros H. destruct x; cbn [call_body].
  - apply kc_bonds. unfold split_and_nominate. kcs. apply kc_nominate_each.
  - apply kc_bonds. unfold bond_extra_all. kcs. apply kc_bond_extra_each.
  - apply candidate_bond_extra_bonds; [done|]. right. by exists p.
  - apply kc_bonds. unfold schedule_candidate_unbond, put_cand. kcs.
  - apply kc_bonds. unfold unbond_spread. kcs. apply kc_decrease_each.
  - apply kc_bonds, kc_schedule_revoke.
  - apply kc_bonds, kc_schedule_all.
  - apply kc_bonds. kcs. apply kc_revoke_all.
  - apply kc_bonds. unfold execute_all. kcs. apply kc_execute_each.
  - apply (execute_candidate_unbond_bonds _ _ w); [done|]. right. by exists p.
Qed.
Lemma body_bonds cr o s : Inv c s -> post (body c cr o) (fun _ s' => bonds s o s') s.
Proof.
  intros H. destruct o; cbn [body].
  - unfold join_candidates, pool_insert, update_active, set_col_lock, put_cand, add_total. ps.
    eapply (one_bond s _ _ who None bond); [|by eapply Joined|done]. rewrite (lock_bond s who H). unfold bond_of. by destruct (s_cands s !! who).
  - apply kc_bonds. unfold schedule_leave_candidates, pool_remove, put_cand. kcs.
  - pose proof (wp_post _ _ _ (execute_leave_ok c Hc s k hint H)) as P1.
    assert (P2 : post (execute_leave_candidates k hint) (fun _ s' => (exists x e, s_cands s !! k = Some x /\ k_status x = Leaving e /\ e <= s_era s) /\ s_col_lock s' = delete k (s_col_lock s)) s).
    { unfold execute_leave_candidates. p1. p1. p1. apply post_load. intros x t b Hx Ht Hb. p1. p1. p1. p1. p1. p1. p1. cbn [bk bt bb] in *.
      eapply post_mono; [apply kc_return_all|]. intros ? s1 E1. cbv beta. p1. eapply post_mono; [apply kc_return_all|]. intros ? s2 E2. cbv beta. unfold sub_total. ps. cbn.
      rewrite E2, E1. split; [|done]. exists x. destruct (k_status x) as [| |e]; [done|done|]. exists e. apply N.leb_le in Hens1. done. }
    eapply post_mono; [exact P2|]. intros ? s' ((x & e & L1 & L2 & L3) & E) k'. rewrite E. destruct (N.eq_dec k' k) as [->|Hne]; [|left; by rewrite lookup_delete_ne].
    right. rewrite lookup_delete, (lock_bond s k H). unfold bond_of. rewrite L1. cbn. by eapply LeftWithBond.
  - apply kc_bonds. unfold cancel_leave_candidates, pool_insert, update_active, put_cand. kcs.
  - apply kc_bonds. unfold go_offline, pool_remove, put_cand. kcs.
  - apply kc_bonds. unfold go_online, pool_insert, update_active, put_cand. kcs.
  - apply candidate_bond_extra_bonds; [done|]. by left.
  - apply kc_bonds. unfold schedule_candidate_unbond, put_cand. kcs.
  - apply (execute_candidate_unbond_bonds _ _ caller); [done|]. by left.
  - apply kc_bonds. unfold cancel_candidate_unbond, put_cand. kcs.
  - apply kc_bonds. kcs. apply kc_nominate.
  - apply kc_bonds. kcs. apply kc_bond_extra.
  - apply kc_bonds, kc_schedule_all.
  - apply kc_bonds, kc_revoke_all.
  - apply kc_bonds, kc_cancel_all.
  - apply kc_bonds, kc_schedule_revoke.
  - apply kc_bonds, kc_schedule_decrease.
  - apply kc_bonds, kc_execute.
  - apply kc_bonds, kc_cancel.
  - apply kc_bonds, kc_hotfix.
  - unfold signed_call. ps. eapply post_mono; [by apply (call_body_bonds who p x)|]. intros ? s1 Hs. ps. exact Hs.
  - apply kc_bonds. unfold set_total_selected. kcs.
  - apply kc_bonds. unfold set_blocks_per_era. kcs.
  - apply kc_bonds. unfold set_admin_setting. intros s0. ps. by destruct v.
  - apply kc_bonds, kc_new_block.
  - apply kc_bonds. kcs.
  - apply kc_bonds. kcs.
Qed.
Lemma step_bonds cr s o : Inv c s -> forall k,
  bond_of (step c cr s o) k = bond_of s k \/ bond_change s o k (bond_of s k) (bond_of (step c cr s o) k).
Proof.
  intros H k. pose proof (step_ok c Hc cr s o H) as H'. rewrite <- (lock_bond s k H), <- (lock_bond _ k H').
  unfold step, exec, dispatch. pose proof (body_bonds cr o s H) as Hb. unfold post in Hb. destruct (body c cr o s) as [s1 [[]|e]]; [apply Hb|]. by left.
Qed.
End bonds.
