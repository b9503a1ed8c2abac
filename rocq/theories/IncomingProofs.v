(** Proofs about the incoming bridge: processing of partitions, invariants of histories. *)
From Verif Require Import Base BaseLemmas AvnModel IncomingModel IncomingSpec.

Lemma run_app c verify s l1 l2 : run c verify s (l1 ++ l2) = run c verify (run c verify s l1) l2.
Proof. apply fold_left_app. Qed.
Lemma run_snoc c verify s l o : run c verify s (l ++ [o]) = step c verify (run c verify s l) o.
Proof. rewrite run_app. reflexivity. Qed.
Lemma happened_app c verify s0 ops l P : happened c verify s0 ops P -> happened c verify s0 (ops ++ l) P.
Proof.
  intros (q & o & r & -> & HP). exists q, o, (r ++ l). split; [|done].
  rewrite <- app_assoc. reflexivity.
Qed.
Lemma happened_last c verify s0 ops o (P : st -> op -> Prop) : P (run c verify s0 ops) o -> happened c verify s0 (ops ++ [o]) P.
Proof. intros HP. exists ops, o, []. done. Qed.

(** What processing a partition leaves alone. *)
Definition frame (s s' : st) : Prop :=
  s_instance s' = s_instance s /\ s_active s' = s_active s /\ s_votes s' = s_votes s /\ s_blocks s' = s_blocks s /\
  s_additional s' = s_additional s /\ s_vs s' = s_vs s.
Lemma frame_refl s : frame s s.
Proof. repeat split. Qed.
Lemma frame_trans a b d : frame a b -> frame b d -> frame a d.
Proof. unfold frame. intuition congruence. Qed.

(** [s'] handled the events [hs] more than [s], each new; their hashes are recorded. *)
Definition recorded (s : st) (tx : N) : Prop := is_Some (s_processed s !! tx).
Definition consistent (s : st) : Prop := NoDup (handled_txs s) /\ forall tx, In tx (handled_txs s) -> recorded s tx.

Lemma add_processed_spec c tx sig acc s s' r :
  add_processed c tx sig acc s = (s', r) ->
  frame s s' /\ s_handled s' = s_handled s /\ s_events s' = s_events s /\
  (forall t, recorded s t -> recorded s' t) /\ (forall t, recorded s' t -> recorded s t \/ t = tx) /\
  ((r = Ok tt /\ recorded s' tx) \/ (exists e, r = Err e /\ s' = s)).
Proof.
  unfold add_processed. intros H. cbv [mbind_ get_st ensure some_or modify mret_ fail] in H.
  destruct (already_accepted s tx); cbn in H.
  { injection H as <- <-. split; [apply frame_refl|]. naive_solver. }
  destruct (if c_legacy c sig then Some (c_lifted c) else c_kind c sig) as [k|]; cbn in H.
  - injection H as <- <-. split; [repeat split|]. split; [done|]. split; [done|].
    unfold recorded. cbn. split; [|split; [|left; split; [done|]]].
    + intros t Ht. destruct (decide (t = tx)) as [->|]; [rewrite lookup_insert|rewrite lookup_insert_ne by done]; eauto.
    + intros t Ht. destruct (decide (t = tx)) as [->|]; [by right|]. rewrite lookup_insert_ne in Ht by done. by left.
    + rewrite lookup_insert. eauto.
  - injection H as <- <-. split; [apply frame_refl|]. naive_solver.
Qed.
Lemma add_processed_fresh c tx sig acc s k :
  c_kind c sig = Some k -> ~ recorded s tx -> exists s', add_processed c tx sig acc s = (s', Ok tt).
Proof.
  intros Hk Hn. unfold add_processed, already_accepted. cbv [mbind_ get_st ensure some_or modify mret_ fail].
  destruct (s_processed s !! tx) as [[]|] eqn:E; [exfalso; apply Hn; unfold recorded; rewrite E; eauto|]. cbn.
  rewrite Hk. destruct (c_legacy c sig); cbn; eauto.
Qed.
Lemma add_processed_net_spec c net tx sig acc s s' r :
  add_processed_net c net tx sig acc s = (s', r) ->
  frame s s' /\ s_handled s' = s_handled s /\ s_events s' = s_events s /\
  (forall t, recorded s t -> recorded s' t) /\ (forall t, recorded s' t -> recorded s t \/ t = tx) /\
  ((r = Ok tt /\ recorded s' tx) \/ (exists e, r = Err e /\ s' = s)).
Proof.
  unfold add_processed_net. intros H. cbv [mbind_ get_st ensure] in H.
  destruct (i_valid (s_instance s)); cbv iota beta in H.
  2:{ injection H as <- <-. split; [apply frame_refl|]. naive_solver. }
  destruct (i_network (s_instance s) =? net); cbv iota beta in H.
  2:{ injection H as <- <-. split; [apply frame_refl|]. naive_solver. }
  destruct (add_processed c tx sig acc s) as [s1 r1] eqn:E. apply add_processed_spec in E.
  destruct E as (E1 & E2 & E3 & E4 & E5 & E6).
  destruct r1 as [[]|?]; injection H as <- <-; (do 5 (split; [done|])); destruct E6 as [[Eq ?]|(e1 & Eq & ->)]; try discriminate Eq.
  - by left.
  - right. eauto.
Qed.

Lemma processed_exists_spec s tx : processed_exists s tx = true <-> recorded s tx.
Proof. unfold processed_exists, recorded. apply bool_decide_eq_true. Qed.

(** One event of an accepted partition. *)
Definition handles (s s' : st) (src : source) (l : list eth_event) : Prop :=
  exists hs, s_handled s' = map (fun e => (src, e)) hs ++ s_handled s /\ forall e, In e hs -> In e l.
Definition offence_free (s s' : st) : Prop := exists evs, s_events s' = evs ++ s_events s /\ offenders evs = [].

Lemma offence_free_refl s : offence_free s s.
Proof. exists []. done. Qed.
Lemma offence_free_trans a b d : offence_free a b -> offence_free b d -> offence_free a d.
Proof.
  intros (e1 & H1 & O1) (e2 & H2 & O2). exists (e2 ++ e1). rewrite H2, H1, app_assoc. split; [done|].
  unfold offenders in *. rewrite map_app, concat_app, O1, O2. done.
Qed.

Lemma process_event_spec c net p e s s' r :
  i_valid (s_instance s) = true -> i_network (s_instance s) = net ->
  process_event c net p e s = (s', r) ->
  frame s s' /\ offence_free s s' /\ (forall t, recorded s t -> recorded s' t) /\
  ((exists err, r = Err err /\ s' = s /\ (recorded s (ev_tx e) \/ c_kind c (ev_sig e) = None)) \/
   (r = Ok tt /\ ~ recorded s (ev_tx e) /\ recorded s' (ev_tx e) /\ s_handled s' = (ByPartition p, e) :: s_handled s /\
    (forall t, recorded s' t -> recorded s t \/ t = ev_tx e))).
Proof.
  intros Hv Hn H. unfold process_event in H. cbv [mbind_ get_st ensure] in H.
  unfold processed_exists_net in H. rewrite Hv, Hn, N.eqb_refl in H. cbn [negb orb] in H.
  destruct (processed_exists s (ev_tx e)) eqn:E.
  { cbn in H. injection H as <- <-. apply processed_exists_spec in E.
    split; [apply frame_refl|]. split; [apply offence_free_refl|]. split; [done|]. left. eauto. }
  assert (~ recorded s (ev_tx e)) as Hnr. { rewrite <- processed_exists_spec. congruence. }
  cbn [negb] in H.
  destruct (add_processed_net c net (ev_tx e) (ev_sig e) true s) as [s1 r1] eqn:Ea.
  pose proof Ea as Ea0.
  apply add_processed_net_spec in Ea. destruct Ea as (E1 & E2 & E3 & E4 & E5 & E6).
  destruct E6 as [[-> Hrec]|(err & -> & ->)].
  - cbv [handle] in H.
    destruct (c_handler c (length (s_handled s1)) e); cbn in H; injection H as <- <-.
    all: split; [destruct E1 as (?&?&?&?&?&?); repeat split; assumption|].
    + split; [exists [EventAccepted e]; cbn; rewrite E3; done|]. split; [done|]. right. cbn. rewrite E2. done.
    + split; [exists [EventRejected e "handler"]; cbn; rewrite E3; done|]. split; [done|]. right. cbn. rewrite E2. done.
  - injection H as <- <-. split; [done|]. split; [apply offence_free_refl|]. split; [done|]. left. exists err. repeat split. right.
    destruct (c_kind c (ev_sig e)) eqn:Ek; [exfalso|done].
    destruct (add_processed_fresh c (ev_tx e) (ev_sig e) true s _ Ek Hnr) as [s2 Hs2].
    unfold add_processed_net in Ea0. cbv [mbind_ get_st ensure] in Ea0. rewrite Hv, Hn, N.eqb_refl in Ea0. rewrite Hs2 in Ea0. discriminate.
Qed.

Lemma process_discovered_spec c net a p d s s' r :
  i_valid (s_instance s) = true -> i_network (s_instance s) = net ->
  process_discovered c net a p d s = (s', r) ->
  r = Ok tt /\ frame s s' /\ offence_free s s' /\ (forall t, recorded s t -> recorded s' t) /\
  (consistent s -> consistent s') /\
  handles s s' (ByPartition p) [d_event d] /\
  (forall t, recorded s' t -> recorded s t \/ In t (handled_txs s')) /\
  (forall k, c_kind c (ev_sig (d_event d)) = Some k -> In k (a_filter a) -> d_block d <= end_block (a_range a) -> recorded s' (ev_tx (d_event d))).
Proof.
  intros Hv Hn H. unfold process_discovered in H.
  assert (handles s s (ByPartition p) [d_event d]) as Hid by (exists []; split; [done|intros ? []]).
  destruct (c_kind c (ev_sig (d_event d))) as [k|] eqn:Ek.
  2:{ injection H as <- <-. split; [done|]. split; [apply frame_refl|]. split; [apply offence_free_refl|]. split; [done|]. split; [done|]. split; [done|]. split; [by left|]. intros k [=]. }
  destruct (memN k (a_filter a)) eqn:Em.
  2:{ injection H as <- <-. split; [done|]. split; [apply frame_refl|]. split; [apply offence_free_refl|]. split; [done|]. split; [done|]. split; [done|]. split; [by left|].
      intros k' [= <-] Hi _. apply memN_false in Em. done. }
  destruct (end_block (a_range a) <? d_block d) eqn:Eb.
  { cbn in H. injection H as <- <-. split; [done|]. split; [repeat split|].
    split; [eexists [_]; cbn; split; reflexivity|]. split; [done|]. split; [done|]. split; [done|]. split; [by left|].
    intros _ _ _ Hle. lia. }
  destruct (process_event c net p (d_event d) s) as [s1 r1] eqn:Ep.
  apply process_event_spec in Ep; [|done..]. destruct Ep as (F & O & Mo & [(err & -> & -> & Hr)|(-> & Hnr & Hrec & Hh & Hback)]).
  - cbn in H. injection H as <- <-. split; [done|]. split; [repeat split|].
    split; [eexists [_]; cbn; split; reflexivity|]. split; [done|]. split; [done|]. split; [done|]. split; [by left|].
    intros k' [= <-] _ _. destruct Hr as [Hr|Hr]; [exact Hr|congruence].
  - injection H as <- <-. split; [done|]. split; [done|]. split; [done|]. split; [done|]. split; [|split; [|split]].
    + intros [Hnd Hin]. unfold consistent, handled_txs. rewrite Hh. cbn. split.
      * apply NoDup_cons. split; [|done]. intros Hi%elem_of_list_In. apply Hnr, Hin, Hi.
      * intros tx [<-|Hi]; [done|]. apply Mo, Hin, Hi.
    + exists [d_event d]. rewrite Hh. cbn. split; [done|]. tauto.
    + intros t Ht. unfold handled_txs. rewrite Hh. cbn. destruct (Hback t Ht) as [ | ->]; tauto.
    + done.
Qed.

Lemma process_all_spec c net a p l : forall s s' r,
  i_valid (s_instance s) = true -> i_network (s_instance s) = net ->
  process_all c net a p l s = (s', r) ->
  r = Ok tt /\ frame s s' /\ offence_free s s' /\ (forall t, recorded s t -> recorded s' t) /\
  (consistent s -> consistent s') /\
  handles s s' (ByPartition p) (map d_event l) /\
  (forall t, recorded s' t -> recorded s t \/ In t (handled_txs s')) /\
  (forall d k, In d l -> c_kind c (ev_sig (d_event d)) = Some k -> In k (a_filter a) -> d_block d <= end_block (a_range a) -> recorded s' (ev_tx (d_event d))).
Proof.
  induction l as [|d l IH]; intros s s' r Hv Hn H; cbn [process_all] in H.
  - injection H as <- <-. split; [done|]. split; [apply frame_refl|]. split; [apply offence_free_refl|]. split; [done|]. split; [done|].
    split; [exists []; split; [done|intros ? []]|]. split; [by left|]. intros d k [].
  - unfold mbind_ in H. destruct (process_discovered c net a p d s) as [s1 r1] eqn:E1.
    apply process_discovered_spec in E1; [|done..]. destruct E1 as (-> & F1 & O1 & M1 & C1 & (h1 & Hh1 & Hi1) & B1 & R1).
    assert (i_valid (s_instance s1) = true /\ i_network (s_instance s1) = net) as [Hv1 Hn1].
    { destruct F1 as (-> & _). done. }
    apply IH in H; [|done..]. destruct H as (-> & F2 & O2 & M2 & C2 & (h2 & Hh2 & Hi2) & B2 & R2).
    split; [done|]. split; [by eapply frame_trans|]. split; [by eapply offence_free_trans|]. split; [auto|]. split; [auto|]. split; [|split].
    + exists (h2 ++ h1). rewrite Hh2, Hh1, map_app, app_assoc. split; [done|]. intros e. rewrite in_app_iff. cbn.
      intros [He|He]; [right; by apply Hi2|left; apply Hi1 in He; cbn in He; tauto].
    + intros t Ht. destruct (B2 t Ht) as [Ht1|]; [|by right]. destruct (B1 t Ht1) as [|Hi]; [by left|]. right.
      unfold handled_txs in *. rewrite Hh2, map_app. apply in_app_iff. by right.
    + intros d' k [<-|Hd]; eauto.
Qed.

(** ** What one vote for a partition does *)
Definition advanced (c : config) (a : active_range) (p : partition) (s : st) : active_range :=
  if p_last p then mkActiveRange (next_range (a_range a)) 0 (c_filter c) (s_additional s)
  else mkActiveRange (a_range a) (saturating_add 65535 (a_partition a) 1) (a_filter a) (a_additional a).

Lemma matches_spec p a : matches p a = true <-> p_range p = a_range a /\ p_number p = a_partition a.
Proof. unfold matches. rewrite andb_true_iff, bool_decide_eq_true, N.eqb_eq. done. Qed.

Lemma submit_events_spec c author p s s' r :
  submit_events c author p s = (s', r) -> is_ok r = true ->
  exists a, i_valid (s_instance s) = true /\ s_active s = Some a /\ matches p a = true /\ has_cast_event_vote s author = false /\
    let votes := author :: vget p (s_votes s) in
    ((len votes < avn_quorum (s_vs s) /\ s' = s <| s_votes := vset p votes (s_votes s) |>) \/
     (avn_quorum (s_vs s) <= len votes /\ s_active s' = Some (advanced c a p s) /\ s_votes s' = [] /\
      s_instance s' = s_instance s /\ s_vs s' = s_vs s /\ s_blocks s' = s_blocks s /\
      (forall t, recorded s t -> recorded s' t) /\ (consistent s -> consistent s') /\
      handles s s' (ByPartition p) (map d_event (p_events p)) /\
      (forall t, recorded s' t -> recorded s t \/ In t (handled_txs s')) /\
      (forall d k, In d (p_events p) -> c_kind c (ev_sig (d_event d)) = Some k -> In k (a_filter a) -> d_block d <= end_block (a_range a) -> recorded s' (ev_tx (d_event d))) /\
      exists evs, s_events s' = rev (map (fun e => OffenceReported author e.2) (vdel p (s_votes s))) ++ evs ++ s_events s /\ offenders evs = [])).
Proof.
  unfold submit_events. intros H Hr. cbv [mbind_ get_st ensure some_or mret_ fail] in H.
  destruct (i_valid (s_instance s)) eqn:Ev; [|injection H as <- <-; discriminate].
  destruct (s_active s) as [a|] eqn:Ea; [|injection H as <- <-; discriminate].
  destruct (matches p a) eqn:Em; [|injection H as <- <-; discriminate].
  destruct (has_cast_event_vote s author) eqn:Eh; [injection H as <- <-; discriminate|]. cbn [negb] in H.
  destruct (len (vget p (s_votes s)) <? VOTES_BOUND); [|injection H as <- <-; discriminate].
  exists a. do 4 (split; [done|]). cbv zeta.
  destruct (len (author :: vget p (s_votes s)) <? avn_quorum (s_vs s)) eqn:El.
  { cbv [modify] in H. injection H as <- <-. left. split; [lia|done]. }
  right. split; [lia|].
  unfold process_partition in H. cbv [mbind_] in H. unfold modify at 1 in H.
  set (s1 := s <| s_votes := vdel p (s_votes s) |>) in H.
  destruct (process_all c (i_network (s_instance s)) a p (p_events p) s1) as [s2 r2] eqn:Ep.
  apply process_all_spec in Ep; [|done..]. destruct Ep as (-> & (F1 & F2 & F3 & F4 & F5 & F6) & (evs & O1 & O2) & Mo & Co & Ha & Ba & Re).
  unfold modify in H at 1. unfold advance_partition in H.
  assert (s_active s' = Some (advanced c a p s) /\ s' = s2 <| s_active := s_active s' |> <| s_additional := s_additional s' |>
     <| s_events := rev (map (fun e => OffenceReported author e.2) (s_votes s2)) ++ s_events s2 |> <| s_votes := [] |>) as [HA HS].
  { unfold advanced. destruct (p_last p); unfold modify in H; injection H as <- <-; (split; [cbn; rewrite ?F5|]; reflexivity). }
  clear H. destruct s' as [i1 a1 v1 b1 pr1 ad1 vs1 h1 e1]. cbn in HA. injection HS as -> -> -> -> -> -> ->.
  split; [done|]. split; [done|]. cbn [s_instance s_vs s_blocks s_processed s_handled s_events].
  split; [rewrite F1; done|]. split; [rewrite F6; done|]. split; [rewrite F4; done|].
  split; [exact Mo|]. split; [exact Co|]. split; [exact Ha|]. split; [exact Ba|]. split; [exact Re|].
  exists evs. rewrite F3, O1. done.
Qed.
