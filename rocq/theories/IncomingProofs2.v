(** Proofs about histories of the incoming bridge: votes, processed events, active range. *)
From Verif Require Import Base BaseLemmas AvnModel IncomingModel IncomingSpec IncomingProofs.

(** ** The vote map *)
Definition voters (l : list (partition * list N)) : list N := concat (map snd l).
Lemma voters_split p l : exists rest, voters l ≡ₚ vget p l ++ voters (vdel p l) ++ rest.
Proof.
  unfold voters. induction l as [|[q v] l (rest & IH)]; cbn; [by exists []|].
  destruct (decide (p = q)) as [->|Hn].
  - rewrite bool_decide_eq_true_2 by done. cbn.
    exists (vget q l ++ rest). rewrite IH. apply Permutation_app_head. solve_Permutation.
  - rewrite bool_decide_eq_false_2 by done. cbn. exists rest. rewrite IH. solve_Permutation.
Qed.
Lemma vdel_in p e l : In e (vdel p l) <-> In e l /\ e.1 <> p.
Proof.
  unfold vdel. rewrite filter_In, negb_true_iff, bool_decide_eq_false. intuition congruence.
Qed.
Lemma vget_in p l : vget p l = [] \/ In (p, vget p l) l.
Proof.
  induction l as [|[q v] l IH]; cbn; [by left|]. destruct (decide (p = q)) as [->|]; [right; by left|]. tauto.
Qed.
Lemma vget_in_voters p l a : In a (vget p l) -> In a (voters l).
Proof. destruct (voters_split p l) as (rest & H). rewrite H, in_app_iff. tauto. Qed.
Lemma voters_filter f l : sublist (voters (List.filter f l)) (voters l).
Proof.
  unfold voters. induction l as [|e l IH]; cbn; [constructor|]. destruct (f e); cbn.
  - by apply sublist_app.
  - by apply sublist_inserts_l.
Qed.
Lemma voters_in a l : In a (voters l) <-> exists p v, In (p, v) l /\ In a v.
Proof.
  unfold voters. rewrite in_concat. split.
  - intros (v & Hv & Ha). apply in_map_iff in Hv as ([p v'] & <- & Hi). eauto.
  - intros (p & v & Hi & Ha). exists v. split; [|done]. apply in_map_iff. exists (p, v). done.
Qed.
Lemma has_cast_false s a : has_cast_event_vote s a = false -> ~ In a (voters (s_votes s)).
Proof.
  intros H (p & v & Hi & Ha)%voters_in. unfold has_cast_event_vote in H.
  assert (existsb (fun e => memN a e.2) (s_votes s) = true); [|congruence].
  apply existsb_exists. exists (p, v). split; [done|]. by apply memN_spec.
Qed.
Lemma vclear_filter limit kept l : exists f, vclear limit kept l = List.filter f l.
Proof.
  unfold vclear. destruct (len l <=? limit); [|eauto]. exists (fun _ => false). induction l; cbn; done.
Qed.
Lemma filter_filter_exists {A} (f g : A -> bool) l : exists h, List.filter f (List.filter g l) = List.filter h l.
Proof.
  exists (fun x => g x && f x). induction l as [|x l IH]; cbn; [done|]. destruct (g x); cbn; [|done].
  destruct (f x); cbn; by rewrite IH.
Qed.
Lemma filter_all {A} (l : list A) : List.filter (fun _ => true) l = l.
Proof. induction l; cbn; congruence. Qed.

Lemma sublist_NoDup {A} (l k : list A) : sublist l k -> NoDup k -> NoDup l.
Proof.
  intros Hs Hn. destruct (submseteq_Permutation l k) as [r Hr]; [by apply sublist_submseteq|].
  rewrite Hr in Hn. by apply NoDup_app in Hn as [Hn _].
Qed.

(** ** What one operation does *)
Lemma submit_block_spec c author seen s s' r :
  submit_block c author seen s = (s', r) -> is_ok r = true ->
  exists b, compute_start seen (c_range_size c) = Ok b /\ i_valid (s_instance s) = true /\ s_active s = None /\ has_submitted_block s author = false /\
    let m := <[b := author :: mget [] b (s_blocks s)]> (s_blocks s) in
    ((total_votes (vote_counts m) < avn_supermajority (s_vs s) /\ s' = s <| s_blocks := m |>) \/
     (avn_supermajority (s_vs s) <= total_votes (vote_counts m) /\
      let rg := match select (avn_supermajority (s_vs s)) (avn_quorum (s_vs s)) (vote_counts m) with
                | Some b => mkRange b (c_range_size c) | None => mkRange 0 0 end in
      s' = s <| s_active := Some (mkActiveRange rg 0 (c_filter c) (s_additional s)) |> <| s_additional := [] |> <| s_blocks := ∅ |>)).
Proof.
  unfold submit_block. intros H Hr. cbv [mbind_ get_st ensure some_or mret_ fail lift_res modify] in H.
  destruct (i_valid (s_instance s)) eqn:Ev; [|injection H as <- <-; discriminate].
  destruct (s_active s) as [a|] eqn:Ea; [injection H as <- <-; discriminate|].
  destruct (has_submitted_block s author) eqn:Eh; [injection H as <- <-; discriminate|]. cbn [negb] in H.
  destruct (compute_start seen (c_range_size c)) as [b|e] eqn:Ec; [|injection H as <- <-; discriminate].
  destruct (len (mget [] b (s_blocks s)) <? VOTES_BOUND); [|injection H as <- <-; discriminate].
  exists b. do 4 (split; [done|]). cbv zeta. cbn [s_vs s_blocks] in H.
  match type of H with context [if ?x <=? ?y then _ else _] => destruct (x <=? y) eqn:El end.
  - right. injection H as <- <-. split; [cbn in El; lia|]. destruct s; cbn in *. done.
  - left. injection H as <- <-. split; [cbn in El; lia|]. done.
Qed.

Lemma migrate_in_spec c net l : forall s s' r, migrate_in c net l s = (s', r) ->
  frame s s' /\ s_handled s' = s_handled s /\ offence_free s s' /\ (forall t, recorded s t -> recorded s' t).
Proof.
  induction l as [|[[tx sig] acc] l IH]; intros s s' r H; cbn [migrate_in] in H.
  - injection H as <- <-. split; [apply frame_refl|]. split; [done|]. split; [apply offence_free_refl|done].
  - unfold mbind_ in H. destruct (add_processed_net c net tx sig acc s) as [s1 r1] eqn:E.
    apply add_processed_net_spec in E. destruct E as (F & Hh & He & Mo & _ & _).
    destruct r1 as [u|e]; cbn in H; apply IH in H; destruct H as (F2 & Hh2 & O2 & M2).
    + split; [eapply frame_trans; [exact F|exact F2]|]. split; [rewrite Hh2; exact Hh|]. split.
      * eapply offence_free_trans; [|exact O2]. exists [EventMigrated tx acc]. cbn. rewrite He. done.
      * intros t Ht. apply M2. exact (Mo _ Ht).
    + split; [eapply frame_trans; [exact F|exact F2]|]. split; [rewrite Hh2; exact Hh|]. split; [|auto].
      eapply offence_free_trans; [|exact O2]. exists []. done.
Qed.

Lemma legacy_spec c e ok ch s s' r : legacy_process c e ok ch s = (s', r) ->
  (r <> Ok tt /\ s' = s) \/
  (frame s s' /\ offence_free s s' /\ (forall t, recorded s t -> recorded s' t) /\
  (s_handled s' = s_handled s \/ (~ recorded s (ev_tx e) /\ recorded s' (ev_tx e) /\ ok = true /\ ch = false /\ s_handled s' = (ByLegacyCheck, e) :: s_handled s))).
Proof.
  unfold legacy_process. intros H. cbv [mbind_ get_st some_or mret_ fail] in H.
  destruct (c_kind c (ev_sig e)) as [k|] eqn:Ek; [|injection H as <- <-; by left]. right.
  destruct (processed_exists s (ev_tx e)) eqn:Ep; cbn [negb] in H.
  - rewrite !andb_false_r, orb_false_r in H.
    assert (exists s1, frame s s1 /\ s_handled s1 = s_handled s /\ s_events s1 = s_events s /\ (forall t, recorded s t -> recorded s1 t) /\
       emit (EventRejected e "check") s1 = (s', r)) as (s1 & F & Hh & He & Mo & Hem).
    { destruct ok; cbn [negb] in H.
      - destruct (add_processed c (ev_tx e) (ev_sig e) true s) as [s1 r1] eqn:Ea. apply add_processed_spec in Ea.
        exists s1. tauto.
      - exists s. split; [apply frame_refl|]. done. }
    injection Hem as <- <-. split; [destruct F as (?&?&?&?&?&?); repeat split; assumption|].
    split; [exists [EventRejected e "check"]; cbn; rewrite He; done|]. split; [exact Mo|]. left. exact Hh.
  - assert (~ recorded s (ev_tx e)) as Hnr. { rewrite <- processed_exists_spec. congruence. }
    rewrite !andb_true_r in H. destruct ok; cbn [negb orb andb] in H.
    + destruct ch; cbn [negb] in H.
      * injection H as <- <-. split; [repeat split|]. split; [eexists [_]; cbn; split; reflexivity|]. split; [done|]. by left.
      * destruct (add_processed_fresh c (ev_tx e) (ev_sig e) true s k Ek Hnr) as [s1 Hs1]. rewrite Hs1 in H.
        apply add_processed_spec in Hs1. destruct Hs1 as (F & Hh & He & Mo & _ & [[_ Hrec]|(? & [=] & _)]).
        unfold handle in H.
        destruct (c_handler c (length (s_handled s1)) e); cbn in H; injection H as <- <-.
        all: split; [destruct F as (?&?&?&?&?&?); repeat split; assumption|].
        all: split; [eexists [_]; cbn; rewrite He; split; reflexivity|].
        all: split; [exact Mo|]; right; cbn; rewrite Hh; done.
    + injection H as <- <-. split; [repeat split|]. split; [eexists [_]; cbn; split; reflexivity|]. split; [done|]. by left.
Qed.

(** The effect of an operation on the active range, the votes and the handled events. *)
Inductive effect (c : config) (verify : N -> payload -> N -> bool) (s : st) (o : op) (s' : st) : Prop :=
| EQuiet : s_active s' = s_active s -> (exists f, s_votes s' = List.filter f (s_votes s)) -> s_blocks s' = s_blocks s ->
    ((forall txs, o <> OpMigrateOut txs) -> consistent s -> consistent s') -> 
    (forall p e, In (ByPartition p, e) (s_handled s') -> In (ByPartition p, e) (s_handled s)) ->
    ((forall txs, o <> OpMigrateOut txs) -> forall t, recorded s t -> recorded s' t) ->
    offence_free s s' -> effect c verify s o s'
| EVote a key p sig r : o = OpSubmitEvents (mkValidator a key) p sig -> votes_for verify p a s o ->
    s_active s = Some r -> matches p r = true -> ~ In a (voters (s_votes s)) ->
    len (a :: vget p (s_votes s)) < avn_quorum (s_vs s) ->
    s' = s <| s_votes := vset p (a :: vget p (s_votes s)) (s_votes s) |> -> effect c verify s o s'
| EAccept a key p sig r evs : o = OpSubmitEvents (mkValidator a key) p sig -> votes_for verify p a s o ->
    s_active s = Some r -> matches p r = true -> ~ In a (voters (s_votes s)) ->
    avn_quorum (s_vs s) <= len (a :: vget p (s_votes s)) ->
    s_active s' = Some (advanced c r p s) -> s_votes s' = [] -> s_blocks s' = s_blocks s ->
    s_instance s' = s_instance s -> s_vs s' = s_vs s ->
    (consistent s -> consistent s') -> (forall t, recorded s t -> recorded s' t) ->
    handles s s' (ByPartition p) (map d_event (p_events p)) ->
    (forall t, recorded s' t -> recorded s t \/ In t (handled_txs s')) ->
    (forall d k, In d (p_events p) -> c_kind c (ev_sig (d_event d)) = Some k -> In k (a_filter r) -> d_block d <= end_block (a_range r) -> recorded s' (ev_tx (d_event d))) ->
    s_events s' = rev (map (fun e => OffenceReported a e.2) (vdel p (s_votes s))) ++ evs ++ s_events s -> offenders evs = [] ->
    effect c verify s o s'
| EBlock a key seen sig b : o = OpSubmitBlock (mkValidator a key) seen sig -> reports_block verify a seen s o ->
    compute_start seen (c_range_size c) = Ok b -> s_active s = None -> has_submitted_block s a = false ->
    let m := <[b := a :: mget [] b (s_blocks s)]> (s_blocks s) in
    total_votes (vote_counts m) < avn_supermajority (s_vs s) -> s' = s <| s_blocks := m |> -> effect c verify s o s'
| EStart a key seen sig b : o = OpSubmitBlock (mkValidator a key) seen sig -> reports_block verify a seen s o ->
    compute_start seen (c_range_size c) = Ok b -> s_active s = None -> has_submitted_block s a = false ->
    let m := <[b := a :: mget [] b (s_blocks s)]> (s_blocks s) in
    avn_supermajority (s_vs s) <= total_votes (vote_counts m) ->
    let rg := match select (avn_supermajority (s_vs s)) (avn_quorum (s_vs s)) (vote_counts m) with
              | Some b => mkRange b (c_range_size c) | None => mkRange 0 0 end in
    s' = s <| s_active := Some (mkActiveRange rg 0 (c_filter c) (s_additional s)) |> <| s_additional := [] |> <| s_blocks := ∅ |> ->
    effect c verify s o s'.

Lemma effect_same c verify s o : effect c verify s o s.
Proof.
  apply EQuiet; try done; [exists (fun _ => true); by rewrite filter_all|apply offence_free_refl].
Qed.

Lemma step_effect c verify s o : effect c verify s o (step c verify s o).
Proof.
  unfold step. destruct (valid verify s o) eqn:Hv; [|apply effect_same].
  destruct o as [v p sig|v seen sig|tx|kept|i k1 k2|net l|txs|e ok ch|vs]; cbn [exec].
  - unfold dispatch. destruct (submit_events c (v_account v) p s) as [s1 [u|e]] eqn:E; cbn; [|apply effect_same].
    apply submit_events_spec in E; [|done]. destruct E as (r & Hiv & Ha & Hm & Hc & E). cbv zeta in E.
    apply has_cast_false in Hc.
    destruct v as [a key]. cbn in *. unfold valid in Hv. rewrite !andb_true_iff in Hv. destruct Hv as (((_ & _) & Hva) & Hsig).
    assert (votes_for verify p a s (OpSubmitEvents (mkValidator a key) p sig)) as Hvf by (exists key, sig; done).
    destruct E as [[Hq ->]|(Hq & E1 & E2 & E3 & E4 & E5 & E6 & E7 & E8 & E9 & E9b & evs & E10 & E11)].
    + by eapply EVote.
    + by eapply EAccept.
  - unfold dispatch. destruct (submit_block c (v_account v) seen s) as [s1 [u|e]] eqn:E; cbn; [|apply effect_same].
    apply submit_block_spec in E; [|done]. destruct E as (b & Hcs & Hiv & Ha & Hc & E). cbv zeta in E.
    destruct v as [a key]. cbn in *. rewrite !andb_true_iff in Hv. destruct Hv as ((_ & Hva) & Hsig).
    assert (reports_block verify a seen s (OpSubmitBlock (mkValidator a key) seen sig)) as Hvf by (exists key, sig; done).
    destruct E as [[Hq ->]|[Hq ->]].
    + by eapply EBlock.
    + by eapply EStart.
  - unfold dispatch, queue_additional. cbv [mbind_ get_st ensure modify emit].
    destruct (negb _); cbn; [|apply effect_same]. destruct (_ || _); cbn; [|apply effect_same].
    apply EQuiet; try done; cbn. { exists (fun _ => true). by rewrite filter_all. } eexists [_]. cbn. done.
  - cbn. apply EQuiet; try done; cbn; [apply vclear_filter|]. exists []. done.
  - unfold dispatch, set_instance. cbv [mbind_ ensure modify]. destruct (i_valid i); cbn; [|apply effect_same].
    apply EQuiet; try done; cbn; [|exists []; done].
    destruct (vclear_filter 100 k1 (s_votes s)) as [f ->]. destruct (vclear_filter 1 k2 (List.filter f (s_votes s))) as [g ->].
    apply filter_filter_exists.
  - destruct (migrate_in c net l s) as [s1 r] eqn:E. apply migrate_in_spec in E. destruct E as ((F1 & F2 & F3 & F4 & F5 & F6) & Hh & O & Mo). cbn.
    apply EQuiet; [done| |done| | | |done].
    + exists (fun _ => true). by rewrite filter_all.
    + intros _ [H1 H2]. unfold consistent, handled_txs in *. rewrite Hh. auto.
    + intros p e. by rewrite Hh.
    + auto.
  - cbn. apply EQuiet; [done| |done| |done| |].
    + exists (fun _ => true). by rewrite filter_all.
    + intros H. destruct (H txs). done.
    + intros H. destruct (H txs). done.
    + exists []. done.
  - unfold dispatch. destruct (legacy_process c e ok ch s) as [s1 [u|err]] eqn:E; cbn; [|apply effect_same].
    apply legacy_spec in E. destruct E as [[Hne _]|E]; [destruct u; done|].
    destruct E as ((F1 & F2 & F3 & F4 & F5 & F6) & O & Mo & Hh).
    apply EQuiet; [done| |done| | | |done].
    + exists (fun _ => true). by rewrite filter_all.
    + intros _ [H1 H2]. unfold consistent, handled_txs in *. destruct Hh as [->|(Hn & Hr & _ & _ & ->)]; [auto|]. cbn. split.
      * apply NoDup_cons. split; [|done]. intros Hi%elem_of_list_In. apply Hn, H2, Hi.
      * intros tx [<-|Hi]; auto.
    + intros p e'. destruct Hh as [->|(_ & _ & _ & _ & ->)]; [done|]. intros [[=]|]; done.
    + auto.
  - cbn. apply EQuiet; try done; cbn; [|exists []; done]. exists (fun _ => true). by rewrite filter_all.
Qed.

(** ** Invariants of histories *)
Definition votes_ok (P : partition -> N -> Prop) (s : st) : Prop :=
  NoDup (voters (s_votes s)) /\
  forall p v, In (p, v) (s_votes s) -> (forall a, In a v -> P p a) /\ exists r, s_active s = Some r /\ matches p r = true.

Lemma votes_ok_vget P s p a : votes_ok P s -> In a (vget p (s_votes s)) -> P p a.
Proof.
  intros [_ H] Ha. destruct (vget_in p (s_votes s)) as [E|E]; [rewrite E in Ha; destruct Ha|]. apply H in E. by apply E.
Qed.
Lemma votes_ok_nodup P s p : votes_ok P s -> NoDup (vget p (s_votes s)).
Proof.
  intros [H _]. destruct (voters_split p (s_votes s)) as (rest & E). rewrite E in H. by apply NoDup_app in H as [H _].
Qed.
Lemma votes_ok_vset P s p a r : votes_ok P s -> s_active s = Some r -> matches p r = true -> ~ In a (voters (s_votes s)) -> P p a ->
  votes_ok P (s <| s_votes := vset p (a :: vget p (s_votes s)) (s_votes s) |>).
Proof.
  intros [H1 H2] Ha Hm Hn HP. split; cbn [s_votes set].
  - unfold vset, voters. cbn. fold (voters (vdel p (s_votes s))).
    destruct (voters_split p (s_votes s)) as (rest & E). apply NoDup_cons. split.
    + rewrite elem_of_list_In. intros Hi. apply Hn. rewrite E. rewrite !in_app_iff in *. tauto.
    + rewrite E in H1. rewrite app_assoc in H1. by apply NoDup_app in H1 as [H1 _].
  - intros q v. cbn. intros [[= <- <-]|[Hi Hne]%vdel_in].
    + split; [|eauto]. intros b [<-|Hb]; [done|]. eapply votes_ok_vget; [|done]. done.
    + by apply H2.
Qed.

Definition hist_ok (c : config) (verify : N -> payload -> N -> bool) (s0 : st) (ops : list op) : Prop :=
  votes_ok (fun p a => happened c verify s0 ops (votes_for verify p a)) (run c verify s0 ops).

Lemma hist_ok_run c verify i vs ops : hist_ok c verify (genesis i vs) ops.
Proof.
  induction ops as [|o ops IH] using rev_ind.
  - split; cbn; [constructor|]. intros p v [].
  - unfold hist_ok in *. rewrite run_snoc.
    set (s := run c verify (genesis i vs) ops) in *.
    assert (votes_ok (fun p a => happened c verify (genesis i vs) (ops ++ [o]) (votes_for verify p a)) s) as IH'.
    { destruct IH as [H1 H2]. split; [done|]. intros p v Hi. apply H2 in Hi as [Hi1 Hi2]. split; [|done].
      intros a Ha. apply happened_app. auto. }
    pose proof (step_effect c verify s o) as He. destruct He.
    + destruct H0 as [f Hf]. destruct IH' as [I1 I2]. split.
      * rewrite Hf. eapply sublist_NoDup; [apply voters_filter|done].
      * intros p v. rewrite Hf, filter_In. intros [Hi _]. rewrite H. by apply I2.
    + rewrite H5. eapply votes_ok_vset; try done. by apply happened_last.
    + split; rewrite H6; cbn; [constructor|]. intros ? ? [].
    + rewrite H5. exact IH'.
    + rewrite H5. destruct IH' as [I1 I2]. split; cbn; [exact I1|]. intros p v Hi. apply I2 in Hi as (_ & r & Hr & _). congruence.
Qed.

Lemma consistent_run c verify i vs ops : keeps_records ops -> consistent (run c verify (genesis i vs) ops).
Proof.
  induction ops as [|o ops IH] using rev_ind; intros Hk.
  - split; cbn; [constructor|]. intros ? [].
  - rewrite run_snoc.
    assert (keeps_records ops) as Hk1 by (intros x Hx; apply Hk, in_app_iff; by left).
    assert (forall txs, o <> OpMigrateOut txs) as Ho.
    { intros txs ->. apply (Hk (OpMigrateOut txs)), in_app_iff. right. by left. }
    specialize (IH Hk1). set (s := run c verify (genesis i vs) ops) in *.
    destruct (step_effect c verify s o); auto.
    + rewrite H5. exact IH.
    + rewrite H5. exact IH.
    + rewrite H5. exact IH.
Qed.

(** When the votes of a partition reach the quorum. *)
Lemma accept_quorum c verify i vs ops a key p sig :
  let s := run c verify (genesis i vs) ops in
  let o := OpSubmitEvents (mkValidator a key) p sig in
  votes_for verify p a s o -> ~ In a (voters (s_votes s)) -> avn_quorum (s_vs s) <= len (a :: vget p (s_votes s)) ->
  quorum_voted c verify (genesis i vs) ops o p.
Proof.
  cbv zeta. intros Hvf Hn Hq. exists (a :: vget p (s_votes (run c verify (genesis i vs) ops))).
  pose proof (hist_ok_run c verify i vs ops) as Hok. split; [|split; [exact Hq|]].
  - apply NoDup_cons. split; [|by eapply votes_ok_nodup].
    rewrite elem_of_list_In. intros Hi. apply Hn. by eapply vget_in_voters.
  - intros b [<-|Hb]; [by apply happened_last|]. apply happened_app. by eapply (votes_ok_vget _ _ p b Hok).
Qed.

(** Every event handed over for a partition was handed over by an accepting vote. *)
Lemma handled_partition c verify i vs ops p e :
  In (ByPartition p, e) (s_handled (run c verify (genesis i vs) ops)) ->
  exists q o r, ops = q ++ o :: r /\ In e (map d_event (p_events p)) /\ quorum_voted c verify (genesis i vs) q o p /\
    (exists rg, s_active (run c verify (genesis i vs) q) = Some rg /\ matches p rg = true).
Proof.
  induction ops as [|o ops IH] using rev_ind; [intros []|]. rewrite run_snoc.
  assert (In (ByPartition p, e) (s_handled (run c verify (genesis i vs) ops)) -> 
     exists q o0 r, ops ++ [o] = q ++ o0 :: r /\ In e (map d_event (p_events p)) /\ quorum_voted c verify (genesis i vs) q o0 p /\
    (exists rg, s_active (run c verify (genesis i vs) q) = Some rg /\ matches p rg = true)) as Hold.
  { intros Hi. apply IH in Hi as (q & o0 & r & -> & Hx). exists q, o0, (r ++ [o]). split; [|done]. by rewrite <- app_assoc. }
  set (s := run c verify (genesis i vs) ops) in *.
  intros Hi. destruct (step_effect c verify s o).
  + apply Hold. by apply H3.
  + apply Hold. rewrite H5 in Hi. exact Hi.
  + destruct H12 as (hs & Hh & Hin). rewrite Hh, in_app_iff in Hi. destruct Hi as [Hi|Hi]; [|by apply Hold].
    apply in_map_iff in Hi as (e' & [= -> ->] & Hi). exists ops, o, []. split; [done|]. split; [by apply Hin|]. split; [|eauto].
    subst o. by apply accept_quorum.
  + apply Hold. rewrite H5 in Hi. exact Hi.
  + apply Hold. rewrite H5 in Hi. exact Hi.
Qed.
