(** Calls of nominators keep the invariant and do not panic. *)
From Verif Require Import Base BaseLemmas CodecModel SigModel StakeModel StakeSpec StakeBook StakeCross StakeInv StakeOps.

Section nom.
Variable c : config.
Hypothesis Hc : config_ok c.

(** ** Taking a nomination away *)
Definition drop_req (k w : N) (R : gmap N (list req)) : gmap N (list req) :=
  match take_req (of_nominator w) (mget [] k R) with Some (_, l) => <[k := l]> R | None => R end.
Definition drop_nom (k w a : N) (o : option req) (NN : gmap N nominator) : gmap N nominator :=
  match NN !! w with
  | None => NN
  | Some m => if decide (delete k (m_noms m) = ∅) then delete w NN
              else <[w := mkNominator (delete k (m_noms m)) (m_total m - a) (m_less m - oamt o)]> NN
  end.
Definition drop_lock (w t : N) (L : gmap N N) : gmap N N := if t =? 0 then delete w L else <[w := t]> L.
Definition E_rm (E : N -> N -> option N) (k w : N) : N -> N -> option N :=
  fun k' w' => if (k' =? k) && (w' =? w) then None else E k' w'.

Lemma drop_req_pend k w R : NoDup (map r_who (mget [] k R)) ->
  pend (drop_req k w R) k w = None /\ (forall k' w', (k', w') <> (k, w) -> pend (drop_req k w R) k' w' = pend R k' w') /\
  (forall k', k' <> k -> mget [] k' (drop_req k w R) = mget [] k' R) /\
  NoDup (map r_who (mget [] k (drop_req k w R))) /\ N.of_nat (length (mget [] k (drop_req k w R))) <= N.of_nat (length (mget [] k R)).
Proof.
  intros Hnd. unfold drop_req. destruct (take_req (of_nominator w) (mget [] k R)) as [[r l]|] eqn:Et.
  - destruct (take_req_spec w _ r l Hnd Et) as (Hr & Hf & Hn & Ho & Hnd' & Hl).
    rewrite pend_insert, decide_True by done. split; [done|]. split; [|split; [|split]].
    + intros k' w' Hne. rewrite pend_insert. destruct (decide (k' = k)) as [->|]; [|done]. apply Ho. congruence.
    + intros k' Hne. rewrite mget_insert_reqs, decide_False by done. done.
    + rewrite mget_insert_reqs, decide_True by done. done.
    + rewrite mget_insert_reqs, decide_True by done. lia.
  - apply take_req_none in Et. split; [done|]. split; [done|]. split; [done|]. split; [done|lia].
Qed.

Lemma cross_remove E NN R L k w a m : cross c E NN R L -> NN !! w = Some m -> E k w = Some a ->
  let NN' := drop_nom k w a (pend R k w) NN in
  cross c (E_rm E k w) NN' (drop_req k w R) (drop_lock w (m_total m - a) L) /\
  msum (fun _ m => m_total m) NN' + a = msum (fun _ m => m_total m) NN /\
  (forall w', w' <> w -> NN' !! w' = NN !! w') /\
  (forall w' m', NN' !! w' = Some m' -> exists m0, NN !! w' = Some m0 /\ m_total m' <= m_total m0) /\
  m_noms m !! k = Some a /\ a <= m_total m /\ oamt (pend R k w) <= m_less m /\
  (m_total m - a = 0 <-> delete k (m_noms m) = ∅) /\ (N.of_nat (size (m_noms m)) = 1 <-> delete k (m_noms m) = ∅).
Proof.
  intros H Hm Ha NN'. pose proof (cr_link _ _ _ _ _ H w k) as Hlk. unfold noms_of in Hlk. rewrite Hm, Ha in Hlk. cbn in Hlk.
  destruct (cr_nom _ _ _ _ _ H w m Hm) as (Hne & Hsz & Hmin & Ht & Hl).
  destruct (cr_reqs _ _ _ _ _ H k) as [Hnd Hlen]. destruct (drop_req_pend k w R Hnd) as (Hd1 & Hd2 & Hd3 & Hd4 & Hd5).
  pose proof (msum_delete (fun _ a => a) _ _ _ Hlk) as Hs. cbn in Hs. rewrite <- Ht in Hs.
  pose proof (msum_lookup_le (fun k _ => oamt (pend R k w)) _ _ _ Hlk) as Hg. cbn in Hg. rewrite <- Hl in Hg.
  assert (Hz : m_total m - a = 0 <-> delete k (m_noms m) = ∅).
  { split.
    - intros Hz. destruct (decide (delete k (m_noms m) = ∅)) as [|Hd]; [done|]. exfalso.
      destruct Hc as (_ & _ & _ & Hc4).
      assert (1 <= msum (fun _ a => a) (delete k (m_noms m))); [|lia]. apply msum_pos; [|done].
      intros k' a' Ha'. apply lookup_delete_Some in Ha' as [_ Ha']. specialize (Hmin k' a' Ha'). lia.
    - intros Hd. rewrite Hd, msum_empty in Hs. lia. }
  assert (Hsize : N.of_nat (size (m_noms m)) = 1 <-> delete k (m_noms m) = ∅).
  { pose proof (map_size_delete k (m_noms m)) as Hsd. rewrite Hlk in Hsd. cbn in Hsd.
    assert (size (m_noms m) <> 0%nat). { intros Hx. apply map_size_empty_iff in Hx. done. }
    split.
    - intros Hx. apply map_size_empty_iff. lia.
    - intros Hx. rewrite Hx, map_size_empty in Hsd. lia. }
  assert (HNw : NN' !! w = if decide (delete k (m_noms m) = ∅) then None else Some (mkNominator (delete k (m_noms m)) (m_total m - a) (m_less m - oamt (pend R k w)))).
  { subst NN'. unfold drop_nom. rewrite Hm. destruct (decide _); [apply lookup_delete | apply lookup_insert]. }
  assert (HNo : forall w', w' <> w -> NN' !! w' = NN !! w').
  { intros w' Hw'. subst NN'. unfold drop_nom. rewrite Hm. destruct (decide _); [by apply lookup_delete_ne | by apply lookup_insert_ne]. }
  split; [|split; [|split; [done|split; [|do 2 (split; [lia || done|]); split; [done|split; done]]]]].
  - eapply (cross_pair c E NN R L _ _ _ _ w k None H); rewrite ?Hm; cbn [new_noms].
    + unfold E_rm. by rewrite !N.eqb_refl.
    + intros k' w' Hkw. unfold E_rm. destruct (N.eqb_spec k' k), (N.eqb_spec w' w); cbn; try done. subst. done.
    + intros Hd. rewrite HNw, decide_True by done. done.
    + intros Hd. eexists. rewrite HNw, decide_False by done. split; [done|]. cbn. rewrite Ha, Hd1. cbn. split; [done|]. split; lia.
    + exact HNo.
    + exact Hd2.
    + intros r Hr. rewrite Hd1 in Hr. done.
    + intros k'. destruct (N.eq_dec k' k) as [->|Hk']; [split; [done|lia]|]. rewrite Hd3 by done. apply (cr_reqs _ _ _ _ _ H).
    + rewrite HNw. unfold drop_lock. destruct (decide _) as [Hd|Hd].
      * rewrite (proj2 Hz Hd), N.eqb_refl. by rewrite lookup_delete.
      * rewrite (proj2 (N.eqb_neq _ _)) by naive_solver. by rewrite lookup_insert.
    + intros w' Hw'. unfold drop_lock. destruct (_ =? 0); [by apply lookup_delete_ne | by apply lookup_insert_ne].
    + done.
    + rewrite map_size_delete, Hlk. cbn. lia.
  - subst NN'. unfold drop_nom. rewrite Hm. destruct (decide _) as [Hd|Hd].
    + pose proof (msum_delete (fun _ m => m_total m) _ _ _ Hm) as Hx. cbn in Hx. rewrite Hx. apply Hz in Hd. lia.
    + pose proof (msum_insert (fun _ m => m_total m) NN w (mkNominator (delete k (m_noms m)) (m_total m - a) (m_less m - oamt (pend R k w)))) as Hi.
      rewrite Hm in Hi. cbn in Hi. lia.
  - intros w' m'. destruct (N.eq_dec w' w) as [->|Hw'].
    + rewrite HNw. destruct (decide _); [done|]. intros [= <-]. exists m. cbn. split; [done|lia].
    + rewrite HNo by done. intros E'. by exists m'.
Qed.

(** Any run that removes the nomination of [w] for [k], from nominators, requests and locks only. *)
Definition dropped (k w a : N) (s s' : st) : Prop :=
  exists m, s_nominators s !! w = Some m /\
  s' = s <| s_nominators := drop_nom k w a (pend (s_reqs s) k w) (s_nominators s) |>
         <| s_reqs := drop_req k w (s_reqs s) |> <| s_nom_lock := drop_lock w (m_total m - a) (s_nom_lock s) |>.

Lemma st_eq (s s' : st) : s_cands s = s_cands s' -> s_top s = s_top s' -> s_bot s = s_bot s' -> s_nominators s = s_nominators s' ->
  s_reqs s = s_reqs s' -> s_pool s = s_pool s' -> s_total s = s_total s' -> s_free s = s_free s' -> s_held s = s_held s' ->
  s_col_lock s = s_col_lock s' -> s_nom_lock s = s_nom_lock s' -> s_registered s = s_registered s' -> s_era s = s_era s' ->
  s_era_first s = s_era_first s' -> s_era_length s = s_era_length s' -> s_delay s = s_delay s' -> s_min_col s = s_min_col s' ->
  s_min_nom s = s_min_nom s' -> s_total_selected s = s_total_selected s' -> s_selected s = s_selected s' -> s_snaps s = s_snaps s' ->
  s_block s = s_block s' -> s_nonces s = s_nonces s' -> s = s'.
Proof. destruct s, s'. cbn. intros; by subst. Qed.

Lemma kick_ok E s k w a : cross c E (s_nominators s) (s_reqs s) (s_nom_lock s) -> E k w = Some a ->
  wp (kick k (w, a)) (fun _ s' => dropped k w a s s') s.
Proof.
  intros H Ha. pose proof (cr_link _ _ _ _ _ H w k) as Hlk. unfold noms_of in Hlk. rewrite Ha in Hlk.
  destruct (s_nominators s !! w) as [m|] eqn:Hm; [|done]. cbn in Hlk.
  destruct (cross_remove E _ _ _ k w a m H Hm Ha) as (_ & _ & _ & _ & _ & Hle & Hgl & Hz & Hsz).
  unfold kick. cbn [fst snd]. do 2 wp1. wp1. eapply wp_some; [exact Hm|].
  unfold rm_nomination. rewrite Hlk. cbn [m_noms m_total m_less]. wp1. wp1. unfold set_nom_lock at 1. wp1. wp1.
  cbv beta iota zeta. unfold remove_request, reqs_of. wp1. wp1. wp1. cbn.
  assert (Hdn : drop_nom k w a (pend (s_reqs s) k w) (s_nominators s) =
    if N.of_nat (size (m_noms m)) =? 1 then delete w (s_nominators s)
    else <[w := mkNominator (delete k (m_noms m)) (m_total m - a) (m_less m - oamt (pend (s_reqs s) k w))]> (s_nominators s)).
  { unfold drop_nom. rewrite Hm. destruct (decide _) as [Hd|Hd].
    - by rewrite (proj2 (N.eqb_eq _ _)) by (by apply Hsz).
    - rewrite (proj2 (N.eqb_neq _ _)); [done|]. intros Hx. apply Hd. by apply Hsz. }
  destruct (take_req (of_nominator w) (mget [] k (s_reqs s))) as [[r l]|] eqn:Et.
  - assert (Hp : pend (s_reqs s) k w = Some r) by (unfold pend; by eapply take_req_find).
    unfold set_reqs, del_nominator, set_nominator. wps. destruct (_ =? 1) eqn:E1; wps; exists m; split; try done;
    unfold drop_req; rewrite Et, Hdn, ?Hp; apply st_eq; cbn; try done.
  - assert (Hp : pend (s_reqs s) k w = None) by (by apply take_req_none).
    unfold set_reqs, del_nominator, set_nominator. wps. destruct (_ =? 1) eqn:E1; wps; exists m; split; try done;
    unfold drop_req; rewrite Et, Hdn, ?Hp; apply st_eq; cbn; try done.
    rewrite N.sub_0_r. done.
Qed.
Lemma return_stake_ok E s k w a : cross c E (s_nominators s) (s_reqs s) (s_nom_lock s) -> E k w = Some a ->
  wp (return_stake k (w, a)) (fun _ s' => dropped k w a s s') s.
Proof.
  intros H Ha. pose proof (cr_link _ _ _ _ _ H w k) as Hlk. unfold noms_of in Hlk. rewrite Ha in Hlk.
  destruct (s_nominators s !! w) as [m|] eqn:Hm; [|done]. cbn in Hlk.
  destruct (cross_remove E _ _ _ k w a m H Hm Ha) as (_ & _ & _ & _ & _ & Hle & Hgl & Hz & Hsz).
  unfold return_stake. cbn [fst snd]. do 2 wp1. wp1. eapply wp_some; [exact Hm|].
  unfold rm_nomination. rewrite Hlk. cbn [m_noms m_total m_less]. wp1. wp1. unfold set_nom_lock at 1. wp1. wp1.
  cbv beta iota zeta. unfold remove_request, reqs_of. wp1. wp1. wp1. cbn.
  assert (Hdn : drop_nom k w a (pend (s_reqs s) k w) (s_nominators s) =
    if m_total m - a =? 0 then delete w (s_nominators s)
    else <[w := mkNominator (delete k (m_noms m)) (m_total m - a) (m_less m - oamt (pend (s_reqs s) k w))]> (s_nominators s)).
  { unfold drop_nom. rewrite Hm. destruct (decide _) as [Hd|Hd].
    - by rewrite (proj2 (N.eqb_eq _ _)) by (by apply Hz).
    - rewrite (proj2 (N.eqb_neq _ _)); [done|]. intros Hx. apply Hd. by apply Hz. }
  unfold saturating_sub.
  destruct (take_req (of_nominator w) (mget [] k (s_reqs s))) as [[r l]|] eqn:Et.
  - assert (Hp : pend (s_reqs s) k w = Some r) by (unfold pend; by eapply take_req_find).
    unfold set_reqs, del_nominator, set_nominator, set_nom_lock. wps. destruct (m_total m - a =? 0) eqn:E1; wps; exists m; split; try done;
    unfold drop_req, drop_lock; rewrite Et, Hdn, ?Hp, ?E1; apply st_eq; cbn; rewrite ?E1; try done. by rewrite delete_idemp.
  - assert (Hp : pend (s_reqs s) k w = None) by (by apply take_req_none).
    unfold set_reqs, del_nominator, set_nominator, set_nom_lock. wps. destruct (m_total m - a =? 0) eqn:E1; wps; exists m; split; try done;
    unfold drop_req, drop_lock; rewrite Et, Hdn, ?Hp, ?E1; apply st_eq; cbn; rewrite ?E1; try done; [by rewrite delete_idemp|].
    rewrite N.sub_0_r. done.
Qed.


(** ** Nominating *)
(** The part of a run that only adds the nomination [(w, x)] for [k]. *)
Lemma cross_add E NN R L k w x m' : cross c E NN R L -> E k w = None ->
  let noms := match NN !! w with Some m => m_noms m | None => ∅ end in
  let total := match NN !! w with Some m => m_total m | None => 0 end in
  let less := match NN !! w with Some m => m_less m | None => 0 end in
  m_noms m' = <[k := x]> noms -> m_total m' = total + x -> m_less m' = less -> c_min_per_collator c <= x ->
  N.of_nat (size noms) < c_max_per_nominator c ->
  cross c (fun k' w' => if (k' =? k) && (w' =? w) then Some x else E k' w') (<[w := m']> NN) R (<[w := m_total m']> L).
Proof.
  intros H He noms total less Hn Ht Hl Hx Hs.
  assert (Hp : pend R k w = None).
  { destruct (pend R k w) as [r|] eqn:Er; [|done]. destruct (cr_req _ _ _ _ _ H k w r Er) as (a & Ea & _). congruence. }
  eapply (cross_pair c E NN R L _ _ _ _ w k (Some x) H); fold noms total less; cbn [new_noms].
  - by rewrite !N.eqb_refl.
  - intros k' w' Hkw. destruct (N.eqb_spec k' k), (N.eqb_spec w' w); cbn; try done. subst. done.
  - intros Hd. by apply insert_non_empty in Hd.
  - intros _. exists m'. rewrite lookup_insert, He, Hp. cbn. split; [done|]. split; [done|]. split; lia.
  - intros w' Hw'. by rewrite lookup_insert_ne.
  - done.
  - rewrite Hp. done.
  - apply (cr_reqs _ _ _ _ _ H).
  - by rewrite !lookup_insert.
  - intros w' Hw'. by rewrite lookup_insert_ne.
  - by intros a [= <-].
  - rewrite map_size_insert. destruct (noms !! k); cbn; lia.
Qed.

Lemma call_nominate_ok s w k amount h1 h2 : Inv c s -> wp (call_nominate c w k amount h1 h2) (fun _ s' => Inv c s') s.
Proof.
  intros H. pose proof (i_cross _ _ H) as Hcr. unfold call_nominate. wp1. wp1. wp1. wp1.
  set (noms := match s_nominators s !! w with Some m => m_noms m | None => ∅ end).
  set (total := match s_nominators s !! w with Some m => m_total m | None => 0 end).
  set (less := match s_nominators s !! w with Some m => m_less m | None => 0 end).
  apply wp_bind.
  eapply (wp_mono _ (fun m s1 => s1 = s /\ m_noms m = <[k := amount]> noms /\ m_total m = total + amount /\ m_less m = less /\
     c_min_per_collator c <= amount /\ N.of_nat (size noms) < c_max_per_nominator c /\ noms !! k = None /\ s_cands s !! w = None /\
     staked s + amount <= U128_MAX /\ total + amount <= bal s w)).
  { subst noms total less. destruct (s_nominators s !! w) as [m|] eqn:Em.
    - wps. destruct (m_noms m !! k) eqn:Ek; wps.
      + apply wp_ensure_true.
        * destruct Hc as (_ & _ & Hc3 & _). unfold MAX_NOMINATIONS. lia.
        * wps. cbn. apply N.leb_le in Hens. destruct (nominator_room0 c s w m amount H Em Hens) as (R1 & R2 & R3).
          split; [done|]. split; [done|]. split; [unfold sat, saturating_add; lia|]. split; [done|]. split; [lia|]. split; [lia|].
          split; [done|]. split; [by eapply i_excl|]. split; done.
    - wps. cbn. destruct (s_cands s !! w) eqn:Ew; [done|]. apply N.leb_le in Hens.
      pose proof (i_min _ _ H) as Hmin. destruct Hc as (_ & _ & Hc3 & Hc4).
      destruct (nominator_room c s w amount H Ew ltac:(lia) Hens) as (R1 & R2 & R3). unfold ntotal in *. rewrite Em in *.
      split; [done|]. split; [done|]. split; [done|]. split; [done|]. split; [lia|].
      split; [rewrite map_size_empty; lia|]. split; [apply lookup_empty|]. split; [done|]. split; [done|]. unfold bal. lia. }
  intros m s1 (-> & Hn & Ht & Hl & Hx & Hsz & Hk & Hw & Hroom & Hb).
  assert (He : E_of s k w = None).
  { rewrite <- (cr_link _ _ _ _ _ Hcr). unfold noms_of. subst noms. destruct (s_nominators s !! w); [exact Hk|done]. }
  apply wp_bind. apply (wp_load c s k); [done|]. intros x t b Hcx Hct Hcb Hok. wp1. wp1.
  destruct (inv_book c s k x H Hcx) as (t' & b' & Ht' & Hb' & _ & _ & _ & HE). rewrite Hct in Ht'. rewrite Hcb in Hb'. injection Ht' as <-. injection Hb' as <-.
  set (old := mkBook x t b) in *.
  pose proof (nodup_all c _ Hok) as Hnd.
  assert (Hamt : amount_in w (all_noms old) = None) by (rewrite <- HE; exact He).
  pose proof (lsum_book c s k x t b H Hcx Hct Hcb) as Hls. pose proof (bond_le s k x Hcx) as Hbl.
  unfold staked in Hroom.
  pose proof (add_nomination_ok c Hc (w, amount) old Hok) as Hadd. cbn [fst snd] in Hadd.
  specialize (Hadd (proj1 (amount_in_none _ _) Hamt)). fold old in Hls. change (bk old) with x in Hadd. specialize (Hadd ltac:(lia)).
  wp1. wp1. destruct (add_nomination c (w, amount) old) as [[[new lost] kicked]|e]; [|subst e; discriminate].
  destruct Hadd as (Hok' & Hmeta & Hkick). pose proof (nodup_all c _ Hok') as Hnd'.
  assert (Hst : total = ntotal s w) by done.
  destruct kicked as [[y a]|].
  - destruct Hkick as (-> & Hy & Hlt & HP). cbn [snd] in *. apply wp_bind.
    assert (Hyin : (y, a) ∈ all_noms old) by (unfold all_noms; apply elem_of_app; by right).
    destruct (kicked_amounts w amount y a _ _ HP Hnd' Hnd Hamt Hyin) as (Hyw & Ha1 & Ha2 & Ha3 & Ha4).
    assert (Hey : E_of s k y = Some a) by (by rewrite HE).
    eapply wp_mono; [apply (kick_ok _ s k y a Hcr Hey)|]. intros _ s1 (my & Hmy & ->).
    destruct (cross_remove _ _ _ _ k y a my Hcr Hmy Hey) as (Hcr1 & Hsum1 & Hoth1 & Hle1 & _).
    set (NN1 := drop_nom k y a (pend (s_reqs s) k y) (s_nominators s)) in *.
    set (R1 := drop_req k y (s_reqs s)) in *. set (L1 := drop_lock y (m_total my - a) (s_nom_lock s)) in *.
    pose proof (Hoth1 w ltac:(congruence)) as Hw1.
    unfold lock_more, set_nom_lock, add_total, set_nominator. wps. apply wp_store. wps. cbn.
    assert (Hz : m_total m =? 0 = false). { destruct Hc as (_ & _ & _ & Hc4). lia. } rewrite Hz.
    eapply (inv_store c _ _ k old new H); cbn; try done.
    + eapply cross_ext.
      * eapply (cross_add _ _ _ _ k w amount m Hcr1); rewrite ?Hw1; try done.
        unfold E_rm. rewrite N.eqb_refl, (proj2 (N.eqb_neq _ _)) by congruence. done.
      * intros k' w'. cbn. destruct (N.eqb_spec k' k) as [->|Hk']; cbn; [|unfold E_rm; by rewrite (proj2 (N.eqb_neq k' k))].
        destruct (N.eqb_spec w' w) as [->|Hw']; [done|]. unfold E_rm. rewrite N.eqb_refl. cbn.
        destruct (N.eqb_spec w' y) as [->|Hw'']; [done|]. rewrite HE. by apply Ha4.
    + intros w' m'. destruct (N.eq_dec w' w) as [->|Hw'].
      * rewrite lookup_insert. intros [= <-]. rewrite Ht. done.
      * rewrite lookup_insert_ne by done. intros Em'. destruct (Hle1 _ _ Em') as (m0 & Em0 & Hle).
        destruct (nom_facts c s w' m0 H Em0) as [F1 F2]. split; [done|lia].
    + pose proof (msum_insert (fun _ m => m_total m) NN1 w m) as Hi. rewrite Hw1 in Hi. cbn in Hi.
      pose proof (i_total _ _ H) as Htot. unfold staked in Htot. unfold sat, saturating_add, saturating_sub.
      subst total. destruct (s_nominators s !! w); cbn in Hi; lia.
  - destruct Hkick as (-> & HP). wp1. wp1.
    destruct (added_amounts w amount _ _ HP Hnd' Hnd Hamt) as (Ha1 & Ha2).
    unfold lock_more, set_nom_lock, add_total, set_nominator. wps. apply wp_store. wps. cbn.
    assert (Hz : m_total m =? 0 = false). { destruct Hc as (_ & _ & _ & Hc4). lia. } rewrite Hz.
    eapply (inv_store c _ _ k old new H); cbn; try done.
    + eapply cross_ext.
      * by eapply (cross_add _ _ _ _ k w amount m Hcr).
      * intros k' w'. cbn. destruct (N.eqb_spec k' k) as [->|Hk']; cbn; [|done].
        destruct (N.eqb_spec w' w) as [->|Hw']; [done|]. rewrite HE. by apply Ha2.
    + intros w' m'. destruct (N.eq_dec w' w) as [->|Hw'].
      * rewrite lookup_insert. intros [= <-]. rewrite Ht. done.
      * rewrite lookup_insert_ne by done. intros Em2; by eapply (nom_facts c).
    + pose proof (msum_insert (fun _ m => m_total m) (s_nominators s) w m) as Hi.
      pose proof (i_total _ _ H) as Htot. unfold staked in Htot. unfold sat, saturating_add, saturating_sub.
      subst total. destruct (s_nominators s !! w); cbn in Hi; lia.
Qed.


(** ** Changing a nomination *)
Lemma cross_change E NN R L k w a a' m m' R' : cross c E NN R L -> NN !! w = Some m -> E k w = Some a -> c_min_per_collator c <= a' ->
  m_noms m' = <[k := a']> (m_noms m) -> m_total m' + a = m_total m + a' -> m_less m' + oamt (pend R k w) = m_less m + oamt (pend R' k w) ->
  (forall k' w', (k', w') <> (k, w) -> pend R' k' w' = pend R k' w') -> (forall r, pend R' k w = Some r -> act_ok c a' (r_action r)) ->
  (forall k', NoDup (map r_who (mget [] k' R')) /\ N.of_nat (length (mget [] k' R')) <= c_max_per_nominator c) ->
  cross c (fun k' w' => if (k' =? k) && (w' =? w) then Some a' else E k' w') (<[w := m']> NN) R' (<[w := m_total m']> L).
Proof.
  intros H Hm Ha Hmin Hn Ht Hl HR1 HR2 HR3.
  pose proof (cr_link _ _ _ _ _ H w k) as Hlk. unfold noms_of in Hlk. rewrite Hm, Ha in Hlk. cbn in Hlk.
  destruct (cr_nom _ _ _ _ _ H w m Hm) as (_ & Hsz & _).
  eapply (cross_pair c E NN R L _ _ _ _ w k (Some a') H); rewrite ?Hm; cbn [new_noms].
  - by rewrite !N.eqb_refl.
  - intros k' w' Hkw. destruct (N.eqb_spec k' k), (N.eqb_spec w' w); cbn; try done. subst. done.
  - intros Hd. by apply insert_non_empty in Hd.
  - intros _. exists m'. rewrite lookup_insert, Ha. cbn. done.
  - intros w' Hw'. by rewrite lookup_insert_ne.
  - done.
  - intros r Hr. exists a'. split; [done|]. by apply HR2.
  - exact HR3.
  - by rewrite !lookup_insert.
  - intros w' Hw'. by rewrite lookup_insert_ne.
  - by intros x [= <-].
  - rewrite map_size_insert, Hlk. cbn. done.
Qed.

Lemma nom_cand s w m k a : Inv c s -> s_nominators s !! w = Some m -> m_noms m !! k = Some a ->
  exists x t b, s_cands s !! k = Some x /\ s_top s !! k = Some t /\ s_bot s !! k = Some b /\ book_ok c (mkBook x t b) /\
    (w, a) ∈ all_noms (mkBook x t b) /\ NoDup (map fst (all_noms (mkBook x t b))) /\ (forall w, E_of s k w = amount_in w (all_noms (mkBook x t b))) /\
    E_of s k w = Some a /\ k_bond x + lsum (all_noms (mkBook x t b)) <= U128_MAX /\ c_min_per_collator c <= a /\ a <= m_total m /\
    s_cands s !! w = None /\ k <> w.
Proof.
  intros H Hm Ha. destruct (inv_nomination c s w m k a H Hm Ha) as (x & t & b & Hx & Ht & Hb & Hok & Hin).
  exists x, t, b. do 5 (split; [done|]). pose proof (nodup_all c _ Hok) as Hnd. split; [done|].
  destruct (inv_book c s k x H Hx) as (t' & b' & Ht' & Hb' & _ & _ & _ & HE). rewrite Ht in Ht'. rewrite Hb in Hb'. injection Ht' as <-. injection Hb' as <-.
  split; [done|]. split. { rewrite HE. by apply (amount_in_elem _ _ _ Hnd). }
  split; [by eapply book_fits|].
  pose proof (i_cross _ _ H) as Hcr. destruct (cr_nom _ _ _ _ _ Hcr w m Hm) as (_ & _ & Hmin & _).
  split; [by eapply Hmin|]. split; [by eapply nom_le_total|]. pose proof (i_excl _ _ H w m Hm) as Hw. split; [done|]. congruence.
Qed.

Lemma wp_load_eq s k x t b (Q : book -> st -> Prop) : s_cands s !! k = Some x -> s_top s !! k = Some t -> s_bot s !! k = Some b ->
  Q (mkBook x t b) s -> wp (load k) Q s.
Proof.
  intros Hx Ht Hb HQ. unfold load. wp1. wp1. wp1. eapply wp_some; [exact Hx|]. wp1. eapply wp_some; [exact Ht|]. wp1. eapply wp_some; [exact Hb|]. by wp1.
Qed.
(** What a change of the amount of one nomination does to the whole state. *)
Lemma inv_change s s' k w a a' m m' x t b new :
  Inv c s -> s_nominators s !! w = Some m -> m_noms m !! k = Some a ->
  s_cands s !! k = Some x -> s_top s !! k = Some t -> s_bot s !! k = Some b ->
  book_ok c new -> same_meta (mkBook x t b) new -> (w, a) :: all_noms new ≡ₚ (w, a') :: all_noms (mkBook x t b) ->
  c_min_per_collator c <= a' -> m_noms m' = <[k := a']> (m_noms m) -> m_total m' + a = m_total m + a' -> m_total m' <= bal s w ->
  m_less m' + oamt (pend (s_reqs s) k w) = m_less m + oamt (pend (s_reqs s') k w) ->
  (forall k' w', (k', w') <> (k, w) -> pend (s_reqs s') k' w' = pend (s_reqs s) k' w') ->
  (forall r, pend (s_reqs s') k w = Some r -> act_ok c a' (r_action r)) ->
  (forall k', NoDup (map r_who (mget [] k' (s_reqs s'))) /\ N.of_nat (length (mget [] k' (s_reqs s'))) <= c_max_per_nominator c) ->
  s_cands s' = <[k := bk new]> (s_cands s) -> s_top s' = <[k := bt new]> (s_top s) -> s_bot s' = <[k := bb new]> (s_bot s) ->
  s_pool s' = (if negb (k_counted x =? k_counted (bk new)) && is_active (bk new) then <[k := k_counted (bk new)]> (s_pool s) else s_pool s) ->
  s_col_lock s' = s_col_lock s -> s_free s' = s_free s -> s_held s' = s_held s -> s_min_nom s' = s_min_nom s -> era_part s' = era_part s ->
  s_nominators s' = <[w := m']> (s_nominators s) -> s_nom_lock s' = <[w := m_total m']> (s_nom_lock s) ->
  s_total s' + a <= s_total s + a' \/ s_total s' = 0 -> Inv c s'.
Proof.
  intros H Hm Ha Hx Ht Hb Hok Hmeta HP Hmin Hn Hto Hbal Hl HR1 HR2 HR3 E1 E2 E3 E4 E5 E6 E7 E8 E9 E10 E11 Htot.
  destruct (nom_cand s w m k a H Hm Ha) as (x' & t' & b' & Hx' & Ht' & Hb' & Hok0 & Hin & Hnd & HE & Hea & _).
  rewrite Hx in Hx'. rewrite Ht in Ht'. rewrite Hb in Hb'. injection Hx' as <-. injection Ht' as <-. injection Hb' as <-.
  pose proof (nodup_all c _ Hok) as Hnd'.
  destruct (changed_amounts w a a' _ _ HP Hnd Hnd' Hin) as (Ha1 & Ha2).
  eapply (inv_store c s s' k (mkBook x t b) new H); try done.
  - rewrite E10, E11. eapply cross_ext; [by eapply (cross_change _ _ _ _ k w a a' m m' _ (i_cross _ _ H))|].
    intros k' w'. cbn. destruct (N.eqb_spec k' k) as [->|Hk']; cbn; [|done].
    destruct (N.eqb_spec w' w) as [->|Hw']; [done|]. rewrite HE. by apply Ha2.
  - intros w' m2. rewrite E10. destruct (N.eq_dec w' w) as [->|Hw'].
    + rewrite lookup_insert. intros [= <-]. split; [by eapply i_excl|done].
    + rewrite lookup_insert_ne by done. intros Em2. by eapply (nom_facts c).
  - rewrite E10. pose proof (msum_insert (fun _ m => m_total m) (s_nominators s) w m') as Hi. rewrite Hm in Hi. cbn in Hi.
    pose proof (i_total _ _ H) as Hto2. unfold staked in Hto2. lia.
Qed.

Lemma call_bond_extra_ok s w k more : Inv c s -> wp (call_bond_extra c w k more) (fun _ s' => Inv c s') s.
Proof.
  intros H. pose proof (i_cross _ _ H) as Hcr. unfold call_bond_extra. wp1. wp1. wp1. wp1. wp1. wp1. wp1. wp1.
  rename a into m, a0 into a, Hsome into Hm, Hsome0 into Ha.
  destruct (nom_cand s w m k a H Hm Ha) as (x & t & b & Hx & Ht & Hb & Hok & Hin & Hnd & HE & Hea & Hfit & Hmin & Hat & Hw & Hkw).
  unfold lock_more, set_nom_lock. cbn [m_total m_noms]. wp1. wp1. wp1. wp1. wp1. wp1. wp1. wp1.
  apply N.leb_le in Hens0. destruct (nominator_room0 c s w m more H Hm Hens0) as (R1 & R2 & R3).
  pose proof (lsum_book c s k x t b H Hx Ht Hb) as Hls. pose proof (bond_le s k x Hx) as Hbl. unfold staked in R1.
  assert (Hsat : sat (m_total m) more = m_total m + more) by (unfold sat, saturating_add; lia).
  assert (Hsat2 : sat a more = a + more) by (unfold sat, saturating_add; lia).
  destruct Hc as (_ & _ & _ & Hc4). cbn. rewrite Hsat, Hsat2.
  assert (Hz : m_total m + more =? 0 = false) by lia. rewrite Hz.
  wp1. apply (wp_load_eq _ k x t b); [done..|]. wps.
  destruct (increase_ok c Hc w a more (mkBook x t b) Hok Hin ltac:(cbn; lia)) as (new & -> & Hok' & Hmeta & HP).
  wp1. apply wp_store. unfold add_total, set_nominator. wps.
  eapply (inv_change s _ k w a (a + more) m (m <| m_noms := <[k := a + more]> (m_noms m) |> <| m_total := m_total m + more |>)); try done.
  - lia.
  - cbn. lia.
  - cbn. intros r Hr. destruct (cr_req _ _ _ _ _ Hcr k w r Hr) as (a2 & Ea2 & Hact). rewrite Hea in Ea2. injection Ea2 as <-.
    unfold revoke_exists in Hens. rewrite exists_find in Hens. destruct (r_action r) as [y|y] eqn:Er; cbn in *; [|lia].
    exfalso. destruct (find (revoke_of w) (reqs_of s k)) eqn:Ef; [done|].
    apply find_some in Hr as [Hr1 Hr2]. pose proof (find_none _ _ Ef r Hr1) as Hx2. unfold revoke_of in Hx2. unfold of_nominator in Hr2.
    by rewrite Hr2, Er in Hx2.
  - apply (cr_reqs _ _ _ _ _ Hcr).
  - left. cbn. unfold sat, saturating_add. lia.
Qed.

End nom.