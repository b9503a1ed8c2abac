(** Leaving with all nominations; candidates; selection: the invariant is kept and nothing panics. *)
From Verif Require Import Base BaseLemmas CodecModel SigModel StakeModel StakeSpec StakeBook StakeCross StakeInv StakeOps StakeNom StakeLeave.

Section exit.
Variable c : config.
Hypothesis Hc : config_ok c.

(** ** A nominator leaves *)
Definition vs (s : st) (NN : gmap N nominator) (R : gmap N (list req)) (L : gmap N N) : st :=
  s <| s_nominators := NN |> <| s_reqs := R |> <| s_nom_lock := L |>.
Definition stored (k : N) (old new : book) (s : st) : st :=
  s <| s_cands := <[k := bk new]> (s_cands s) |> <| s_top := <[k := bt new]> (s_top s) |> <| s_bot := <[k := bb new]> (s_bot s) |>
    <| s_pool := if negb (k_counted (bk old) =? k_counted (bk new)) && is_active (bk new) then <[k := k_counted (bk new)]> (s_pool s) else s_pool s |>.
Lemma leaves_eq s k w a x t b new : s_cands s !! k = Some x -> s_top s !! k = Some t -> s_bot s !! k = Some b ->
  rm_nomination_if_exists c w a (mkBook x t b) = Ok new ->
  nominator_leaves_candidate c k w a s = (stored k (mkBook x t b) new (s <| s_total := saturating_sub (s_total s) a |>), Ok tt).
Proof.
  intros Hx Ht Hb Hr. unfold nominator_leaves_candidate, load, mbind_, get_st. cbn. rewrite Hx, Ht, Hb. cbn. rewrite Hr. cbn.
  unfold store, stored, modify, mbind_. cbn. destruct (_ && _); cbn; done.
Qed.
Lemma cross_reqs_ext E NN R R' L : cross c E NN R L -> (forall k, mget [] k R' = mget [] k R) -> cross c E NN R' L.
Proof.
  intros [H1 H2 H3 H4 H5] HR. assert (HP : forall k w, pend R' k w = pend R k w) by (intros; unfold pend; by rewrite HR).
  constructor; try done.
  - intros w m Hm. destruct (H2 w m Hm) as (? & ? & ? & ? & Hl). split; [done|]. split; [done|]. split; [done|]. split; [done|].
    rewrite Hl. apply msum_ext. intros. by rewrite HP.
  - intros k w r. rewrite HP. apply H4.
  - intros k. rewrite HR. apply H5.
Qed.
Lemma inv_reqs_ext s R' : Inv c s -> (forall k, mget [] k R' = mget [] k (s_reqs s)) -> Inv c (s <| s_reqs := R' |>).
Proof.
  intros H HR. eapply (inv_noms c s); try done; cbn.
  - apply (i_min _ _ H).
  - eapply cross_reqs_ext; [apply (i_cross _ _ H)|done].
  - intros w m Hm. by eapply nom_facts.
  - apply (i_total _ _ H).
Qed.
Definition drops (w : N) (l : list N) (R : gmap N (list req)) : gmap N (list req) := fold_left (fun R k => drop_req k w R) l R.
Lemma drop_req_ne k w k' R : k' <> k -> mget [] k' (drop_req k w R) = mget [] k' R.
Proof. intros Hne. unfold drop_req. destruct (take_req _ _) as [[r l]|]; [|done]. by rewrite mget_insert_reqs, decide_False. Qed.
Lemma drop_req_eq k w R : mget [] k (drop_req k w R) = match take_req (of_nominator w) (mget [] k R) with Some (_, l) => l | None => mget [] k R end.
Proof. unfold drop_req. destruct (take_req _ _) as [[r l]|]; [|done]. by rewrite mget_insert_reqs, decide_True. Qed.
Lemma drops_get w l R k : NoDup l -> mget [] k (drops w l R) =
  if decide (k ∈ l) then match take_req (of_nominator w) (mget [] k R) with Some (_, l) => l | None => mget [] k R end else mget [] k R.
Proof.
  revert R. induction l as [|x l IH]; intros R Hnd; cbn; [rewrite decide_False; [done | apply not_elem_of_nil]|].
  apply NoDup_cons in Hnd as [Hx Hnd]. fold (drops w l (drop_req x w R)). rewrite IH by done. destruct (N.eq_dec k x) as [->|Hne].
  - rewrite decide_False by done. rewrite decide_True by left. apply drop_req_eq.
  - rewrite drop_req_ne by done. destruct (decide (k ∈ l)); [by rewrite decide_True by (by right)|].
    rewrite decide_False; [done|]. rewrite elem_of_cons. naive_solver.
Qed.

Lemma leave_loop_ok w l : forall s NN R L m, Inv c (vs s NN R L) -> NN !! w = Some m -> NoDup (map fst l) ->
  (forall k a, (k, a) ∈ l <-> m_noms m !! k = Some a) ->
  exists s', leave_loop c w l s = (s', Ok tt) /\ s_nominators s' = s_nominators s /\ s_reqs s' = s_reqs s /\ s_nom_lock s' = s_nom_lock s /\
    Inv c (vs s' (delete w NN) (drops w (map fst l) R) (delete w L)).
Proof.
  induction l as [|[k a] l IH]; intros s NN R L m H Hm Hnd Hl.
  { exfalso. destruct (cr_nom _ _ _ _ _ (i_cross _ _ H) w m Hm) as (Hne & _). apply map_choose in Hne as (k & a & Ha).
    apply Hl in Ha. by apply elem_of_nil in Ha. }
  cbn [map fst] in Hnd. apply NoDup_cons in Hnd as [Hk Hnd].
  assert (Ha : m_noms m !! k = Some a) by (apply Hl; left).
  destruct (nom_cand c (vs s NN R L) w m k a H Hm Ha) as (x & t & b & Hx & Ht & Hb & Hok & Hin & _ & HE & Hea & Hfit & Hmin & Hat & Hw & Hkw).
  cbn in Hx, Ht, Hb.
  destruct (rm_nomination_ok c Hc w a (mkBook x t b) Hok Hfit Hin) as (new & Hnew & Hok' & Hmeta & HP).
  cbn [leave_loop]. unfold mbind_. rewrite (leaves_eq s k w a x t b new Hx Ht Hb Hnew).
  set (s1 := stored k (mkBook x t b) new (s <| s_total := saturating_sub (s_total s) a |>)).
  assert (H1 : Inv c (vs s1 (drop_nom k w a (pend R k w) NN) (drop_req k w R) (drop_lock w (m_total m - a) L))).
  { by eapply (inv_remove c Hc (vs s NN R L) _ k w a m x t b new H). }
  destruct (cross_remove c Hc _ _ _ _ k w a m (i_cross _ _ H) Hm Hea) as (Hcr & _ & _ & _ & _ & _ & _ & Hz & _). cbn in Hcr.
  unfold drop_nom in H1. rewrite Hm in H1.
  destruct (decide (delete k (m_noms m) = ∅)) as [Hd|Hd].
  - assert (l = []) as ->.
    { destruct l as [|[k2 a2] l]; [done|]. exfalso. assert (Ha2 : m_noms m !! k2 = Some a2) by (apply Hl; right; left).
      assert (Hx2 : delete k (m_noms m) !! k2 = Some a2). { rewrite lookup_delete_ne; [done|]. intros ->. apply Hk. cbn. left. }
      rewrite Hd, lookup_empty in Hx2. done. }
    exists s1. split; [done|]. split; [done|]. split; [done|]. split; [done|]. cbn.
    unfold drop_lock in H1. rewrite (proj2 Hz Hd), N.eqb_refl in H1. exact H1.
  - unfold drop_lock in H1. rewrite (proj2 (N.eqb_neq _ _)) in H1 by naive_solver.
    destruct (IH s1 _ _ _ _ H1 (lookup_insert _ _ _) Hnd) as (s' & Hr & E1 & E2 & E3 & HI).
    + intros k2 a2. cbn. rewrite lookup_delete_Some, <- Hl, elem_of_cons. split.
      * intros Hin2. split; [|by right]. intros ->. apply Hk. apply elem_of_list_fmap. by exists (k2, a2).
      * intros [Hne [Hin2|Hin2]]; [congruence|done].
    + exists s'. split; [exact Hr|]. split; [by rewrite E1|]. split; [by rewrite E2|]. split; [by rewrite E3|].
      rewrite !delete_insert_delete in HI. exact HI.
Qed.

Lemma execute_revoke_all_ok s w hint : Inv c s -> wp (execute_revoke_all c w hint) (fun _ s' => Inv c s') s.
Proof.
  intros H. pose proof (i_cross _ _ H) as Hcr. unfold execute_revoke_all. wp1. wp1. wp1. wp1. wp1. wp1. wp1. wp1. wp1. rename a into m, Hsome into Hm.
  destruct (leave_loop_ok w (nom_list m) s (s_nominators s) (s_reqs s) (s_nom_lock s) m) as (s' & Hr & E1 & E2 & E3 & HI).
  - by destruct s.
  - done.
  - rewrite nom_list_fst. apply keys_nodup.
  - apply nom_list_elem.
  - unfold wp at 1. rewrite Hr. unfold set_nom_lock, write_reqs, del_nominator. wps. cbn.
    rewrite E1, E2, E3. rewrite nom_list_fst in HI.
    eapply (inv_reqs_ext _ (fold_left _ _ _)) in HI; [exact HI|].
    intros k. cbn [s_reqs vs set]. rewrite drops_get by apply keys_nodup.
    rewrite forallb_forall in Hens0.
    assert (Htk : forall k, k ∈ keys (m_noms m) -> take_req (revoke_of w) (reqs_of s k) = take_req (of_nominator w) (reqs_of s k)).
    { intros k' Hk'. apply elem_of_list_In in Hk'. specialize (Hens0 k' Hk'). destruct (reqs_facts c s k' H) as [Hnd _].
      rewrite (revoke_take w _ Hnd) in *. destruct (take_req (of_nominator w) (reqs_of s k')) as [[r l]|]; [|done].
      destruct (is_revoke (r_action r)); [done|done]. }
    assert (Hgen : forall l R, NoDup l -> mget [] k (fold_left (fun acc x => <[x.1 := x.2]> acc) (map (fun k0 => (k0, match take_req (revoke_of w) (reqs_of s k0) with Some (_, l) => l | None => reqs_of s k0 end)) l) R)
      = if decide (k ∈ l) then match take_req (revoke_of w) (reqs_of s k) with Some (_, l) => l | None => reqs_of s k end else mget [] k R).
    { clear. induction l as [|y l IH]; intros R Hnd; cbn; [rewrite decide_False; [done | apply not_elem_of_nil]|].
      apply NoDup_cons in Hnd as [Hy Hnd]. rewrite IH by done. destruct (N.eq_dec k y) as [->|Hne].
      - rewrite decide_False by done. rewrite decide_True by left. by rewrite mget_insert_reqs, decide_True.
      - rewrite mget_insert_reqs, (decide_False (P := k = y)) by done. destruct (decide (k ∈ l)); [by rewrite decide_True by (by right)|].
        rewrite decide_False; [done|]. rewrite elem_of_cons. naive_solver. }
    rewrite Hgen by apply keys_nodup. destruct (decide (k ∈ keys (m_noms m))) as [Hk|Hk]; [|done]. rewrite Htk by done. done.
Qed.

End exit.
