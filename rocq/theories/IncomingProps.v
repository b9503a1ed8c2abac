(** Properties C08, C15, C16, C17, C36: events coming in from Ethereum. *)
From Verif Require Import Base BaseLemmas AvnModel IncomingModel IncomingSpec IncomingProofs IncomingProofs2 IncomingProofs3.

(** ** A concrete history: four validators (quorum 2, supermajority 2), range size 20. *)
Module Example.
  Definition cfg : config := mkConfig (fun s => if s <? 10 then Some s else None) (fun _ => false) 1 [1; 2] 20 (fun _ _ => true).
  Definition ok (_ : N) (_ : payload) (_ : N) : bool := true.
  Definition v (n : N) := mkValidator n (100 + n).
  Definition s0 : st := genesis (mkInstance 1 77 true) [v 1; v 2; v 3; v 4].
  Definition lift := mkEvent 5001 1 9.
  Definition good : partition := mkPart (mkRange 80 20) 0 true [mkDisc lift 85].
  Definition bad : partition := mkPart (mkRange 80 20) 0 true [mkDisc (mkEvent 666 1 9) 85].
  Definition start : list op := [OpSubmitBlock (v 1) 185 0; OpSubmitBlock (v 2) 240 0].
  Definition ops : list op := start ++ [OpSubmitEvents (v 3) bad 0; OpSubmitEvents (v 1) good 0; OpSubmitEvents (v 2) good 0].
  Definition s := run cfg ok s0 ops.
  (** The range 80..99 was chosen, the event was handed over, validator 3 was reported and the next range is active. *)
  Goal s_active (run cfg ok s0 start) = Some (mkActiveRange (mkRange 80 20) 0 [1; 2] []).
  Proof. vm_compute. reflexivity. Qed.
  Goal s_handled s = [(ByPartition good, lift)] /\ s_active s = Some (mkActiveRange (mkRange 100 20) 0 [1; 2] []) /\
    s_events s = [OffenceReported 2 [3]; EventAccepted lift].
  Proof. vm_compute. auto. Qed.
End Example.

(** ** C08: an Ethereum transaction is handed to the event handlers at most once. *)
Theorem C08_handled_at_most_once c verify i vs ops :
  keeps_records ops -> NoDup (handled_txs (run c verify (genesis i vs) ops)).
Proof. intros H. exact (proj1 (consistent_run c verify i vs ops H)). Qed.
(** And once handed over it stays on record. *)
Theorem C08_handled_is_recorded c verify i vs ops src e :
  keeps_records ops -> In (src, e) (s_handled (run c verify (genesis i vs) ops)) ->
  is_Some (s_processed (run c verify (genesis i vs) ops) !! ev_tx e).
Proof.
  intros Hk Hi. apply (proj2 (consistent_run c verify i vs ops Hk)). unfold handled_txs.
  change (ev_tx e) with ((fun h : source * eth_event => ev_tx h.2) (src, e)). by apply in_map.
Qed.
(** It is handed over only when a quorum of distinct validators voted for one partition, of the range and
    number then active, that contains it. *)
Theorem C08_only_by_quorum c verify i vs ops p e :
  In (ByPartition p, e) (s_handled (run c verify (genesis i vs) ops)) ->
  (exists d, In d (p_events p) /\ d_event d = e) /\
  exists q o r, ops = q ++ o :: r /\ quorum_voted c verify (genesis i vs) q o p /\
    exists a, s_active (run c verify (genesis i vs) q) = Some a /\ p_range p = a_range a /\ p_number p = a_partition a.
Proof.
  intros Hi. destruct (handled_partition c verify i vs ops p e Hi) as (q & o & r & E & Hin & Hq & a & Ha & Hm).
  split; [apply in_map_iff in Hin as (d & <- & Hd); eauto|]. exists q, o, r. split; [done|]. split; [done|].
  apply matches_spec in Hm. eauto.
Qed.
(** Nothing wanted is skipped: when a vote for [p] makes the active range move on, every wanted event of
    [p] is on record afterwards (handed over now, or already processed before). *)
Theorem C08_wanted_events_recorded c verify i vs ops o a a' :
  let s := run c verify (genesis i vs) ops in
  s_active s = Some a -> s_active (step c verify s o) = Some a' -> a' <> a -> r_start (a_range a) + r_len (a_range a) <= U32_MAX ->
  exists p v, votes_for verify p v s o /\ forall d, In d (p_events p) -> wanted c a d ->
    is_Some (s_processed (step c verify s o) !! ev_tx (d_event d)) /\
    (s_processed s !! ev_tx (d_event d) = None -> In (ev_tx (d_event d)) (handled_txs (step c verify s o))).
Proof.
  cbv zeta. intros Ha Ha' Hne Hmax. set (s := run c verify (genesis i vs) ops) in *.
  pose proof (step_effect c verify s o) as He.
  destruct He as [H|? ? ? ? ? ? ? H H1 H2 H3 H4|b key p sig r evs Ho Hvf Hr Hm Hnv Hq Hact Hv Hb Hi Hvs Hco Hmo Hh Hback Hrec Hev Hof|? ? ? ? ? ? ? ? H|? ? ? ? ? ? ? ? H].
  - congruence.
  - rewrite H4 in Ha'. cbn in Ha'. congruence.
  - assert (r = a) as -> by congruence. exists p, b. split; [done|]. intros d Hd [(k & Hk & Hkf) Hblk].
    assert (recorded (step c verify s o) (ev_tx (d_event d))) as Hr' by (eapply Hrec; eauto; unfold end_block, saturating_add; lia).
    split; [exact Hr'|]. intros Hnone. destruct (Hback _ Hr') as [[x Hx]|]; [congruence|done].
  - congruence.
  - congruence.
Qed.
(** Without [keeps_records] the claim fails: if another pallet is allowed to take over the records, an event
    can be handed over again. *)
Theorem C08_handed_over_records_refuted : exists c verify i vs ops,
  ~ NoDup (handled_txs (run c verify (genesis i vs) ops)).
Proof.
  exists Example.cfg, Example.ok, (mkInstance 1 77 true), [Example.v 1; Example.v 2; Example.v 3; Example.v 4].
  exists (Example.ops ++ [OpMigrateOut [5001];
     OpSubmitEvents (Example.v 1) (mkPart (mkRange 100 20) 0 true [mkDisc Example.lift 85]) 0;
     OpSubmitEvents (Example.v 2) (mkPart (mkRange 100 20) 0 true [mkDisc Example.lift 85]) 0]).
  match goal with |- ~ NoDup ?l => let x := eval vm_compute in l in change l with x end.
  intros H. inversion H as [|? ? Hn _]. apply Hn. constructor.
Qed.
(** The hypotheses are met by a history in which an event is handed over. *)
Goal keeps_records Example.ops /\ In (ByPartition Example.good, Example.lift) (s_handled Example.s).
Proof.
  split; [|vm_compute; auto]. intros o Ho. cbn in Ho. repeat (destruct Ho as [<-|Ho]; [exact I|]). destruct Ho.
Qed.

(** ** C15: block ranges advance without gaps or overlaps. *)
(** One step: the active range stays, or a vote completing a quorum for the active partition moves it: to
    the next partition, or from the last one to the next range ([walk] in IncomingSpec). *)
Theorem C15_moves_only_by_quorum c verify i vs ops o a :
  let s := run c verify (genesis i vs) ops in
  s_active s = Some a ->
  exists a', s_active (step c verify s o) = Some a' /\
    (a' = a \/
     exists p, quorum_voted c verify (genesis i vs) ops o p /\ (exists v, votes_for verify p v s o) /\
       walk (a_range a) (a_partition a) [p] (a_range a') (a_partition a')).
Proof.
  cbv zeta. intros Ha. destruct (active_step c verify i vs ops o a Ha) as (a' & Ha' & [->|(p & _ & _ & Hq & Hv & Hw)]); eauto 10.
Qed.
(** Whole histories: from any moment to any later one discovery walked through partitions that all had a
    quorum, each of the range and number that was due. *)
Theorem C15_walks_accepted_partitions c verify i vs ops1 ops2 a :
  s_active (run c verify (genesis i vs) ops1) = Some a ->
  exists b l, s_active (run c verify (genesis i vs) (ops1 ++ ops2)) = Some b /\
    walk (a_range a) (a_partition a) l (a_range b) (a_partition b) /\
    forall p, In p l -> exists q o r, ops1 ++ ops2 = q ++ o :: r /\ quorum_voted c verify (genesis i vs) q o p.
Proof. apply active_run. Qed.
(** Hence ranges keep their length, are whole ranges apart, and every block between two active ranges is in
    a range whose last partition had a quorum. *)
Theorem C15_no_gaps c verify i vs ops1 ops2 a b :
  s_active (run c verify (genesis i vs) ops1) = Some a -> s_active (run c verify (genesis i vs) (ops1 ++ ops2)) = Some b ->
  r_start (a_range a) <= U32_MAX -> r_start (a_range b) < U32_MAX ->
  r_len (a_range b) = r_len (a_range a) /\ (exists k, r_start (a_range b) = r_start (a_range a) + k * r_len (a_range a)) /\
  forall x, r_start (a_range a) <= x < r_start (a_range b) ->
    exists p q o r, p_last p = true /\ r_start (p_range p) <= x < r_start (p_range p) + r_len (p_range p) /\
      ops1 ++ ops2 = q ++ o :: r /\ quorum_voted c verify (genesis i vs) q o p.
Proof.
  intros Ha Hb Hm1 Hm2. destruct (active_run c verify i vs ops1 ops2 a Ha) as (b' & l & Hb' & Hw & Hl).
  assert (b' = b) as -> by congruence. destruct (walk_covers _ _ _ _ _ Hw) as (H1 & H2).
  destruct (H2 Hm1) as (_ & H3 & H4). split; [done|]. split; [auto|]. intros x Hx.
  destruct (H4 x Hx) as (p & Hp & Hlast & Hr). destruct (Hl p Hp) as (q & o & r & E & Hq). exists p, q, o, r. done.
Qed.
(** A vote that completes a quorum does move it. *)
Theorem C15_quorum_moves_on c verify i vs ops v p sig a :
  let s := run c verify (genesis i vs) ops in
  let o := OpSubmitEvents v p sig in
  s_active s = Some a -> valid verify s o = true -> i_valid (s_instance s) = true ->
  (forall q l, In (q, l) (s_votes s) -> ~ In (v_account v) l) ->
  N.of_nat (length (vget p (s_votes s))) < 256 -> avn_quorum (s_vs s) <= N.of_nat (length (vget p (s_votes s))) + 1 ->
  exists a', s_active (step c verify s o) = Some a' /\
    if p_last p then a_range a' = mkRange (N.min U32_MAX (r_start (a_range a) + r_len (a_range a))) (r_len (a_range a)) /\ a_partition a' = 0
    else a_range a' = a_range a /\ a_partition a' = N.min 65535 (a_partition a + 1).
Proof.
  cbv zeta. intros Ha Hval Hiv Hnv H256 Hq. set (s := run c verify (genesis i vs) ops) in *.
  assert (matches p a = true) as Hm.
  { unfold valid in Hval. rewrite Ha, !andb_true_iff in Hval. tauto. }
  assert (is_ok (snd (submit_events c (v_account v) p s)) = true) as Hok.
  { unfold submit_events. cbv [mbind_ get_st ensure some_or mret_]. rewrite Hiv, Ha, Hm.
    assert (has_cast_event_vote s (v_account v) = false) as ->.
    { unfold has_cast_event_vote. apply not_true_is_false. intros He. apply existsb_exists in He as ([q l] & Hi & Hmem).
      apply memN_spec in Hmem. by apply (Hnv q l Hi). }
    cbn [negb]. unfold len, VOTES_BOUND. destruct (_ <? 256) eqn:E; [|lia].
    destruct (_ <? avn_quorum (s_vs s)) eqn:E2; [cbn [length] in E2; lia|].
    unfold process_partition. cbv [mbind_]. unfold modify at 1.
    destruct (process_all c (i_network (s_instance s)) a p (p_events p) (s <| s_votes := vdel p (s_votes s) |>)) as [s2 r2] eqn:Ep.
    apply process_all_spec in Ep; [|done..]. destruct Ep as (-> & _). unfold advance_partition, modify. by destruct (p_last p). }
  unfold step. rewrite Hval. cbn [exec]. unfold dispatch.
  destruct (submit_events c (v_account v) p s) as [s1 r1] eqn:E. cbn in Hok. destruct r1 as [u|]; [|done]. cbn [fst].
  apply submit_events_spec in E; [|done]. destruct E as (a1 & _ & Ha1 & _ & _ & E). assert (a1 = a) as -> by congruence.
  cbv zeta in E. destruct E as [[Hlt _]|(_ & E & _)]; [unfold len in Hlt; cbn [length] in Hlt; lia|].
  exists (advanced c a p s). split; [done|]. unfold advanced. by destruct (p_last p).
Qed.
Goal exists b l, s_active Example.s = Some b /\ walk (mkRange 80 20) 0 l (a_range b) (a_partition b) /\ l = [Example.good].
Proof.
  eexists _, _. split; [vm_compute; reflexivity|]. split; [|done]. apply walk_last; try done. apply walk_done.
Qed.

(** ** C16: the initial range is backed by honest votes. *)
Lemma compute_start_aligned seen size b : 5 * size < 2 ^ 32 -> compute_start seen size = Ok b -> b = aligned size seen /\ size <> 0.
Proof.
  intros Hs H. unfold compute_start, saturating_sub in H. rewrite N.mod_small in H by lia.
  destruct (size =? 0) eqn:E; [discriminate|]. injection H as <-. split; [|lia]. unfold aligned.
  pose proof (N.div_mod (seen - 5 * size) size ltac:(lia)) as H. rewrite (N.mul_comm size) in H.
  revert H. generalize (seen - 5 * size). intros z H. revert H. generalize (z / size * size) (z mod size). lia.
Qed.
Lemma aligned_le size seen : size <> 0 -> aligned size seen <= seen /\ aligned size seen mod size = 0.
Proof.
  intros Hs. unfold aligned. split; [|by apply N.mod_mul]. pose proof (N.div_mod (seen - 5 * size) size Hs) as H. rewrite (N.mul_comm size) in H.
  revert H. generalize ((seen - 5 * size) / size * size) ((seen - 5 * size) mod size) (5 * size). lia.
Qed.
(** The votes counted: at most one per account, each cast by a validator reporting a block [seen] and asking for the
    range starting at [aligned size seen]. *)
Theorem C16_first_range_backed_by_votes c verify i vs ops o a :
  let s := run c verify (genesis i vs) ops in
  5 * c_range_size c < 2 ^ 32 -> s_active s = None -> s_active (step c verify s o) = Some a ->
  let start := r_start (a_range a) in
  r_len (a_range a) = c_range_size c /\ a_partition a = 0 /\
  exists ballots : list (N * N),            (* (start asked for, account) *)
    NoDup (map snd ballots) /\
    (forall b v, In (b, v) ballots -> exists seen, b = aligned (c_range_size c) seen /\ happened c verify (genesis i vs) (ops ++ [o]) (reports_block verify v seen)) /\
    avn_supermajority (s_vs s) <= N.of_nat (length ballots) /\
    In start (map fst ballots) /\
    avn_quorum (s_vs s) <= N.of_nat (length (List.filter (fun e => start <=? e.1) ballots)) /\
    avn_supermajority (s_vs s) < avn_quorum (s_vs s) + N.of_nat (length (List.filter (fun e => e.1 <=? start) ballots)).
Proof.
  cbv zeta. intros Hs Hn Ha. destruct (start_selection c verify i vs ops o a Hn Ha) as (l & (Hnd & Hr) & H1 & H2 & H3 & H4 & H5 & H6).
  split; [done|]. split; [done|]. exists l. split; [done|]. split; [|done].
  intros b v Hi. destruct (Hr b v Hi) as (seen & Hh & Hc). exists seen. split; [|done]. by eapply compute_start_aligned.
Qed.
Lemma pigeonhole (l F : list N) : NoDup l -> (length F < length l)%nat -> exists x, In x l /\ ~ In x F.
Proof.
  intros Hn Hl. destruct (forallb (fun x => memN x F) l) eqn:E.
  - exfalso. assert (length l <= length F)%nat; [|lia]. apply NoDup_incl_length; [by apply NoDup_ListNoDup|].
    intros x Hx. rewrite forallb_forall in E. apply memN_spec. auto.
  - apply not_true_iff_false in E. rewrite forallb_forall in E.
    assert (Exists (fun x => memN x F = false) l) as Hex.
    { destruct (Exists_dec (fun x => memN x F = false) l) as [|Hno]; [done|]. exfalso. apply E. intros x Hx.
      destruct (memN x F) eqn:Em; [done|]. exfalso. apply Hno. apply Exists_exists. exists x. split; [by apply elem_of_list_In|done]. }
    apply Exists_exists in Hex as (x & Hx & Hm). exists x. split; [by apply elem_of_list_In|]. by apply memN_false.
Qed.
Lemma filter_map_nodup (f : N * N -> bool) l : NoDup (map snd l) -> NoDup (map snd (List.filter f l)).
Proof.
  induction l as [|e l IH]; cbn; [done|]. intros [H1 H2]%NoDup_cons. destruct (f e); cbn; [|auto].
  apply NoDup_cons. split; [|auto]. intros Hi%elem_of_list_In. apply H1. apply elem_of_list_In.
  apply in_map_iff in Hi as (x & <- & Hx). apply filter_In in Hx as [Hx _]. by apply in_map.
Qed.
(** Whatever a set of accounts smaller than the quorum does, somebody else saw the start block; whatever a
    set small enough to leave a quorum in the supermajority does, the start is not before everything the
    others asked for. *)
Theorem C16_minority_cannot_choose c verify i vs ops o a faulty :
  let s := run c verify (genesis i vs) ops in
  5 * c_range_size c < 2 ^ 32 -> s_active s = None -> s_active (step c verify s o) = Some a ->
  (N.of_nat (length faulty) < avn_quorum (s_vs s) ->
     exists v seen, ~ In v faulty /\ r_start (a_range a) <= seen /\ happened c verify (genesis i vs) (ops ++ [o]) (reports_block verify v seen)) /\
  (avn_quorum (s_vs s) + N.of_nat (length faulty) <= avn_supermajority (s_vs s) ->
     exists v seen, ~ In v faulty /\ aligned (c_range_size c) seen <= r_start (a_range a) /\ happened c verify (genesis i vs) (ops ++ [o]) (reports_block verify v seen)).
Proof.
  cbv zeta. intros Hs Hn Ha. destruct (C16_first_range_backed_by_votes c verify i vs ops o a Hs Hn Ha) as (_ & _ & l & Hnd & Hr & H1 & H2 & H3 & H4).
  destruct (start_selection c verify i vs ops o a Hn Ha) as (l0 & (_ & Hr0) & _ & Hin0 & _).
  assert (c_range_size c <> 0) as Hsz.
  { apply in_map_iff in Hin0 as ([b v] & _ & Hi). destruct (Hr0 b v Hi) as (seen & _ & Hc). by eapply compute_start_aligned. }
  split; intros HF.
  - destruct (pigeonhole (map snd (List.filter (fun e => r_start (a_range a) <=? e.1) l)) faulty) as (v & Hv & Hnf).
    { by apply filter_map_nodup. } { rewrite map_length. lia. }
    apply in_map_iff in Hv as ([b v'] & <- & Hf). apply filter_In in Hf as [Hi Hle]. cbn in *.
    destruct (Hr b v' Hi) as (seen & -> & Hh). exists v', seen. split; [done|]. split; [|done].
    pose proof (proj1 (aligned_le (c_range_size c) seen Hsz)). lia.
  - destruct (pigeonhole (map snd (List.filter (fun e => e.1 <=? r_start (a_range a)) l)) faulty) as (v & Hv & Hnf).
    { by apply filter_map_nodup. } { rewrite map_length. lia. }
    apply in_map_iff in Hv as ([b v'] & <- & Hf). apply filter_In in Hf as [Hi Hle]. cbn in *.
    destruct (Hr b v' Hi) as (seen & -> & Hh). exists v', seen. split; [done|]. split; [lia|done].
Qed.
(** The start is a multiple of the range size. *)
Theorem C16_first_range_aligned c verify i vs ops o a :
  let s := run c verify (genesis i vs) ops in
  5 * c_range_size c < 2 ^ 32 -> s_active s = None -> s_active (step c verify s o) = Some a ->
  c_range_size c <> 0 /\ r_start (a_range a) mod c_range_size c = 0.
Proof.
  cbv zeta. intros Hs Hn Ha. destruct (start_selection c verify i vs ops o a Hn Ha) as (l0 & (_ & Hr0) & _ & Hin0 & _).
  apply in_map_iff in Hin0 as ([b v] & Hb & Hi). cbn in Hb. subst b. destruct (Hr0 _ v Hi) as (seen & _ & Hc).
  apply compute_start_aligned in Hc as [-> Hz]; [|done]. split; [done|]. by apply aligned_le.
Qed.
Goal let s := run Example.cfg Example.ok Example.s0 [OpSubmitBlock (Example.v 1) 185 0] in
  5 * c_range_size Example.cfg < 2 ^ 32 /\ s_active s = None /\
  s_active (step Example.cfg Example.ok s (OpSubmitBlock (Example.v 2) 240 0)) = Some (mkActiveRange (mkRange 80 20) 0 [1; 2] []) /\
  avn_quorum (s_vs s) = 2.
Proof. vm_compute. auto. Qed.

(** ** C17: partitions reproduce exactly the discovered events. *)
(** Events with pairwise different (block, transaction): concatenating the partitions gives them all, sorted. *)
Theorem C17_nothing_lost_or_duplicated r events :
  NoDup (map (fun d => (d_block d, ev_tx (d_event d))) events) ->
  let all := concat (map p_events (create_partitions r events)) in
  all ≡ₚ events /\ StronglySorted disc_le all.
Proof.
  intros Hn. cbv zeta. rewrite (partitions_concat r events Hn). split; [apply merge_sort_Permutation|].
  apply StronglySorted_merge_sort; apply _.
Qed.
Theorem C17_shape r events n p :
  create_partitions r events !! n = Some p ->
  p_range p = r /\ p_number p = N.of_nat n mod 65536 /\ (p_last p = true <-> S n = length (create_partitions r events)) /\
  (length (p_events p) <= 32)%nat /\ (n = 0%nat \/ p_events p <> []).
Proof.
  intros H. destruct (decide (events = [])) as [->|Hne].
  - unfold create_partitions in H |- *. cbn in H |- *. destruct n as [|n]; cbn in H; [|done]. injection H as <-. cbn. split; [done|]. split; [done|]. split; [done|]. split; [lia|by left].
  - assert (length (create_partitions r events) = length (sorted_chunks events)) as Hlen.
    { rewrite <- (map_length p_events), partitions_events, map_length; done. }
    rewrite Hlen. rewrite partitions_lookup in H by done. destruct (sorted_chunks events !! n) as [ch|] eqn:E; cbn in H; [|done].
    injection H as <-. cbn [p_range p_number p_last p_events]. apply chunks_size in E; [|lia]. destruct E as (E1 & E2 & _).
    split; [done|]. split; [done|]. split; [rewrite Nat.eqb_eq; lia|]. split; [pose proof (to_set_length ch); lia|].
    right. intros E. destruct ch as [|d ch]; [done|]. destruct (to_set_covers (d :: ch) d) as (d' & Hd & _); [by left|]. rewrite E in Hd. destruct Hd.
Qed.
(** Every partition but the last is full. *)
Theorem C17_all_but_last_full r events n p :
  NoDup (map (fun d => (d_block d, ev_tx (d_event d))) events) ->
  create_partitions r events !! n = Some p -> p_last p = false -> length (p_events p) = 32%nat.
Proof.
  intros Hn H Hl. destruct (decide (events = [])) as [->|Hne].
  - unfold create_partitions in H. cbn in H. destruct n as [|n]; cbn in H; [|done]. injection H as <-. done.
  - rewrite partitions_lookup in H by done. destruct (sorted_chunks events !! n) as [ch|] eqn:E; cbn in H; [|done].
    injection H as <-. cbn [p_last p_events] in *. pose proof E as E0. apply chunks_size in E; [|lia]. destruct E as (_ & _ & E3).
    fold (sorted_chunks events) in E3. apply lookup_lt_Some in E0 as Hlt.
    rewrite <- E3 by (apply Nat.eqb_neq in Hl; lia). rewrite to_set_strict; [done|].
    assert (StronglySorted disc_lt (concat (sorted_chunks events))) as Hs.
    { unfold sorted_chunks. rewrite chunks_concat by lia. apply sorted_strict; [apply StronglySorted_merge_sort; apply _|]. by rewrite merge_sort_Permutation. }
    apply elem_of_list_split_length in E0 as (l1 & l2 & E0 & _). rewrite E0, concat_app in Hs. cbn in Hs.
    apply StronglySorted_app_inv_r in Hs. by apply StronglySorted_app_inv_l in Hs.
Qed.
Theorem C17_empty r : create_partitions r [] = [mkPart r 0 true []].
Proof. reflexivity. Qed.
(** Whatever the events: nothing is invented, every transaction with an event is represented, and a
    partition is in the form the chain accepts. *)
Theorem C17_transactions_represented r events :
  let all := concat (map p_events (create_partitions r events)) in
  (forall d, In d all -> In d events) /\
  (forall d, In d events -> exists d', In d' all /\ d_block d' = d_block d /\ ev_tx (d_event d') = ev_tx (d_event d)).
Proof.
  cbv zeta. destruct (decide (events = [])) as [->|Hne]; [cbn; tauto|]. rewrite partitions_events by done. split.
  - intros d Hd. apply in_concat in Hd as (x & Hx & Hd). apply in_map_iff in Hx as (ch & <- & Hch). apply to_set_in in Hd.
    apply elem_of_list_In. rewrite <- sorted_chunks_perm. apply elem_of_list_In, in_concat. eauto.
  - intros d Hd. apply elem_of_list_In in Hd. rewrite <- sorted_chunks_perm in Hd. apply elem_of_list_In, in_concat in Hd as (ch & Hch & Hd).
    destruct (to_set_covers ch d Hd) as (d' & Hd' & [= Hk1 Hk2]). exists d'. split; [|done]. apply in_concat. exists (to_set ch). split; [by apply in_map|done].
Qed.
Theorem C17_acceptable_to_the_chain r events p :
  In p (create_partitions r events) -> N.of_nat (length (p_events p)) <= 32 /\ ascending (p_events p) = true.
Proof.
  intros Hp. apply elem_of_list_In, elem_of_list_lookup in Hp as (n & Hn). pose proof (C17_shape r events n p Hn) as (_ & _ & _ & Hlen & _).
  split; [lia|]. destruct (decide (events = [])) as [->|Hne].
  - unfold create_partitions in Hn. cbn in Hn. destruct n as [|n]; cbn in Hn; [|done]. by injection Hn as <-.
  - rewrite partitions_lookup in Hn by done. destruct (sorted_chunks events !! n) as [ch|] eqn:E; cbn in Hn; [|done].
    injection Hn as <-. cbn [p_events]. apply to_set_ascending.
Qed.
(** But two events of one transaction in one block do not both survive: the order on discovered events ignores
    everything else about the event, so the set keeps one of them. *)
Theorem C17_same_transaction_refuted : exists r events,
  NoDup events /\ ~ (concat (map p_events (create_partitions r events)) ≡ₚ events).
Proof.
  exists (mkRange 80 20), [mkDisc (mkEvent 1 1 0) 85; mkDisc (mkEvent 1 2 0) 85]. split.
  - apply NoDup_cons. split; [|apply NoDup_singleton]. intros H%elem_of_list_singleton. discriminate.
  - intros H. apply Permutation_length in H. vm_compute in H. discriminate.
Qed.
Goal let evs := map (fun n => mkDisc (mkEvent (N.of_nat (50 - n)) 1 0) 85) (seq 0 40) in
  NoDup (map (fun d => (d_block d, ev_tx (d_event d))) evs) /\
  map (fun p => (p_number p, p_last p, length (p_events p))) (create_partitions (mkRange 80 20) evs) = [(0, false, 32%nat); (1, true, 8%nat)].
Proof. cbv zeta. split; [|vm_compute; reflexivity]. apply (bool_decide_unpack _). vm_compute. exact I. Qed.

(** ** C36: exactly the validators that voted for another partition are reported. *)
Theorem C36_reports_exactly_the_other_votes c verify i vs ops o evs :
  let s := run c verify (genesis i vs) ops in
  s_events (step c verify s o) = evs ++ s_events s -> offenders evs <> [] ->
  exists p, quorum_voted c verify (genesis i vs) ops o p /\
    (forall v, In v (offenders evs) <-> exists q l, In (q, l) (s_votes s) /\ q <> p /\ In v l) /\
    (forall v, In v (offenders evs) -> exists q, q <> p /\ p_range q = p_range p /\ p_number q = p_number p /\
        happened c verify (genesis i vs) ops (votes_for verify q v)).
Proof.
  cbv zeta. intros Hev Hoff. set (s := run c verify (genesis i vs) ops) in *.
  pose proof (step_effect c verify s o) as He.
  destruct He as [H H0 H1 H2 H3 H4 H5|? ? ? ? ? ? ? H H1 H2 H3 H4|b key p sig r evs' Ho Hvf Hr Hm Hnv Hq Hact Hv Hb Hi Hvs Hco Hmo Hh Hback Hrec Hev' Hof|? ? ? ? ? ? ? ? H H1 m H2 H3|? ? ? ? ? ? ? ? H H1 m H2 rg H3].
  - destruct H5 as (e & He & Ho). rewrite He in Hev. apply app_inv_tail in Hev as ->. congruence.
  - rewrite H4 in Hev. cbn in Hev. change (s_events s) with ([] ++ s_events s) in Hev at 1. apply app_inv_tail in Hev as <-. done.
  - rewrite Hev', app_assoc in Hev. apply app_inv_tail in Hev as <-.
    exists p. split; [subst o; by apply accept_quorum|].
    assert (forall v, In v (offenders (rev (map (fun e => OffenceReported b e.2) (vdel p (s_votes s))) ++ evs')) <-> exists q l, In (q, l) (s_votes s) /\ q <> p /\ In v l) as Hiff.
    { intros v. unfold offenders in *. rewrite map_app, concat_app, Hof, app_nil_r, map_rev, map_map. rewrite in_concat. split.
      - intros (x & Hx & Hvx). apply in_rev, in_map_iff in Hx as ([q l] & <- & Hx). apply vdel_in in Hx as [Hx Hne]. exists q, l. done.
      - intros (q & l & Hx & Hne & Hvl). exists l. split; [|done]. rewrite <- in_rev. apply in_map_iff. exists (q, l). split; [done|]. by apply vdel_in. }
    split; [exact Hiff|]. intros v Hvo. apply Hiff in Hvo as (q & l & Hx & Hne & Hvl).
    destruct (hist_ok_run c verify i vs ops) as [_ Hok]. fold s in Hok. destruct (Hok q l Hx) as (Hhap & r' & Hr' & Hm').
    assert (r' = r) as -> by congruence. apply matches_spec in Hm as [Hm1 Hm2], Hm' as [Hm1' Hm2'].
    exists q. split; [done|]. split; [congruence|]. split; [congruence|]. auto.
  - rewrite H3 in Hev. cbn in Hev. change (s_events s) with ([] ++ s_events s) in Hev at 1. apply app_inv_tail in Hev as <-. done.
  - rewrite H3 in Hev. cbn in Hev. change (s_events s) with ([] ++ s_events s) in Hev at 1. apply app_inv_tail in Hev as <-. done.
Qed.
(** A validator votes at most once for the active partition number: the standing votes name nobody twice. *)
Theorem C36_one_standing_vote c verify i vs ops :
  NoDup (concat (map snd (s_votes (run c verify (genesis i vs) ops)))).
Proof. exact (proj1 (hist_ok_run c verify i vs ops)). Qed.
(** When a quorum is completed, all standing votes are gone afterwards and everybody who stood for another partition is reported. *)
Theorem C36_all_other_votes_reported c verify i vs ops o a a' :
  let s := run c verify (genesis i vs) ops in
  s_active s = Some a -> s_active (step c verify s o) = Some a' -> a' <> a ->
  s_votes (step c verify s o) = [] /\
  exists p evs, quorum_voted c verify (genesis i vs) ops o p /\ s_events (step c verify s o) = evs ++ s_events s /\
    forall q l v, In (q, l) (s_votes s) -> q <> p -> In v l -> In v (offenders evs).
Proof.
  cbv zeta. intros Ha Ha' Hne. set (s := run c verify (genesis i vs) ops) in *.
  pose proof (step_effect c verify s o) as He.
  destruct He as [H|? ? ? ? ? ? ? H H1 H2 H3 H4|b key p sig r evs' Ho Hvf Hr Hm Hnv Hq Hact Hv Hb Hi Hvs Hco Hmo Hh Hback Hrec Hev' Hof|? ? ? ? ? ? ? ? H|? ? ? ? ? ? ? ? H].
  - congruence.
  - rewrite H4 in Ha'. cbn in Ha'. congruence.
  - split; [done|]. exists p. eexists. split; [subst o; by apply accept_quorum|]. split; [rewrite Hev', app_assoc; reflexivity|].
    intros q l v Hx Hqp Hvl. unfold offenders in *. rewrite map_app, concat_app, Hof, app_nil_r, map_rev, map_map. apply in_concat.
    exists l. split; [|done]. rewrite <- in_rev. apply in_map_iff. exists (q, l). split; [done|]. by apply vdel_in.
  - congruence.
  - congruence.
Qed.
Goal let s := run Example.cfg Example.ok Example.s0 (removelast Example.ops) in
  s_votes s = [(Example.good, [1]); (Example.bad, [3])] /\
  s_events (step Example.cfg Example.ok s (OpSubmitEvents (Example.v 2) Example.good 0)) = [OffenceReported 2 [3]; EventAccepted Example.lift] ++ s_events s.
Proof. vm_compute. auto. Qed.
