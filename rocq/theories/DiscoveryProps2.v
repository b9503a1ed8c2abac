(** C65: what an author's node votes for. *)
From Verif Require Import Base CodecModel CodecProofs AvnModel IncomingModel IncomingProofs3 IncomingProps ParseModel ParseProofs ParseCases ParseProps DiscoveryModel DiscoveryProofs DiscoveryProps.

(** A transaction is in one block. *)
Definition one_block (chain : list log) : Prop := forall l l' t, In l chain -> In l' chain -> lg_tx l = Some t -> lg_tx l' = Some t -> lg_block l = lg_block l'.
(** An order in which a HashMap may give its entries. *)
Definition some_order (order : list found -> list found) : Prop := forall l, order l ≡ₚ l.

Lemma first_filter_ext (P Q : log -> bool) chain t l : (forall l', In l' chain -> lg_tx l' = Some t -> P l' = Q l') -> first_of t (List.filter P chain) l -> first_of t (List.filter Q chain) l.
Proof.
  intros E H. apply first_filter in H as (c1 & c2 & -> & Pl & T & N). apply first_filter. exists c1, c2. split; [done|].
  split; [rewrite <- E; [done|apply in_app_iff; right; by left|done]|]. split; [done|]. intros l' I Ql T'. apply (N l' I); [|done]. rewrite E; [done|apply in_app_iff; by left|done].
Qed.
(** The log that speaks for a transaction does not depend on the blocks asked for, as long as they include the transaction. *)
Lemma speaks_same chain from to from' to' contracts wanted t l l' : one_block chain ->
  speaks_for chain from to contracts wanted t l -> speaks_for chain from' to' contracts wanted t l' -> l = l'.
Proof.
  intros O S S'.
  assert (In_ : forall from to l, speaks_for chain from to contracts wanted t l -> In l chain /\ lg_tx l = Some t /\ in_blocks from to l).
  { intros f0 t0 l0 [(c1 & c2 & -> & (B & _) & T & _)|(_ & (c1 & c2 & -> & (B & _) & T & _) & _)]; (split; [apply in_app_iff; right; by left|done]). }
  destruct (In_ _ _ _ S) as (I1 & T1 & b & B1 & R1). destruct (In_ _ _ _ S') as (I2 & T2 & b' & B2 & R2).
  assert (b' = b) as -> by (rewrite (O l l' t I1 I2 T1 T2) in B1; congruence).
  assert (Eb : forall l0, In l0 chain -> lg_tx l0 = Some t -> in_blocks from to l0 /\ in_blocks from' to' l0).
  { intros l0 I0 T0. rewrite <- (O l0 l t I0 I1 T0 T1) in B1. split; exists b; done. }
  apply first_candidates in S. apply first_candidates in S'. unfold candidates in *.
  assert (G : first_of t (candidates chain from' to' contracts wanted) l); [|by eapply first_unique].
  unfold candidates. apply first_app in S. apply first_app.
  assert (E1 : forall l0, In l0 chain -> lg_tx l0 = Some t -> matches (primary_query from to contracts) l0 = matches (primary_query from' to' contracts) l0).
  { intros l0 I0 T0. apply eq_true_iff_eq. rewrite !matches_primary. unfold bridge_log. pose proof (Eb l0 I0 T0). tauto. }
  assert (E2 : forall l0, In l0 chain -> lg_tx l0 = Some t -> matches (secondary_query from to contracts) l0 = matches (secondary_query from' to' contracts) l0).
  { intros l0 I0 T0. apply eq_true_iff_eq. rewrite !matches_secondary. unfold transfer_log. pose proof (Eb l0 I0 T0). tauto. }
  destruct S as [S|[N S]].
  - left. eapply first_filter_ext; [|done]. done.
  - right. split.
    + intros l0 I0 T0. apply filter_In in I0 as [I0 M]. apply (N l0); [|done]. apply filter_In. split; [done|]. by rewrite E1.
    + destruct (wants_secondary wanted); [|done]. eapply first_filter_ext; [|done]. done.
Qed.

(** What the node gathers: events of the range, and of the blocks of the additional transactions. *)
Lemma blocks_of final chain nd blocks contracts wanted fs : honest final chain nd -> Forall (fun b => b <= final) blocks -> events_of_blocks nd blocks contracts wanted = Parsed fs ->
  forall f, In f fs <-> exists b gs, In b blocks /\ identify_events nd b b contracts wanted = Parsed gs /\ In f gs.
Proof.
  intros H. revert fs. induction blocks as [|b blocks IH]; cbn [events_of_blocks]; intros fs F E f.
  - injection E as <-. split; [done|]. by intros (? & ? & [] & _).
  - apply Forall_cons in F as [F1 F2]. destruct (identify_events nd b b contracts wanted) as [gs| |] eqn:I; cbn [pbind] in E; try done. destruct (events_of_blocks nd blocks contracts wanted) as [hs| |]; cbn [pbind] in E; try done. injection E as <-.
    rewrite in_app_iff, (IH hs F2 eq_refl f). split.
    + intros [X|(b' & gs' & ? & ? & ?)]; [exists b, gs; split; [by left|done]|exists b', gs'; split; [by right|done]].
    + intros (b' & gs' & [<-|X] & Y & Z); [left; congruence|right; eauto].
Qed.
Definition receipts_final (final : N) (nd : eth_node) (txs : list N) : Prop :=
  forall t b, In t txs -> nd_receipt nd t = Some (Some b) -> N.min U32_MAX (default 0 b) <= final.
Lemma receipt_blocks_final final nd txs blocks : receipts_final final nd txs -> receipt_blocks nd txs = Parsed blocks -> Forall (fun b => b <= final) blocks.
Proof.
  revert blocks. induction txs as [|t txs IH]; cbn [receipt_blocks]; intros blocks R E; [injection E as <-; constructor|].
  assert (R' : receipts_final final nd txs) by (intros x b I; apply R; by right).
  destruct (nd_receipt nd t) as [[b|]|] eqn:X; [|by apply IH|done]. destruct (receipt_blocks nd txs) as [bs| |]; cbn [pbind] in E; try done. injection E as <-. constructor; [apply (R t b); [by left|done]|by apply IH].
Qed.

(** ** C65 *)

(** A vote is cast only once, on the active range and partition, when the range's last block has twenty successors. *)
Theorem C65_votes_only_final order code nd v p : handle order code nd v = Votes p ->
  rv_voted v = false /\ exists r latest, rv_active v = Some (r, p_number p) /\ p_range p = r /\ nd_latest nd = Some latest /\ end_block r + 20 <= latest.
Proof.
  unfold handle. destruct (rv_active v) as [[r n]|]; [|destruct (rv_voted v); [done|by destruct (nd_latest nd)]].
  destruct (nd_latest nd) as [latest|]; [|done]. unfold block_finalised, ETH_FINALITY. destruct (end_block r + 20 <=? latest) eqn:F; [|done]. destruct (rv_voted v); [done|].
  destruct (vote_partition order code nd v r n) as [q| |] eqn:V; try done. intros [= ->]. split; [done|]. exists r, latest. apply N.leb_le in F.
  unfold vote_partition in V. destruct (identify_additional_events _ _ _ _); cbn [pbind] in V; try done. destruct (identify_events _ _ _ _ _); cbn [pbind] in V; try done. cbv zeta in V.
  destruct (List.find _ _) as [q|] eqn:Q; [|done]. injection V as ->. apply List.find_some in Q as [Q E]. apply N.eqb_eq in E. subst n.
  apply elem_of_list_In, elem_of_list_lookup in Q as [i Q]. apply C17_shape in Q as [<- _]. done.
Qed.
Theorem C65_latest_block order code nd v n : handle order code nd v = SubmitsBlock n ->
  rv_voted v = false /\ rv_active v = None /\ exists latest, nd_latest nd = Some latest /\ n = latest mod 2 ^ 32.
Proof.
  unfold handle. destruct (rv_active v) as [[r k]|].
  - destruct (nd_latest nd) as [latest|]; [|done]. destruct (block_finalised _ _); [|done]. destruct (rv_voted v); [done|]. by destruct (vote_partition _ _ _ _ _ _).
  - destruct (rv_voted v); [done|]. destruct (nd_latest nd) as [latest|]; [|done]. intros [= <-]. eauto.
Qed.
(** Every event voted for is one that speaks for a transaction in the range, or in the block of one of the additional transactions. *)
Theorem C65_votes_truthful final chain nd v order code p : honest final chain nd -> some_order order -> receipts_final final nd (rv_additional v) ->
  (forall r n, rv_active v = Some (r, n) -> end_block r <= final) ->
  handle order code nd v = Votes p ->
  forall d, In d (p_events p) -> exists f l from to, d = coded code f /\ In (fo_sig f) (rv_wanted v) /\ speaks_for chain from to [rv_contract v] (rv_wanted v) (fo_tx f) l /\ parse_log l = Parsed f /\
    ((from = r_start (p_range p) /\ to = end_block (p_range p)) \/
     (from = to /\ exists t b, In t (rv_additional v) /\ nd_receipt nd t = Some (Some b) /\ from = N.min U32_MAX (default 0 b))).
Proof.
  intros H Or Rf Fin V d Hd. destruct (C65_votes_only_final _ _ _ _ _ V) as (_ & r & latest & Ac & <- & _ & _).
  unfold handle in V. rewrite Ac in V. destruct (nd_latest nd); [|done]. destruct (block_finalised _ _); [|done]. destruct (rv_voted v); [done|].
  destruct (vote_partition order code nd v (p_range p) (p_number p)) as [q| |] eqn:E; try done. injection V as ->. unfold vote_partition in E.
  destruct (identify_additional_events nd [rv_contract v] (rv_wanted v) (rv_additional v)) as [add| |] eqn:A; cbn [pbind] in E; try done.
  destruct (identify_events nd (r_start (p_range p)) (end_block (p_range p)) [rv_contract v] (rv_wanted v)) as [fs| |] eqn:I; cbn [pbind] in E; try done. cbv zeta in E.
  destruct (List.find _ _) as [q|] eqn:Q; [|done]. injection E as ->. apply List.find_some in Q as [Q _].
  assert (Hall : In d (map (coded code) (order (add ++ fs)))).
  { apply (proj1 (C17_transactions_represented (p_range p) _)). apply in_concat. exists (p_events p). split; [by apply in_map|done]. }
  apply in_map_iff in Hall as (f & <- & Hf). apply elem_of_list_In in Hf. rewrite (Or (add ++ fs)) in Hf. apply elem_of_list_In, in_app_iff in Hf as [Hf|Hf].
  - unfold identify_additional_events in A. destruct (receipt_blocks nd (rv_additional v)) as [bs| |] eqn:B; cbn [pbind] in A; try done.
    pose proof (receipt_blocks_final _ _ _ _ Rf B) as Fb. apply (blocks_of _ _ _ _ _ _ _ H Fb A) in Hf as (b & gs & Ib & Ig & Hf).
    rewrite Forall_forall in Fb. setoid_rewrite elem_of_list_In in Fb. apply (C64_reported_exactly _ _ _ _ _ _ _ _ H (Fb b Ib) Ig) in Hf as (W & l & S & P).
    exists f, l, b, b. split; [done|]. split; [done|]. split; [done|]. split; [done|]. right. split; [done|].
    clear -B Ib. revert bs B Ib. induction (rv_additional v) as [|t txs IH]; cbn [receipt_blocks]; intros bs B Ib; [by injection B as <-|].
    destruct (nd_receipt nd t) as [[c|]|] eqn:X; [| |done].
    + destruct (receipt_blocks nd txs) as [cs| |]; cbn [pbind] in B; try done. injection B as <-. destruct Ib as [<-|Ib]; [exists t, c; split; [by left|done]|]. destruct (IH cs eq_refl Ib) as (t' & c' & ? & ? & ?). exists t', c'. split; [by right|done].
    + destruct (IH bs B Ib) as (t' & c' & ? & ? & ?). exists t', c'. split; [by right|done].
  - apply (C64_reported_exactly _ _ _ _ _ _ _ _ H (Fin _ _ Ac) I) in Hf as (W & l & S & P). exists f, l, (r_start (p_range p)), (end_block (p_range p)). repeat split; try done. by left.
Qed.
(** Two honest nodes with the same runtime state and the same receipts vote for the same partition, whatever the order of their HashMaps and
    whatever they see beyond the range. *)
Theorem C65_honest_nodes_agree final chain nd nd' v order order' code p p' :
  one_block chain -> honest final chain nd -> honest final chain nd' -> some_order order -> some_order order' ->
  (forall r n, rv_active v = Some (r, n) -> end_block r <= final) ->
  (forall t, In t (rv_additional v) -> nd_receipt nd t = nd_receipt nd' t) -> receipts_final final nd (rv_additional v) ->
  handle order code nd v = Votes p -> handle order' code nd' v = Votes p' -> p = p'.
Proof.
  intros O H H' Or Or' Fin Rc Rf V V'. destruct (C65_votes_only_final _ _ _ _ _ V) as (_ & r & latest & Ac & _). 
  unfold handle in V, V'. rewrite Ac in V, V'. destruct (nd_latest nd); [|done]. destruct (block_finalised _ _); [|done]. destruct (nd_latest nd'); [|done]. destruct (block_finalised _ _); [|done]. destruct (rv_voted v); [done|].
  destruct (vote_partition order code nd v r (p_number p)) as [q| |] eqn:E; try done. injection V as ->.
  destruct (vote_partition order' code nd' v r (p_number p)) as [q| |] eqn:E'; try done. injection V' as ->.
  assert (Same : forall from to gs gs', to <= final -> identify_events nd from to [rv_contract v] (rv_wanted v) = Parsed gs -> identify_events nd' from to [rv_contract v] (rv_wanted v) = Parsed gs' -> gs = gs').
  { intros from to gs gs' F I I'. apply (identify_parsed _ _ _ _ _ _ _ _ H F) in I as (x & C & ->). apply (identify_parsed _ _ _ _ _ _ _ _ H' F) in I' as (x' & C' & ->). congruence. }
  assert (Rb : receipt_blocks nd (rv_additional v) = receipt_blocks nd' (rv_additional v)).
  { clear -Rc. induction (rv_additional v) as [|t txs IH]; [done|]. cbn [receipt_blocks]. rewrite (Rc t ltac:(by left)). rewrite IH; [done|]. intros t' I. apply Rc. by right. }
  unfold vote_partition in E, E'.
  destruct (identify_additional_events nd [rv_contract v] (rv_wanted v) (rv_additional v)) as [add| |] eqn:A; cbn [pbind] in E; try done.
  destruct (identify_additional_events nd' [rv_contract v] (rv_wanted v) (rv_additional v)) as [add'| |] eqn:A'; cbn [pbind] in E'; try done.
  destruct (identify_events nd (r_start r) (end_block r) [rv_contract v] (rv_wanted v)) as [fs| |] eqn:I; cbn [pbind] in E; try done. cbv zeta in E.
  destruct (identify_events nd' (r_start r) (end_block r) [rv_contract v] (rv_wanted v)) as [fs'| |] eqn:I'; cbn [pbind] in E'; try done. cbv zeta in E'.
  assert (fs' = fs) as -> by (symmetry; eapply Same; [by apply (Fin _ _ Ac)|done|done]).
  unfold identify_additional_events in A, A'. rewrite <- Rb in A'. destruct (receipt_blocks nd (rv_additional v)) as [bs| |] eqn:B; cbn [pbind] in A, A'; try done.
  pose proof (receipt_blocks_final _ _ _ _ Rf B) as Fb.
  assert (add' = add) as ->.
  { clear -A A' Fb Same. revert add add' A A'. induction bs as [|b bs IH]; cbn [events_of_blocks]; intros add add' A A'; [congruence|]. apply Forall_cons in Fb as [F1 F2].
    destruct (identify_events nd b b _ _) as [x| |] eqn:X; cbn [pbind] in A; try done. destruct (identify_events nd' b b _ _) as [x'| |] eqn:X'; cbn [pbind] in A'; try done. assert (x' = x) as -> by (symmetry; by eapply Same).
    destruct (events_of_blocks nd bs _ _) as [y| |]; cbn [pbind] in A; try done. destruct (events_of_blocks nd' bs _ _) as [y'| |]; cbn [pbind] in A'; try done. assert (y' = y) as -> by (by apply IH). congruence. }
  assert (Key : forall f g, In f (add ++ fs) -> In g (add ++ fs) -> fo_tx f = fo_tx g -> f = g).
  { assert (Src : forall f, In f (add ++ fs) -> exists l from to, speaks_for chain from to [rv_contract v] (rv_wanted v) (fo_tx f) l /\ parse_log l = Parsed f).
    { intros f Hf. apply in_app_iff in Hf as [Hf|Hf].
      - apply (blocks_of _ _ _ _ _ _ _ H Fb A) in Hf as (b & gs & Ib & Ig & Hf). rewrite Forall_forall in Fb. setoid_rewrite elem_of_list_In in Fb. apply (C64_reported_exactly _ _ _ _ _ _ _ _ H (Fb b Ib) Ig) in Hf as (W & l & S & P). eauto.
      - apply (C64_reported_exactly _ _ _ _ _ _ _ _ H (Fin _ _ Ac) I) in Hf as (W & l & S & P). eauto. }
    intros f g Hf Hg T. destruct (Src f Hf) as (l & ? & ? & S & P). destruct (Src g Hg) as (l' & ? & ? & S' & P'). rewrite <- T in S'. pose proof (speaks_same _ _ _ _ _ _ _ _ _ _ O S S') as <-. congruence. }
  assert (Eq : merge_sort disc_le (map (coded code) (order (add ++ fs))) = merge_sort disc_le (map (coded code) (order' (add ++ fs)))).
  { apply sorted_unique_keys; [|apply StronglySorted_merge_sort; apply _|apply StronglySorted_merge_sort; apply _|].
    - intros a b Ha Hb L1 L2. rewrite <- elem_of_list_In, merge_sort_Permutation, (Or (add ++ fs)) in Ha. rewrite <- elem_of_list_In, merge_sort_Permutation, (Or (add ++ fs)) in Hb.
      apply elem_of_list_fmap in Ha as (f & -> & Hf). apply elem_of_list_fmap in Hb as (g & -> & Hg). f_equal. apply elem_of_list_In in Hf. apply elem_of_list_In in Hg. apply Key; try done. unfold disc_le, coded in L1, L2. cbn in L1, L2. lia.
    - rewrite !merge_sort_Permutation. by rewrite (Or (add ++ fs)), (Or' (add ++ fs)). }
  unfold create_partitions in E, E'. rewrite Eq in E. rewrite E in E'. by injection E'.
Qed.
(** Nothing reported is left out: each event is in the partition of some number, for which the node votes when its turn comes. *)
Lemma nonempty_concat {A} (cs : list (list A)) : Forall (fun c => c <> []) cs -> (length cs <= length (concat cs))%nat.
Proof. induction 1 as [|c cs Hc _ IH]; [done|]. cbn. rewrite app_length. destruct c; [done|]. cbn. lia. Qed.
Lemma partitions_few r events : (length (create_partitions r events) <= S (length events))%nat.
Proof.
  destruct events as [|e es]; [by rewrite C17_empty|]. set (events := e :: es). assert (L : length (create_partitions r events) = length (sorted_chunks events)).
  { rewrite <- (map_length p_events), partitions_events, map_length; done. }
  rewrite L. rewrite <- (Permutation_length (sorted_chunks_perm events)). apply le_S, nonempty_concat. apply Forall_forall. intros c Hc. apply elem_of_list_lookup in Hc as [i Hc]. apply chunks_size in Hc; [tauto|lia].
Qed.
Lemma find_number r events i p : N.of_nat (length events) < 65535 -> create_partitions r events !! i = Some p -> List.find (fun q => p_number q =? p_number p) (create_partitions r events) = Some p.
Proof.
  intros L Hi. pose proof (partitions_few r events) as F. destruct (List.find _ _) as [q|] eqn:Q.
  - apply List.find_some in Q as [Q E]. apply N.eqb_eq in E. apply elem_of_list_In, elem_of_list_lookup in Q as [j Hj].
    destruct (C17_shape _ _ _ _ Hi) as (_ & Ni & _). destruct (C17_shape _ _ _ _ Hj) as (_ & Nj & _). apply lookup_lt_Some in Hi as Li. apply lookup_lt_Some in Hj as Lj.
    rewrite N.mod_small in Ni, Nj by lia. assert (i = j) as -> by lia. congruence.
  - pose proof (List.find_none _ _ Q p ltac:(apply elem_of_list_In, elem_of_list_lookup; eauto)) as X. cbn in X. by rewrite N.eqb_refl in X.
Qed.
Definition at_partition (v : runtime_view) (r : range) (n : N) : runtime_view := mkView (rv_contract v) (Some (r, n)) (rv_wanted v) (rv_additional v) (rv_voted v).
Theorem C65_no_event_left_out final chain nd v r order code latest add fs f :
  one_block chain -> honest final chain nd -> some_order order -> end_block r <= final -> receipts_final final nd (rv_additional v) ->
  nd_latest nd = Some latest -> end_block r + 20 <= latest -> rv_voted v = false ->
  identify_additional_events nd [rv_contract v] (rv_wanted v) (rv_additional v) = Parsed add ->
  identify_events nd (r_start r) (end_block r) [rv_contract v] (rv_wanted v) = Parsed fs ->
  N.of_nat (length (add ++ fs)) < 65535 -> In f (add ++ fs) ->
  exists n p, handle order code nd (at_partition v r n) = Votes p /\ In (coded code f) (p_events p).
Proof.
  intros O H Or Fin Rf La Lf Vo A I Len Hf.
  assert (Key : forall f g, In f (add ++ fs) -> In g (add ++ fs) -> fo_tx f = fo_tx g -> f = g).
  { assert (Src : forall f, In f (add ++ fs) -> exists l from to, speaks_for chain from to [rv_contract v] (rv_wanted v) (fo_tx f) l /\ parse_log l = Parsed f).
    { intros g Hg. apply in_app_iff in Hg as [Hg|Hg].
      - unfold identify_additional_events in A. destruct (receipt_blocks nd (rv_additional v)) as [bs| |] eqn:B; cbn [pbind] in A; try done. pose proof (receipt_blocks_final _ _ _ _ Rf B) as Fb.
        apply (blocks_of _ _ _ _ _ _ _ H Fb A) in Hg as (b & gs & Ib & Ig & Hg). rewrite Forall_forall in Fb. setoid_rewrite elem_of_list_In in Fb. apply (C64_reported_exactly _ _ _ _ _ _ _ _ H (Fb b Ib) Ig) in Hg as (W & l & S & P). eauto.
      - apply (C64_reported_exactly _ _ _ _ _ _ _ _ H Fin I) in Hg as (W & l & S & P). eauto. }
    intros g h Hg Hh T. destruct (Src g Hg) as (l & ? & ? & S & P). destruct (Src h Hh) as (l' & ? & ? & S' & P'). rewrite <- T in S'. pose proof (speaks_same _ _ _ _ _ _ _ _ _ _ O S S') as <-. congruence. }
  set (all := map (coded code) (order (add ++ fs))).
  assert (Ia : forall g, In g (order (add ++ fs)) <-> In g (add ++ fs)) by (intros g; by rewrite <- !elem_of_list_In, (Or (add ++ fs))).
  destruct (C17_transactions_represented r all) as [T1 T2]. destruct (T2 (coded code f)) as (d' & Hd & B & X); [by apply in_map, Ia|].
  assert (d' = coded code f) as ->.
  { pose proof (T1 _ Hd) as J. apply in_map_iff in J as (h & <- & Ih). f_equal. apply Key; [by apply Ia|done|done]. }
  apply in_concat in Hd as (es & Ie & Hd). apply in_map_iff in Ie as (p & <- & Ip). exists (p_number p), p. split; [|done].
  unfold handle. cbn [at_partition rv_active rv_voted]. rewrite La, Vo. unfold block_finalised, ETH_FINALITY. rewrite (proj2 (N.leb_le _ _) Lf).
  unfold vote_partition. cbn [at_partition rv_contract rv_wanted rv_additional]. rewrite A, I. cbn [pbind]. cbv zeta. fold all.
  apply elem_of_list_In, elem_of_list_lookup in Ip as [i Ip]. rewrite (find_number r all i p); [done| |done]. unfold all. by rewrite map_length, (Permutation_length (Or (add ++ fs))).
Qed.
(** The node does not crash on what an honest Ethereum node answers. *)
Theorem C65_no_crash final chain nd v order code : honest final chain nd -> Forall (fun l => bytes (lg_data l)) chain -> receipts_final final nd (rv_additional v) ->
  (forall r n, rv_active v = Some (r, n) -> end_block r <= final) -> handle order code nd v <> Crashes.
Proof.
  intros H B Rf Fin. unfold handle. destruct (rv_active v) as [[r n]|] eqn:Ac; [|destruct (rv_voted v); [done|by destruct (nd_latest nd)]].
  destruct (nd_latest nd); [|done]. destruct (block_finalised _ _); [|done]. destruct (rv_voted v); [done|]. destruct (vote_partition _ _ _ _ _ _) eqn:V; try done. exfalso. unfold vote_partition in V.
  assert (NA : identify_additional_events nd [rv_contract v] (rv_wanted v) (rv_additional v) <> Panics).
  { unfold identify_additional_events. destruct (receipt_blocks nd (rv_additional v)) as [bs| |] eqn:R; cbn [pbind]; [|done|].
    - pose proof (receipt_blocks_final _ _ _ _ Rf R) as Fb. clear R V. induction bs as [|b bs IH]; [done|]. cbn [events_of_blocks]. apply Forall_cons in Fb as [F1 F2]. pose proof (C64_no_panic final chain nd b b [rv_contract v] (rv_wanted v) H F1 B) as NP.
      destruct (identify_events nd b b _ _); cbn [pbind]; try done. specialize (IH F2). destruct (events_of_blocks nd bs _ _); cbn [pbind]; done.
    - exfalso. clear -R. induction (rv_additional v) as [|t txs IH]; cbn [receipt_blocks] in R; [done|]. destruct (nd_receipt nd t) as [[c|]|]; [|by apply IH|done]. destruct (receipt_blocks nd txs); cbn [pbind] in R; try done. }
  destruct (identify_additional_events _ _ _ _); cbn [pbind] in V; try done.
  pose proof (C64_no_panic final chain nd (r_start r) (end_block r) [rv_contract v] (rv_wanted v) H (Fin _ _ eq_refl) B) as NP. destruct (identify_events nd (r_start r) _ _ _); cbn [pbind] in V; try done. cbv zeta in V. by destruct (List.find _ _).
Qed.
(** The additional transactions are looked up without waiting for their confirmation: an event of the newest block may be voted for. *)
Theorem C65_confirmed_refuted :
  ~ forall order code nd v p latest, some_order order -> handle order code nd v = Votes p -> nd_latest nd = Some latest -> forall d, In d (p_events p) -> d_block d + 20 <= latest.
Proof.
  intros H. set (chain := [log_of 500 10 1 (SolLifted 7 8 100); log_of 500 100 2 (SolLifted 7 9 50)]).
  set (nd := node_of 100 chain (fun t => if t =? 2 then Some 100 else None)).
  set (v := mkView 500 (Some (mkRange 0 20, 0)) [signature Lifted] [2] false). set (code := fun _ : event_data => 0).
  assert (V : handle (fun l => l) code nd v = Votes (mkPart (mkRange 0 20) 0 true [mkDisc (mkEvent 1 (signature Lifted) 0) 10; mkDisc (mkEvent 2 (signature Lifted) 0) 100])) by (vm_compute; reflexivity).
  assert (So : some_order (fun l => l)) by (intros l; reflexivity).
  pose proof (H _ _ _ _ _ 100 So V eq_refl) as X. clear -X. cbn [p_events] in X. specialize (X (mkDisc (mkEvent 2 (signature Lifted) 0) 100) (or_intror (or_introl eq_refl))). cbn [d_block] in X. lia.
Qed.
(** The author is the first of the chain's authors whose key is in the keystore. *)
Theorem C65_author authors keys a : find_author authors keys = Some a <->
  exists before after, authors = before ++ a :: after /\ In a.2 keys /\ forall b, In b before -> ~ In b.2 keys.
Proof.
  unfold find_author. induction authors as [|x authors IH]; cbn [List.find].
  - split; [done|]. intros (b & c & E & _). by destruct b.
  - destruct (mem x.2 keys) eqn:M.
    + apply mem_in in M. split.
      * intros [= <-]. exists [], authors. repeat split; try done.
      * intros (b & c & E & I & N). destruct b as [|y b]; injection E as -> ->; [done|]. by exfalso; apply (N y); [left|].
    + apply mem_out in M. rewrite IH. split.
      * intros (b & c & -> & I & N). exists (x :: b), c. repeat split; try done. intros y [<-|Y]; [done|by apply N].
      * intros (b & c & E & I & N). destruct b as [|y b]; injection E as -> ->; [done|]. exists b, c. repeat split; try done. intros z Z. apply N. by right.
Qed.
Example C65_example :
  let chain := [log_of 500 10 1 (SolLifted 7 8 100); log_of 600 12 2 (SolErc20Transfer 4 500 50)] in
  handle (@rev found) (fun _ => 0) (node_of 100 chain (fun _ => None)) (mkView 500 (Some (mkRange 0 20, 0)) [signature Lifted; signature Erc20DirectTransfer] [] false) =
    Votes (mkPart (mkRange 0 20) 0 true [mkDisc (mkEvent 1 (signature Lifted) 0) 10; mkDisc (mkEvent 2 (signature Erc20DirectTransfer) 0) 12]) /\
  one_block chain /\ some_order (@rev found).
Proof.
  split; [by vm_compute|]. split.
  - intros l l' t [<-|[<-|[]]] [<-|[<-|[]]]; cbn; congruence.
  - intros l. symmetry. apply Permutation_rev.
Qed.
