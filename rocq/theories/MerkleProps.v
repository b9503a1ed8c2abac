(** C33: Merkle roots commit to the extrinsics, and paths verify. *)
From Verif Require Import Base BaseLemmas CodecModel CodecProofs MerkleModel.

(** What the Ethereum contract does with a leaf and a path: hash upwards, the smaller hash first. *)
Definition climbs (H : list N -> N) (leaf : list N) (path : list N) (root : N) : Prop :=
  fold_left (fun x y => kec H (join_pair x y)) path (kec H leaf) = root.
(** The messages hashed to compute the root of a list of leaves: the leaves, and level by level the pairs of hashes. *)
Fixpoint pairs (l : list N) : list (list N) :=
  match l with a :: b :: r => join_pair a b :: pairs r | _ => [] end.
Fixpoint hashed_above (H : list N -> N) (fuel : nat) (l : list N) : list (list N) :=
  match fuel with O => pairs l | S n => pairs l ++ hashed_above H n (map (kec H) (pairs l) ++ if Nat.odd (length l) then [List.last l 0] else []) end.
Definition hashed (H : list N -> N) (leaves : list (list N)) : list (list N) :=
  leaves ++ hashed_above H (length leaves) (map (kec H) leaves).
(** The messages hashed to check a path. *)
Fixpoint hashed_from (H : list N -> N) (x : N) (path : list N) : list (list N) :=
  match path with [] => [] | y :: r => join_pair x y :: hashed_from H (kec H (join_pair x y)) r end.
Definition hashed_climbing (H : list N -> N) (leaf : list N) (path : list N) : list (list N) := leaf :: hashed_from H (kec H leaf) path.
(** Two different messages, one of each list, with the same hash.  (That some collision exists is trivial, the hashes being bounded; these are
    the messages really hashed, so that the collision is found by whoever holds the two trees.) *)
Definition collision (H : list N -> N) (ms ms' : list (list N)) : Prop := exists x y, x ∈ ms /\ y ∈ ms' /\ x <> y /\ kec H x = kec H y.
(** A leaf as long as two hashes could be mistaken for an inner node. *)
Definition node_sized (x : list N) : Prop := length x = 64%nat.

(** ** Definedness *)
Lemma list_ind2 {A} (P : list A -> Prop) : P [] -> (forall a, P [a]) -> (forall a b r, P r -> P (a :: b :: r)) -> forall l, P l.
Proof. intros H0 H1 H2. fix IH 1. intros [|a [|b r]]; [done|done|]. apply H2, IH. Qed.
Lemma pair_up_length H l : length (pair_up H l) = Nat.div2 (S (length l)).
Proof. induction l using list_ind2; [done|done|]. cbn [pair_up length]. rewrite IHl. done. Qed.
Lemma pair_up_shrinks H l : (1 < length (pair_up H l))%nat -> (length (pair_up H l) < length l)%nat.
Proof. rewrite pair_up_length. intros Hl. pose proof (Nat.div2_odd (S (length l))) as E. destruct (Nat.odd (S (length l))); cbn [Nat.b2n] in E; lia. Qed.
Lemma pair_up_nonempty H l : l <> [] -> pair_up H l <> [].
Proof. destruct l as [|a [|b l]]; [done|done|done]. Qed.
Lemma level_single H n : forall l, l <> [] -> (length l <= S n)%nat -> exists x, process_level H n l = [x].
Proof.
  induction n as [|n IH]; intros l Hl Hn.
  - destruct l as [|a [|b l]]; [done|by exists a|cbn in Hn; lia].
  - cbn [process_level]. pose proof (pair_up_nonempty H l Hl) as Hp. pose proof (pair_up_shrinks H l) as Hs.
    destruct (Nat.ltb_spec 1 (length (pair_up H l))) as [H1|H1]; [apply IH; [done|lia]|].
    destruct (pair_up H l) as [|a [|b r]]; [done|by exists a|cbn in H1; lia].
Qed.
(** Every non-empty list of leaves has a root; the empty one has none. *)
Theorem C33_root_defined H leaves : (exists r, tree_root H leaves = Ok r) <-> leaves <> [].
Proof.
  unfold tree_root. split.
  - intros (r & Hr) ->. done.
  - intros Hl. destruct (level_single H (length (map (kec H) leaves)) (map (kec H) leaves)) as (x & ->); [by destruct leaves|lia|by exists x].
Qed.

(** ** Paths *)
Definition climb (H : list N -> N) (x : N) (path : list N) : N := fold_left (fun x y => kec H (join_pair x y)) path x.
Lemma join_comm a b : join_pair a b = join_pair b a.
Proof. unfold join_pair. destruct (N.leb_spec a b), (N.leb_spec b a); try done; [|lia]. assert (a = b) as -> by lia. done. Qed.
Lemma pair_up_path_next H l : forall x, (pair_up_path H x l).1.2 = pair_up H l.
Proof.
  induction l as [|a|a b r IH] using list_ind2; intros x; [done|done|]. cbn [pair_up_path pair_up].
  destruct (if x =? a then (kec H (join_pair a b), [b]) else if x =? b then (kec H (join_pair a b), [a]) else (x, [])) as [x1 add]. specialize (IH x1).
  destruct (pair_up_path H x1 r) as [[x2 p] add2]. cbn in *. by rewrite IH.
Qed.
Lemma pair_up_path_climbs H l : forall x, (pair_up_path H x l).1.1 = climb H x (pair_up_path H x l).2.
Proof.
  induction l as [|a|a b r IH] using list_ind2; intros x; [done|done|]. cbn [pair_up_path].
  destruct (N.eqb_spec x a) as [->|]; [|destruct (N.eqb_spec x b) as [->|]].
  - specialize (IH (kec H (join_pair a b))). destruct (pair_up_path H _ r) as [[x2 p] add2]. cbn in *. done.
  - specialize (IH (kec H (join_pair a b))). destruct (pair_up_path H _ r) as [[x2 p] add2]. cbn in *. by rewrite join_comm.
  - specialize (IH x). destruct (pair_up_path H _ r) as [[x2 p] add2]. cbn in *. done.
Qed.
Lemma pair_up_path_stays H l : forall x, x ∈ l -> (pair_up_path H x l).1.1 ∈ pair_up H l.
Proof.
  assert (G : forall l x, (x ∈ l -> (pair_up_path H x l).1.1 ∈ pair_up H l) /\ ((pair_up_path H x l).1.1 = x \/ (pair_up_path H x l).1.1 ∈ pair_up H l)).
  { clear l. intros l. induction l as [|a|a b r IH] using list_ind2; intros x; [by split; [|left]|by split; [|left]|]. cbn [pair_up_path pair_up].
    destruct (N.eqb_spec x a) as [->|]; [|destruct (N.eqb_spec x b) as [->|]].
    - specialize (IH (kec H (join_pair a b))). destruct (pair_up_path H _ r) as [[x2 p] add2]. cbn in *. destruct IH as [_ [->|I]]; (split; [intros _|right]); first [by left | by right].
    - specialize (IH (kec H (join_pair a b))). destruct (pair_up_path H _ r) as [[x2 p] add2]. cbn in *. destruct IH as [_ [->|I]]; (split; [intros _|right]); first [by left | by right].
    - specialize (IH x). destruct (pair_up_path H _ r) as [[x2 p] add2]. cbn in *. destruct IH as [I1 I2]. split.
      + intros Hin. apply elem_of_cons in Hin as [?|Hin]; [done|]. apply elem_of_cons in Hin as [?|Hin]; [done|]. right. by apply I1.
      + destruct I2; [by left|]. right. by right. }
  intros x. apply G.
Qed.
Lemma process_path_climbs H n : forall x l, x ∈ l -> (length l <= S n)%nat -> process_level H n l = [climb H x (process_path H n x l)].
Proof.
  induction n as [|n IH]; intros x l Hx Hn.
  - destruct l as [|a [|b l]]; [by apply elem_of_nil in Hx| |cbn in Hn; lia]. apply elem_of_list_singleton in Hx as ->. done.
  - cbn [process_level process_path]. pose proof (pair_up_path_next H l x) as E1. pose proof (pair_up_path_climbs H l x) as E2. pose proof (pair_up_path_stays H l x Hx) as E3.
    pose proof (pair_up_shrinks H l) as Hs. destruct (pair_up_path H x l) as [[x1 p] add]. cbn [fst snd] in E1, E2, E3. subst p.
    destruct (Nat.ltb_spec 1 (length (pair_up H l))) as [H1|H1].
    + rewrite (IH x1) by (done || lia). f_equal. rewrite E2. unfold climb. by rewrite fold_left_app.
    + destruct (pair_up H l) as [|a [|b r]]; [by apply elem_of_nil in E3| |cbn in H1; lia]. apply elem_of_list_singleton in E3. congruence.
Qed.
(** The path made for any leaf of any list leads to the root of the list, whatever the hash function. *)
Theorem C33_path_verifies H leaf leaves : leaf ∈ leaves -> leaf <> [] ->
  exists path root, merkle_path H leaf leaves = Ok path /\ tree_root H leaves = Ok root /\ climbs H leaf path root.
Proof.
  intros Hin Hne. destruct leaf as [|b0 leaf0]; [done|]. set (leaf := b0 :: leaf0) in *. destruct leaves as [|l0 ls]; [by apply elem_of_nil in Hin|]. set (leaves := l0 :: ls) in *.
  eexists _, _. split; [reflexivity|]. unfold tree_root. rewrite (process_path_climbs H _ (kec H leaf)); [|by apply elem_of_list_fmap_1|lia]. split; reflexivity.
Qed.

(** ** What a root says *)

(** [v] is the root of a binary tree with these leaves, from left to right; all messages hashed are in [P]. *)
Inductive tree (H : list N -> N) (P : list N -> Prop) : N -> list (list N) -> Prop :=
| Leaf d : P d -> tree H P (kec H d) [d]
| Node a b l r : P (join_pair a b) -> tree H P a l -> tree H P b r -> tree H P (kec H (join_pair a b)) (l ++ r).
Definition clash (H : list N -> N) (P Q : list N -> Prop) : Prop := exists x y, P x /\ Q y /\ x <> y /\ kec H x = kec H y.
Lemma tree_lt H P v l : tree H P v l -> v < 2 ^ 256.
Proof. destruct 1; apply N.mod_lt; done. Qed.
Lemma join_length a b : length (join_pair a b) = 64%nat.
Proof. unfold join_pair. destruct (_ <=? _); by rewrite app_length, !be_bytes_length. Qed.
Lemma join_inj a b a' b' : a < 2 ^ 256 -> b < 2 ^ 256 -> a' < 2 ^ 256 -> b' < 2 ^ 256 -> join_pair a b = join_pair a' b' -> (a = a' /\ b = b') \/ (a = b' /\ b = a').
Proof.
  intros Ha Hb Ha' Hb'. unfold join_pair.
  assert (G : forall x y z w, x < 2 ^ 256 -> y < 2 ^ 256 -> z < 2 ^ 256 -> w < 2 ^ 256 -> be_bytes 32 x ++ be_bytes 32 y = be_bytes 32 z ++ be_bytes 32 w -> x = z /\ y = w).
  { intros x y z w ???? E. apply app_split in E as [E1 E2]; [|by rewrite !be_bytes_length]. apply be_bytes_inj in E1, E2; done. }
  destruct (a <=? b), (a' <=? b'); intros E; apply G in E; try done; naive_solver.
Qed.
Lemma kec_inj H (P Q : list N -> Prop) x y : kec H x = kec H y -> P x -> Q y -> x = y \/ clash H P Q.
Proof. intros E Px Qy. destruct (decide (x = y)); [by left|]. right. by exists x, y. Qed.
Lemma tree_unique H P Q v l : tree H P v l -> forall l', tree H Q v l' -> Forall (fun x => ~ node_sized x) (l ++ l') -> l ≡ₚ l' \/ clash H P Q.
Proof.
  induction 1 as [d Pd|a b l r Pj Hl IHl Hr IHr]; intros l' H' Hs.
  - inversion H' as [d' Qd E|a' b' l1 r1 Qj H1 H2 E]; subst.
    + symmetry in E. apply (kec_inj H P Q) in E as [->|?]; [by left | by right|done|done].
    + symmetry in E. apply (kec_inj H P Q) in E as [E|?]; [|by right|done|done]. exfalso. rewrite Forall_app, Forall_singleton in Hs. apply (proj1 Hs). unfold node_sized. rewrite E. apply join_length.
  - inversion H' as [d' Qd E|a' b' l1 r1 Qj H1 H2 E]; subst.
    + symmetry in E. apply (kec_inj H P Q) in E as [E|?]; [|by right|done|done]. exfalso. rewrite Forall_app, Forall_singleton in Hs. apply (proj2 Hs). unfold node_sized. rewrite <- E. apply join_length.
    + symmetry in E. apply (kec_inj H P Q) in E as [E|?]; [|by right|done|done]. rewrite !Forall_app in Hs. destruct Hs as [[S1 S2] [S3 S4]].
      symmetry in E. apply join_inj in E as [[-> ->]|[-> ->]]; [| |by eapply tree_lt..].
      * destruct (IHl l1) as [P1|?]; [done|by apply Forall_app| |by right]. destruct (IHr r1) as [P2|?]; [done|by apply Forall_app| |by right]. left. by rewrite P1, P2.
      * destruct (IHl r1) as [P1|?]; [done|by apply Forall_app| |by right]. destruct (IHr l1) as [P2|?]; [done|by apply Forall_app| |by right]. left. rewrite P1, P2. apply Permutation_app_comm.
Qed.
(** The nodes of a level with the leaves below them. *)
Lemma pair_up_spec H l : pair_up H l = map (kec H) (pairs l) ++ if Nat.odd (length l) then [List.last l 0] else [].
Proof.
  induction l as [|a|a b r IH] using list_ind2; [done|done|]. cbn [pair_up pairs map length]. rewrite IH. rewrite Nat.odd_succ, Nat.even_succ.
  cbn [List.app]. f_equal. f_equal. destruct r as [|c r]; [done|]. done.
Qed.
Lemma pair_up_trees H (P : list N -> Prop) l : forall ll, Forall2 (tree H P) l ll -> Forall P (pairs l) -> exists ll', Forall2 (tree H P) (pair_up H l) ll' /\ concat ll' = concat ll.
Proof.
  induction l as [|a|a b r IH] using list_ind2; intros ll Hf Hp; [by exists ll|by exists ll|]. inversion Hf as [|? la ? ll1 Ha Hf1]; subst. inversion Hf1 as [|? lb ? ll2 Hb Hf2]; subst.
  cbn [pairs] in Hp. apply Forall_cons in Hp as [Hp1 Hp].
  destruct (IH ll2 Hf2 Hp) as (ll' & F & E). exists ((la ++ lb) :: ll'). cbn [pair_up]. split; [constructor; [by constructor|done]|]. cbn. by rewrite E, app_assoc.
Qed.
Lemma level_trees H (P : list N -> Prop) n : forall l ll, Forall2 (tree H P) l ll -> Forall P (hashed_above H n l) -> exists ll', Forall2 (tree H P) (process_level H n l) ll' /\ concat ll' = concat ll.
Proof.
  induction n as [|n IH]; intros l ll Hf Hp; cbn [process_level hashed_above] in *; [by apply pair_up_trees|]. apply Forall_app in Hp as [Hp1 Hp2].
  destruct (pair_up_trees H P l ll Hf Hp1) as (ll' & F & E). rewrite <- pair_up_spec in Hp2.
  destruct (_ <? _)%nat; [|by exists ll']. destruct (IH _ _ F Hp2) as (ll2 & F2 & E2). exists ll2. split; [done|congruence].
Qed.
Lemma root_tree H leaves r : tree_root H leaves = Ok r -> tree H (fun m => m ∈ hashed H leaves) r leaves.
Proof.
  unfold tree_root. destruct (level_trees H (fun m => m ∈ hashed H leaves) (length (map (kec H) leaves)) (map (kec H) leaves) (map (fun x => [x]) leaves)) as (ll & F & E).
  { assert (G : forall ls, (forall x, x ∈ ls -> x ∈ hashed H leaves) -> Forall2 (tree H (fun m => m ∈ hashed H leaves)) (map (kec H) ls) (map (fun x => [x]) ls)).
    { induction ls as [|x ls IH]; intros Hin; cbn; constructor; [constructor; apply Hin; by left|]. apply IH. intros y Hy. apply Hin. by right. }
    apply G. intros x Hx. apply elem_of_app. by left. }
  { rewrite map_length. apply Forall_forall. intros x Hx. apply elem_of_app. by right. }
  destruct (process_level H _ _) as [|x [|y z]]; [done| |done]. intros [= <-]. inversion F as [|? l ? ll1 Ht Hn]; subst. inversion Hn; subst.
  assert (Hl : forall ls : list (list N), concat (map (fun x => [x]) ls) = ls) by (induction ls as [|? ? IH]; cbn; [done|by rewrite IH]).
  rewrite Hl in E. cbn in E. rewrite app_nil_r in E. by rewrite E in Ht.
Qed.
(** The same root means the same extrinsics, up to order: anything else exhibits two different messages with the same hash, one
    hashed for the first root and one for the second. *)
Theorem C33_root_commits H leaves leaves' r : tree_root H leaves = Ok r -> tree_root H leaves' = Ok r ->
  Forall (fun x => ~ node_sized x) (leaves ++ leaves') -> leaves ≡ₚ leaves' \/ collision H (hashed H leaves) (hashed H leaves').
Proof. intros H1%root_tree H2%root_tree Hs. by eapply tree_unique. Qed.

(** A leaf with any path that leads to the root is one of the leaves. *)
Lemma hashed_from_snoc H path y : forall x, hashed_from H x (path ++ [y]) = hashed_from H x path ++ [join_pair (climb H x path) y].
Proof. induction path as [|z path IH]; intros x; [done|]. cbn. by rewrite IH. Qed.
Lemma climb_in H P (Q : list N -> Prop) path : forall v l d, tree H P v l -> climb H (kec H d) path = v -> Forall Q (hashed_climbing H d path) -> Forall (fun x => x < 2 ^ 256) path -> ~ node_sized d -> Forall (fun x => ~ node_sized x) l -> d ∈ l \/ clash H P Q.
Proof.
  induction path as [|y path IH] using rev_ind; intros v l d Ht Hc HQ Hp Hd Hs.
  - cbn in Hc. apply Forall_cons in HQ as [Qd _]. inversion Ht as [d' Pd E|a b l1 r1 Pj H1 H2 E]; subst; cbn in *.
    + apply (kec_inj H P Q) in E as [->|?]; [left; by left | by right|done|done].
    + apply (kec_inj H P Q) in E as [E|?]; [|by right|done|done]. exfalso. apply Hd. unfold node_sized. rewrite <- E. apply join_length.
  - unfold climb in Hc. rewrite fold_left_app in Hc. cbn in Hc. fold (climb H (kec H d) path) in Hc. apply Forall_app in Hp as [Hp Hy]. rewrite Forall_singleton in Hy.
    unfold hashed_climbing in HQ. rewrite hashed_from_snoc, app_comm_cons in HQ. apply Forall_app in HQ as [HQ Qy]. rewrite Forall_singleton in Qy.
    inversion Ht as [d' Pd E|a b l1 r1 Pj H1 H2 E]; subst.
    + apply (kec_inj H P Q) in E as [E|?]; [|by right|done|done]. exfalso. rewrite Forall_singleton in Hs. apply Hs. unfold node_sized. rewrite E. apply join_length.
    + apply (kec_inj H P Q) in E as [E|?]; [|by right|done|done]. apply Forall_app in Hs as [S1 S2].
      assert (Hx : climb H (kec H d) path < 2 ^ 256).
      { destruct path as [|z path] using rev_ind; [by apply N.mod_lt|]. unfold climb. rewrite fold_left_app. cbn. by apply N.mod_lt. }
      symmetry in E. apply join_inj in E as [[E1 E2]|[E1 E2]]; [| |done|done|by eapply tree_lt|by eapply tree_lt].
      * destruct (IH a l1 d H1) as [?|?]; [done|done|done|done|done| |by right]. left. apply elem_of_app. by left.
      * destruct (IH b r1 d H2) as [?|?]; [done|done|done|done|done| |by right]. left. apply elem_of_app. by right.
Qed.
Theorem C33_only_leaves_verify H leaves r leaf path : tree_root H leaves = Ok r -> Forall (fun x => x < 2 ^ 256) path -> climbs H leaf path r ->
  ~ node_sized leaf -> Forall (fun x => ~ node_sized x) leaves -> leaf ∈ leaves \/ collision H (hashed H leaves) (hashed_climbing H leaf path).
Proof. intros Hr Hp Hc Hd Hs. apply root_tree in Hr. eapply (climb_in H _ (fun m => m ∈ hashed_climbing H leaf path)); [done|done| |done..]. apply Forall_forall. done. Qed.
(** A limit of the scheme: without the condition on sizes inner nodes verify as leaves, and the order within a pair is
    not committed to, under every hash function. *)
Theorem C33_inner_nodes_verify_refuted H a b : let fake := join_pair (kec H a) (kec H b) in
  exists r, tree_root H [a; b] = Ok r /\ climbs H fake [] r.
Proof. cbn zeta. eexists. split; reflexivity. Qed.
Theorem C33_order_refuted H a b : tree_root H [a; b] = tree_root H [b; a].
Proof. unfold tree_root. cbn [map length process_level pair_up]. cbn. by rewrite join_comm. Qed.

(** ** The root of a range of blocks *)
Lemma range_agree ch ch' n : forall from, (forall k, from <= k < from + N.of_nat n -> ch_blocks ch !! k = ch_blocks ch' !! k) ->
  from + N.of_nat n <= ch_final ch + 1 -> from + N.of_nat n <= ch_final ch' + 1 -> range_leaves ch from n = range_leaves ch' from n.
Proof.
  induction n as [|n IH]; intros from Ha H1 H2; [done|]. cbn [range_leaves]. unfold block_leaves. rewrite (Ha from) by lia. destruct (ch_blocks ch' !! from) as [l|]; [|done].
  rewrite (proj2 (N.ltb_ge _ _)) by lia. rewrite (proj2 (N.ltb_ge (ch_final ch') _)) by lia. rewrite (IH (from + 1)); [done|intros k Hk; apply Ha; lia|lia|lia].
Qed.
(** Two nodes that agree on the blocks of the range, and for which it is final, give the same answer. *)
Theorem C33_nodes_agree H ch ch' from to : (forall k, from <= k <= to -> ch_blocks ch !! k = ch_blocks ch' !! k) ->
  to <= ch_final ch -> to <= ch_final ch' -> root_hash H ch from to = root_hash H ch' from to.
Proof.
  intros Ha H1 H2. unfold root_hash. destruct (N.le_gt_cases from to) as [Hle|Hgt].
  - rewrite (range_agree ch ch'); [done|intros k Hk; apply Ha; lia|lia|lia].
  - replace (to + 1 - from) with 0 by lia. done.
Qed.
Lemma range_final ch n : forall from l, range_leaves ch from n = Ok l -> n <> O -> from + N.of_nat n <= ch_final ch + 1.
Proof.
  induction n as [|n IH]; intros from l Hr Hn; [done|]. cbn [range_leaves] in Hr. unfold block_leaves in Hr. destruct (ch_blocks ch !! from); [|done].
  destruct (N.ltb_spec (ch_final ch) from); [done|]. destruct (range_leaves ch (from + 1) n) as [l2|] eqn:E; [|done]. destruct n as [|n]; [lia|]. apply IH in E; [lia|done].
Qed.
(** No root is given for blocks that are not final. *)
Theorem C33_only_final H ch from to r : root_hash H ch from to = Ok r -> from <= to -> to <= ch_final ch.
Proof.
  unfold root_hash. intros Hr Hle. destruct (range_leaves ch from _) as [l|] eqn:E; [|done]. apply range_final in E; lia.
Qed.
(** All extrinsics of the range, in order. *)
Fixpoint extrinsics (ch : chain) (from : N) (n : nat) : list (list N) :=
  match n with O => [] | S n => (match ch_blocks ch !! from with Some l => l | None => [] end) ++ extrinsics ch (from + 1) n end.
Lemma range_all ch n : forall from l, range_leaves ch from n = Ok l -> l = extrinsics ch from n.
Proof.
  induction n as [|n IH]; intros from l Hr; cbn in *; [congruence|]. unfold block_leaves in Hr. destruct (ch_blocks ch !! from); [|done]. destruct (_ <? _); [done|].
  destruct (range_leaves ch (from + 1) n) as [l2|] eqn:E; [|done]. apply IH in E. congruence.
Qed.
(** The answer is the root of the tree over all of them (0 when there are none). *)
Theorem C33_root_covers_range H ch from to r : root_hash H ch from to = Ok r ->
  let l := extrinsics ch from (N.to_nat (to + 1 - from)) in l = [] /\ r = 0 \/ tree_root H l = Ok r.
Proof.
  unfold root_hash. intros Hr. cbn zeta. destruct (range_leaves ch from _) as [l|] eqn:E; [|done]. apply range_all in E. rewrite <- E. destruct l; [left; split; [done|congruence] | by right].
Qed.

(** ** Example: five leaves, a hash for which everything can be computed. *)
Definition ex_H (x : list N) : N := fold_left (fun a b => (a * 257 + b + 1) mod (2 ^ 256 - 189)) x 7.
Definition ex_leaves : list (list N) := [[1]; [2]; [3]; [4; 4]; [5]].
Example C33_example : exists r p1 p5, tree_root ex_H ex_leaves = Ok r /\ merkle_path ex_H [2] ex_leaves = Ok p1 /\ merkle_path ex_H [5] ex_leaves = Ok p5 /\
  length p1 = 3%nat /\ length p5 = 1%nat /\ climbs ex_H [2] p1 r /\ climbs ex_H [5] p5 r /\ ~ climbs ex_H [3] p5 r /\ r <> 0 /\
  Forall (fun x => ~ node_sized x) ex_leaves /\ Forall (fun x => x < 2 ^ 256) p1.
Proof.
  eexists _, _, _. split; [vm_compute; reflexivity|]. split; [vm_compute; reflexivity|]. split; [vm_compute; reflexivity|]. split; [done|]. split; [done|].
  split; [by vm_compute|]. split; [by vm_compute|]. split; [by vm_compute|]. split; [done|]. split; repeat constructor; unfold node_sized; cbn; lia.
Qed.
(** Nine messages are hashed for the five leaves, and no two of them collide. *)
Example C33_no_collision_example : length (hashed ex_H ex_leaves) = 9%nat /\ ~ collision ex_H (hashed ex_H ex_leaves) (hashed ex_H ex_leaves).
Proof.
  split; [by vm_compute|]. intros (x & y & Hx & Hy & Hne & E).
  assert (G : forallb (fun x => forallb (fun y => negb (kec ex_H x =? kec ex_H y) || bool_decide (x = y)) (hashed ex_H ex_leaves)) (hashed ex_H ex_leaves) = true) by (vm_compute; reflexivity).
  rewrite forallb_forall in G. apply elem_of_list_In in Hx, Hy. specialize (G x Hx). rewrite forallb_forall in G. specialize (G y Hy).
  rewrite E, N.eqb_refl in G. cbn in G. apply bool_decide_eq_true in G. done.
Qed.
