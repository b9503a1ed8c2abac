(** C72-C74: offchain-worker runs, locks and their names. *)
From Verif Require Import Base CodecModel CodecProofs BridgeModel AbiModel AbiProofs OcwModel OcwSpec OcwProofs OcwProofs2.

(** ** C72: a worker runs at most once per block *)

(** Whatever the schedule, restarts and earlier contents of the store: the blocks for which the workers of a caller run are strictly increasing, and above
    the last block that the store recorded at the start. *)
Theorem C72_runs_strictly_increase n0 es n log c : history n0 es n log ->
  StronglySorted N.lt (runs c log) /\ Forall (fun b => forall x, last_run n0 c = Some x -> x < b) (runs c log).
Proof. intros H. destruct (runs_inv _ _ _ _ c H) as (_ & _ & I3 & I4). split; [done|]. by apply Forall_forall. Qed.

(** In particular no block is run twice for a caller. *)
Theorem C72_no_block_twice n0 es n log p t c b m t' q : history n0 es n log -> log = p ++ Ran t c b :: m ++ Ran t' c b :: q -> False.
Proof.
  intros H E. destruct (runs_inv _ _ _ _ c H) as (_ & _ & S & _). rewrite E in S.
  assert (R : forall u, runs c [Ran u c b] = [b]) by (intros u; unfold runs; cbn; by rewrite decide_True).
  change (Ran t c b :: m ++ Ran t' c b :: q) with ([Ran t c b] ++ (m ++ ([Ran t' c b] ++ q))) in S. rewrite !runs_app, !R in S.
  assert (X : forall l1 l2, StronglySorted N.lt (l1 ++ l2) -> StronglySorted N.lt l2).
  { induction l1 as [|y l1 IH]; [done|]. intros l2 [S1 _]%StronglySorted_inv. by apply IH. }
  apply X in S. apply StronglySorted_inv in S as [_ S]. apply Forall_app in S as [_ S]. cbn in S. apply Forall_cons in S as [S _]. lia.
Qed.

(** The answers.  "Already run" is said only when the same or a later block was run, or recorded from the start; "could not record" only when another run
    of the caller was recorded since the worker looked. *)
Theorem C72_already_run_has_a_reason n0 es n log p t c b q : history n0 es n log -> log = p ++ AlreadyRun t c b :: q ->
  (exists b', b' ∈ runs c p /\ b <= b') \/ (exists x, last_run n0 c = Some x /\ b <= x).
Proof. intros H E. exact (already_inv _ _ _ _ H _ _ _ E). Qed.
Theorem C72_failure_has_a_reason n0 es n log p t c b q : history n0 es n log -> log = p ++ Clash t c b :: q ->
  exists p1 p2, p = p1 ++ Looking t c b :: p2 /\ runs c p2 <> [].
Proof. intros H E. exact (clash_inv _ _ _ _ H _ _ _ E). Qed.

(** A worker of a block above all that were run, that is not killed and in whose time no other run of the caller is recorded, runs; other callers and
    locks do not matter. *)
Definition leaves_alone (t : N) (e : ev) : Prop := match e with EvStep u => u <> t | EvRestart => False | _ => True end.
Lemma alone_thread t th mid : forall n, Forall (leaves_alone t) mid -> nd_threads n !! t = Some th -> (forall l b e a, th <> mkThread (Locked l b e) (Holding a)) ->
  nd_threads (exec n mid).1 !! t = Some th.
Proof.
  induction mid as [|e mid IH]; intros n A F NH; [done|]. apply Forall_cons in A as [A1 A2]. cbn.
  assert (K : nd_threads (step n e).1 !! t = Some th).
  { destruct e as [u j|u|u|u ok|ms|]; cbn in A1 |- *; try done.
    - destruct (nd_threads n !! u) eqn:E; [done|]. cbn. rewrite lookup_insert_ne; [done|]. intros ->. congruence.
    - destruct (nd_threads n !! u) as [[j p]|] eqn:E; [|done]. unfold step_thread. cbn.
      destruct j as [c b|l b ex], p as [|a|a raw|a raw|a|]; cbn; try done; repeat case_match; cbn; by rewrite lookup_insert_ne.
    - destruct (nd_threads n !! u) as [[[c b|l b ex] p]|]; try done. by destruct p.
    - destruct (nd_threads n !! u) as [[[c b|l b ex] p]|] eqn:E; try done. destruct p as [|a|a raw|a raw|a|]; try done.
      assert (u <> t) by (intros ->; rewrite F in E; injection E as ->; by apply (NH l b ex a)). destruct ok; cbn; by rewrite lookup_insert_ne. }
  destruct (step n e) as [n1 o1]. cbn in K. pose proof (IH n1 A2 K NH) as R. by destruct (exec n1 mid).
Qed.
Lemma alone_store c mid : forall n, Forall ev_ok mid -> runs c (exec n mid).2 = [] -> nd_store (exec n mid).1 !! run_key c = nd_store n !! run_key c.
Proof.
  induction mid as [|e mid IH]; intros n O R; [done|]. apply Forall_cons in O as [O1 O2]. cbn [exec] in R |- *. pose proof (step_moved n e O1) as M.
  destruct (step n e) as [n1 o1]. specialize (IH n1 O2). destruct (exec n1 mid) as [n2 o2]. cbn [fst snd] in *. rewrite runs_app in R. apply app_eq_nil in R as [R1 R2].
  rewrite (IH R2). destruct (moved_run _ _ _ c M) as [[_ E]|(t & c' & b & x & -> & E & _)]; [done|]. unfold runs in R1. cbn in R1. by rewrite decide_True in R1.
Qed.
Theorem C72_undisturbed_worker_runs n t c b mid : nd_threads n !! t = None -> b < 2 ^ 32 -> (forall x, last_run n c = Some x -> x < b) ->
  Forall ev_ok mid -> Forall (leaves_alone t) mid ->
  let n1 := (exec n [EvSpawn t (RecordRun c b); EvStep t]).1 in
  runs c (exec n1 mid).2 = [] -> (exec n1 (mid ++ [EvStep t])).2 = (exec n1 mid).2 ++ [Ran t c b] /\ last_run (exec n1 (mid ++ [EvStep t])).1 c = Some b.
Proof.
  intros F B L O A n1 R.
  assert (HR : has_run (nd_store n !! run_key c) b = false).
  { destruct (has_run _ b) eqn:E; [|done]. apply has_run_iff in E as (x & E & ?). specialize (L x E). lia. }
  assert (F1 : nd_threads n1 !! t = Some (mkThread (RecordRun c b) (Trying 0 (nd_store n !! run_key c))) /\ nd_store n1 = nd_store n).
  { unfold n1. cbn. rewrite F. cbn. rewrite lookup_insert. unfold step_thread. cbn. rewrite HR. cbn. by rewrite lookup_insert. }
  destruct F1 as [F1 S1]. pose proof (alone_thread t _ mid n1 A F1 ltac:(done)) as F2. pose proof (alone_store c mid n1 O R) as S2.
  rewrite exec_snoc. cbn. rewrite F2. unfold step_thread. cbn. rewrite S2, S1. rewrite decide_True by done. cbn. split; [done|]. unfold last_run. cbn. rewrite lookup_insert. cbn. by apply decode_enc_block.
Qed.

(** Refuted: the newest block is always run.  The workers of blocks 5 and 6 look at the same time; the one of block 5 records first, the one of block 6 is told that
    recording failed and does not run, nor does it later. *)
Definition race : list ev :=
  [EvSpawn 1 (RecordRun EventsWorker 5); EvSpawn 2 (RecordRun EventsWorker 6); EvStep 2; EvStep 1; EvStep 1; EvStep 2].
Definition node0 : node := mkNode ∅ 0 ∅.
Theorem C72_newest_block_runs_refuted :
  history node0 race (exec node0 race).1
    [Looking 2 EventsWorker 6; Looking 1 EventsWorker 5; Ran 1 EventsWorker 5; Clash 2 EventsWorker 6] /\
  map_Forall (fun _ th => th_phase th = Ended) (nd_threads (exec node0 race).1) /\ last_run (exec node0 race).1 EventsWorker = Some 5.
Proof.
  split; [|split; [|by vm_compute]].
  2: { intros t th H. apply elem_of_map_to_list in H. vm_compute in H. repeat (apply elem_of_cons in H as [H|H]; [by injection H as _ ->|]). by apply elem_of_nil in H. }
  split; [done|]. split; [by repeat constructor|]. split; [by vm_compute|by vm_compute].
Qed.

(** ** C73: locks *)

(** Between two acquisitions of a lock with no release between them, its deadline passes: the second worker's block is beyond the blocks that the first asked for,
    and 20 seconds are over. *)
Theorem C73_second_acquisition_is_after_the_deadline n0 es n log nm p t b e a x m t2 b2 e2 a2 x2 q : history n0 es n log ->
  log = p ++ Acquired t nm b e a x :: m ++ Acquired t2 nm b2 e2 a2 x2 :: q -> Forall (fun o => ~ releases nm o) m ->
  b + e < b2 /\ a + 20000 < x2.
Proof.
  intros H E A. destruct (next_holds _ _ _ _ H) as [_ N]. refine (N (p ++ Acquired t nm b e a x :: m) (Acquired t2 nm b2 e2 a2 x2) q _ p t b e a x m eq_refl A).
  by rewrite E, <- app_assoc.
Qed.

(** As long as no holder is overdue there is at most one holder, and the store has its deadline. *)
Theorem C73_one_holder n0 es n log nm t b e a u b' e' a' : history n0 es n log -> punctual n0 es nm ->
  holds n t nm b e a -> holds n u nm b' e' a' -> t = u /\ nd_store n !! nm = Some (enc_deadline (mkDeadline (b + e) (a + 20000))).
Proof.
  intros H P H1 H2. destruct (exclusive_holds _ _ _ _ nm H P _ _ _ _ H1) as [E X]. split; [symmetry; by eapply X|]. rewrite E.
  destruct (holder_acquired _ _ _ _ H _ _ _ _ _ H1) as (p & x & q & EL). destruct (times_past _ _ _ _ H _ _ _ _ _ _ _ _ EL) as [T1 T2].
  destruct H as (_ & _ & _ & C). by rewrite deadline_exact by lia.
Qed.

(** Then work that was done and whose lock was kept is not done again before its deadline: between the keeping and any later work under the same lock a
    worker acquired the lock, and the first that did was of a block beyond those asked for, after 20 seconds. *)
Theorem C73_work_is_not_repeated_early n0 es n log nm p t b e a x m1 m2 t2 now q : history n0 es n log -> punctual n0 es nm ->
  log = p ++ Acquired t nm b e a x :: m1 ++ Kept t nm :: m2 ++ Worked t2 nm now :: q ->
  exists k1 t3 b3 e3 a3 x3 k2, m2 = k1 ++ Acquired t3 nm b3 e3 a3 x3 :: k2 /\ b + e < b3 /\ a + 20000 < x3.
Proof.
  intros H P E.
  assert (X : Exists (acquires nm) m2).
  { enough (Y : forall es n log, history n0 es n log -> punctual n0 es nm ->
      every (fun p o => match o with Worked t2 nm' _ => nm' = nm -> forall p1 t1 m, p = p1 ++ Kept t1 nm :: m -> Exists (acquires nm) m | _ => True end) log).
    { refine (Y _ _ _ H P (p ++ Acquired t nm b e a x :: m1 ++ Kept t nm :: m2) (Worked t2 nm now) q _ eq_refl (p ++ Acquired t nm b e a x :: m1) t m2 _).
      - by rewrite E, <- !app_assoc, <- !app_comm_cons, <- !app_assoc.
      - by rewrite <- app_assoc. }
    clear. intros es n log H. revert es n log H. apply (history_ind2 (fun es n log => punctual n0 es nm -> every _ log)); [intros _ _; apply every_nil|].
    intros es e n log n' o H _ _ M I [P _]%punctual_snoc. specialize (I P). moves M; try (by apply every_0); try (by apply every_1); try (by apply every_Q2).
    apply every_1; [done|]. intros L p1 t1 m E. eapply (reacquired_holds _ _ _ _ nm H P _ _ _ mt mb me ma E). by exists ml. }
  assert (Y : forall l : list obs, Exists (acquires nm) l -> exists k1 t3 b3 e3 a3 x3 k2, l = k1 ++ Acquired t3 nm b3 e3 a3 x3 :: k2 /\ Forall (fun o => ~ acquires nm o) k1).
  { clear. induction l as [|o l IH]; intros X; [by apply Exists_nil in X|]. assert (D : acquires nm o \/ ~ acquires nm o) by (destruct o; cbn; try tauto; destruct (decide (name = nm)); tauto). destruct D as [D|D].
    - destruct o; try done. cbn in D. subst. eexists [], _, _, _, _, _, _. by split; [|constructor].
    - apply Exists_cons in X as [X|X]; [by destruct o|]. destruct (IH X) as (k1 & t3 & b3 & e3 & a3 & x3 & k2 & -> & A). exists (o :: k1), t3, b3, e3, a3, x3, k2.
      split; [done|]. constructor; [|done]. by destruct o. }
  destruct (Y m2 X) as (k1 & t3 & b3 & e3 & a3 & x3 & k2 & -> & A). exists k1, t3, b3, e3, a3, x3, k2. split; [done|].
  destruct (kept_holds _ _ _ _ nm H P) as [_ K].
  refine (K (p ++ Acquired t nm b e a x :: m1 ++ Kept t nm :: k1) (Acquired t3 nm b3 e3 a3 x3) (k2 ++ Worked t2 nm now :: q) _ eq_refl p t b e a x m1 k1 eq_refl A).
  rewrite E. rewrite <- !app_assoc, <- !app_comm_cons. by rewrite <- !app_assoc.
Qed.

(** Nobody is refused a lock that nobody else ever took, unless the store had it from the start. *)
Definition untouched (n0 n : node) (log : list obs) (nm : list N) : Prop :=
  ~ Exists (acquires nm) log -> nd_store n !! nm = nd_store n0 !! nm /\
    forall u l b e a raw, lock_name l = nm ->
      (nd_threads n !! u = Some (mkThread (Locked l b e) (Looked a raw)) \/ nd_threads n !! u = Some (mkThread (Locked l b e) (Trying a raw))) -> raw = nd_store n0 !! nm.
Lemma untouched_holds n0 es n log nm : (exists l, lock_name l = nm) -> history n0 es n log -> untouched n0 n log nm.
Proof.
  intros L H. revert es n log H. apply (history_ind2 (fun _ n log => untouched n0 n log nm)).
  { intros E _. split; [done|]. intros u l b e a raw _ [F|F]; by rewrite E, lookup_empty in F. }
  intros es e0 n log n' o H _ _ M I A.
  assert (A1 : ~ Exists (acquires nm) log) by (intros X; apply A, Exists_app; by left).
  assert (A2 : ~ Exists (acquires nm) o) by (intros X; apply A, Exists_app; by right).
  destruct (I A1) as [I1 I2].
  assert (S : nd_store n' !! nm = nd_store n !! nm).
  { destruct (moved_lock _ _ _ nm L M) as [[_ E1]|[(t2 & l2 & b2 & e2 & a2 & L2 & -> & _)|(t2 & l2 & b2 & e2 & a2 & L2 & -> & F2 & _)]]; [done| |].
    - destruct A2. by apply Exists_cons_hd.
    - destruct (holder_acquired _ _ _ _ H t2 nm b2 e2 a2) as (p & x & q & ->); [by exists l2|]. destruct A1. apply Exists_app. right. by apply Exists_cons_hd. }
  split; [by rewrite S|]. intros u l b e a raw Ll [F|F].
  - destruct (moved_thread _ _ _ _ _ M F) as [K|(K & -> & _)]; [apply (I2 u l b e a raw Ll); by left|]. by rewrite Ll.
  - destruct (moved_thread _ _ _ _ _ M F) as [K|(K & _)]; [apply (I2 u l b e a raw Ll); by right|apply (I2 u l b e a raw Ll); by left].
Qed.
Theorem C73_refusal_has_a_reason n0 es n log p t nm q : history n0 es n log -> log = p ++ Busy t nm :: q -> nd_store n0 !! nm = None ->
  exists p1 u b e a x p2, p = p1 ++ Acquired u nm b e a x :: p2 /\ u <> t.
Proof.
  intros H E S0.
  enough (Y : forall es n log, history n0 es n log ->
     every (fun p o => match o with Busy t nm => nd_store n0 !! nm = None -> exists p1 u b e a x p2, p = p1 ++ Acquired u nm b e a x :: p2 /\ u <> t | _ => True end) log)
    by exact (Y _ _ _ H _ _ _ E S0).
  clear. apply (history_ind2 (fun _ n log => every _ log)); [intros _; apply every_nil|].
  intros es e n log n' o H T C M I.
  assert (Z : forall t l b e ph, nd_threads n !! t = Some (mkThread (Locked l b e) ph) -> ph <> Ended -> (forall a, ph <> Holding a) -> nd_store n0 !! lock_name l = None ->
    Exists (acquires (lock_name l)) log -> exists p1 u b e a x p2, log = p1 ++ Acquired u (lock_name l) b e a x :: p2 /\ u <> t).
  { intros t l b e' ph F P1 P2 _ X. apply Exists_exists in X as (o' & Ho & Hn). destruct o' as [| | | |u m b' e'' a x| | | |]; try done. cbn in Hn. subst m.
    apply elem_of_list_split in Ho as (p1 & p2 & ->). exists p1, u, b', e'', a, x, p2. split; [done|]. intros ->.
    destruct (linked_holds _ _ _ _ H p1 t _ b' e'' a x p2 eq_refl) as (l' & ph' & F' & _ & [->| ->]); rewrite F in F'; injection F' as _ _ _ ->; [by apply (P2 a)|done]. }
  assert (D : forall nm (l : list obs), {Exists (acquires nm) l} + {~ Exists (acquires nm) l}).
  { intros nm l. apply Exists_dec. intros o'. destruct o'; cbn; try (right; tauto). apply list_eq_dec. }
  moves M; try (by apply every_0); try (by apply every_1); try (by apply every_Q2).
  - apply every_1; [done|]. intros S. destruct (D (lock_name ml) log) as [X|X]; [by eapply (Z mt ml mb me _ mF)|]. exfalso.
    destruct (untouched_holds _ _ _ _ _ (ex_intro _ ml eq_refl) H X) as [_ I2]. rewrite (I2 mt ml mb me ma mraw eq_refl (or_introl mF)), S in R. done.
  - apply every_1; [done|]. intros S. destruct (D (lock_name ml) log) as [X|X]; [by eapply (Z mt ml mb me _ mF)|]. exfalso.
    destruct (untouched_holds _ _ _ _ _ (ex_intro _ ml eq_refl) H X) as [I1 I2]. apply R. rewrite I1. symmetry. exact (I2 mt ml mb me ma mraw eq_refl (or_intror mF)).
Qed.

(** A lock does not outlive its deadline, whatever became of its holder (killed with the node, or stuck): a later worker that asks undisturbed gets it. *)
Lemma last_deadline n0 es n log nm p t b e a x m : history n0 es n log -> log = p ++ Acquired t nm b e a x :: m -> Forall (fun o => ~ acquires nm o) m ->
  nd_store n !! nm = None \/ nd_store n !! nm = Some (enc_deadline (deadline_of b e a)).
Proof.
  intros H. revert es n log H p m. apply (history_ind2 (fun _ n log => forall p m, log = p ++ Acquired t nm b e a x :: m -> Forall (fun o => ~ acquires nm o) m ->
    nd_store n !! nm = None \/ nd_store n !! nm = Some (enc_deadline (deadline_of b e a)))).
  { intros _ p m E. by destruct p. }
  intros es e0 n log n' o H T C M I p m E A.
  assert (L : exists l, lock_name l = nm).
  { apply snoc_split in E as [(m1 & E & _)|(p1 & _ & E)].
    - apply (acquired_name _ _ _ _ nm H). rewrite E. apply Exists_app. right. by apply Exists_cons_hd.
    - clear -M E. moves M; try (destruct p1 as [|? [|? [|? ?]]]; done). destruct p1 as [|? [|? ?]]; try done. injection E as _ <- _ _ _ _ _. by exists ml. }
  destruct (moved_lock _ _ _ nm L M) as [[A1 E1]|[(t2 & l2 & b2 & e2 & a2 & L2 & -> & _ & F2 & E1)|(t2 & l2 & b2 & e2 & a2 & L2 & -> & F2 & E1)]].
  - eapply (snoc_split_none (acquires nm)) in E as (m1 & E & ->); [|eapply Forall_impl; [exact A1|by intros ? [? ?]]|done]. apply Forall_app in A as [A _].
    rewrite E1. by eapply I.
  - apply snoc_split_1 in E as [(m1 & E & ->)|(-> & [= -> -> -> -> ->] & ->)].
    + apply Forall_app in A as [_ A]. apply Forall_cons in A as [A _]. by destruct A.
    + by right.
  - by left.
Qed.
Theorem C73_lock_is_free_after_the_deadline n0 es n log nm p t b e a x m t2 l b2 e2 : history n0 es n log ->
  log = p ++ Acquired t nm b e a x :: m -> Forall (fun o => ~ acquires nm o) m ->
  nd_threads n !! t2 = None -> lock_name l = nm -> b + e < b2 -> a + 20000 < nd_clock n ->
  (exec n (EvSpawn t2 (Locked l b2 e2) :: repeat (EvStep t2) 4)).2 = [Acquired t2 nm b2 e2 (nd_clock n) (nd_clock n)].
Proof.
  intros H E A F L B C. destruct (times_past _ _ _ _ H _ _ _ _ _ _ _ _ E) as [T1 T2]. pose proof H as (_ & _ & _ & HC).
  assert (FR : is_free (nd_store n !! nm) b2 (nd_clock n) = true).
  { destruct (last_deadline _ _ _ _ _ _ _ _ _ _ _ _ H E A) as [S|S]; rewrite S; [done|]. unfold is_free. rewrite decode_mine by lia. unfold has_expired. cbn. lia. }
  subst nm. cbn. rewrite F. cbn. rewrite lookup_insert. cbn. rewrite lookup_insert. cbn. rewrite lookup_insert. cbn. rewrite FR. cbn. rewrite lookup_insert. cbn.
  rewrite decide_True by done. done.
Qed.
(** Beside it: a lock that is not in the store, or under whose name something is stored that is too short to be a deadline, is
    obtained. *)
Theorem C73_unused_lock_is_free n t l b e : nd_threads n !! t = None ->
  match nd_store n !! lock_name l with Some raw => (length raw < 12)%nat | None => True end ->
  (exec n (EvSpawn t (Locked l b e) :: repeat (EvStep t) 4)).2 = [Acquired t (lock_name l) b e (nd_clock n) (nd_clock n)].
Proof.
  intros F S. assert (FR : is_free (nd_store n !! lock_name l) b (nd_clock n) = true).
  { unfold is_free. destruct (nd_store n !! lock_name l) as [raw|]; [|done]. unfold decode_deadline. by rewrite (proj2 (Nat.leb_gt _ _)) by lia. }
  cbn. rewrite F. cbn. rewrite lookup_insert. cbn. rewrite lookup_insert. cbn. rewrite lookup_insert. cbn. rewrite FR. cbn. rewrite lookup_insert. cbn.
  by rewrite decide_True by done.
Qed.

(** A test for being overdue, to compute with. *)
Definition overdueb (n : node) (nm : list N) : bool :=
  let ths := map snd (map_to_list (nd_threads n)) in
  existsb (fun th => match th with
    | mkThread (Locked l b e) (Holding a) => bool_decide (lock_name l = nm) && (a + 20000 <? nd_clock n) &&
        existsb (fun th' => match th' with mkThread (Locked l' b' _) p => match p with Ended => false | _ => bool_decide (lock_name l' = nm) && (b + e <? b') end | _ => false end) ths
    | _ => false end) ths.
Lemma overdue_test n nm : overdue n nm -> overdueb n nm = true.
Proof.
  intros (t & b & e & a & (l & F & L) & C & u & l' & b' & e' & p & F' & P & L' & B). unfold overdueb. apply existsb_exists.
  exists (mkThread (Locked l b e) (Holding a)). split.
  { apply in_map_iff. exists (t, mkThread (Locked l b e) (Holding a)). split; [done|]. apply elem_of_list_In. by apply elem_of_map_to_list. }
  rewrite bool_decide_true by done. apply andb_true_iff. split; [cbn; lia|]. apply existsb_exists. exists (mkThread (Locked l' b' e') p). split.
  { apply in_map_iff. exists (u, mkThread (Locked l' b' e') p). split; [done|]. apply elem_of_list_In. by apply elem_of_map_to_list. }
  destruct p; try done; rewrite bool_decide_true by done; cbn; lia.
Qed.
Fixpoint never_overdueb (n : node) (nm : list N) (es : list ev) : bool :=
  negb (overdueb n nm) && match es with [] => true | e :: r => never_overdueb (step n e).1 nm r end.
Lemma punctual_test nm es : forall n, never_overdueb n nm es = true -> punctual n es nm.
Proof.
  induction es as [|e es IH]; intros n H es1 es2 E O; cbn in H.
  - destruct es1; [|done]. apply overdue_test in O. cbn in O. by rewrite O in H.
  - apply andb_true_iff in H as [H1 H2]. destruct es1 as [|e1 es1]; [apply overdue_test in O; cbn in O; by rewrite O in H1|]. injection E as <- ->.
    cbn in O. specialize (IH _ H2 es1 es2 eq_refl). destruct (step n e) as [n1 o1]. cbn in IH. by destruct (exec n1 es1).
Qed.
(** Refuted: one holder in general.  A worker of block 10 takes the lock and is slow; after 20 seconds and 31 blocks another takes it too; then the first fails
    and drops its guard, which removes the other's lock although that was kept; a third worker of the same block sends again at once. *)
Definition send1 : lock_id := SendLock [] 7.
Definition grab (t b e : N) : list ev := EvSpawn t (Locked send1 b e) :: repeat (EvStep t) 4.
Definition slow : list ev :=
  grab 1 10 default_expiry ++ [EvTick 372000] ++ grab 2 41 default_expiry ++ [EvWork 2; EvFinish 2 true; EvFinish 1 false] ++ grab 3 41 default_expiry ++ [EvWork 3; EvFinish 3 true].
Theorem C73_one_holder_refuted :
  history node0 slow (exec node0 slow).1
    [Acquired 1 (lock_name send1) 10 30 0 0; Acquired 2 (lock_name send1) 41 30 372000 372000; Worked 2 (lock_name send1) 372000; Kept 2 (lock_name send1);
     Released 1 (lock_name send1); Acquired 3 (lock_name send1) 41 30 372000 372000; Worked 3 (lock_name send1) 372000; Kept 3 (lock_name send1)].
Proof. split; [done|]. split; [by repeat constructor|]. split; [by vm_compute|by vm_compute]. Qed.

(** Refuted: work whose lock was dropped was not done.  The service does what it is asked, the answer is lost, the worker drops its guard: the next
    worker does it again in the same block and at the same time.  No holder is overdue. *)
Definition lost_answer : list ev := grab 1 10 default_expiry ++ [EvWork 1; EvFinish 1 false] ++ grab 2 10 default_expiry ++ [EvWork 2; EvFinish 2 true].
Theorem C73_failed_work_was_not_done_refuted :
  history node0 lost_answer (exec node0 lost_answer).1
    [Acquired 1 (lock_name send1) 10 30 0 0; Worked 1 (lock_name send1) 0; Released 1 (lock_name send1);
     Acquired 2 (lock_name send1) 10 30 0 0; Worked 2 (lock_name send1) 0; Kept 2 (lock_name send1)] /\
  punctual node0 lost_answer (lock_name send1).
Proof.
  assert (O : Forall ev_ok lost_answer) by (by repeat constructor).
  split; [split; [done|]; split; [done|]; split; [by vm_compute|by vm_compute]|].
  apply punctual_test. by vm_compute.
Qed.

(** Refuted: asking whether a lock is taken changes nothing.  The question takes the lock for a moment; a worker that tries just then is refused, although nobody
    did or does the work. *)
Definition question : list ev :=
  [EvSpawn 1 (Locked send1 10 default_expiry); EvStep 1; EvStep 1; EvStep 1] ++ grab 2 10 query_expiry ++ [EvStep 1; EvFinish 2 false].
Theorem C73_question_is_harmless_refuted :
  history node0 question (exec node0 question).1
    [Acquired 2 (lock_name send1) 10 1 0 0; Busy 1 (lock_name send1); Released 2 (lock_name send1)] /\
  nd_store (exec node0 question).1 !! lock_name send1 = None.
Proof. split; [|by vm_compute]. split; [done|]. split; [by repeat constructor|]. split; [by vm_compute|by vm_compute]. Qed.

(** ** C74: names *)
(** What a lock is about, leaving out the pallet instance that asks. *)
Definition subject (l : lock_id) : lock_id :=
  match l with
  | SendLock _ tx => SendLock [] tx
  | VoteLock _ f t c => VoteLock 0 f t c
  | RootLock _ b => RootLock 0 b
  | SlotLock _ s => SlotLock 0 s
  | ChallengeLock _ s c d => ChallengeLock 0 s c d
  end.
Lemma le4 a b y z : a < 2 ^ 32 -> b < 2 ^ 32 -> le_bytes 4 a ++ y = le_bytes 4 b ++ z -> a = b /\ y = z.
Proof. intros Ha Hb H. apply app_split in H as [H1 H2]; [|by rewrite !le_bytes_length]. apply le_bytes_inj in H1; done. Qed.
Lemma be32 a b y z : a < 2 ^ 256 -> b < 2 ^ 256 -> be_bytes 32 a ++ y = be_bytes 32 b ++ z -> a = b /\ y = z.
Proof. intros Ha Hb H. apply app_split in H as [H1 H2]; [|by rewrite !be_bytes_length]. split; [|done]. revert H1. by apply be_bytes_inj. Qed.
(** Two locks of different subjects have different names. *)
Theorem C74_locks_of_different_work_differ l l' : lock_ok l -> lock_ok l' -> lock_name l = lock_name l' -> subject l = subject l'.
Proof.
  intros O O' E. destruct l as [i tx|i f u k|i b|i s|i s c d], l' as [i' tx'|i' f' u' k'|i' b'|i' s'|i' s' c' d'].
  all: cbn -[le_bytes be_bytes dec_bytes] in E; try discriminate E.
  all: repeat (match type of E with _ :: _ = _ :: _ => apply (f_equal (@List.tl N)) in E; cbn [List.tl] in E end).
  - cbn. f_equal. pose proof (dec_bytes_digits tx) as A. rewrite E, dec_bytes_digits in A. by injection A as ->.
  - destruct O as (? & ? & ?), O' as (? & ? & ?). apply le4 in E as [-> E]; [|done..]. apply le4 in E as [-> E]; [|done..]. apply le_bytes_inj in E; [cbn; by subst|done..].
  - apply le_bytes_inj in E; [cbn; by subst|done..].
  - apply le_bytes_inj in E; [cbn; by subst|done..].
  - destruct O as (? & ? & ?), O' as (? & ? & ?). apply le4 in E as [-> E]; [|done..]. apply be32 in E as [-> E]; [|done..].
    apply be_bytes_inj in E; [cbn; by subst|done..].
Qed.
(** No lock name is the key of a run record, and different callers have different records. *)
Theorem C74_records_and_locks_are_apart l c c' : lock_name l <> run_key c /\ (run_key c = run_key c' -> c = c').
Proof.
  split; [apply keys_apart|]. intros E%run_key_inj. destruct c as [h|i|], c' as [h'|i'|]; cbn in E; try discriminate E; [by injection E as ->|by injection E as ->|done].
Qed.
(** Refuted: instances of a pallet do not disturb each other.  Two summary instances about to publish the root up to block 70 of their own data ask for the same
    lock; the second is refused for 30 blocks. *)
Definition two_instances : list ev :=
  [EvSpawn 1 (Locked (RootLock 1 70) 100 default_expiry)] ++ repeat (EvStep 1) 4 ++ [EvWork 1; EvFinish 1 true; EvTick 360000;
   EvSpawn 2 (Locked (RootLock 2 70) 130 default_expiry); EvStep 2; EvStep 2; EvStep 2].
Theorem C74_instances_are_apart_refuted :
  lock_name (RootLock 1 70) = lock_name (RootLock 2 70) /\
  history node0 two_instances (exec node0 two_instances).1
    [Acquired 1 (lock_name (RootLock 1 70)) 100 30 0 0; Worked 1 (lock_name (RootLock 1 70)) 0; Kept 1 (lock_name (RootLock 1 70)); Busy 2 (lock_name (RootLock 2 70))].
Proof. split; [done|]. split; [done|]. split; [by repeat constructor|]. split; [by vm_compute|by vm_compute]. Qed.

(** ** Cases that meet the hypotheses *)
(** One worker sends and keeps the lock; a second is refused; after 31 blocks and 6 minutes a third sends again.  No holder is overdue. *)
Definition normal : list ev :=
  grab 1 10 default_expiry ++ [EvWork 1; EvFinish 1 true; EvRestart; EvTick 12000] ++ [EvSpawn 2 (Locked send1 11 default_expiry); EvStep 2; EvStep 2; EvStep 2] ++
  [EvTick 360000] ++ grab 3 41 default_expiry ++ [EvWork 3].
Example normal_history : history node0 normal (exec node0 normal).1
  [Acquired 1 (lock_name send1) 10 30 0 0; Worked 1 (lock_name send1) 0; Kept 1 (lock_name send1); Busy 2 (lock_name send1);
   Acquired 3 (lock_name send1) 41 30 372000 372000; Worked 3 (lock_name send1) 372000].
Proof. split; [done|]. split; [by repeat constructor|]. split; [by vm_compute|by vm_compute]. Qed.
Example normal_punctual : punctual node0 normal (lock_name send1).
Proof. apply punctual_test. by vm_compute. Qed.
(** In the refutation of one holder someone is overdue. *)
Example slow_not_punctual : ~ punctual node0 slow (lock_name send1).
Proof.
  intros P. apply (P (firstn 7 slow) (skipn 7 slow)); [by rewrite firstn_skipn|]. exists 1, 10, 30, 0. split; [exists send1; split; [by vm_compute|done]|].
  split; [by vm_compute|]. exists 2, send1, 41, 30, Start. split; [by vm_compute|]. split; [done|]. by split.
Qed.
