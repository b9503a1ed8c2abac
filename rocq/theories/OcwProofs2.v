(** Proofs about offchain-worker locks. *)
From Verif Require Import Base CodecModel CodecProofs BridgeModel AbiModel AbiProofs OcwModel OcwSpec OcwProofs.

Ltac moves M := destruct M as [|mt mj O mF|ms| |mt mc mb mF R|mt mc mb mF R|mt mc mb mx mF|mt mc mb mx mraw mF R|mt ml mb me mF|mt ml mb me ma mF|mt ml mb me ma mraw mF R|mt ml mb me ma mraw mF R|mt ml mb me ma mF|mt ml mb me ma mraw mF R|mt ml mb me ma mF|mt ml mb me ma mF|mt ml mb me ma mF].

(** What a move does to a lock. *)
Lemma moved_lock n n' o nm : (exists l, lock_name l = nm) -> moved n n' o ->
  (Forall (fun x => ~ acquires nm x /\ ~ releases nm x) o /\ nd_store n' !! nm = nd_store n !! nm) \/
  (exists t l b e a, lock_name l = nm /\ o = [Acquired t nm b e a (nd_clock n)] /\ nd_clock n' = nd_clock n /\
     nd_threads n !! t = Some (mkThread (Locked l b e) (Trying a (nd_store n !! nm))) /\
     nd_store n' !! nm = Some (enc_deadline (deadline_of b e a))) \/
  (exists t l b e a, lock_name l = nm /\ o = [Released t nm] /\ nd_threads n !! t = Some (mkThread (Locked l b e) (Holding a)) /\ nd_store n' !! nm = None).
Proof.
  intros [l0 L0] M. moves M; try (left; split; [by repeat constructor; cbn; naive_solver|done]).
  - left. split; [repeat constructor; cbn; naive_solver|]. cbn. rewrite lookup_insert_ne; [done|]. rewrite <- L0. intros E. by apply (keys_apart l0 mc).
  - destruct (decide (lock_name ml = nm)) as [<-|D].
    + right. left. exists mt, ml, mb, me, ma. split_and!; try done. cbn. by rewrite lookup_insert.
    + left. split; [repeat constructor; cbn; naive_solver|]. cbn. by rewrite lookup_insert_ne.
  - destruct (decide (lock_name ml = nm)) as [<-|D].
    + right. right. exists mt, ml, mb, me, ma. split_and!; try done. cbn. by rewrite lookup_delete.
    + left. split; [repeat constructor; cbn; naive_solver|]. cbn. by rewrite lookup_delete_ne.
Qed.
Lemma acquired_name n0 es n log nm : history n0 es n log -> Exists (acquires nm) log -> exists l, lock_name l = nm.
Proof.
  intros H. revert es n log H. apply (history_ind2 (fun _ _ log => Exists (acquires nm) log -> exists l, lock_name l = nm)).
  { intros _ H. by apply Exists_nil in H. }
  intros es e n log n' o _ _ _ M I H. apply Exists_app in H as [H|H]; [by apply I|]. clear I.
  moves M; try (apply Exists_cons in H as [H|H]; [cbn in H|]); try (apply Exists_cons in H as [H|H]; [cbn in H|]); try (by apply Exists_nil in H); try done. by exists ml.
Qed.

(** Splitting a log at the end. *)
Lemma snoc_split (log os p m : list obs) o : log ++ os = p ++ o :: m ->
  (exists m1, log = p ++ o :: m1 /\ m = m1 ++ os) \/ (exists p1, p = log ++ p1 /\ os = p1 ++ o :: m).
Proof.
  intros E. apply app_eq_inv in E as [(k & -> & E)|(k & -> & E)].
  - destruct k as [|x k]; cbn in E; [right; exists []; rewrite !app_nil_r; done|]. injection E as <- ->. left. by exists k.
  - right. by exists k.
Qed.
Lemma snoc_split_1 (log p m : list obs) o x : log ++ [x] = p ++ o :: m -> (exists m1, log = p ++ o :: m1 /\ m = m1 ++ [x]) \/ (p = log /\ o = x /\ m = []).
Proof.
  intros [H|(p1 & -> & E)]%snoc_split; [by left|]. right. destruct p1 as [|y p1]; [|destruct p1; done]. injection E as -> <-. by rewrite app_nil_r.
Qed.
Lemma snoc_split_none (P : obs -> Prop) (log os p m : list obs) o : log ++ os = p ++ o :: m -> Forall (fun x => ~ P x) os -> P o ->
  exists m1, log = p ++ o :: m1 /\ m = m1 ++ os.
Proof.
  intros [H|(p1 & -> & E)]%snoc_split A Po; [done|]. exfalso. rewrite E in A. apply Forall_app in A as [_ A]. by apply Forall_cons in A as [A _].
Qed.

(** ** The deadline of the last acquisition *)
Definition kept_deadline (n : node) (nm : list N) (b e a : N) : Prop :=
  exists d, nd_store n !! nm = Some (enc_deadline d) /\ dl_block d < 2 ^ 32 /\ dl_time d < 2 ^ 64 /\ b + e <= dl_block d /\
    (a + 20000 <= dl_time d \/ a + 20000 < nd_clock n).
Definition next_inv (n : node) (log : list obs) : Prop :=
  forall nm p t b e a x m, log = p ++ Acquired t nm b e a x :: m -> Forall (fun o => ~ releases nm o) m -> kept_deadline n nm b e a.
Definition next_claim (p : list obs) (o : obs) : Prop :=
  match o with Acquired t2 nm b2 e2 a2 x2 =>
    forall p1 t b e a x m, p = p1 ++ Acquired t nm b e a x :: m -> Forall (fun o => ~ releases nm o) m -> b + e < b2 /\ a + 20000 < x2
  | _ => True end.
Lemma taking_late n t l b2 e2 a2 nm b e a : threads_ok n -> lock_name l = nm ->
  nd_threads n !! t = Some (mkThread (Locked l b2 e2) (Trying a2 (nd_store n !! nm))) -> kept_deadline n nm b e a -> b + e < b2 /\ a + 20000 < nd_clock n.
Proof.
  intros T L F (d & E & D1 & D2 & D3 & D4). destruct (T _ _ F) as [_ [_ K]]. cbn in K. specialize (K _ d E (decode_enc_deadline d D1 D2)). lia.
Qed.
Lemma kept_deadline_same n n' nm b e a : nd_store n' !! nm = nd_store n !! nm -> nd_clock n <= nd_clock n' -> kept_deadline n nm b e a -> kept_deadline n' nm b e a.
Proof. intros E C (d & E' & D1 & D2 & D3 & D4). exists d. rewrite E. split_and!; try done. lia. Qed.
Lemma next_holds n0 es n log : history n0 es n log -> next_inv n log /\ every next_claim log.
Proof.
  intros H. revert es n log H. apply (history_ind2 (fun _ n log => next_inv n log /\ every next_claim log)).
  { intros _. split; [|apply every_nil]. intros nm p t b e a x m E. by destruct p. }
  intros es e0 n log n' o H T C M [I1 I2]. pose proof (clock_mono _ _ _ M) as CM.
  assert (X : forall nm p t b e a x m, log ++ o = p ++ Acquired t nm b e a x :: m -> exists l, lock_name l = nm).
  { intros nm p t b e a x m E. apply snoc_split in E as [(m1 & E & _)|(p1 & _ & E)].
    - apply (acquired_name _ _ _ _ nm H). rewrite E. apply Exists_app. right. by apply Exists_cons_hd.
    - clear -M E. moves M; try (destruct p1 as [|? [|? [|? ?]]]; done). destruct p1 as [|? [|? ?]]; try done. injection E as _ <- _ _ _ _ _. by exists ml. }
  split.
  - intros nm p t b e a x m E A. destruct (moved_lock _ _ _ nm (X _ _ _ _ _ _ _ _ E) M) as [[A1 E1]|[(t2 & l & b2 & e2 & a2 & L & -> & C2 & F & E1)|(t2 & l & b2 & e2 & a2 & L & -> & F & E1)]].
    + eapply (snoc_split_none (acquires nm)) in E as (m1 & E & ->); [|eapply Forall_impl; [exact A1|by intros ? [? ?]]|done].
      apply Forall_app in A as [A _]. eapply kept_deadline_same; [exact E1|exact CM|]. by eapply I1.
    + destruct (T _ _ F) as [[_ J] [K _]]. cbn in J, K.
      assert (D : forall q1 q2, q1 <= b2 + e2 -> q2 <= a2 + 20000 \/ q2 < nd_clock n' -> exists d, nd_store n' !! nm = Some (enc_deadline d) /\ dl_block d < 2 ^ 32 /\ dl_time d < 2 ^ 64 /\ q1 <= dl_block d /\ (q2 <= dl_time d \/ q2 < nd_clock n')).
      { intros q1 q2 Q1 Q2. rewrite C2 in C. exists (deadline_of b2 e2 a2). rewrite deadline_exact by lia. cbn. split_and!; try lia. by rewrite E1, deadline_exact by lia. }
      apply snoc_split_1 in E as [(m1 & E & ->)|(-> & [= -> -> -> -> ->] & ->)].
      * apply Forall_app in A as [A _]. destruct (taking_late _ _ _ _ _ _ _ _ _ _ T L F (I1 _ _ _ _ _ _ _ _ E A)) as [B1 B2]. apply D; lia.
      * apply D; lia.
    + apply snoc_split_1 in E as [(m1 & E & ->)|(_ & [=] & _)]. apply Forall_app in A as [_ A]. apply Forall_cons in A as [A _]. by destruct A.
  - moves M; try (by apply every_0); try (by apply every_1); try (by apply every_Q2).
    apply every_1; [done|]. intros p1 t1 b1 e1 a1 x1 m -> A. eapply taking_late; [exact T|done|exact mF|]. by eapply I1.
Qed.

(** ** Who acquired what *)
Definition linked (n : node) (log : list obs) : Prop :=
  forall p t nm b e a x q, log = p ++ Acquired t nm b e a x :: q ->
    exists l ph, nd_threads n !! t = Some (mkThread (Locked l b e) ph) /\ lock_name l = nm /\ (ph = Holding a \/ ph = Ended).
Lemma linked_holds n0 es n log : history n0 es n log -> linked n log.
Proof.
  intros H. revert es n log H. apply (history_ind2 (fun _ => linked)).
  { intros _ p t nm b e a x q E. by destruct p. }
  intros es e0 n log n' o _ _ _ M I p t nm b e a x q E. apply snoc_split in E as [(m1 & E & _)|(p1 & _ & E)].
  - destruct (I _ _ _ _ _ _ _ _ E) as (l & ph & F & L & P). clear I E.
    assert (K : exists ph', nd_threads n' !! t = Some (mkThread (Locked l b e) ph') /\ (ph' = Holding a \/ ph' = Ended)).
    { moves M; cbn; try (by exists ph).
      2: { exists Ended. rewrite lookup_fmap, F. cbn. auto. }
      all: destruct (decide (mt = t)) as [->|D]; [|exists ph; by rewrite lookup_insert_ne].
      all: rewrite F in mF; try done; injection mF as E1 E2 E3 E4; subst; rewrite lookup_insert; first [by destruct P|exists Ended; by auto]. }
    destruct K as (ph' & F' & P'). by exists l, ph'.
  - moves M; try (destruct p1 as [|? [|? [|? ?]]]; done). destruct p1 as [|? [|? ?]]; try done. injection E as -> <- -> -> -> <- _.
    exists ml, (Holding a). cbn. rewrite lookup_insert. auto.
Qed.
Lemma holder_acquired n0 es n log : history n0 es n log -> forall t nm b e a, holds n t nm b e a -> exists p x q, log = p ++ Acquired t nm b e a x :: q.
Proof.
  intros H. revert es n log H. apply (history_ind2 (fun _ n log => forall t nm b e a, holds n t nm b e a -> exists p x q, log = p ++ Acquired t nm b e a x :: q)).
  { intros E t nm b e a (l & F & _). by rewrite E, lookup_empty in F. }
  intros es e0 n log n' o _ _ _ M I t nm b e a (l & F & L). destruct (moved_thread _ _ _ _ _ M F) as [K|[K ->]].
  - destruct (I t nm b e a) as (p & x & q & ->); [by exists l|]. exists p, x, (q ++ o). by rewrite <- app_assoc.
  - exists log, (nd_clock n), []. by rewrite L.
Qed.

(** ** One holder *)
Definition exclusive (n : node) (nm : list N) : Prop :=
  forall t b e a, holds n t nm b e a ->
    nd_store n !! nm = Some (enc_deadline (deadline_of b e a)) /\ forall u b' e' a', holds n u nm b' e' a' -> u = t.
Lemma holds_fun n t nm b e a nm' b' e' a' : holds n t nm b e a -> holds n t nm' b' e' a' -> nm = nm' /\ b = b' /\ e = e' /\ a = a'.
Proof. intros (l & F & <-) (l' & F' & <-). rewrite F in F'. by injection F' as -> -> -> ->. Qed.
Lemma exclusive_step n n' o nm : threads_ok n -> nd_clock n' + 20000 < 2 ^ 64 -> moved n n' o -> ~ overdue n nm -> exclusive n nm -> exclusive n' nm.
Proof.
  intros T C M V X t b e a Ht. pose proof Ht as (l & F & L). destruct (moved_thread _ _ _ _ _ M F) as [K|[K ->]].
  - assert (Hn : holds n t nm b e a) by (by exists l). destruct (X _ _ _ _ Hn) as [X1 X2]. pose proof (clock_mono _ _ _ M) as CM.
    destruct (T _ _ K) as [[_ J] KA]. cbn in J, KA.
    destruct (moved_lock _ _ _ nm (ex_intro _ l L) M) as [[A1 E1]|[(t2 & l2 & b2 & e2 & a2 & L2 & -> & C2 & F2 & E1)|(t2 & l2 & b2 & e2 & a2 & L2 & -> & F2 & E1)]].
    + split; [by rewrite E1|]. intros u b' e' a' (lu & Fu & Lu). destruct (moved_thread _ _ _ _ _ M Fu) as [Ku|[Ku ->]].
      * eapply (X2 u b' e' a'). by exists lu.
      * apply Forall_cons in A1 as [[A1 _] _]. by destruct A1.
    + exfalso. apply V. destruct (T _ _ F2) as [_ [_ Z]]. cbn in Z. specialize (Z _ _ X1 (decode_mine b e a J ltac:(lia))). cbn in Z. destruct Z as [Z1 Z2].
      exists t, b, e, a. split_and!; [done|done|]. by exists t2, l2, b2, e2, (Trying a2 (nd_store n !! nm)).
    + exfalso. assert (t2 = t) as -> by (eapply (X2 t2 b2 e2 a2); by exists l2).
      assert (Q : forall ph, nd_threads n' !! t <> Some (mkThread (Locked l b e) (Holding ph))).
      { intros ph Q. inversion M; subst; cbn in Q; rewrite lookup_insert in Q; done. }
      by apply (Q a).
  - assert (E : nd_store n' !! nm = Some (enc_deadline (deadline_of b e a))).
    { destruct (moved_lock _ _ _ nm (ex_intro _ l L) M) as [[A1 _]|[(t2 & l2 & b2 & e2 & a2 & L2 & E2 & C2 & F2 & E1)|(t2 & l2 & b2 & e2 & a2 & L2 & E2 & _)]]; [| |done].
      - apply Forall_cons in A1 as [[A1 _] _]. by destruct A1.
      - injection E2 as -> _ -> -> -> . done. }
    split; [done|]. intros u b' e' a' (lu & Fu & Lu). destruct (moved_thread _ _ _ _ _ M Fu) as [Ku|[Ku Eu]]; [|by injection Eu].
    exfalso. assert (Hu : holds n u nm b' e' a') by (by exists lu). destruct (X _ _ _ _ Hu) as [X1 _]. destruct (T _ _ K) as [_ [_ Z]]. cbn in Z.
    destruct (T _ _ Ku) as [[_ J] KA]. cbn in J, KA. pose proof (clock_mono _ _ _ M) as CM. rewrite L in Z.
    specialize (Z _ _ X1 (decode_mine b' e' a' J ltac:(lia))). cbn in Z. destruct Z as [Z1 Z2]. apply V.
    exists u, b', e', a'. split_and!; [done|done|]. exists t, l, b, e. eexists. by split_and!.
Qed.
Lemma punctual_snoc n0 es e nm : punctual n0 (es ++ [e]) nm -> punctual n0 es nm /\ ~ overdue (exec n0 es).1 nm.
Proof.
  intros P. split.
  - intros es1 es2 ->. apply (P es1 (es2 ++ [e])). by rewrite app_assoc.
  - by apply (P es [e]).
Qed.
Lemma history_state n0 es n log : history n0 es n log -> (exec n0 es).1 = n.
Proof. intros (_ & _ & E & _). by rewrite E. Qed.
Lemma exclusive_holds n0 es n log nm : history n0 es n log -> punctual n0 es nm -> exclusive n nm.
Proof.
  intros H. revert es n log H. apply (history_ind2 (fun es n log => punctual n0 es nm -> exclusive n nm)).
  { intros E _ t b e a (l & F & _). by rewrite E, lookup_empty in F. }
  intros es e n log n' o H T C M I [P V]%punctual_snoc. rewrite (history_state _ _ _ _ H) in V. eapply exclusive_step; [exact T|exact C|exact M|exact V|by apply I].
Qed.

(** ** A lock that was kept *)
Definition after_kept (n : node) (log : list obs) (nm : list N) : Prop :=
  forall p t b e a x m1 m2, log = p ++ Acquired t nm b e a x :: m1 ++ Kept t nm :: m2 -> Forall (fun o => ~ acquires nm o) m2 ->
    nd_store n !! nm = Some (enc_deadline (deadline_of b e a)) /\ b + e < 2 ^ 32 /\ a <= nd_clock n /\ forall u b' e' a', ~ holds n u nm b' e' a'.
Definition kept_claim (nm : list N) (p : list obs) (o : obs) : Prop :=
  match o with Acquired t2 nm' b2 e2 a2 x2 => nm' = nm ->
    forall p1 t b e a x m1 m2, p = p1 ++ Acquired t nm b e a x :: m1 ++ Kept t nm :: m2 -> Forall (fun o => ~ acquires nm o) m2 -> b + e < b2 /\ a + 20000 < x2
  | _ => True end.
Lemma kept_holds n0 es n log nm : history n0 es n log -> punctual n0 es nm -> after_kept n log nm /\ every (kept_claim nm) log.
Proof.
  intros H. revert es n log H. apply (history_ind2 (fun es n log => punctual n0 es nm -> after_kept n log nm /\ every (kept_claim nm) log)).
  { intros _ _. split; [|apply every_nil]. intros p t b e a x m1 m2 E. by destruct p. }
  intros es e0 n log n' o H T C M I [P V]%punctual_snoc. specialize (I P) as [I1 I2]. pose proof (clock_mono _ _ _ M) as CM.
  pose proof (exclusive_holds _ _ _ _ nm H P) as X. rewrite (history_state _ _ _ _ H) in V.
  split.
  - intros p t b e a x m1 m2 E A. rewrite app_comm_cons, app_assoc in E. apply snoc_split in E as [(m3 & E & ->)|(p1 & E & ->)].
    + apply Forall_app in A as [A1 A2]. rewrite <- app_assoc, <- app_comm_cons in E. destruct (I1 _ _ _ _ _ _ _ _ E A1) as (S1 & S2 & S3 & S4).
      assert (L : exists l, lock_name l = nm) by (apply (acquired_name _ _ _ _ nm H); rewrite E; apply Exists_app; right; by apply Exists_cons_hd).
      assert (NH : forall u b' e' a', ~ holds n' u nm b' e' a').
      { intros u b' e' a' (l & F & Lu). destruct (moved_thread _ _ _ _ _ M F) as [K|[K ->]]; [eapply (S4 u b' e' a'); by exists l|].
        apply Forall_cons in A2 as [A2 _]. by apply A2. }
      split_and!; [|done|lia|done]. destruct (moved_lock _ _ _ nm L M) as [[_ E1]|[(t2 & l2 & b2 & e2 & a2 & L2 & -> & C2 & F2 & E1)|(t2 & l2 & b2 & e2 & a2 & L2 & -> & F2 & E1)]].
      * by rewrite E1.
      * apply Forall_cons in A2 as [A2 _]. by destruct A2.
      * exfalso. eapply (S4 t2 b2 e2 a2). by exists l2.
    + (* the lock is kept right now *)
      assert (K : exists l b1 e1 a1, nd_threads n !! t = Some (mkThread (Locked l b1 e1) (Holding a1)) /\ lock_name l = nm /\ n' = goto t (Locked l b1 e1) Ended n /\ p1 = [] /\ m2 = []).
      { clear -M. remember (p1 ++ Kept t nm :: m2) as o eqn:Eo. moves M; try (destruct p1 as [|? [|? [|? ?]]]; done). destruct p1 as [|? [|? ?]]; try done. injection Eo as -> <- <-. eauto 10. }
      destruct K as (l & b1 & e1 & a1 & F & L & -> & -> & ->). rewrite app_nil_r in E. 
      destruct (linked_holds _ _ _ _ H _ _ _ _ _ _ _ _ (eq_sym E)) as (l' & ph & F' & L' & Ph). rewrite F in F'. injection F' as <- -> -> <-. destruct Ph as [[= ->]|?]; [|done].
      assert (Hn : holds n t nm b e a) by (by exists l). destruct (X _ _ _ _ Hn) as [X1 X2]. destruct (T _ _ F) as [[_ J] KA]. cbn in J, KA.
      split_and!; [done|done|done|]. intros u b' e' a' (lu & Fu & Lu). cbn in Fu. destruct (decide (t = u)) as [->|D].
      * by rewrite lookup_insert in Fu.
      * rewrite lookup_insert_ne in Fu by done. apply D. symmetry. eapply (X2 u b' e' a'). by exists lu.
  - moves M; try (by apply every_0); try (by apply every_1); try (by apply every_Q2).
    apply every_1; [done|]. intros Ln p1 t1 b1 e1 a1 x1 m1 m2 E A. destruct (I1 _ _ _ _ _ _ _ _ E A) as (S1 & S2 & S3 & S4). rewrite Ln in mF.
    cbn in C. destruct (T _ _ mF) as [_ [_ Z]]. cbn in Z. specialize (Z _ _ S1 (decode_mine b1 e1 a1 S2 ltac:(lia))). cbn in Z. lia.
Qed.

(** Times in the log are not in the future. *)
Lemma times_past n0 es n log : history n0 es n log -> forall p t nm b e a x q, log = p ++ Acquired t nm b e a x :: q -> a <= x <= nd_clock n /\ b + e < 2 ^ 32.
Proof.
  intros H. revert es n log H. apply (history_ind2 (fun _ n log => forall p t nm b e a x q, log = p ++ Acquired t nm b e a x :: q -> a <= x <= nd_clock n /\ b + e < 2 ^ 32)).
  { intros _ p t nm b e a x q E. by destruct p. }
  intros es e0 n log n' o _ T _ M I p t nm b e a x q E. pose proof (clock_mono _ _ _ M) as CM. apply snoc_split in E as [(m1 & E & _)|(p1 & _ & E)].
  - specialize (I _ _ _ _ _ _ _ _ E). lia.
  - clear -M E T CM. moves M; try (destruct p1 as [|? [|? [|? ?]]]; done). destruct p1 as [|? [|? ?]]; try done. injection E as -> _ -> -> -> <- _.
    destruct (T _ _ mF) as [[_ J] [K _]]. cbn in *. lia.
Qed.

(** Work under a lock after it was kept follows a later acquisition. *)
Definition reacquired (n : node) (log : list obs) (nm : list N) : Prop :=
  forall p t m u b e a, log = p ++ Kept t nm :: m -> holds n u nm b e a -> Exists (acquires nm) m.
Lemma reacquired_holds n0 es n log nm : history n0 es n log -> punctual n0 es nm -> reacquired n log nm.
Proof.
  intros H. revert es n log H. apply (history_ind2 (fun es n log => punctual n0 es nm -> reacquired n log nm)).
  { intros _ _ p t m u b e a E. by destruct p. }
  intros es e0 n log n' o H T C M I [P V]%punctual_snoc. specialize (I P). pose proof (exclusive_holds _ _ _ _ nm H P) as X.
  intros p t m u b e a E (l & F & L). apply snoc_split in E as [(m1 & E & ->)|(p1 & -> & ->)].
  - apply Exists_app. destruct (moved_thread _ _ _ _ _ M F) as [K|[K ->]].
    + left. eapply (I _ _ _ u b e a); [exact E|]. by exists l.
    + right. by apply Exists_cons_hd.
  - exfalso.
    assert (K : exists l b1 e1 a1, nd_threads n !! t = Some (mkThread (Locked l b1 e1) (Holding a1)) /\ lock_name l = nm /\ n' = goto t (Locked l b1 e1) Ended n).
    { clear -M. remember (p1 ++ Kept t nm :: m) as o eqn:Eo. moves M; try (destruct p1 as [|? [|? [|? ?]]]; done). destruct p1 as [|? [|? ?]]; try done. injection Eo as -> <- <-. eauto 10. }
    destruct K as (l1 & b1 & e1 & a1 & F1 & L1 & ->). cbn in F. destruct (decide (t = u)) as [->|D]; [by rewrite lookup_insert in F|]. rewrite lookup_insert_ne in F by done.
    assert (Hn : holds n t nm b1 e1 a1) by (by exists l1). destruct (X _ _ _ _ Hn) as [_ X2]. apply D. symmetry. eapply (X2 u b e a). by exists l.
Qed.
