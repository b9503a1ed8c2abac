(** Proofs about offchain-worker runs and locks. *)
From Verif Require Import Base CodecModel CodecProofs BridgeModel AbiModel AbiProofs OcwModel OcwSpec.

(** ** Values *)
Lemma le_roundtrip k n : n < 256 ^ N.of_nat k -> le_value (le_bytes k n) = n.
Proof. intros. unfold le_value. rewrite le_be, rev_involutive. by apply be_roundtrip. Qed.
Lemma decode_enc_block b : b < 2 ^ 32 -> decode_block (le_bytes 4 b) = Some b.
Proof.
  intros. unfold decode_block. rewrite le_bytes_length. change (Nat.leb 4 4) with true. cbv iota.
  rewrite take_ge by (rewrite le_bytes_length; lia). rewrite le_roundtrip; [done|]. by change (256 ^ N.of_nat 4) with (2 ^ 32).
Qed.
Lemma decode_enc_deadline d : dl_block d < 2 ^ 32 -> dl_time d < 2 ^ 64 -> decode_deadline (enc_deadline d) = Some d.
Proof.
  intros H1 H2. unfold decode_deadline, enc_deadline. rewrite app_length, !le_bytes_length. change (Nat.leb 12 (4 + 8)) with true. cbv iota.
  rewrite take_app_alt by (by rewrite le_bytes_length). rewrite drop_app_alt by (by rewrite le_bytes_length).
  rewrite take_ge by (rewrite le_bytes_length; lia). rewrite !le_roundtrip.
  - by destruct d.
  - by change (256 ^ N.of_nat 8) with (2 ^ 64).
  - by change (256 ^ N.of_nat 4) with (2 ^ 32).
Qed.
Lemma deadline_exact b e a : b + e < 2 ^ 32 -> a + 20000 < 2 ^ 64 -> deadline_of b e a = mkDeadline (b + e) (a + 20000).
Proof. intros. unfold deadline_of. rewrite N.mod_small by done. f_equal. lia. Qed.
Lemma decode_mine b e a : b + e < 2 ^ 32 -> a + 20000 < 2 ^ 64 -> decode_deadline (enc_deadline (deadline_of b e a)) = Some (mkDeadline (b + e) (a + 20000)).
Proof. intros. rewrite deadline_exact by done. by apply decode_enc_deadline. Qed.

(** ** Keys *)
Lemma keys_apart l c : lock_name l <> run_key c.
Proof.
  unfold run_key. destruct l, c; cbn -[le_bytes be_bytes dec_bytes]; discriminate.
Qed.
Lemma run_key_inj c c' : run_key c = run_key c' <-> caller_bytes c = caller_bytes c'.
Proof. unfold run_key. split; [|by intros ->]. intros H. by apply app_inv_tail in H. Qed.

(** ** Executions *)
Lemma exec_app n a b : exec n (a ++ b) = ((exec (exec n a).1 b).1, (exec n a).2 ++ (exec (exec n a).1 b).2).
Proof.
  revert n. induction a as [|e a IH]; intros n; cbn.
  - by destruct (exec n b).
  - destruct (step n e) as [n1 o1]. rewrite IH. destruct (exec n1 a) as [n2 o2]. cbn. destruct (exec n2 b). cbn. by rewrite app_assoc.
Qed.
Lemma exec_snoc n a e : exec n (a ++ [e]) = ((step (exec n a).1 e).1, (exec n a).2 ++ (step (exec n a).1 e).2).
Proof. rewrite exec_app. cbn. destruct (step _ e). cbn. by rewrite app_nil_r. Qed.

(** A step, case by case. *)
Inductive moved (n : node) : node -> list obs -> Prop :=
  | MIdle : moved n n []
  | MSpawn t j : job_ok j -> nd_threads n !! t = None -> moved n (goto t j Start n) []
  | MTick ms : moved n (n <| nd_clock ::= N.add ms |>) []
  | MRestart : moved n (n <| nd_threads ::= fmap (fun th => mkThread (th_job th) Ended) |>) []
  | MOld t c b : nd_threads n !! t = Some (mkThread (RecordRun c b) Start) -> has_run (nd_store n !! run_key c) b = true ->
      moved n (goto t (RecordRun c b) Ended n) [Looking t c b; AlreadyRun t c b]
  | MLook t c b : nd_threads n !! t = Some (mkThread (RecordRun c b) Start) -> has_run (nd_store n !! run_key c) b = false ->
      moved n (goto t (RecordRun c b) (Trying 0 (nd_store n !! run_key c)) n) [Looking t c b]
  | MRan t c b x : nd_threads n !! t = Some (mkThread (RecordRun c b) (Trying x (nd_store n !! run_key c))) ->
      moved n (goto t (RecordRun c b) Ended n <| nd_store ::= insert (run_key c) (le_bytes 4 b) |>) [Ran t c b]
  | MClash t c b x raw : nd_threads n !! t = Some (mkThread (RecordRun c b) (Trying x raw)) -> nd_store n !! run_key c <> raw ->
      moved n (goto t (RecordRun c b) Ended n) [Clash t c b]
  | MAsk t l b e : nd_threads n !! t = Some (mkThread (Locked l b e) Start) -> moved n (goto t (Locked l b e) (Asked (nd_clock n)) n) []
  | MSee t l b e a : nd_threads n !! t = Some (mkThread (Locked l b e) (Asked a)) ->
      moved n (goto t (Locked l b e) (Looked a (nd_store n !! lock_name l)) n) []
  | MFree t l b e a raw : nd_threads n !! t = Some (mkThread (Locked l b e) (Looked a raw)) -> is_free raw b (nd_clock n) = true ->
      moved n (goto t (Locked l b e) (Trying a raw) n) []
  | MBusy t l b e a raw : nd_threads n !! t = Some (mkThread (Locked l b e) (Looked a raw)) -> is_free raw b (nd_clock n) = false ->
      moved n (goto t (Locked l b e) Ended n) [Busy t (lock_name l)]
  | MTake t l b e a : nd_threads n !! t = Some (mkThread (Locked l b e) (Trying a (nd_store n !! lock_name l))) ->
      moved n (goto t (Locked l b e) (Holding a) n <| nd_store ::= insert (lock_name l) (enc_deadline (deadline_of b e a)) |>)
        [Acquired t (lock_name l) b e a (nd_clock n)]
  | MLost t l b e a raw : nd_threads n !! t = Some (mkThread (Locked l b e) (Trying a raw)) -> nd_store n !! lock_name l <> raw ->
      moved n (goto t (Locked l b e) Ended n) [Busy t (lock_name l)]
  | MWork t l b e a : nd_threads n !! t = Some (mkThread (Locked l b e) (Holding a)) -> moved n n [Worked t (lock_name l) (nd_clock n)]
  | MKeep t l b e a : nd_threads n !! t = Some (mkThread (Locked l b e) (Holding a)) -> moved n (goto t (Locked l b e) Ended n) [Kept t (lock_name l)]
  | MDrop t l b e a : nd_threads n !! t = Some (mkThread (Locked l b e) (Holding a)) ->
      moved n (goto t (Locked l b e) Ended n <| nd_store ::= delete (lock_name l) |>) [Released t (lock_name l)].

Lemma step_moved n e : ev_ok e -> moved n (step n e).1 (step n e).2.
Proof.
  intros O. destruct e as [t j|t|t|t ok|ms|]; cbn.
  - destruct (nd_threads n !! t) eqn:E; cbn; [apply MIdle|by apply MSpawn].
  - destruct (nd_threads n !! t) as [[j p]|] eqn:E; [|constructor]. unfold step_thread. cbn.
    destruct j as [c b|l b ex], p as [|a|a raw|a raw|a|]; cbn; try apply MIdle.
    + destruct (has_run _ b) eqn:H; [by apply MOld|by apply MLook].
    + destruct (decide _) as [D|D]; cbn; [subst raw; eapply MRan; exact E|by eapply MClash].
    + by apply MAsk.
    + by apply MSee.
    + destruct (is_free raw b _) eqn:H; cbn; [by apply MFree|by eapply MBusy].
    + destruct (decide _) as [D|D]; cbn; [subst raw; by eapply MTake|by eapply MLost].
  - destruct (nd_threads n !! t) as [[[c b|l b ex] p]|] eqn:E; try apply MIdle. destruct p; try apply MIdle. by eapply MWork.
  - destruct (nd_threads n !! t) as [[[c b|l b ex] p]|] eqn:E; try apply MIdle. destruct p; try apply MIdle. destruct ok; cbn; [by eapply MKeep|by eapply MDrop].
  - apply MTick.
  - apply MRestart.
Qed.

Lemma clock_mono n n' o : moved n n' o -> nd_clock n <= nd_clock n'.
Proof. destruct 1; cbn; lia. Qed.
Lemma exec_clock n es : Forall ev_ok es -> nd_clock n <= nd_clock (exec n es).1.
Proof.
  induction es as [|e es IH] using rev_ind; [done|]. intros [O1 [O2 _]%Forall_cons]%Forall_app. rewrite exec_snoc. cbn. specialize (IH O1).
  pose proof (clock_mono _ _ _ (step_moved (exec n es).1 e O2)). lia.
Qed.

(** Threads are as they should be. *)
Definition thread_ok (n : node) (th : thread) : Prop :=
  job_ok (th_job th) /\
  match th_job th, th_phase th with
  | RecordRun c b, Trying _ raw => has_run raw b = false
  | Locked l b e, Asked a | Locked l b e, Looked a _ | Locked l b e, Holding a => a <= nd_clock n
  | Locked l b e, Trying a raw => a <= nd_clock n /\ forall r d, raw = Some r -> decode_deadline r = Some d -> dl_time d < nd_clock n /\ dl_block d < b
  | _, _ => True
  end.
Definition threads_ok (n : node) : Prop := map_Forall (fun _ th => thread_ok n th) (nd_threads n).
Lemma thread_ok_later n n' th : nd_clock n <= nd_clock n' -> thread_ok n th -> thread_ok n' th.
Proof.
  destruct th as [j p]. unfold thread_ok. cbn. intros C [J H]. split; [done|]. destruct j as [c b|l b e], p; try done; try lia.
  destruct H as [H1 H2]. split; [lia|]. intros r d E1 E2. specialize (H2 r d E1 E2). lia.
Qed.
Lemma threads_ok_goto n n' t j p : threads_ok n -> nd_threads n' = <[t := mkThread j p]> (nd_threads n) -> nd_clock n <= nd_clock n' -> thread_ok n' (mkThread j p) -> threads_ok n'.
Proof.
  intros H E C T u th Hu. rewrite E in Hu. destruct (decide (t = u)) as [->|N]; [rewrite lookup_insert in Hu; by injection Hu as <-|].
  rewrite lookup_insert_ne in Hu by done. eapply thread_ok_later; [exact C|exact (H u th Hu)].
Qed.
Lemma threads_ok_step n n' o : threads_ok n -> moved n n' o -> threads_ok n'.
Proof.
  intros H M. pose proof (clock_mono _ _ _ M) as C.
  assert (J : forall t j p, nd_threads n !! t = Some (mkThread j p) -> thread_ok n (mkThread j p)) by (intros t0 j0 p0 E; exact (H t0 _ E)).
  destruct M as [|t j O F|ms| |t c b F R|t c b F R|t c b x F|t c b x raw F R|t l b e F|t l b e a F|t l b e a raw F R|t l b e a raw F R|t l b e a F|t l b e a raw F R|t l b e a F|t l b e a F|t l b e a F].
  - done.
  - eapply threads_ok_goto; [exact H|done|done|]. split; [exact O|by destruct j].
  - intros u th Hu. eapply thread_ok_later; [exact C|exact (H u th Hu)].
  - intros u th Hu. cbn in Hu. rewrite lookup_fmap in Hu. destruct (nd_threads n !! u) as [th'|] eqn:E; [|done]. injection Hu as <-.
    destruct (H u th' E) as [J' _]. split; [done|]. cbn. by destruct (th_job th').
  - eapply threads_ok_goto; [exact H|done|done|]. destruct (J _ _ _ F) as [J' _]. by split.
  - eapply threads_ok_goto; [exact H|done|done|]. destruct (J _ _ _ F) as [J' _]. by split.
  - eapply threads_ok_goto; [exact H|done|done|]. destruct (J _ _ _ F) as [J' _]. by split.
  - eapply threads_ok_goto; [exact H|done|done|]. destruct (J _ _ _ F) as [J' _]. by split.
  - eapply threads_ok_goto; [exact H|done|done|]. destruct (J _ _ _ F) as [J' _]. split; [done|]. cbn. lia.
  - eapply threads_ok_goto; [exact H|done|done|]. destruct (J _ _ _ F) as [J' K]. split; [done|]. exact K.
  - eapply threads_ok_goto; [exact H|done|done|]. destruct (J _ _ _ F) as [J' K]. split; [done|]. cbn in *. split; [exact K|]. intros r d -> D.
    unfold is_free in R. rewrite D in R. unfold has_expired in R. lia.
  - eapply threads_ok_goto; [exact H|done|done|]. destruct (J _ _ _ F) as [J' _]. by split.
  - eapply threads_ok_goto; [exact H|done|done|]. destruct (J _ _ _ F) as [J' [K _]]. split; [done|]. exact K.
  - eapply threads_ok_goto; [exact H|done|done|]. destruct (J _ _ _ F) as [J' _]. by split.
  - done.
  - eapply threads_ok_goto; [exact H|done|done|]. destruct (J _ _ _ F) as [J' _]. by split.
  - eapply threads_ok_goto; [exact H|done|done|]. destruct (J _ _ _ F) as [J' _]. by split.
Qed.
Lemma threads_ok_exec n es : nd_threads n = ∅ -> Forall ev_ok es -> threads_ok (exec n es).1.
Proof.
  intros E. induction es as [|e es IH] using rev_ind; intros O.
  - intros t th H. cbn in H. by rewrite E, lookup_empty in H.
  - apply Forall_app in O as [O1 [O2 _]%Forall_cons]. rewrite exec_snoc. cbn. eapply threads_ok_step; [exact (IH O1)|exact (step_moved _ e O2)].
Qed.

(** Induction over histories. *)
Lemma history_ind2 (P : list ev -> node -> list obs -> Prop) n0 :
  (nd_threads n0 = ∅ -> P [] n0 []) ->
  (forall es e n log n' o, history n0 es n log -> threads_ok n -> nd_clock n' + 20000 < 2 ^ 64 -> moved n n' o -> P es n log -> P (es ++ [e]) n' (log ++ o)) ->
  forall es n log, history n0 es n log -> P es n log.
Proof.
  intros H0 HS es. induction es as [|e es IH] using rev_ind; intros n log (E & O & X & C).
  - cbn in X. injection X as <- <-. by apply H0.
  - apply Forall_app in O as [O1 O2]. pose proof O2 as [O3 _]%Forall_cons. rewrite exec_snoc in X. injection X as <- <-.
    pose proof (step_moved (exec n0 es).1 e O3) as M.
    assert (H : history n0 es (exec n0 es).1 (exec n0 es).2).
    { split; [done|]. split; [done|]. split; [by destruct (exec n0 es)|]. pose proof (clock_mono _ _ _ M). lia. }
    apply (HS es e (exec n0 es).1); [done|by apply threads_ok_exec|exact C|exact M|by apply IH].
Qed.
Lemma history_ind (P : node -> list obs -> Prop) n0 :
  P n0 [] ->
  (forall n log n' o, threads_ok n -> nd_clock n' + 20000 < 2 ^ 64 -> moved n n' o -> P n log -> P n' (log ++ o)) ->
  forall es n log, history n0 es n log -> P n log.
Proof. intros H0 HS es n log. apply (history_ind2 (fun _ => P)); [done|]. intros es' e n1 log1 n' o _. apply HS. Qed.

(** A claim about every observation and what was observed before it. *)
Definition every (Q : list obs -> obs -> Prop) (log : list obs) : Prop := forall p o q, log = p ++ o :: q -> Q p o.
Lemma every_nil Q : every Q [].
Proof. intros p o q H. by destruct p. Qed.
Lemma every_app Q log os : every Q log -> (forall p o q, os = p ++ o :: q -> Q (log ++ p) o) -> every Q (log ++ os).
Proof.
  intros H1 H2 p o q E. apply app_eq_inv in E as [(k & -> & E)|(k & -> & E)].
  - destruct k as [|x k]; cbn in E.
    + specialize (H2 [] o q). rewrite !app_nil_r in *. apply H2. by rewrite <- E.
    + injection E as <- ->. by apply (H1 p o k).
  - by apply (H2 k o q).
Qed.
Lemma every_1 Q log o : every Q log -> Q log o -> every Q (log ++ [o]).
Proof. intros H1 H2. apply every_app; [done|]. intros p o' q E. destruct p as [|x [|? ?]]; [|done|done]. injection E as <- <-. by rewrite app_nil_r. Qed.
Lemma every_0 Q log : every Q log -> every Q (log ++ []).
Proof. by rewrite app_nil_r. Qed.

(** Where a thread in a given phase comes from. *)
Lemma moved_thread n n' o u th : moved n n' o -> nd_threads n' !! u = Some th ->
  nd_threads n !! u = Some th \/
  match th_job th, th_phase th with
  | _, Ended => exists th0, nd_threads n !! u = Some th0 /\ th_job th0 = th_job th
  | _, Start => nd_threads n !! u = None /\ o = []
  | RecordRun c b, Trying _ raw => o = [Looking u c b] /\ raw = nd_store n !! run_key c
  | Locked l b e, Asked a => nd_threads n !! u = Some (mkThread (Locked l b e) Start) /\ a = nd_clock n /\ o = []
  | Locked l b e, Looked a raw => nd_threads n !! u = Some (mkThread (Locked l b e) (Asked a)) /\ raw = nd_store n !! lock_name l /\ o = []
  | Locked l b e, Trying a raw => nd_threads n !! u = Some (mkThread (Locked l b e) (Looked a raw)) /\ o = []
  | Locked l b e, Holding a =>
      nd_threads n !! u = Some (mkThread (Locked l b e) (Trying a (nd_store n !! lock_name l))) /\ o = [Acquired u (lock_name l) b e a (nd_clock n)]
  | _, _ => False
  end.
Proof.
  intros M H.
  destruct M as [|t j O F|ms| |t c b F R|t c b F R|t c b x F|t c b x raw F R|t l b e F|t l b e a F|t l b e a raw F R|t l b e a raw F R|t l b e a F|t l b e a raw F R|t l b e a F|t l b e a F|t l b e a F].
  all: cbn in H; try (by left).
  2: { right. rewrite lookup_fmap in H. destruct (nd_threads n !! u) as [th'|] eqn:E; [|done]. injection H as <-. cbn. destruct (th_job th') eqn:J; by exists th'. }
  all: destruct (decide (t = u)) as [->|D]; [rewrite lookup_insert in H; injection H as <-; right; cbn|left; by rewrite lookup_insert_ne in H].
  all: try (by eexists).
  all: try done.
  by destruct j.
Qed.
Lemma every_Q2 Q log x y : every Q log -> Q log x -> Q (log ++ [x]) y -> every Q (log ++ [x; y]).
Proof.
  intros H1 H2 H3. apply every_app; [done|]. intros p o q E. destruct p as [|a [|b [|c p]]]; [|by injection E as <- <- _|done|done].
  injection E as <- <-. by rewrite app_nil_r.
Qed.

(** ** Runs *)
Definition run_of (c : caller) (o : obs) : option N :=
  match o with Ran _ c' b => if decide (caller_bytes c' = caller_bytes c) then Some b else None | _ => None end.
Lemma runs_app c a b : runs c (a ++ b) = runs c a ++ runs c b.
Proof. unfold runs. by rewrite omap_app. Qed.
Lemma runs_1 c o : runs c [o] = match run_of c o with Some b => [b] | None => [] end.
Proof. unfold runs. cbn. by destruct o; cbn; try destruct (decide _). Qed.
Lemma last_snoc_N (l : list N) x : last (l ++ [x]) = Some x.
Proof. apply last_snoc. Qed.

(** What a move does to the record of a caller. *)
Lemma moved_run n n' o c : moved n n' o ->
  (runs c o = [] /\ nd_store n' !! run_key c = nd_store n !! run_key c) \/
  (exists t c' b x, o = [Ran t c' b] /\ caller_bytes c' = caller_bytes c /\ nd_threads n !! t = Some (mkThread (RecordRun c' b) (Trying x (nd_store n !! run_key c))) /\ nd_store n' !! run_key c = Some (le_bytes 4 b)).
Proof.
  intros M. destruct M as [|t j O F|ms| |t c' b F R|t c' b F R|t c' b x F|t c' b x raw F R|t l b e F|t l b e a F|t l b e a raw F R|t l b e a raw F R|t l b e a F|t l b e a raw F R|t l b e a F|t l b e a F|t l b e a F]; try (left; done).
  - destruct (decide (caller_bytes c' = caller_bytes c)) as [E|E].
    + right. exists t, c', b, x. split; [done|]. split; [done|]. apply run_key_inj in E. rewrite <- E. split; [done|]. cbn. by rewrite lookup_insert.
    + left. split; [unfold runs; cbn; by rewrite decide_False|]. cbn. rewrite lookup_insert_ne; [done|]. by intros K%run_key_inj.
  - left. split; [done|]. cbn. rewrite lookup_insert_ne; [done|]. apply keys_apart.
  - left. split; [done|]. cbn. rewrite lookup_delete_ne; [done|]. apply keys_apart.
Qed.
Lemma last_run_key n c : last_run n c = nd_store n !! run_key c ≫= decode_block.
Proof. done. Qed.
Lemma has_run_iff n c b : has_run (nd_store n !! run_key c) b = true <-> exists last, last_run n c = Some last /\ b <= last.
Proof.
  unfold has_run, last_run. destruct (nd_store n !! run_key c) as [r|]; cbn; [|split; [done|by intros (? & ? & ?)]].
  destruct (decode_block r) as [x|]; [|split; [done|by intros (? & ? & ?)]]. split; [intros; exists x; split; [done|lia]|]. intros (y & [= <-] & H). lia.
Qed.

Lemma sorted_snoc l (b : N) : StronglySorted N.lt l -> Forall (fun y => y < b) l -> StronglySorted N.lt (l ++ [b]).
Proof.
  intros S A. induction l as [|y l IH]; cbn; [by repeat constructor|]. apply StronglySorted_inv in S as [S1 S2]. apply Forall_cons in A as [A1 A2].
  constructor; [by apply IH|]. apply Forall_app. split; [done|]. by constructor.
Qed.
Lemma runs_inv n0 es n log c : history n0 es n log ->
  last_run n c = match last (runs c log) with Some b => Some b | None => last_run n0 c end /\
  (forall b, b ∈ runs c log -> exists x, last_run n c = Some x /\ b <= x) /\
  StronglySorted N.lt (runs c log) /\
  (forall b, b ∈ runs c log -> forall x, last_run n0 c = Some x -> x < b).
Proof.
  intros H. revert es n log H. apply history_ind.
  - split; [done|]. split; [by intros b ?%elem_of_nil|]. split; [constructor|]. by intros b ?%elem_of_nil.
  - intros n log n' o T _ M (I1 & I2 & I3 & I4). destruct (moved_run _ _ _ c M) as [[E1 E2]|(t & c' & b & x & -> & E1 & E2 & E3)].
    + rewrite runs_app, E1, app_nil_r. unfold last_run in I1, I2 |- *. by rewrite E2.
    + assert (R : runs c [Ran t c' b] = [b]) by (unfold runs; cbn; by rewrite decide_True). rewrite runs_app, R, last_snoc.
      destruct (T _ _ E2) as [J K]. cbn in J, K.
      assert (L : forall x, last_run n c = Some x -> x < b).
      { intros y Hy. destruct (N.lt_ge_cases y b) as [?|Hge]; [done|]. enough (has_run (nd_store n !! run_key c) b = true) by congruence.
        apply has_run_iff. by exists y. }
      assert (N1 : last_run n' c = Some b) by (unfold last_run; rewrite E3; cbn; by apply decode_enc_block).
      assert (A : forall y, y ∈ runs c log -> y < b) by (intros y Hy; destruct (I2 y Hy) as (w & Hw & ?); pose proof (L w Hw); lia).
      split; [done|]. split; [|split].
      * intros z Hz. exists b. split; [done|]. apply elem_of_app in Hz as [Hz|Hz]; [pose proof (A z Hz); lia|]. apply elem_of_list_singleton in Hz. lia.
      * apply sorted_snoc; [done|]. by apply Forall_forall.
      * intros z Hz y Hy. apply elem_of_app in Hz as [Hz|Hz]; [by eapply I4|]. apply elem_of_list_singleton in Hz as ->.
        destruct (last (runs c log)) as [w|] eqn:EL.
        -- apply last_Some_elem_of in EL. pose proof (I4 w EL y Hy). pose proof (A w EL). lia.
        -- apply L. by rewrite I1.
Qed.

(** Why a worker is told that its block was run. *)
Lemma already_inv n0 es n log : history n0 es n log ->
  every (fun p o => match o with AlreadyRun t c b =>
     (exists b', b' ∈ runs c p /\ b <= b') \/ (exists x, last_run n0 c = Some x /\ b <= x) | _ => True end) log.
Proof.
  intros H. revert es n log H. apply (history_ind2 (fun es n log => every _ log)); [intros _; apply every_nil|].
  intros es e n log n' o H T _ M I.
  destruct M as [|t j O F|ms| |t c' b F R|t c' b F R|t c' b x F|t c' b x raw F R|t l b e' F|t l b e' a F|t l b e' a raw F R|t l b e' a raw F R|t l b e' a F|t l b e' a raw F R|t l b e' a F|t l b e' a F|t l b e' a F]; try (by apply every_0); try (by apply every_1).
  apply every_app; [done|]. intros p o q E. destruct p as [|x [|y [|z p]]]; [by injection E as <- <-| |done|done]. injection E as <- <- <-.
  apply has_run_iff in R as (x & E & Hx). destruct (runs_inv _ _ _ _ c' H) as (I1 & _). rewrite I1 in E. rewrite runs_app, runs_1. cbn [run_of]. rewrite app_nil_r.
  destruct (last (runs c' log)) as [w|] eqn:EL; [left; exists w|right; by exists x]. injection E as <-. split; [|done]. by apply last_Some_elem_of.
Qed.

(** Why a worker is told that recording failed: another run was recorded since it looked. *)
Definition trying_ok (n : node) (log : list obs) : Prop :=
  forall t c b x raw, nd_threads n !! t = Some (mkThread (RecordRun c b) (Trying x raw)) ->
     exists p1 p2, log = p1 ++ Looking t c b :: p2 /\ (runs c p2 = [] -> nd_store n !! run_key c = raw).
Lemma trying_inv n0 es n log : history n0 es n log -> trying_ok n log.
Proof.
  intros H. revert es n log H. apply (history_ind2 (fun _ => trying_ok)).
  { intros E t c b x raw H. by rewrite E, lookup_empty in H. }
  intros es e n log n' o _ _ _ M I t c b x raw H. destruct (moved_thread _ _ _ _ _ M H) as [K|[-> ->]].
  - destruct (I t c b x raw K) as (p1 & p2 & -> & HR). exists p1, (p2 ++ o). split; [by rewrite <- app_assoc|].
    rewrite runs_app. intros [R1 R2]%app_eq_nil. specialize (HR R1). destruct (moved_run _ _ _ c M) as [[_ E]|(t' & c' & b' & x' & -> & E1 & _)]; [by rewrite E|].
    unfold runs in R2. cbn in R2. by rewrite decide_True in R2.
  - exists log, []. split; [done|]. intros _. destruct (moved_run _ _ _ c M) as [[_ E]|(t' & c' & b' & x' & E & _)]; [done|done].
Qed.
Lemma clash_inv n0 es n log : history n0 es n log ->
  every (fun p o => match o with Clash t c b => exists p1 p2, p = p1 ++ Looking t c b :: p2 /\ runs c p2 <> [] | _ => True end) log.
Proof.
  intros H. revert es n log H. apply (history_ind2 (fun es n log => every _ log)); [intros _; apply every_nil|].
  intros es e n log n' o H T _ M I.
  destruct M as [|t j O F|ms| |t c' b F R|t c' b F R|t c' b x F|t c' b x raw F R|t l b e' F|t l b e' a F|t l b e' a raw F R|t l b e' a raw F R|t l b e' a F|t l b e' a raw F R|t l b e' a F|t l b e' a F|t l b e' a F]; try (by apply every_0); try (by apply every_1); try (by apply every_Q2).
  apply every_1; [done|]. destruct (trying_inv _ _ _ _ H _ _ _ _ _ F) as (p1 & p2 & -> & K). exists p1, p2. split; [done|]. intros E. by apply R, K.
Qed.
