(** C57-C60 and C62: Ethereum events brought in by transaction hash. *)
From Verif Require Import Base BaseLemmas AvnModel CodecModel CodecProofs SigModel LogModel LogProofs.

(** What has happened: the chain started with some lifts to check (500 at most, distinct), some events known as processed, and any
    validators; [ops] have been carried out since. *)
Record start := mkStart { g_period : N; g_lifts : list N; g_processed : gmap N (N * bool); g_contracts : list N; g_validators : list validator }.
Definition sound (g : start) : Prop := NoDup (g_lifts g) /\ N.of_nat (length (g_lifts g)) <= MAX_UNCHECKED.
Definition reached (c : config) (g : start) (ops : list op) : st :=
  run c (genesis (g_period g) (g_lifts g) (g_processed g) (g_contracts g) (g_validators g)) ops.
(** How many challenges are needed to overrule a check: more than the larger of the validators divided by the quorum factor
    when the check was made and now. *)
Definition tolerated (c : config) (s : st) (r : check) : N := N.max (ck_min r) (N.of_nat (length (s_validators s)) / c_quorum c).

Lemma accepted_effect c s o : accepted c s o -> exists s', effect c s o s' /\ step c s o = s'.
Proof. intros Ha. destruct (step_cases c s o) as [[_ E]|[? _]]; [|done]. by eexists. Qed.
Lemma reached_inv c g ops : sound g -> Inv (reached c g ops).
Proof. intros [? ?]. apply run_inv. by apply genesis_inv. Qed.
Lemma run_snoc c s ops o : run c s (ops ++ [o]) = step c (run c s ops) o.
Proof. unfold run. by rewrite fold_left_app. Qed.
Lemma reached_snoc c g ops o : reached c g (ops ++ [o]) = step c (reached c g ops) o.
Proof. apply run_snoc. Qed.
Lemma run_app c s a b : run c s (a ++ b) = run c (run c s a) b.
Proof. unfold run. apply fold_left_app. Qed.

Lemma pending_in s id n : existsb (pending_is id n) (s_pending s) = true <-> exists r b, (r, n, b) ∈ s_pending s /\ ck_id r = id.
Proof.
  rewrite existsb_elem. unfold pending_is. split.
  - intros ([[r m] b] & H & E). cbn in E. apply andb_true_iff in E as [E1 E2]. apply bool_decide_eq_true in E1. apply N.eqb_eq in E2. subst. by exists r, b.
  - intros (r & b & H & E). exists (r, n, b). split; [done|]. cbn. rewrite bool_decide_true, N.eqb_refl; done.
Qed.
Lemma unchecked_in s id n : existsb (unchecked_is id n) (s_unchecked s) = true <-> exists b, (id, n, b) ∈ s_unchecked s.
Proof.
  rewrite existsb_elem. unfold unchecked_is. split.
  - intros ([[i m] b] & H & E). cbn in E. apply andb_true_iff in E as [E1 E2]. apply bool_decide_eq_true in E1. apply N.eqb_eq in E2. subst. by exists b.
  - intros (b & H). exists (id, n, b). split; [done|]. cbn. rewrite bool_decide_true, N.eqb_refl; done.
Qed.
Lemma pending_unique s e e' : Inv s -> e ∈ s_pending s -> e' ∈ s_pending s -> ck_id e.1.1 = ck_id e'.1.1 -> e = e'.
Proof. intros I H1 H2 E. pose proof (i_ids _ I) as Hn. unfold ids in Hn. apply NoDup_app in Hn as (_ & _ & Hn). by apply (NoDup_fmap_eq pid (s_pending s)). Qed.
Lemma find_last_unique s f e : Inv s -> (forall x, f x = true -> ck_id x.1.1 = ck_id e.1.1) -> e ∈ s_pending s -> f e = true -> find_last f (s_pending s) = Some e.
Proof.
  intros I Hf H E. destruct (proj1 (find_last_exists f (s_pending s))) as [x Hx]; [apply existsb_elem; eauto|]. rewrite Hx. f_equal.
  apply find_last_some in Hx as [H1 H2]. symmetry. eapply pending_unique; try done. symmetry. by apply Hf.
Qed.
Lemma may_process_iff c s id n v sig e : Inv s -> may_process c s id n v sig e <->
  exists r b, e = (r, n, b) /\ e ∈ s_pending s /\ ck_id r = id /\ is_validator (s_validators s) (v_account v) = true /\
    c_verify c (v_key v) (MProcess id n) sig = true /\ ck_ready r < s_block s.
Proof.
  intros I. unfold may_process. split.
  - intros (H1 & H2 & H3 & H4 & H5 & H6). apply pending_in in H1 as (r & b & Hin & <-). apply find_last_some in H2 as [Hin2 _].
    assert (e = (r, n, b)) as -> by (by apply (pending_unique s)). exists r, b. done.
  - intros (r & b & -> & Hin & <- & H4 & H5 & H6). split; [apply pending_in; eauto|]. split; [|done]. apply find_last_unique; try done; unfold by_id; [intros x Hx; by apply bool_decide_eq_true in Hx|by apply bool_decide_true].
Qed.
Lemma may_challenge_iff c s ch n v sig e : Inv s -> may_challenge c s ch n v sig e <->
  exists r b, e = (r, n, b) /\ e ∈ s_pending s /\ ck_id r = ch_id ch /\ ck_by r <> ch_by ch /\ v_account v = ch_by ch /\
    is_validator (s_validators s) (ch_by ch) = true /\ c_verify c (v_key v) (MChallenge ch n) sig = true /\ ch_by ch ∉ challengers s (ch_id ch).
Proof.
  intros I. unfold may_challenge. split.
  - intros (H1 & H2 & H3 & H4 & H5 & H6). apply find_last_some in H1 as [Hin Hp]. destruct e as [[r m] b]. unfold pending_is in Hp. cbn in Hp. apply andb_true_iff in Hp as [Hp1 Hp2].
    apply bool_decide_eq_true in Hp1. apply N.eqb_eq in Hp2. subst m. exists r, b. done.
  - intros (r & b & -> & Hin & Hid & H2 & H3 & H4 & H5 & H6). split; [|done]. apply find_last_unique; try done; unfold pending_is; cbn.
    + intros [[r' m'] b'] Hx. cbn in Hx. apply andb_true_iff in Hx as [Hx _]. apply bool_decide_eq_true in Hx. cbn. congruence.
    + rewrite bool_decide_true, N.eqb_refl; done.
Qed.

(** *** Where a pending check comes from *)
Lemma effect_pending c s o s' e : effect c s o s' -> e ∈ s_pending s' -> e ∈ s_pending s \/ exists r n v sig, o = SubmitCheck r n v sig /\ e = (stored c s r, n, s_block s).
Proof.
  intros E H. destruct E; try (by left).
  - change (e ∈ (if N.of_nat (length (s_pending s)) <? MAX_PENDING then s_pending s ++ [(stored c s r, n, s_block s)] else s_pending s)) in H.
    destruct (_ <? MAX_PENDING); [|by left]. apply elem_of_app in H as [H|H]; [by left|]. apply elem_of_list_singleton in H. right. by exists r, n, v, sig.
  - left. cbn in H. match goal with X : may_process _ _ _ _ _ _ _ |- _ => destruct X as (_ & Hf & <- & _) end. destruct (remove_last_spec _ _ _ Hf) as (l1 & l2 & El & _ & Hr). rewrite Hr in H. rewrite El. set_solver.
  - left. destruct (add_processed_shape (k, tx) a s) as [m Em]. by rewrite Em in H.
Qed.
Lemma effect_block c s o s' : effect c s o s' -> s_block s <= s_block s'.
Proof. intros E. destruct E; cbn; try lia. destruct (add_processed_shape (k, tx) a s) as [m ->]. cbn. lia. Qed.
Lemma step_block c s o : s_block s <= s_block (step c s o).
Proof. destruct (step_cases c s o) as [[_ E]|[_ ->]]; [by eapply effect_block|lia]. Qed.
Lemma run_block c ops : forall s, s_block s <= s_block (run c s ops).
Proof. induction ops as [|o ops IH]; intros s; cbn; [lia|]. etransitivity; [apply (step_block c s o)|apply IH]. Qed.
Lemma pending_from c g ops e : e ∈ s_pending (reached c g ops) ->
  exists ops1 r n v sig ops2, ops = ops1 ++ SubmitCheck r n v sig :: ops2 /\ may_check c (reached c g ops1) r n v sig /\
    e = (stored c (reached c g ops1) r, n, s_block (reached c g ops1)).
Proof.
  induction ops as [|o ops IH] using rev_ind; intros H; [by apply elem_of_nil in H|]. rewrite reached_snoc in H.
  assert (Hold : e ∈ s_pending (reached c g ops) -> exists ops1 r n v sig ops2, ops ++ [o] = ops1 ++ SubmitCheck r n v sig :: ops2 /\ may_check c (reached c g ops1) r n v sig /\ e = (stored c (reached c g ops1) r, n, s_block (reached c g ops1))).
  { intros Ho. destruct (IH Ho) as (ops1 & r & n & v & sig & ops2 & -> & H1 & H2). exists ops1, r, n, v, sig, (ops2 ++ [o]). split; [|done]. by rewrite <- app_assoc. }
  destruct (step_cases c (reached c g ops) o) as [[_ E]|[_ E]]; [|rewrite E in H; by apply Hold].
  destruct (effect_pending _ _ _ _ _ E H) as [Ho|(r & n & v & sig & -> & ->)]; [by apply Hold|].
  exists ops, r, n, v, sig, []. split; [done|]. split; [|done]. by inversion E.
Qed.

(** ** C57: delivery *)
(** No Ethereum transaction is handed on twice. *)
Theorem C57_delivered_once c g ops : sound g -> NoDup (map (fun d => d.1.2) (s_delivered (reached c g ops))).
Proof. intros G. apply (i_once _ (reached_inv c g ops G)). Qed.
(** Whatever is handed on was checked as genuine: a validator whose turn it was (for the block it named) submitted exactly this event with
    exactly this data, more than the challenge period ago, no more challenges than tolerated stand against it, the
    transaction had not been processed, and now is for good. *)
Theorem C57_delivered_as_checked c g ops o : sound g ->
  let s := reached c g ops in let s' := step c s o in s_delivered s' <> s_delivered s ->
  exists id data, s_delivered s' = (id, data) :: s_delivered s /\ is_processed s id.2 = false /\ s_processed s' !! id.2 = Some (id.1, true) /\
  (exists n v sig h, o = ProcessEvent id n v sig h /\ is_validator (s_validators s) (v_account v) = true) /\
  exists ops1 r n v sig ops2, ops = ops1 ++ SubmitCheck r n v sig :: ops2 /\
    let s1 := reached c g ops1 in
    ck_id r = id /\ ck_data r = data /\ ck_result r = ROk /\
    (exists b, (id, n, b) ∈ s_unchecked s1) /\ c_data_ok c data = true /\
    is_validator (s_validators s1) (ck_by r) = true /\ primary_for_block (s_validators s1) (ck_at r) = Ok (ck_by r) /\ c_verify c (v_key v) (MCheck r n) sig = true /\
    s_block s1 + s_period s1 < s_block s /\
    N.of_nat (length (challengers s id)) <= N.max (N.of_nat (length (s_validators s1)) / c_quorum c) (N.of_nat (length (s_validators s)) / c_quorum c).
Proof.
  intros G s s' Hd. pose proof (reached_inv c g ops G) as I. fold s in I. destruct (step_cases c s o) as [[_ E]|[_ E]]; [|unfold s' in Hd; by rewrite E in Hd].
  change (step c s o) with s' in E. clearbody s'. destruct E; try done.
  - apply may_process_iff in H as (r & b & -> & Hin & <- & Hv & Hsg & Hr); [|done]. cbn [fst snd] in *.
    cbn [s_delivered s_processed processed] in *. destruct (delivers c s r) eqn:Hdl; [|done]. exists (ck_id r), (ck_data r). split; [done|].
    pose proof Hdl as Hdl2. unfold delivers in Hdl2. apply andb_true_iff in Hdl2 as [Hdl2 H3]. apply andb_true_iff in Hdl2 as [H1 H2]. apply bool_decide_eq_true in H1. apply negb_true_iff in H2, H3.
    split; [done|]. split.
    { unfold again. rewrite H2. cbn. rewrite bool_decide_false by by rewrite H1. cbn. by apply add_processed_fresh. }
    split; [by exists n, v, sig, h|]. destruct (pending_from c g ops _ Hin) as (ops1 & r1 & n1 & v1 & sig1 & ops2 & Eo & (M1 & M2 & M3 & M4 & M5 & M6 & M7) & Ee). injection Ee as -> -> ->.
    exists ops1, r1, n1, v1, sig1, ops2. split; [done|]. cbn [stored ck_id ck_data ck_result ck_ready] in *. repeat split; try done; [by apply unchecked_in|].
    unfold challenge_successful in H2. apply N.ltb_ge in H2. exact H2.
  - exfalso. apply Hd. by destruct (add_processed_shape (k, tx) a s) as [m ->].
Qed.
(** Once a transaction counts as processed it does so for ever: none of its events can be added again, and nothing of it is delivered
    again, through this pallet.  A record of acceptance is never altered. *)
Theorem C57_processed_for_ever c g ops more tx : sound g -> is_processed (reached c g ops) tx = true ->
  let s := reached c g (ops ++ more) in
  is_processed s tx = true /\
  (forall k, s_processed (reached c g ops) !! tx = Some (k, true) -> s_processed s !! tx = Some (k, true)) /\
  (forall who k, ~ accepted c s (AddLog who k tx)) /\ (forall who p k, ~ accepted c s (SignedAddLog who p k tx)) /\
  (forall id data, id.2 = tx -> (id, data) ∈ s_delivered s -> (id, data) ∈ s_delivered (reached c g ops)).
Proof.
  intros G Hp s.
  assert (Hall : is_processed s tx = true /\ (forall k, s_processed (reached c g ops) !! tx = Some (k, true) -> s_processed s !! tx = Some (k, true)) /\
    (forall id data, id.2 = tx -> (id, data) ∈ s_delivered s -> (id, data) ∈ s_delivered (reached c g ops))).
  { unfold s. induction more as [|o more IH] using rev_ind; [rewrite app_nil_r; done|]. rewrite app_assoc, reached_snoc. pose proof (reached_inv c g (ops ++ more) G) as I. revert IH I. generalize (reached c g (ops ++ more)). intros s1 (A1 & A2 & A3) I.
    destruct (step_cases c s1 o) as [[_ E]|[_ ->]]; [|done]. revert E. generalize (step c s1 o). intros s2 E. destruct E; try done.
    - pose proof H as (_ & _ & Hid & _). unfold is_processed in *. cbn [processed s_processed s_delivered]. split; [|split].
      + destruct (again c s1 e.1.1); [done|]. by apply add_processed_mono.
      + intros k Hk. apply A2 in Hk. destruct (again c s1 e.1.1); [done|]. by apply add_processed_mono.
      + intros id' data Et Hin. apply A3; [done|]. destruct (delivers c s1 e.1.1) eqn:Hdl; [|done]. apply elem_of_cons in Hin as [Heq|Hin]; [|done]. injection Heq as -> ->.
        unfold delivers, is_processed in Hdl. rewrite Et in Hdl. destruct (s_processed s1 !! tx); [|done]. by rewrite andb_false_r in Hdl.
    - split; [by apply add_processed_mono|]. split; [intros k' Hk; apply A2 in Hk; by apply add_processed_mono|]. intros id' data Et Hin. apply A3; [done|]. destruct (add_processed_shape (k, tx0) a s1) as [m Em]. by rewrite Em in Hin. }
  destruct Hall as (A1 & A2 & A3). split; [done|]. split; [done|].
  assert (Hno : forall k, known s (k, tx) = true). { intros k. unfold known. cbn. by rewrite A1. }
  split; [|split; [|exact A3]].
  - intros who k Ha. apply accepted_effect in Ha as (sx & E & Ex). inversion E; subst. match goal with X : may_add _ _ _ _ |- _ => destruct X as (_ & _ & _ & X & _) end. by rewrite Hno in *.
  - intros who p k Ha. apply accepted_effect in Ha as (sx & E & Ex). inversion E; subst. match goal with X : may_add _ _ _ _ |- _ => destruct X as (_ & _ & _ & X & _) end. by rewrite Hno in *.
Qed.

(** ** C58: queues *)
(** Every event is waiting in at most one place, once; every entry has its own number, given out in increasing order; the queues are bounded. *)
Theorem C58_one_place c g ops : sound g -> let s := reached c g ops in
  NoDup (map (fun e => e.1.1) (s_unchecked s) ++ map (fun e => ck_id e.1.1) (s_pending s)) /\
  NoDup (map (fun e => e.1.2) (s_unchecked s) ++ map (fun e => e.1.2) (s_pending s)) /\
  (forall n, n ∈ map (fun e => e.1.2) (s_unchecked s) ++ map (fun e => e.1.2) (s_pending s) -> 0 < n <= s_ingress s) /\
  N.of_nat (length (s_unchecked s)) <= 500 /\ N.of_nat (length (s_pending s)) <= 50.
Proof. intros G s. destruct (reached_inv c g ops G). repeat split; try done; by apply i_low. Qed.
(** Exactly when an event can be added: its kind is one the chain takes (in the runtime: the NFT events), the hash is not zero,
    the transaction has not been processed, the event is not waiting already, and there is room. It then waits, last, under a new number. *)
Theorem C58_add_accepted c g ops who k tx : sound g -> let s := reached c g ops in
  (accepted c s (AddLog who k tx) <->
   c_kind c k = true /\ k <> 9 /\ tx <> 0 /\ is_processed s tx = false /\ (forall n b, (k, tx, n, b) ∉ s_unchecked s) /\
   (forall r n b, (r, n, b) ∈ s_pending s -> ck_id r <> (k, tx)) /\ N.of_nat (length (s_unchecked s)) < 500) /\
  (accepted c s (AddLog who k tx) -> s_unchecked (step c s (AddLog who k tx)) = s_unchecked s ++ [(k, tx, s_ingress s + 1, s_block s)] /\
    s_pending (step c s (AddLog who k tx)) = s_pending s /\ s_ingress (step c s (AddLog who k tx)) = s_ingress s + 1).
Proof.
  intros G s. assert (Hm : may_add c s k tx <-> c_kind c k = true /\ k <> 9 /\ tx <> 0 /\ is_processed s tx = false /\ (forall n b, (k, tx, n, b) ∉ s_unchecked s) /\
   (forall r n b, (r, n, b) ∈ s_pending s -> ck_id r <> (k, tx)) /\ N.of_nat (length (s_unchecked s)) < 500).
  { unfold may_add. rewrite known_false. unfold ids, is_primary_kind. rewrite not_elem_of_app, negb_true_iff, N.eqb_neq. split.
    - intros (A & B & C & (D & E & F) & K). do 4 (split; [done|]). split; [|split; [|done]].
      + intros n b Hi. apply E. by apply (map_elem uid _ (k, tx, n, b)).
      + intros r n b Hi Hid. apply F. rewrite <- Hid. by apply (map_elem pid _ (r, n, b)).
    - intros (A & B & C & D & E & F & K). do 3 (split; [done|]). split; [|done]. split; [done|]. split; intros Hi.
      + apply elem_map in Hi as ([[i n] b] & Hi & Ei). cbn in Ei. subst. by eapply E.
      + apply elem_map in Hi as ([[r n] b] & Hi & Ei). by eapply F. }
  split.
  - rewrite <- Hm. split.
    + intros Ha. apply accepted_effect in Ha as (sx & E & Ex). by inversion E.
    + intros H. by destruct (effect_accepted c s _ _ (EAdd c s who k tx H)).
  - intros Ha. apply accepted_effect in Ha as (sx & E & Ex). inversion E; subst. match goal with X : added _ _ _ _ = _ |- _ => rewrite <- X end. done.
Qed.
(** An event waits unchanged until it is checked, and its check waits unchanged until the event is processed: nobody can
    withdraw, replace or reorder it by anything else. *)
Theorem C58_waits c g ops o : sound g -> let s := reached c g ops in let s' := step c s o in
  (forall e, e ∈ s_unchecked s -> e ∈ s_unchecked s' \/ exists r v sig, o = SubmitCheck r e.1.2 v sig /\ ck_id r = e.1.1 /\ accepted c s o) /\
  (forall e, e ∈ s_pending s -> e ∈ s_pending s' \/ exists v sig h, o = ProcessEvent (ck_id e.1.1) e.1.2 v sig h /\ accepted c s o).
Proof.
  intros G s s'. pose proof (reached_inv c g ops G) as I. fold s in I. destruct (step_cases c s o) as [[Ha E]|[_ E]]; [|unfold s'; rewrite E; split; by left].
  change (step c s o) with s' in E. clearbody s'. destruct E.
  1,2: (split; intros e He; left; cbn; [apply elem_of_app; by left|done]).
  - destruct H as (H & _). destruct (checked_lists c r n s H) as (l1 & b & l2 & E1 & E2 & E3). rewrite E1, E2, E3. split; intros e He.
    + apply elem_of_app in He as [He|He]; [left; set_solver|]. apply elem_of_cons in He as [->|He]; [|left; set_solver]. right. by exists r, v, sig.
    + left. destruct (_ <? MAX_PENDING); [|done]. apply elem_of_app. by left.
  - split; intros e' He; by left.
  - split; intros e' He; [by left|]. apply may_process_iff in H as (r & b & -> & Hin & <- & Hv & Hsg & Hr); [|done]. cbn [fst snd] in *.
    assert (Hf : find_last (by_id (ck_id r)) (s_pending s) = Some (r, n, b)). { apply find_last_unique; try done; unfold by_id; [intros x Hx; by apply bool_decide_eq_true in Hx|by apply bool_decide_true]. }
    destruct (decide (e' = (r, n, b))) as [->|Hne]; [right; by exists v, sig, h|]. left. cbn. destruct (remove_last_spec _ _ _ Hf) as (l1 & l2 & El & _ & ->). rewrite El in He. set_solver.
  - split; intros e' He; by left.
  - split; intros e' He; by left.
  - destruct (add_processed_shape (k, tx) a s) as [m ->]. split; intros e' He; by left.
  - split; intros e' He; by left.
Qed.
(** A check that is accepted while fewer than fifty checks are pending is kept, as submitted, with the end of its challenge period and
    the votes needed against it fixed now; the event can be processed by any validator afterwards. *)
Theorem C58_checked_kept_partial c g ops r n v sig : sound g -> let s := reached c g ops in let s' := step c s (SubmitCheck r n v sig) in
  accepted c s (SubmitCheck r n v sig) -> N.of_nat (length (s_pending s)) < 50 ->
  s_pending s' = s_pending s ++ [(mkCheck (ck_id r) (ck_data r) (ck_result r) (ck_by r) (ck_at r) (s_block s + s_period s) (N.of_nat (length (s_validators s)) / c_quorum c), n, s_block s)] /\
  (forall b, (ck_id r, n, b) ∉ s_unchecked s') /\ ck_id r ∉ map (fun e => e.1.1) (s_unchecked s').
Proof.
  intros G s s' Ha Hl. pose proof (reached_inv c g ops G) as I. fold s in I. apply accepted_effect in Ha as (sx & E & Ex). inversion E as [| |r0 n0 v0 sig0 Hm Eo Es| | | | | |]; subst r0 n0 v0 sig0. subst s'. rewrite Ex, <- Es. destruct Hm as (H & _). destruct (checked_lists c r n s H) as (l1 & b & l2 & E1 & E2 & E3). rewrite E2, E3.
  apply N.ltb_lt in Hl. unfold MAX_PENDING. rewrite Hl. split; [done|].
  assert (Hnot : ck_id r ∉ map uid (l1 ++ l2)). { pose proof (i_ids _ I) as Hn. unfold ids in Hn. apply NoDup_app in Hn as (Hn & _ & _). rewrite E1, map_app in Hn. cbn in Hn. apply NoDup_app in Hn as (_ & A & B). apply NoDup_cons in B as [B _]. rewrite map_app, not_elem_of_app. split; [|done]. intros Hi. apply (A _ Hi). by left. }
  split; [|exact Hnot]. intros b' Hi. apply Hnot. by apply (map_elem uid _ (ck_id r, n, b')).
Qed.
Theorem C58_processable c g ops r n b v sig h : sound g -> let s := reached c g ops in
  accepted c s (ProcessEvent (ck_id r) n v sig h) /\ (r, n, b) ∈ s_pending s <->
  (r, n, b) ∈ s_pending s /\ ck_ready r < s_block s /\ is_validator (s_validators s) (v_account v) = true /\ c_verify c (v_key v) (MProcess (ck_id r) n) sig = true.
Proof.
  intros G s. pose proof (reached_inv c g ops G) as I. fold s in I. split.
  - intros [Ha Hin]. apply accepted_effect in Ha as (sx & E & Ex). inversion E; subst.
    match goal with X : may_process _ _ _ _ _ _ _ |- _ => apply may_process_iff in X as (r' & b' & -> & Hin' & Hid & ? & ? & ?); [|done] end.
    assert (Heq : (r', n, b') = (r, n, b)) by (by apply (pending_unique s)). injection Heq as -> ->. done.
  - intros (Hin & Hr & Hv & Hs). split; [|done]. assert (Hm : may_process c s (ck_id r) n v sig (r, n, b)) by (apply may_process_iff; [done|]; by exists r, b).
    by destruct (effect_accepted c s _ _ (EProcess c s (ck_id r) n v sig h _ Hm)).
Qed.
(** The full claim "a checked event is kept until it is processed" is false: with fifty checks pending, the next accepted
    check takes its event out of the queue and is itself dropped (lib.rs:498-506); the event is nowhere, though nothing was wrong with it. *)
Definition demo_config : config := mkConfig 4 nft_filter (fun _ _ _ => true) (mkCrypto (fun _ _ _ => true) (fun _ _ => None)) (fun _ => true).
Definition demo_validators : list validator := map (fun a => mkValidator a a) [10; 11; 12; 13; 14].
Definition demo_start : start := mkStart 100 [] ∅ [] demo_validators.
Definition demo_check (id : event_id) (data : N) (r : result) (turn : N) : check := mkCheck id data r (10 + turn) turn 0 0.
Definition lost_history : list op :=
  map (fun k => AddLog 1 2 (N.of_nat k)) (seq 1 51) ++ map (fun k => SubmitCheck (demo_check (2, N.of_nat k) 77 ROk 0) (N.of_nat k) (mkValidator 10 10) 0) (seq 1 51).
Theorem C58_checked_lost_refuted : sound demo_start /\
  let s := reached demo_config demo_start lost_history in
  EventValidated (2, 51) ROk 10 ∈ s_events s /\
  (2, 51) ∉ map (fun e => e.1.1) (s_unchecked s) /\ (2, 51) ∉ map (fun e => ck_id e.1.1) (s_pending s) /\
  is_processed s 51 = false /\ s_delivered s = [].
Proof.
  split; [split; [constructor|by vm_compute]|]. cbv zeta.
  assert (Hev : existsb (fun e => match e with EventValidated (2, 51) ROk 10 => true | _ => false end) (s_events (reached demo_config demo_start lost_history)) = true) by (vm_compute; reflexivity).
  assert (Hu : s_unchecked (reached demo_config demo_start lost_history) = []) by (vm_compute; reflexivity).
  assert (Hp : existsb (fun i => bool_decide (i = (2, 51))) (map (fun e => ck_id e.1.1) (s_pending (reached demo_config demo_start lost_history))) = false) by (vm_compute; reflexivity).
  assert (Hq : is_processed (reached demo_config demo_start lost_history) 51 = false) by (vm_compute; reflexivity).
  assert (Hd : s_delivered (reached demo_config demo_start lost_history) = []) by (vm_compute; reflexivity).
  revert Hev Hu Hp Hq Hd. generalize (reached demo_config demo_start lost_history). intros s Hev Hu Hp Hq Hd. split; [|split; [|split; [|split; done]]].
  - apply existsb_elem in Hev as (e & He & Em). destruct e as [| [k tx] r b| | | | | | |]; try done. by repeat (case_match; try done).
  - rewrite Hu. apply not_elem_of_nil.
  - rewrite existsb_none in Hp. intros Hi. apply Hp in Hi. by rewrite bool_decide_true in Hi.
Qed.

(** ** C59: challenges *)
(** Exactly when a challenge is accepted: the check is pending under the number named, the challenger is a validator other than the
    checker, has not challenged this event yet, and signed (under the key sent along).  It then counts, up to fifty challengers. *)
Theorem C59_challenge_accepted c g ops ch n v sig : sound g -> let s := reached c g ops in let s' := step c s (ChallengeEvent ch n v sig) in
  (accepted c s (ChallengeEvent ch n v sig) <->
   exists r b, (r, n, b) ∈ s_pending s /\ ck_id r = ch_id ch /\ ck_by r <> ch_by ch /\ ch_by ch ∉ challengers s (ch_id ch) /\
     is_validator (s_validators s) (ch_by ch) = true /\ v_account v = ch_by ch /\ c_verify c (v_key v) (MChallenge ch n) sig = true) /\
  (accepted c s (ChallengeEvent ch n v sig) -> forall id, challengers s' id =
     if bool_decide (id = ch_id ch) && (N.of_nat (length (challengers s id)) <? 50) then challengers s id ++ [ch_by ch] else challengers s id).
Proof.
  intros G s s'. pose proof (reached_inv c g ops G) as I. fold s in I. split; [split|].
  - intros Ha. apply accepted_effect in Ha as (sx & E & Ex). inversion E; subst. match goal with X : may_challenge _ _ _ _ _ _ _ |- _ => apply may_challenge_iff in X as (r & b & -> & ? & ? & ? & ? & ? & ? & ?); [|done] end. by exists r, b.
  - intros (r & b & ? & ? & ? & ? & ? & ? & ?). assert (Hm : may_challenge c s ch n v sig (r, n, b)) by (apply may_challenge_iff; [done|]; by exists r, b).
    by destruct (effect_accepted c s _ _ (EChallenge c s ch n v sig _ Hm)).
  - intros Ha id. apply accepted_effect in Ha as (sx & E & Ex). inversion E; subst. unfold s'. match goal with X : challenged _ _ = _ |- _ => rewrite <- X end.
    unfold challenged, challengers. cbn [s_challenges]. change (mget [] (ch_id ch) (s_challenges s)) with (challengers s (ch_id ch)). change MAX_CHALLENGES with 50.
    destruct (decide (id = ch_id ch)) as [->|Hne].
    + rewrite bool_decide_true by done. cbn [andb]. change (mget [] (ch_id ch) (s_challenges s)) with (challengers s (ch_id ch)). destruct (_ <? 50); [|done]. unfold mget at 1. by rewrite lookup_insert.
    + rewrite bool_decide_false by done. cbn [andb]. destruct (_ <? 50); [|done]. unfold mget. by rewrite lookup_insert_ne.
Qed.
(** The challengers of an event are distinct. *)
Theorem C59_challengers_distinct c g ops id : sound g -> NoDup (challengers (reached c g ops) id) /\ N.of_nat (length (challengers (reached c g ops) id)) <= 50.
Proof. intros G. apply (i_chal _ (reached_inv c g ops G)). Qed.
(** How an event is decided.  Overruled: nothing is delivered, the checker is reported and the event may be brought in again.
    Otherwise exactly the challengers are reported (if any) and forgotten; a check as genuine is delivered unless the transaction was processed
    before, and every check other than "invalid" settles the transaction for good. *)
Theorem C59_decision c g ops id n v sig h : sound g -> let s := reached c g ops in let o := ProcessEvent id n v sig h in let s' := step c s o in
  accepted c s o -> exists r b, (r, n, b) ∈ s_pending s /\ ck_id r = id /\ ck_ready r < s_block s /\
  (forall e, e ∈ s_pending s' <-> e ∈ s_pending s /\ e <> (r, n, b)) /\
  (tolerated c s r < N.of_nat (length (challengers s id)) ->
     s_delivered s' = s_delivered s /\ (is_processed s id.2 = false -> is_processed s' id.2 = false) /\
     s_events s' = EventRejected id (ck_result r) true :: OffenceReported true [ck_by r] :: ChallengeSucceeded id (ck_result r) :: EventProcessed id (v_account v) false :: s_events s) /\
  (N.of_nat (length (challengers s id)) <= tolerated c s r ->
     challengers s' id = [] /\
     (forall off, OffenceReported true off ∈ s_events s' <-> OffenceReported true off ∈ s_events s) /\
     (challengers s id <> [] -> OffenceReported false (challengers s id) ∈ s_events s') /\
     (forall off, OffenceReported false off ∈ s_events s' <-> OffenceReported false off ∈ s_events s \/ (off = challengers s id /\ off <> [])) /\
     (s_delivered s' = if bool_decide (ck_result r = ROk) && negb (is_processed s id.2) then (id, ck_data r) :: s_delivered s else s_delivered s) /\
     (ck_result r <> RInvalid -> is_processed s' id.2 = true) /\ (ck_result r = RInvalid -> s_processed s' = s_processed s)).
Proof.
  intros G s o s' Ha. pose proof (reached_inv c g ops G) as I. fold s in I. apply accepted_effect in Ha as (sx & E & Ex). inversion E; subst.
  match goal with X : may_process _ _ _ _ _ _ _ |- _ => apply may_process_iff in X as (r & b & -> & Hin & <- & Hv & Hsg & Hr); [|done] end. cbn [fst snd] in *.
  unfold s'. match goal with X : processed _ _ _ _ _ = _ |- _ => rewrite <- X; clear X E end. exists r, b. split; [done|]. split; [done|]. split; [done|].
  assert (Hf : find_last (by_id (ck_id r)) (s_pending s) = Some (r, n, b)). { apply find_last_unique; try done; unfold by_id; [intros x Hx; by apply bool_decide_eq_true in Hx|by apply bool_decide_true]. }
  split.
  { intros e. cbn. destruct (remove_last_spec _ _ _ Hf) as (l1 & l2 & El & _ & ->). pose proof (i_ids _ I) as Hn. unfold ids in Hn. apply NoDup_app in Hn as (_ & _ & Hn). rewrite El, map_app in Hn. cbn in Hn. apply NoDup_app in Hn as (_ & A & B). apply NoDup_cons in B as [B _].
    rewrite El, !elem_of_app, elem_of_cons. split.
    - intros [He|He]; (split; [tauto|]); intros ->; [apply (A (ck_id r)); [by apply (map_elem pid _ (r, n, b))|by left]|apply B; by apply (map_elem pid _ (r, n, b))].
    - intros [[He|[He|He]] Hne]; tauto. }
  unfold tolerated. split; intros Ht.
  - assert (Hs : challenge_successful c s r = true) by (apply N.ltb_lt; exact Ht). cbn [processed s_delivered s_events s_processed]. unfold processed, process_events, again, delivers, is_processed in *. cbn [s_delivered s_events s_processed]. rewrite Hs. cbn [negb andb orb]. rewrite !andb_false_r. cbn [andb app]. split; [done|]. split; [|done].
    destruct (s_processed s !! (ck_id r).2) eqn:Ep; [done|]. intros _. cbn [negb]. rewrite orb_true_r, Ep. done.
  - assert (Hs : challenge_successful c s r = false) by (apply N.ltb_ge; exact Ht). unfold processed, process_events, again, delivers. cbn [s_delivered s_events s_processed s_challenges]. rewrite Hs. cbn [negb andb orb]. rewrite orb_false_r, !andb_true_r. cbn [app].
    split; [unfold challengers, mget; cbn [s_challenges]; by rewrite lookup_delete|]. split; [|split; [|split; [|split; [|split]]]].
    + intros off. rewrite !elem_of_cons, !elem_of_app. split; [|tauto]. intros [He|[[He|He]|He]]; [by repeat case_match| | |done].
      * destruct (challengers s (ck_id r)); [by apply elem_of_nil in He|]. apply elem_of_list_singleton in He. done.
      * apply elem_of_list_singleton in He. done.
    + intros Hne. rewrite elem_of_cons, !elem_of_app. right. left. left. destruct (challengers s (ck_id r)); [done|]. by apply elem_of_list_singleton.
    + intros off. rewrite !elem_of_cons, !elem_of_app. split.
      * intros [He|[[He|He]|He]]; [by repeat case_match| | |by left].
        -- right. destruct (challengers s (ck_id r)); [by apply elem_of_nil in He|]. apply elem_of_list_singleton in He. by injection He as ->.
        -- apply elem_of_list_singleton in He. done.
      * intros [He|[-> Hne]]; [by right; right|]. right. left. left. destruct (challengers s (ck_id r)); [done|]. by apply elem_of_list_singleton.
    + done.
    + intros Hne. unfold is_processed. cbn [s_processed]. rewrite bool_decide_false by done. destruct (add_processed_marks (ck_id r) s) as [k ->]. done.
    + intros ->. by rewrite bool_decide_true.
Qed.

(** As long as no challenge of the event has succeeded, every challenge that counts was made against the check now pending, by a
    validator other than its checker. *)
Theorem C59_challenges_fit_partial c g ops id a : sound g -> let s := reached c g ops in
  (forall r, ChallengeSucceeded id r ∉ s_events s) -> a ∈ challengers s id ->
  exists r n b, (r, n, b) ∈ s_pending s /\ ck_id r = id /\ ck_by r <> a /\
  exists ops1 ch v sig ops2, ops = ops1 ++ ChallengeEvent ch n v sig :: ops2 /\ ch_id ch = id /\ ch_by ch = a /\
    accepted c (reached c g ops1) (ChallengeEvent ch n v sig) /\ (r, n, b) ∈ s_pending (reached c g ops1) /\ is_validator (s_validators (reached c g ops1)) a = true.
Proof.
  intros G. induction ops as [|o ops IH] using rev_ind; cbv zeta.
  - intros _ H. unfold challengers, mget in H. cbn in H. by apply elem_of_nil in H.
  - rewrite reached_snoc. pose proof (reached_inv c g ops G) as I. cbv zeta in IH. set (s := reached c g ops) in *.
    assert (Hext : forall s', (forall r, ChallengeSucceeded id r ∉ s_events s') -> (forall e, e ∈ s_events s -> e ∈ s_events s') -> a ∈ challengers s id ->
      (forall r n b, (r, n, b) ∈ s_pending s -> ck_id r = id -> (r, n, b) ∈ s_pending s') ->
      exists r n b, (r, n, b) ∈ s_pending s' /\ ck_id r = id /\ ck_by r <> a /\
      exists ops1 ch v sig ops2, ops ++ [o] = ops1 ++ ChallengeEvent ch n v sig :: ops2 /\ ch_id ch = id /\ ch_by ch = a /\
       accepted c (reached c g ops1) (ChallengeEvent ch n v sig) /\ (r, n, b) ∈ s_pending (reached c g ops1) /\ is_validator (s_validators (reached c g ops1)) a = true).
    { intros s' Hs' Hev Hin Hp. destruct IH as (r & n & b & A1 & A2 & A3 & ops1 & ch & v & sig & ops2 & -> & A4); [intros r Hi; by apply (Hs' r), Hev|done|].
      exists r, n, b. split; [by apply Hp|]. split; [done|]. split; [done|]. exists ops1, ch, v, sig, (ops2 ++ [o]). split; [|done]. by rewrite <- app_assoc. }
    destruct (step_cases c s o) as [[Ha E]|[_ ->]]; [|intros H1 H2; apply Hext; done].
    revert E. generalize (step c s o). intros s' E Hs' Hin. destruct E as [who k tx Hm|p k tx Hm Hv|r n v sig Hm|ch n v sig e Hm|id' n v sig h e Hm|ad|n|k tx ac|vs m].
    + apply Hext; try done. intros e He. by right.
    + apply Hext; try done. intros e He. by right.
    + apply Hext; try done; [intros e He; by right|]. intros r' n' b' Hp _. unfold checked. cbn [s_pending]. destruct (_ <? MAX_PENDING); [|done]. apply elem_of_app. by left.
    + destruct (decide (a ∈ challengers s id)) as [Hold|Hnew]; [apply Hext; try done; intros x Hx; by right|].
      assert (id = ch_id ch /\ a = ch_by ch) as [-> ->].
      { unfold challenged, challengers in Hin. cbn in Hin. change (mget [] (ch_id ch) (s_challenges s)) with (challengers s (ch_id ch)) in Hin. destruct (_ <? MAX_CHALLENGES); [|done].
        unfold mget in Hin. destruct (decide (id = ch_id ch)) as [->|Hne]; [rewrite lookup_insert in Hin|rewrite lookup_insert_ne in Hin by done; done]. split; [done|].
        apply elem_of_app in Hin as [Hin|Hin]; [done|]. by apply elem_of_list_singleton in Hin. }
      apply may_challenge_iff in Hm as (r & b & -> & B1 & B2 & B3 & B4 & B5 & B6 & B7); [|done]. exists r, n, b. split; [done|]. split; [done|]. split; [done|].
      exists ops, ch, v, sig, []. done.
    + apply may_process_iff in Hm as (r & b & -> & B1 & <- & B2 & B3 & B4); [|done]. cbn [fst snd] in *.
      destruct (challenge_successful c s r) eqn:Hs.
      * destruct (decide (id = ck_id r)) as [->|Hne].
        -- exfalso. apply (Hs' (ck_result r)). cbn [processed s_events]. unfold process_events. rewrite Hs. cbn [app]. rewrite !elem_of_cons. tauto.
        -- apply Hext; try done.
           ++ intros x Hx. cbn [processed s_events]. apply elem_of_app. by right.
           ++ unfold challengers in Hin |- *. cbn [processed s_challenges] in Hin. by rewrite Hs in Hin.
           ++ intros r' n' b' Hp Hid. cbn. assert (Hf : find_last (by_id (ck_id r)) (s_pending s) = Some (r, n, b)). { apply find_last_unique; try done; unfold by_id; [intros x Hx; by apply bool_decide_eq_true in Hx|by apply bool_decide_true]. }
              destruct (remove_last_spec _ _ _ Hf) as (l1 & l2 & El & _ & ->). rewrite El in Hp. apply elem_of_app in Hp as [Hp|Hp]; [set_solver|]. apply elem_of_cons in Hp as [Hp|Hp]; [|set_solver]. injection Hp as -> -> ->. done.
      * unfold challengers in Hin. cbn [processed s_challenges] in Hin. rewrite Hs in Hin. unfold mget in Hin. destruct (decide (id = ck_id r)) as [->|Hne]; [rewrite lookup_delete in Hin; by apply elem_of_nil in Hin|].
        rewrite lookup_delete_ne in Hin by done. apply Hext; try done.
        -- intros x Hx. cbn [processed s_events]. apply elem_of_app. by right.
        -- intros r' n' b' Hp Hid. cbn. assert (Hf : find_last (by_id (ck_id r)) (s_pending s) = Some (r, n, b)). { apply find_last_unique; try done; unfold by_id; [intros x Hx; by apply bool_decide_eq_true in Hx|by apply bool_decide_true]. }
              destruct (remove_last_spec _ _ _ Hf) as (l1 & l2 & El & _ & ->). rewrite El in Hp. apply elem_of_app in Hp as [Hp|Hp]; [set_solver|]. apply elem_of_cons in Hp as [Hp|Hp]; [|set_solver]. injection Hp as -> -> ->. done.
    + apply Hext; done.
    + apply Hext; try done. intros e He. by right.
    + destruct (add_processed_shape (k, tx) ac s) as [m Em]. rewrite Em in *. apply Hext; done.
    + apply Hext; done.
Qed.
(** The full claim is false: challenges are not forgotten when they succeed (lib.rs:590-592, the TODO at 584) and are kept under the event, not
    the check. An event brought in again and checked correctly by another validator is overruled without a single
    challenge to that check, and its checker is reported: here validator 13, for a check nobody challenged. *)
Definition stale_first : list op :=
  [AddLog 1 2 7; SubmitCheck (demo_check (2, 7) 99 ROk 0) 1 (mkValidator 10 10) 0;
   ChallengeEvent (mkChallenge (2, 7) IncorrectEventData 11) 1 (mkValidator 11 11) 0; ChallengeEvent (mkChallenge (2, 7) IncorrectEventData 12) 1 (mkValidator 12 12) 0;
   NewBlock demo_validators 100; ProcessEvent (2, 7) 1 (mkValidator 11 11) 0 true].
Definition stale_second : list op :=
  [AddLog 1 2 7; SubmitCheck (demo_check (2, 7) 77 ROk 3) 2 (mkValidator 13 13) 0; NewBlock demo_validators 100; ProcessEvent (2, 7) 2 (mkValidator 11 11) 0 true].
Theorem C59_stale_challenges_refuted : sound demo_start /\
  let s1 := reached demo_config demo_start stale_first in let s2 := reached demo_config demo_start (stale_first ++ stale_second) in
  s_pending s1 = [] /\ challengers s1 (2, 7) = [11; 12] /\ s_events s2 =
   [EventRejected (2, 7) ROk true; OffenceReported true [13]; ChallengeSucceeded (2, 7) ROk; EventProcessed (2, 7) 11 false; EventValidated (2, 7) ROk 13; EthereumEventAdded (2, 7) 1] ++ s_events s1 /\
  s_delivered s2 = [].
Proof. split; [split; [constructor|by vm_compute]|]. vm_compute. repeat split. Qed.
(** Nor can challenges always succeed: at most fifty are recorded, while more than the validators divided by the quorum factor are needed.
    From 200 validators on (quorum factor 4, genesis default) a false check is delivered whoever challenges it. *)
Theorem C59_too_many_validators_refuted c g ops r n b v sig h : sound g -> let s := reached c g ops in
  50 <= N.of_nat (length (s_validators s)) / c_quorum c -> (r, n, b) ∈ s_pending s -> ck_result r = ROk -> is_processed s (ck_id r).2 = false ->
  accepted c s (ProcessEvent (ck_id r) n v sig h) ->
  s_delivered (step c s (ProcessEvent (ck_id r) n v sig h)) = (ck_id r, ck_data r) :: s_delivered s /\
  (forall off, OffenceReported true off ∈ s_events (step c s (ProcessEvent (ck_id r) n v sig h)) <-> OffenceReported true off ∈ s_events s).
Proof.
  intros G s Hn Hin Hok Hnp Ha. destruct (C59_decision c g ops (ck_id r) n v sig h G Ha) as (r' & b' & Hin' & Hid & _ & _ & _ & Hlow). fold s in Hin', Hlow.
  assert (Heq : (r', n, b') = (r, n, b)) by (by apply (pending_unique s); [by apply reached_inv|..]). injection Heq as -> ->.
  destruct Hlow as (_ & A & _ & _ & B & _).
  - unfold tolerated. pose proof (proj2 (C59_challengers_distinct c g ops (ck_id r) G)) as Hl. fold s in Hl. lia.
  - split; [|exact A]. rewrite B, Hok, bool_decide_true by done. fold s. by rewrite Hnp.
Qed.

(** ** C60: relayed additions *)
(** A signed addition is accepted only from the signer itself, with its signature over the relayer, the kind, the hash and its current nonce,
    which is used up. *)
Theorem C60_needs_signature c s who p k tx : accepted c s (SignedAddLog who p k tx) ->
  who = pf_signer p /\ verify_signature (c_crypto c) p (add_payload (pf_relayer p) k tx (nonce_of s who)) = true /\
  let s' := step c s (SignedAddLog who p k tx) in
  nonce_of s' who = (nonce_of s who + 1) mod 2 ^ 64 /\ (forall a, a <> who -> nonce_of s' a = nonce_of s a) /\
  s_unchecked s' = s_unchecked s ++ [(k, tx, s_ingress s + 1, s_block s)] /\ s_events s' = EthereumEventAdded (k, tx) who :: s_events s.
Proof.
  intros Ha. apply accepted_effect in Ha as (sx & E & Ex). inversion E; subst. split; [done|]. split; [done|]. match goal with X : added _ _ _ _ = _ |- _ => rewrite <- X end.
  unfold added, with_nonce, nonce_of. cbn. split; [by rewrite mget_insert, bool_decide_true|]. split; [|done]. intros a Hne. by rewrite mget_insert, bool_decide_false.
Qed.
(** What a signer signs determines relayer, kind, hash and nonce. *)
Theorem C60_signature_binds r k tx n r' k' tx' n' : r < 2 ^ 256 -> r' < 2 ^ 256 -> tx < 2 ^ 256 -> tx' < 2 ^ 256 -> n < 2 ^ 64 -> n' < 2 ^ 64 ->
  add_payload r k tx n = add_payload r' k' tx' n' -> r = r' /\ k = k' /\ tx = tx' /\ n = n'.
Proof.
  intros Hr Hr' Ht Ht' Hn Hn' E. unfold add_payload in E.
  assert (HB : forall a b y z, a < 2 ^ 256 -> b < 2 ^ 256 -> be_bytes 32 a ++ y = be_bytes 32 b ++ z -> a = b /\ y = z).
  { intros a b y z Ha Hb H. apply app_split in H as [H1 H2]; [|by rewrite !be_bytes_length]. apply be_bytes_inj in H1; done. }
  apply app_inv_head in E. apply HB in E as [-> E]; [|done..]. apply app_split in E as [Ek E]; [|done]. assert (k = k') as -> by congruence. apply HB in E as [-> E]; [|done..]. apply le_bytes_inj in E; done.
Qed.
(** Additions made with a signature, each with the signer and the bytes signed. *)
Fixpoint additions (c : config) (s : st) (ops : list op) : list (N * list N) :=
  match ops with
  | [] => []
  | o :: r =>
    match o, (exec c s o).2 with
    | SignedAddLog who p k tx, Ok _ => [(who, add_payload (pf_relayer p) k tx (nonce_of s who))]
    | _, _ => []
    end ++ additions c (step c s o) r
  end.
Definition typed_op (o : op) : Prop := match o with SignedAddLog _ p _ tx => pf_relayer p < 2 ^ 256 /\ tx < 2 ^ 256 | _ => True end.
Lemma step_nonce c s o a : nonce_of s a + 1 < 2 ^ 64 -> nonce_of s a <= nonce_of (step c s o) a <= nonce_of s a + 1.
Proof.
  intros HL. destruct (step_cases c s o) as [[_ E]|[_ ->]]; [|lia]. revert E. generalize (step c s o). intros s' E. destruct E; try (unfold nonce_of; cbn; lia).
  - unfold added, with_nonce, nonce_of. cbn. rewrite mget_insert. case_bool_decide; [|lia]. subst. rewrite N.mod_small by exact HL. fold (nonce_of s (pf_signer p)). lia.
  - destruct (add_processed_shape (k, tx) a0 s) as [m ->]. unfold nonce_of. cbn. lia.
Qed.
Lemma additions_later c ops : forall s a pl, (forall b, nonce_of s b + N.of_nat (length ops) < 2 ^ 64) -> Forall typed_op ops -> (a, pl) ∈ additions c s ops ->
  exists r k tx n, pl = add_payload r k tx n /\ nonce_of s a <= n < 2 ^ 64 /\ r < 2 ^ 256 /\ tx < 2 ^ 256.
Proof.
  induction ops as [|o ops IH]; intros s a pl HL Ht H; cbn [additions] in H; [by apply elem_of_nil in H|]. apply Forall_cons in Ht as [Ho Ht]. cbn [length] in HL. apply elem_of_app in H as [H|H].
  - destruct o; try (by apply elem_of_nil in H). destruct (exec c s _).2; [|by apply elem_of_nil in H]. apply elem_of_list_singleton in H. injection H as -> ->. destruct Ho. eexists _, _, _, _. split; [done|]. split; [specialize (HL who); lia|done].
  - apply IH in H as (r & k & tx & n & -> & Hn & T); [| |done].
    + exists r, k, tx, n. split; [done|]. split; [|done]. pose proof (step_nonce c s o a). specialize (HL a). lia.
    + intros b. pose proof (step_nonce c s o b). specialize (HL b). lia.
Qed.
(** No signed addition takes effect twice (histories shorter than 2^64). *)
Theorem C60_no_replay c g ops : Forall typed_op ops -> N.of_nat (length ops) < 2 ^ 64 ->
  NoDup (additions c (reached c g []) ops).
Proof.
  intros Ht Hl. assert (HL : forall b, nonce_of (reached c g []) b + N.of_nat (length ops) < 2 ^ 64). { intros b. unfold nonce_of, mget. cbn. rewrite lookup_empty. lia. } clear Hl.
  revert HL Ht. generalize (reached c g []). induction ops as [|o ops IH]; intros s HL Ht; cbn [additions]; [constructor|]. apply Forall_cons in Ht as [Ho Ht]. cbn [length] in HL.
  assert (HL' : forall b, nonce_of (step c s o) b + N.of_nat (length ops) < 2 ^ 64). { intros b. pose proof (step_nonce c s o b). specialize (HL b). lia. }
  specialize (IH (step c s o) HL' Ht). destruct o; try exact IH. destruct (exec c s (SignedAddLog who p kind tx)).2 as [[]|] eqn:Ea; [|exact IH]. cbn [app]. constructor; [|exact IH]. intros Hin.
  apply additions_later in Hin as (r & k & tx' & n & Eb & Hn & T1 & T2); [|done..]. destruct Ho as [T3 T4]. apply C60_needs_signature in Ea as (_ & _ & En & _).
  rewrite En, N.mod_small in Hn by (specialize (HL who); lia). apply C60_signature_binds in Eb as (_ & _ & _ & En'); try done; [lia|specialize (HL who); lia|lia].
Qed.

(** ** C62: what honest nodes do *)
(** A node submits a check only if it could read the receipt: as genuine with exactly the data of an event of this kind, from a contract
    the chain trusts, in a successful transaction with enough confirmations; as invalid only if there is no such event. *)
Definition genuine (bridge : N) (contracts : list N) (kind : N) (rc : receipt) (data : N) : Prop :=
  rc_readable rc = true /\ rc_success rc = true /\ exists addr, rc_event rc = Some (addr, Some data) /\ (if is_nft_kind kind then addr ∈ contracts else addr = bridge).
Lemma contract_ok_iff bridge cs k addr : contract_ok bridge cs k addr = true <-> if is_nft_kind k then addr ∈ cs else addr = bridge.
Proof. unfold contract_ok. destruct (is_nft_kind k); [|apply N.eqb_eq]. unfold memN. rewrite existsb_elem. setoid_rewrite N.eqb_eq. split; [by intros (x & ? & ->)|eauto]. Qed.
Theorem C62_honest_check me block mc bridge cs id body ck : check_to_submit me block id (compute_result mc bridge cs id body) = Some ck ->
  exists rc, body = Some rc /\ ck_id ck = id /\ ck_by ck = me /\ ck_at ck = block /\
  ((ck_result ck = ROk /\ genuine bridge cs id.1 rc (ck_data ck) /\ mc <= rc_confirmations rc) \/
   (ck_result ck = RInvalid /\ ck_data ck = 0 /\ forall d, ~ genuine bridge cs id.1 rc d)).
Proof.
  unfold compute_result. destruct body as [rc|]; [|done]. intros H. exists rc. split; [done|].
  assert (Hinv : (forall d, ~ genuine bridge cs id.1 rc d) -> check_to_submit me block id (RInvalid, 0) = Some ck -> ck_id ck = id /\ ck_by ck = me /\ ck_at ck = block /\
  ((ck_result ck = ROk /\ genuine bridge cs id.1 rc (ck_data ck) /\ mc <= rc_confirmations rc) \/ (ck_result ck = RInvalid /\ ck_data ck = 0 /\ forall d, ~ genuine bridge cs id.1 rc d))).
  { intros Hg [= <-]. repeat split; try done. by right. }
  destruct (rc_readable rc) eqn:E1; cbn [negb] in H; [|apply Hinv; [|done]; intros d (A & _); congruence].
  destruct (rc_success rc) eqn:E2; cbn [negb] in H; [|apply Hinv; [|done]; intros d (_ & A & _); congruence].
  destruct (rc_event rc) as [[addr data]|] eqn:E3; [|apply Hinv; [|done]; intros d (_ & _ & a & A & _); congruence].
  destruct (contract_ok bridge cs id.1 addr) eqn:E4; cbn [negb] in H.
  - destruct data as [d|]; [|apply Hinv; [|done]; intros d (_ & _ & a & A & _); congruence]. destruct (_ <? mc) eqn:E5; [done|]. injection H as <-. cbn. repeat split; try done. left. split; [done|]. apply N.ltb_ge in E5. split; [|done].
    split; [done|]. split; [done|]. exists addr. split; [done|]. by apply contract_ok_iff.
  - apply Hinv; [|done]. intros d (_ & _ & a & A & B). rewrite E3 in A. injection A as -> _. apply contract_ok_iff in B. congruence.
Qed.
(** Nodes that read the same receipt never challenge each other. *)
Theorem C62_honest_agree me me' block mc bridge cs id rc ck : check_to_submit me block id (compute_result mc bridge cs id (Some rc)) = Some ck ->
  forall rc', rc_readable rc' = rc_readable rc -> rc_success rc' = rc_success rc -> rc_event rc' = rc_event rc -> rc_confirmations rc <= rc_confirmations rc' ->
  challenge_required me' ck (compute_result mc bridge cs id (Some rc')) = None.
Proof.
  intros H rc' R1 R2 R3 R4.
  assert (E : compute_result mc bridge cs id (Some rc') = compute_result mc bridge cs id (Some rc)).
  { unfold compute_result in *. rewrite R1, R2, R3. destruct (rc_readable rc); [|done]. destruct (rc_success rc); [|done]. destruct (rc_event rc) as [[a [d|]]|]; try done. destruct (contract_ok _ _ _ _); [|done]. cbn in *. destruct (rc_confirmations rc <? mc) eqn:E1; [done|]. apply N.ltb_ge in E1.
    rewrite (proj2 (N.ltb_ge _ _)); [done|]. lia. }
  rewrite E. destruct (compute_result mc bridge cs id (Some rc)) as [res d]. unfold check_to_submit in H. cbn in H. assert (H' : ck = mkCheck id d res me block 0 0) by (destruct res; try discriminate H; by injection H as <-). subst ck. unfold challenge_required. cbn.
  case_bool_decide; [done|]. rewrite bool_decide_true by done. by rewrite N.eqb_refl.
Qed.
(** A node that can read the receipt challenges every check as genuine of an event that is not there or has other data, and every other
    check than "genuine, with these data" of an event that is there and confirmed. *)
Theorem C62_false_check_challenged me mc bridge cs ck rc :
  (ck_result ck = ROk /\ (forall d, ~ genuine bridge cs (ck_id ck).1 rc d)) \/
  (exists d, genuine bridge cs (ck_id ck).1 rc d /\ mc <= rc_confirmations rc /\ ~ (ck_result ck = ROk /\ ck_data ck = d)) ->
  exists why, challenge_required me ck (compute_result mc bridge cs (ck_id ck) (Some rc)) = Some (mkChallenge (ck_id ck) why me).
Proof.
  intros [[Hr Hn]|(d & (G1 & G2 & addr & G3 & G4) & Hc & Hne)].
  - assert (E : compute_result mc bridge cs (ck_id ck) (Some rc) = (RInvalid, 0)).
    { unfold compute_result. destruct (rc_readable rc) eqn:E1; [|done]. destruct (rc_success rc) eqn:E2; [|done]. cbn. destruct (rc_event rc) as [[addr [d|]]|] eqn:E3; [| |done].
      - destruct (contract_ok bridge cs (ck_id ck).1 addr) eqn:E4; [|done]. exfalso. apply (Hn d). split; [done|]. split; [done|]. exists addr. split; [done|]. by apply contract_ok_iff.
      - by destruct (contract_ok _ _ _ _). }
    rewrite E. unfold challenge_required. cbn. rewrite Hr. cbn. by eexists.
  - assert (E : compute_result mc bridge cs (ck_id ck) (Some rc) = (ROk, d)).
    { unfold compute_result. rewrite G1, G2, G3. cbn. apply contract_ok_iff in G4. rewrite G4. cbn. by rewrite (proj2 (N.ltb_ge _ _)). }
    rewrite E. unfold challenge_required. cbn. destruct (decide (ck_result ck = ROk)) as [Hr|Hr].
    + rewrite Hr in *. cbn. destruct (d =? ck_data ck) eqn:Ed; [apply N.eqb_eq in Ed; exfalso; by apply Hne|]. cbn. by eexists.
    + destruct (ck_result ck); try done; by eexists.
Qed.
(** The full claim "every false check is challenged" is false: a check that says "HTTP error" or "not enough confirmations" (which
    an honest node never submits) of an event that is not there or too young is challenged by nobody (lib.rs:1352-1368); the event is then
    marked as processed and suppressed for good. *)
Theorem C62_suppression_refuted : sound demo_start /\
  (forall me rc, challenge_required me (demo_check (2, 7) 0 RYoung 0) (compute_result 20 0 [] (2, 7) (Some (mkReceipt true true rc 5))) = None) /\
  let s := reached demo_config demo_start [AddLog 1 2 7; SubmitCheck (demo_check (2, 7) 0 RYoung 0) 1 (mkValidator 10 10) 0; NewBlock demo_validators 100; ProcessEvent (2, 7) 1 (mkValidator 11 11) 0 true] in
  is_processed s 7 = true /\ s_delivered s = [] /\ s_pending s = [] /\ s_unchecked s = [].
Proof.
  split; [split; [constructor|by vm_compute]|]. split.
  - intros me rc. unfold compute_result. cbn. destruct rc as [[a [d|]]|]; done.
  - by vm_compute.
Qed.

(** What a node turns to next.  To check: an event waiting since a finalised block, the one waiting longest, and one if there is any. *)
Theorem C62_next_to_check s fin e : next_to_check s fin = Some e ->
  exists l1 l2, s_unchecked s = l1 ++ e :: l2 /\ e.2 <= fin /\ forall x, x ∈ l1 -> fin < x.2.
Proof.
  unfold next_to_check. generalize (s_unchecked s). intros l. induction l as [|x l IH]; [done|]. cbn [List.find]. destruct (x.2 <=? fin) eqn:X.
  - intros [= ->]. exists [], l. split; [done|]. split; [by apply N.leb_le|]. intros y Hy. by apply elem_of_nil in Hy.
  - intros H. apply IH in H as (l1 & l2 & -> & A & B). exists (x :: l1), l2. split; [done|]. split; [done|]. intros y [->|Hy]%elem_of_cons; [by apply N.leb_gt|auto].
Qed.
Theorem C62_next_to_check_found s fin : next_to_check s fin = None <-> forall e, e ∈ s_unchecked s -> fin < e.2.
Proof.
  unfold next_to_check. split.
  - intros H e He. apply N.leb_gt. apply (find_none _ _ H). by apply elem_of_list_In.
  - intros H. destruct (List.find _ _) as [e|] eqn:E; [|done]. apply find_some in E as [A B]. apply elem_of_list_In, H in A. apply N.leb_le in B. lia.
Qed.
(** To validate: a pending check by somebody else that it has not validated, from a finalised block; one if there is any. *)
Theorem C62_next_to_validate s me seen fin : 
  (forall e, next_to_validate s me seen fin = Some e -> e ∈ s_pending s /\ ck_by e.1.1 <> me /\ ck_id e.1.1 ∉ seen /\ e.2 <= fin) /\
  (next_to_validate s me seen fin = None -> forall e, e ∈ s_pending s -> ck_by e.1.1 <> me -> ck_id e.1.1 ∉ seen -> fin < e.2).
Proof.
  assert (S : forall e : check * N * N, existsb (fun i => bool_decide (i = ck_id e.1.1)) seen = true <-> ck_id e.1.1 ∈ seen).
  { intros e. rewrite existsb_elem. setoid_rewrite bool_decide_eq_true. split; [by intros (x & ? & ->)|eauto]. }
  unfold next_to_validate. split.
  - intros e H. apply find_some in H as [A B]. rewrite !andb_true_iff, !negb_true_iff, N.eqb_neq, N.leb_le in B. destruct B as [[B1 B2] B3]. split; [by apply elem_of_list_In|]. split; [done|]. split; [|done]. intros X. apply S in X. congruence.
  - intros H e He H1 H2. pose proof (find_none _ _ H e) as B. rewrite <- elem_of_list_In in B. specialize (B He). cbn in B. rewrite !andb_false_iff, !negb_false_iff, N.eqb_eq, N.leb_gt in B. destruct B as [[B|B]|B]; [done| |done]. by apply S in B.
Qed.
(** To process: a pending event the chain will let this validator process now; one if there is any from a finalised block. *)
Theorem C62_next_to_process c g ops v sig h fin : sound g -> let s := reached c g ops in
  is_validator (s_validators s) (v_account v) = true -> (forall id n, c_verify c (v_key v) (MProcess id n) sig = true) ->
  (forall e, next_to_process s (s_block s) fin = Some e -> e ∈ s_pending s /\ e.2 <= fin /\ accepted c s (ProcessEvent (ck_id e.1.1) e.1.2 v sig h)) /\
  (next_to_process s (s_block s) fin = None -> forall e, e ∈ s_pending s -> ck_ready e.1.1 < s_block s -> fin < e.2).
Proof.
  intros G s Hv Hs. unfold next_to_process, find_last. split.
  - intros [[r n] b] H. apply find_some in H as [A B]. apply in_rev in A. apply andb_true_iff in B as [B1 B2]. apply N.ltb_lt in B1. apply N.leb_le in B2. apply elem_of_list_In in A. split; [done|]. split; [done|].
    by apply (proj2 (C58_processable c g ops r n b v sig h G)).
  - intros H e He Hr. pose proof (find_none _ _ H e) as B. rewrite <- in_rev, <- elem_of_list_In in B. specialize (B He). apply andb_false_iff in B as [B|B]; [apply N.ltb_ge in B; lia|by apply N.leb_gt].
Qed.
(** Which contracts are trusted and how long checks can be challenged is changed by root only; the challenge period is never set below 60 blocks. *)
Theorem C62_settings c s o : let s' := step c s o in
  s_contracts s' = match o with InsertNftContract true a => if a =? 0 then s_contracts s else a :: s_contracts s | _ => s_contracts s end /\
  s_period s' = match o with SetPeriod true n => if 60 <=? n then n else s_period s | _ => s_period s end.
Proof.
  cbv zeta. destruct (step_cases c s o) as [[Ha E]|[Hn ->]].
  - clear Ha. revert E. generalize (step c s o). intros s' E. destruct E; try done.
    all: try (match goal with |- context [add_processed ?x ?y ?z] => destruct (add_processed_shape x y z) as [m ->]; done end).
    all: unfold MIN_PERIOD in *; cbn; split; try done; repeat case_match; try done; try (exfalso; lia).
  - destruct o as [| | | | | [] a | [] n | | ]; try done.
    + destruct (a =? 0) eqn:X; [done|]. exfalso. apply Hn. unfold accepted, exec, dispatch, op_body, insert_contract, mbind_, ensure. by rewrite X.
    + destruct (60 <=? n) eqn:X; [|done]. exfalso. apply Hn. unfold accepted, exec, dispatch, op_body, set_period, mbind_, ensure. unfold MIN_PERIOD. by rewrite X.
Qed.

(** ** The hypotheses are met *)
Definition demo_history : list op :=
  [AddLog 1 2 7; SignedAddLog 3 (mkProof 3 4 (SigSr25519 0)) 3 8; SubmitCheck (demo_check (2, 7) 77 ROk 0) 1 (mkValidator 10 10) 0;
   ChallengeEvent (mkChallenge (2, 7) IncorrectEventData 11) 1 (mkValidator 11 11) 0; NewBlock demo_validators 100].
(** An event is pending with one challenge, another is waiting; processing the first delivers it and reports the challenger. *)
Example demo_meets : sound demo_start /\
  let s := reached demo_config demo_start demo_history in let o := ProcessEvent (2, 7) 1 (mkValidator 12 12) 0 true in
  length (s_pending s) = 1%nat /\ length (s_unchecked s) = 1%nat /\ challengers s (2, 7) = [11] /\ accepted demo_config s o /\
  s_delivered (step demo_config s o) = [((2, 7), 77)] /\ is_processed (step demo_config s o) 7 = true /\
  OffenceReported false [11] ∈ s_events (step demo_config s o) /\ length (additions demo_config (reached demo_config demo_start []) demo_history) = 1%nat.
Proof.
  split; [split; [constructor|by vm_compute]|]. cbv zeta. split; [by vm_compute|]. split; [by vm_compute|]. split; [by vm_compute|]. split; [by vm_compute|]. split; [by vm_compute|]. split; [by vm_compute|]. split; [|by vm_compute].
  assert (H : s_events (step demo_config (reached demo_config demo_start demo_history) (ProcessEvent (2, 7) 1 (mkValidator 12 12) 0 true)) =
    EventAccepted (2, 7) :: OffenceReported false [11] :: EventProcessed (2, 7) 12 true :: s_events (reached demo_config demo_start demo_history)) by (vm_compute; reflexivity).
  rewrite H. right. left.
Qed.
Example demo_genuine : genuine 5 [6] 2 (mkReceipt true true (Some (6, Some 77)) 30) 77 /\
  check_to_submit 10 0 (2, 7) (compute_result 20 5 [6] (2, 7) (Some (mkReceipt true true (Some (6, Some 77)) 30))) = Some (demo_check (2, 7) 77 ROk 0) /\
  challenge_required 11 (demo_check (2, 7) 78 ROk 0) (compute_result 20 5 [6] (2, 7) (Some (mkReceipt true true (Some (6, Some 77)) 30))) = Some (mkChallenge (2, 7) IncorrectEventData 11).
Proof. split; [|done]. split; [done|]. split; [done|]. exists 6. split; [done|]. cbn. by left. Qed.

Print Assumptions C57_delivered_once.
Print Assumptions C57_delivered_as_checked.
Print Assumptions C57_processed_for_ever.
Print Assumptions C58_one_place.
Print Assumptions C58_add_accepted.
Print Assumptions C58_waits.
Print Assumptions C58_checked_kept_partial.
Print Assumptions C58_processable.
Print Assumptions C58_checked_lost_refuted.
Print Assumptions C59_challenge_accepted.
Print Assumptions C59_challengers_distinct.
Print Assumptions C59_decision.
Print Assumptions C59_challenges_fit_partial.
Print Assumptions C59_stale_challenges_refuted.
Print Assumptions C59_too_many_validators_refuted.
Print Assumptions C60_needs_signature.
Print Assumptions C60_signature_binds.
Print Assumptions C60_no_replay.
Print Assumptions C62_honest_check.
Print Assumptions C62_honest_agree.
Print Assumptions C62_false_check_challenged.
Print Assumptions C62_suppression_refuted.
Print Assumptions C62_next_to_check.
Print Assumptions C62_next_to_check_found.
Print Assumptions C62_next_to_validate.
Print Assumptions C62_next_to_process.
Print Assumptions C62_settings.
