(** C61: what happens to a reported validator. *)
From Verif Require Import Base OffenceModel.

(** The setting in force after a history (newest first): the last one made, off at the start. *)
Fixpoint setting (t : list entry) : bool :=
  match t with [] => false | SettingUpdated b :: _ => b | _ :: r => setting r end.
(** [v] was reported and has not registered since. *)
Fixpoint on_record (v : N) (t : list entry) : bool :=
  match t with
  | [] => false
  | Reported w :: r => (w =? v) || on_record v r
  | Registered w :: r => if w =? v then false else on_record v r
  | _ :: r => on_record v r
  end.
(** The trace is well formed (read from the newest entry): a report is of somebody not on record; a slash follows directly the report of
    the same validator, with slashing on. *)
Fixpoint well_formed (t : list entry) : Prop :=
  match t with
  | [] => True
  | e :: r => well_formed r /\
    match e with
    | Reported v => on_record v r = false
    | SlashCalled v _ => setting r = true /\ exists r', r = Reported v :: r' /\ on_record v r' = false
    | _ => True
    end
  end.

Definition Inv (s : st) : Prop :=
  well_formed (s_trace s) /\ s_enabled s = setting (s_trace s) /\ forall v, bool_decide (is_Some (s_reported s !! v)) = on_record v (s_trace s).

Lemma handle_eq answer s v : handle_offender answer s v =
  if bool_decide (is_Some (s_reported s !! v)) then s else
  mkSt (<[v := s_enabled s && answer v]> (s_reported s)) (s_enabled s) ((if s_enabled s then [SlashCalled v (answer v)] else []) ++ Reported v :: s_trace s).
Proof. unfold handle_offender, emit. destruct s as [m e t]. cbn. case_bool_decide; [done|]. by destruct e. Qed.
Lemma handle_inv answer s v : Inv s -> Inv (handle_offender answer s v).
Proof.
  intros (W & E & R). rewrite handle_eq. case_bool_decide as D; [done|]. pose proof (R v) as Rv. rewrite bool_decide_false in Rv by done.
  assert (RR : forall w, bool_decide (is_Some (<[v:=s_enabled s && answer v]> (s_reported s) !! w)) = (v =? w) || on_record w (s_trace s)).
  { intros w. destruct (v =? w) eqn:X; [apply N.eqb_eq in X as ->; rewrite lookup_insert; by rewrite bool_decide_true|]. apply N.eqb_neq in X. rewrite lookup_insert_ne by done. apply R. }
  destruct (s_enabled s) eqn:En; cbn [app]; split; cbn [s_trace s_enabled s_reported].
  - cbn. split; [by split|]. rewrite <- E. split; [done|]. by eexists.
  - split; [done|]. exact RR.
  - cbn. by split.
  - split; [done|]. exact RR.
Qed.
Lemma step_inv s o : Inv s -> Inv (step s o).
Proof.
  intros H. destruct o as [[] b|answer l|v]; cbn.
  - destruct H as (W & E & R). split; [by split|]. split; [done|]. exact R.
  - exact H.
  - unfold on_offence. revert s H. induction l as [|v l IH]; intros s H; [done|]. cbn. apply IH. by apply handle_inv.
  - destruct H as (W & E & R). split; [by split|]. split; [done|]. intros w. cbn. destruct (v =? w) eqn:X.
    + apply N.eqb_eq in X as ->. rewrite lookup_delete. by rewrite bool_decide_false by (by intros [? ?]).
    + apply N.eqb_neq in X. rewrite lookup_delete_ne by done. apply R.
Qed.
Lemma run_app ops o : run (ops ++ [o]) = step (run ops) o.
Proof. unfold run. by rewrite foldl_app. Qed.
Lemma run_inv ops : Inv (run ops).
Proof.
  induction ops as [|o ops IH] using rev_ind; [|rewrite run_app; by apply step_inv].
  split; [done|]. split; [done|]. intros v. cbn. rewrite lookup_empty. by rewrite bool_decide_false by (by intros [? ?]).
Qed.
Lemma well_formed_app t1 t2 : well_formed (t1 ++ t2) -> well_formed t2.
Proof. induction t1; [done|]. intros [H _]. auto. Qed.
Lemma on_record_app v t1 t2 : Registered v ∉ t1 -> on_record v t2 = true -> on_record v (t1 ++ t2) = true.
Proof.
  intros Hn H. induction t1 as [|e t1 IH]; [done|]. cbn. apply not_elem_of_cons in Hn as [N1 N2]. specialize (IH N2). destruct e as [w| | |w]; try done; [rewrite IH; apply orb_true_r|].
  destruct (w =? v) eqn:X; [|done]. apply N.eqb_eq in X. congruence.
Qed.

(** ** C61 *)
(** Between two reports of a validator, and between two calls to slash it, it registered anew: one report and one slash at most per
    registration, in every history, however often and in however many lists it is named. *)
Theorem C61_once_per_registration ops v newer between older :
  (s_trace (run ops) = newer ++ Reported v :: between ++ Reported v :: older -> Registered v ∈ between) /\
  (forall a b, s_trace (run ops) = newer ++ SlashCalled v a :: between ++ SlashCalled v b :: older -> Registered v ∈ between).
Proof.
  destruct (run_inv ops) as (W & _). split; [intros E|intros a b E]; rewrite E in W; apply well_formed_app in W; cbn in W; destruct (decide (Registered v ∈ between)) as [|Hn]; try done; exfalso.
  - destruct W as [_ W]. rewrite on_record_app in W; [done|done|]. cbn. by rewrite N.eqb_refl.
  - destruct W as [W (_ & r' & Er & W2)]. destruct between as [|e between]; [discriminate Er|]. injection Er as -> Er. subst r'. apply not_elem_of_cons in Hn as [_ Hn].
    cbn in W. destruct W as [W _]. apply well_formed_app in W as [_ (_ & r'' & -> & _)]. rewrite on_record_app in W2; [done|done|]. cbn. by rewrite N.eqb_refl.
Qed.
(** A validator is slashed only while slashing is on, and directly upon being reported. *)
Theorem C61_slash_only_if_on ops v a newer older : s_trace (run ops) = newer ++ SlashCalled v a :: older ->
  setting older = true /\ exists older', older = Reported v :: older'.
Proof. destruct (run_inv ops) as (W & _). intros E. rewrite E in W. apply well_formed_app in W as (_ & A & r' & -> & _). split; [done|]. by eexists. Qed.
(** What is reported and slashed when offenders are named: exactly those not on record, each once, in the order first named, with the
    enforcer's answer remembered; if slashing is off nobody is slashed. *)
Fixpoint first_named (known : N -> bool) (l : list N) : list N :=
  match l with
  | [] => []
  | v :: r => if known v then first_named known r else v :: first_named (fun w => (v =? w) || known w) r
  end.
Definition entries_for (on : bool) (answer : N -> bool) (l : list N) : list entry :=
  rev (l ≫= (fun v => Reported v :: if on then [SlashCalled v (answer v)] else [])).
Lemma first_named_ext k1 k2 l : (forall v, k1 v = k2 v) -> first_named k1 l = first_named k2 l.
Proof. revert k1 k2. induction l as [|v l IH]; intros k1 k2 H; [done|]. cbn. rewrite H. destruct (k2 v); [by apply IH|]. f_equal. apply IH. intros w. by rewrite H. Qed.
Lemma offence_trace answer l : forall s, Inv s ->
  s_trace (on_offence answer l s) = entries_for (setting (s_trace s)) answer (first_named (fun v => on_record v (s_trace s)) l) ++ s_trace s /\
  s_enabled (on_offence answer l s) = s_enabled s /\
  forall v, s_reported (on_offence answer l s) !! v = if bool_decide (v ∈ first_named (fun v => on_record v (s_trace s)) l) then Some (s_enabled s && answer v) else s_reported s !! v.
Proof.
  induction l as [|v l IH]; intros s I; [by repeat split|]. pose proof (handle_inv answer s v I) as I'. destruct (IH _ I') as (A & B & C). cbn [first_named]. change (on_offence answer (v :: l) s) with (on_offence answer l (handle_offender answer s v)).
  destruct I as (W & E & R). rewrite <- (R v). rewrite handle_eq in *. case_bool_decide as D; [done|]. cbn [s_trace s_enabled s_reported] in *.
  set (s1 := mkSt _ _ _) in *.
  assert (En : setting (s_trace s1) = setting (s_trace s)) by (cbn; by destruct (s_enabled s)).
  assert (Er : forall w, on_record w (s_trace s1) = (v =? w) || on_record w (s_trace s)) by (intros w; cbn; by destruct (s_enabled s)).
  change ((if s_enabled s then [SlashCalled v (answer v)] else []) ++ Reported v :: s_trace s) with (s_trace s1) in A, C.
  rewrite (first_named_ext _ _ _ Er) in A, C. rewrite En in A. split; [|split].
  - rewrite A. unfold entries_for. cbn. rewrite rev_app_distr. rewrite <- !app_assoc. f_equal. cbn. rewrite <- E. by destruct (s_enabled s).
  - rewrite B. done.
  - intros w. rewrite C. destruct (decide (w = v)) as [->|Hne].
    + rewrite (bool_decide_true (v ∈ v :: _)) by left. cbn. rewrite lookup_insert. by case_bool_decide.
    + cbn. rewrite lookup_insert_ne by done. set (F := first_named _ l). rewrite (bool_decide_ext (w ∈ v :: F) (w ∈ F)); [done|]. rewrite elem_of_cons. naive_solver.
Qed.
Theorem C61_offenders_handled ops answer l : let s := run ops in let s' := step s (Offence answer l) in
  let new := first_named (fun v => on_record v (s_trace s)) l in
  s_trace s' = entries_for (setting (s_trace s)) answer new ++ s_trace s /\
  (forall v, s_reported s' !! v = if bool_decide (v ∈ new) then Some (setting (s_trace s) && answer v) else s_reported s !! v).
Proof.
  cbv zeta. destruct (offence_trace answer l (run ops) (run_inv ops)) as (A & _ & C). destruct (run_inv ops) as (_ & E & _). split; [exact A|]. rewrite <- E. exact C.
Qed.
Lemma first_named_spec known l : NoDup (first_named known l) /\ forall v, v ∈ first_named known l <-> v ∈ l /\ known v = false.
Proof.
  revert known. induction l as [|w l IH]; intros known; cbn; [split; [constructor|]; intros v; rewrite elem_of_nil; naive_solver|]. destruct (known w) eqn:K.
  - destruct (IH known) as [A B]. split; [done|]. intros v. rewrite B, elem_of_cons. naive_solver congruence.
  - destruct (IH (fun x => (w =? x) || known x)) as [A B]. split.
    + constructor; [|done]. rewrite B. rewrite N.eqb_refl. naive_solver.
    + intros v. rewrite !elem_of_cons, B, orb_false_iff, N.eqb_neq. destruct (decide (v = w)) as [->|]; naive_solver.
Qed.
(** Those newly handled are the named ones not on record, without repetition. *)
Theorem C61_newly_handled known l : NoDup (first_named known l) /\ forall v, v ∈ first_named known l <-> v ∈ l /\ known v = false.
Proof. apply first_named_spec. Qed.
(** Only the root origin changes the setting; nothing else does. *)
Theorem C61_setting ops o : s_enabled (step (run ops) o) = match o with Configure true b => b | _ => s_enabled (run ops) end.
Proof. destruct o as [[] b|answer l|v]; try done. cbn. by destruct (offence_trace answer l (run ops) (run_inv ops)) as (_ & B & _). Qed.
(** The record says, for those on record, whether the slash was carried out; registering clears it, for that validator only. *)
Theorem C61_record ops v : (is_Some (s_reported (run ops) !! v) <-> on_record v (s_trace (run ops)) = true) /\
  forall w, s_reported (step (run ops) (Registration w)) !! v = if v =? w then None else s_reported (run ops) !! v.
Proof.
  destruct (run_inv ops) as (_ & _ & R). split; [rewrite <- R; by rewrite bool_decide_eq_true|]. intros w. cbn. destruct (v =? w) eqn:X; [apply N.eqb_eq in X as ->; apply lookup_delete|apply N.eqb_neq in X; by apply lookup_delete_ne].
Qed.
(** The claim "an offence while slashing is on leads to a slash, then or before" is false: an offender first reported while slashing was
    off, or whose slash failed, is on record and never slashed until it registers anew (lib.rs:138, 153). *)
Definition forgiven : list op := [Offence (fun _ => true) [7]; Configure true true; Offence (fun _ => true) [7]; Offence (fun _ => true) [7; 8]].
Theorem C61_forgiven_refuted : setting (s_trace (run forgiven)) = true /\ (forall a, SlashCalled 7 a ∉ s_trace (run forgiven)) /\ SlashCalled 8 true ∈ s_trace (run forgiven) /\ s_reported (run forgiven) !! 7 = Some false.
Proof.
  assert (E : s_trace (run forgiven) = [SlashCalled 8 true; Reported 8; SettingUpdated true; Reported 7]) by (vm_compute; reflexivity). rewrite E. split; [done|]. split.
  - intros a. rewrite !elem_of_cons, elem_of_nil. intuition congruence.
  - split; [left|]. by vm_compute.
Qed.
(** The hypotheses are met: a validator reported twice, slashed twice, with a registration between. *)
Example twice : s_trace (run [Configure true true; Configure false false; Offence (fun _ => true) [7; 7]; Offence (fun _ => true) [7]; Registration 7; Offence (fun _ => false) [9; 7]]) =
  [SlashCalled 7 false; Reported 7; SlashCalled 9 false; Reported 9; Registered 7; SlashCalled 7 true; Reported 7; SettingUpdated true].
Proof. by vm_compute. Qed.

Print Assumptions C61_once_per_registration.
Print Assumptions C61_slash_only_if_on.
Print Assumptions C61_offenders_handled.
Print Assumptions C61_newly_handled.
Print Assumptions C61_setting.
Print Assumptions C61_record.
Print Assumptions C61_forgiven_refuted.
