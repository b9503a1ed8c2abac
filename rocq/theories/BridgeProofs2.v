(** Invariants of the outgoing bridge. *)
From Verif Require Import Base BaseLemmas AvnModel CodecModel BridgeModel BridgeProofs BridgeSpec.

Lemma accepted_cons e l : accepted (e :: l) = accepted l ++ match e with PublishToEthereum r => [RSend r] | LowerProofRequested r => [RLower r] | _ => [] end.
Proof. unfold accepted. cbn. destruct e; cbn; rewrite ?app_nil_r; reflexivity. Qed.

Lemma run_snoc c verify g ops o : run c verify g (ops ++ [o]) = step c verify (run c verify g ops) o.
Proof. unfold run. now rewrite fold_left_app. Qed.
Lemma run_app c verify g a b : run c verify g (a ++ b) = run c verify (run c verify g a) b.
Proof. unfold run. now rewrite fold_left_app. Qed.

(** ** Shape and FIFO *)
Record W (c : config) (s : st) : Prop := mkW {
  W_idle : s_active s = None -> s_queue s = [];
  W_shape : forall a, s_active s = Some a -> match ac_req a with RSend _ => is_Some (ac_tx a) | RLower _ => ac_tx a = None end;
  W_len : len (s_queue s) <= c_max_queue c }.

Lemma failure_about r : about r (failure_notice r).
Proof. destruct r; cbn; auto. Qed.

Lemma served_facts c q s s' : served c q s s' -> s_active s = None ->
  exists told nn, q = told ++ outstanding s' /\ s_notices s' = nn ++ s_notices s /\ Forall2 about told (rev nn) /\
    s_events s' = s_events s /\ s_next s' = s_next s /\ s_settled s' = s_settled s /\ s_vs s' = s_vs s /\
    (s_active s' = None -> s_queue s' = []) /\ (length (s_queue s') <= length q)%nat /\
    (forall a, s_active s' = Some a -> untouched a /\ match ac_req a with RSend _ => is_Some (ac_tx a) | RLower _ => ac_tx a = None end).
Proof.
  induction 1 as [s|r rest s s' Hst|r rest s s' Hsv IH]; intros Ha.
  - exists [], []. cbn. unfold outstanding. cbn. rewrite Ha. repeat split; auto; try congruence.
  - destruct (started_fields _ _ _ _ _ Hst) as (Eq & En & Es & Eno & Ee & Ev & Ei & a & Eact & Ereq & Ec & Et & Esh). cbn in *.
    exists [], []. unfold outstanding. rewrite Eact, Ereq, Eq. cbn.
    split; [reflexivity|]. split; [exact Eno|]. split; [constructor|]. split; [exact Ee|]. split; [exact En|]. split; [exact Es|].
    split; [exact Ev|]. split; [congruence|]. split; [lia|].
    intros b Hb. assert (b = a) as -> by congruence. rewrite Ereq. split; [|exact Esh].
    split; [exact Ec|]. intros t Ht. destruct (Et t Ht) as (? & ? & ? & ? & ? & ?). auto.
  - destruct (IH eq_refl) as (told & nn & H1 & H2 & H3 & H4 & H5 & H6 & H7 & H8 & H9 & H10). cbn in *.
    exists (r :: told), (nn ++ [failure_notice r]). rewrite <- app_assoc. cbn. rewrite rev_app_distr. cbn.
    split; [now rewrite H1 at 1|]. split; [exact H2|]. split; [constructor; [apply failure_about|exact H3]|].
    repeat (split; [assumption|]). split; [lia|exact H10].
Qed.

Definition fifo (s s' : st) : Prop := exists told new nn,
  outstanding s ++ new = told ++ outstanding s' /\ s_notices s' = nn ++ s_notices s /\ Forall2 about told (rev nn) /\
  accepted (s_events s') = accepted (s_events s) ++ new.

Lemma fifo_refl s s' : outstanding s' = outstanding s -> s_notices s' = s_notices s -> accepted (s_events s') = accepted (s_events s) -> fifo s s'.
Proof. intros H1 H2 H3. exists [], [], []. rewrite !app_nil_r. cbn. rewrite H1, H2, H3. auto. Qed.

Lemma same_core_accepted s s' : same_core s s' -> accepted (s_events s') = accepted (s_events s).
Proof. intros [_ _ _ _ [->|[[n ->]|[n ->]]]]; rewrite ?accepted_cons, ?app_nil_r; reflexivity. Qed.

Lemma served_done c s s1 s' a n : W c s -> s_active s = Some a -> about (ac_req a) n ->
  s_active s1 = None -> s_queue s1 = s_queue s -> s_notices s1 = n :: s_notices s -> accepted (s_events s1) = accepted (s_events s) ->
  served c (s_queue s) s1 s' -> W c s' /\ fifo s s'.
Proof.
  intros [W1 W2 W3] Ea Hab E1 E2 E3 E4 Hsv.
  destruct (served_facts _ _ _ _ Hsv E1) as (told & nn & H1 & H2 & H3 & H4 & H5 & H6 & H7 & H8 & H9 & H10).
  split.
  - constructor; [exact H8|intros b Hb; now apply H10|unfold len in *; lia].
  - exists (ac_req a :: told), [], (nn ++ [n]). unfold outstanding at 1. rewrite Ea, app_nil_r. cbn. rewrite H1.
    split; [reflexivity|]. rewrite H2, E3, H4, E4, <- app_assoc. cbn. split; [reflexivity|]. rewrite rev_app_distr. cbn.
    split; [constructor; auto|now rewrite app_nil_r].
Qed.

Lemma effect_fifo c verify s o s' : effect c verify s o s' -> W c s -> W c s' /\ fifo s s'.
Proof.
  intros He HW. destruct He; destruct HW as [W1 W2 W3].
  - split; [now constructor|now apply fifo_refl].
  - destruct H0 as [E1 E2 E3 E4 E5]. split.
    + constructor; rewrite ?E1, ?E2; auto.
    + apply fifo_refl; [unfold outstanding; now rewrite E1, E2|exact E4|]. apply same_core_accepted. now constructor.
  - split; [constructor; auto|now apply fifo_refl].
  - split.
    + constructor; cbn; [congruence|intros; now apply W2|]. unfold len in *. rewrite app_length. cbn. lia.
    + exists [], [RSend r], []. unfold outstanding. cbn -[accepted]. rewrite H, accepted_cons. cbn. auto.
  - destruct (started_fields _ _ _ _ _ H0) as (Eq & En & Es & Eno & Ee & Ev & Ei & a & Eact & Ereq & Ec & Et & Esh). cbn in Eq, Eno, Ee.
    split.
    + constructor; cbn; [congruence| |unfold len; rewrite Eq, (W1 H); cbn; lia]. intros b Hb. assert (b = a) as -> by congruence. rewrite Ereq. exact Esh.
    + exists [], [RSend r], []. unfold outstanding. cbn -[accepted]. rewrite H, Eact, Ereq, Eq, (W1 H), accepted_cons. cbn. auto.
  - split.
    + constructor; cbn; [congruence|intros; now apply W2|]. unfold len in *. rewrite app_length. cbn. lia.
    + exists [], [RLower r], []. unfold outstanding. cbn -[accepted]. rewrite H, accepted_cons. cbn. auto.
  - destruct (started_fields _ _ _ _ _ H0) as (Eq & En & Es & Eno & Ee & Ev & Ei & a & Eact & Ereq & Ec & Et & Esh).
    split.
    + constructor; cbn; [congruence| |unfold len; rewrite Eq, (W1 H); cbn; lia]. intros b Hb. assert (b = a) as -> by congruence. rewrite Ereq. exact Esh.
    + exists [], [RLower r], []. unfold outstanding. cbn -[accepted]. rewrite H, Eact, Ereq, Eq, (W1 H), accepted_cons. cbn. auto.
  - split; [|apply fifo_refl; auto; unfold outstanding, saved; cbn; now rewrite H0].
    constructor; cbn; [congruence| |exact W3]. intros b Hb. injection Hb as <-. cbn. apply (W2 _ H0).
  - eapply served_done; [now constructor|exact H0| | | | | |exact H8]; auto. rewrite H1. cbn. auto.
  - split; [|apply fifo_refl; auto; unfold outstanding, saved; cbn; now rewrite H0].
    constructor; cbn; [congruence| |exact W3]. intros b Hb. injection Hb as <-. cbn. pose proof (W2 _ H0) as Hw.
    destruct (ac_req a); [eauto|congruence].
  - split; [|apply fifo_refl; auto; unfold outstanding, saved; cbn; now rewrite H0].
    constructor; cbn; [congruence| |exact W3]. intros b Hb. injection Hb as <-. cbn. pose proof (W2 _ H0) as Hw.
    destruct (ac_req a); [eauto|congruence].
  - destruct (started_fields _ _ _ _ _ H11) as (Eq & En & Es & Eno & Ee & Ev & Ei & b & Eact & Ereq & Ec & Et & Esh). cbn in Eq, Eno, Ee.
    split.
    + constructor; [congruence| |unfold len in *; now rewrite Eq]. intros b' Hb. assert (b' = b) as -> by congruence. rewrite Ereq. exact Esh.
    + apply fifo_refl; [unfold outstanding; now rewrite Eact, Ereq, Eq, H0, H1|exact Eno|]. rewrite Ee, accepted_cons. apply app_nil_r.
  - eapply served_done; [now constructor|exact H0| | | | | |exact H12]; auto; [rewrite H1; cbn; auto|].
    cbn -[accepted]. unfold offence_of. destruct (_ =? 0); cbn -[accepted]; [reflexivity|]. rewrite accepted_cons. apply app_nil_r.
  - assert (HW : W c s' /\ fifo s s') by (eapply served_done; [now constructor|exact H| | | | | |exact H0]; auto; apply failure_about).
    destruct HW as [[V1 V2 V3] (told & new & nn & F1 & F2 & F3 & F4)]. split; [now constructor|].
    exists told, new, nn. split; [exact F1|]. split; [exact F2|]. split; [exact F3|]. cbn -[accepted]. rewrite accepted_cons, app_nil_r. exact F4.
  - destruct (started_fields _ _ _ _ _ H1) as (Eq & En & Es & Eno & Ee & Ev & Ei & b & Eact & Ereq & Ec & Et & Esh). cbn in Eq, Eno, Ee.
    split.
    + constructor; [congruence| |unfold len in *; now rewrite Eq]. intros b' Hb. assert (b' = b) as -> by congruence. rewrite Ereq. exact Esh.
    + apply fifo_refl; [unfold outstanding; now rewrite Eact, Ereq, Eq, H, H0|exact Eno|now rewrite Ee].
Qed.

Lemma genesis_W c next life inst vs : W c (genesis next life inst vs).
Proof. constructor; cbn; [reflexivity|discriminate|unfold len; cbn; lia]. Qed.

Lemma run_W c verify g ops : W c g -> W c (run c verify g ops).
Proof.
  intros HW. induction ops as [|o ops IH] using rev_ind; [exact HW|]. rewrite run_snoc.
  eapply effect_fifo; [apply step_effect|exact IH].
Qed.
Lemma run_told c verify g ops : W c g -> outstanding g = [] -> s_notices g = [] -> s_events g = [] ->
  let s := run c verify g ops in
  exists told, accepted (s_events s) = told ++ outstanding s /\ Forall2 about told (rev (s_notices s)).
Proof.
  intros HW E1 E2 E3. induction ops as [|o ops IH] using rev_ind; cbv zeta in *.
  - exists []. cbn. rewrite E1, E2, E3. cbn. auto.
  - rewrite run_snoc. destruct IH as (told & H1 & H2). set (s := run c verify g ops) in *.
    assert (HWs : W c s) by now apply run_W.
    destruct (effect_fifo _ _ _ _ _ (step_effect c verify s o) HWs) as [_ (told' & new & nn & F1 & F2 & F3 & F4)].
    exists (told ++ told'). rewrite F4, H1, F2, rev_app_distr, <- !app_assoc, F1. split; [reflexivity|]. now apply Forall2_app.
Qed.
