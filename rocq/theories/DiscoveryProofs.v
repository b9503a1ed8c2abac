(** Lemmas for DiscoveryProps. *)
From Verif Require Import Base CodecModel CodecProofs AvnModel IncomingModel ParseModel ParseProofs ParseCases ParseProps DiscoveryModel.

Lemma mem_in x l : mem x l = true <-> In x l.
Proof. unfold mem. rewrite existsb_exists. split; [intros (y & H & E); apply N.eqb_eq in E; by subst|intros H; exists x; split; [done|apply N.eqb_refl]]. Qed.
Lemma mem_out x l : mem x l = false <-> ~ In x l.
Proof. rewrite <- mem_in. destruct (mem x l); intuition congruence. Qed.

(** The first log with transaction [t] in a list. *)
Definition first_of (t : N) (logs : list log) (l : log) : Prop :=
  exists l1 l2, logs = l1 ++ l :: l2 /\ lg_tx l = Some t /\ forall l', In l' l1 -> lg_tx l' <> Some t.
Lemma first_nil t l : ~ first_of t [] l.
Proof. intros (l1 & l2 & E & _). by destruct l1. Qed.
Lemma first_cons t a logs l : first_of t (a :: logs) l <-> (lg_tx a = Some t /\ l = a) \/ (lg_tx a <> Some t /\ first_of t logs l).
Proof.
  split.
  - intros (l1 & l2 & E & T & N). destruct l1 as [|b l1]; injection E as -> ->; [by left|]. right. split; [apply N; by left|]. exists l1, l2. repeat split; try done. intros l' H. apply N. by right.
  - intros [[T ->]|[NT (l1 & l2 & -> & T & N)]].
    + exists [], logs. repeat split; try done.
    + exists (a :: l1), l2. repeat split; try done. intros l' [<-|H]; [done|by apply N].
Qed.
Lemma first_unique t logs l l' : first_of t logs l -> first_of t logs l' -> l = l'.
Proof. induction logs as [|a logs IH]; [by intros ?%first_nil|]. rewrite !first_cons. intros [[T ->]|[NT H]] [[T' ->]|[NT' H']]; try done; auto. Qed.
Lemma first_app t A B l : first_of t (A ++ B) l <-> first_of t A l \/ ((forall l', In l' A -> lg_tx l' <> Some t) /\ first_of t B l).
Proof.
  induction A as [|a A IH].
  - split; [intros H; right; split; [done|done]|intros [H|[_ H]]; [by apply first_nil in H|done]].
  - cbn [app]. rewrite !first_cons, IH. split.
    + intros [[T ->]|[NT [H|[N H]]]]; [by left; left|left; by right|]. right. split; [|done]. intros l' [<-|Hl]; [done|by apply N].
    + intros [[[T ->]|[NT H]]|[N H]]; [by left|right; by split; [|left]|]. right. split; [apply N; by left|]. right. split; [|done]. intros l' Hl. apply N. by right.
Qed.
Lemma first_filter (P : log -> bool) t chain l : first_of t (List.filter P chain) l <->
  exists c1 c2, chain = c1 ++ l :: c2 /\ P l = true /\ lg_tx l = Some t /\ forall l', In l' c1 -> P l' = true -> lg_tx l' <> Some t.
Proof.
  split.
  - induction chain as [|a chain IH]; [by intros ?%first_nil|]. cbn [List.filter]. destruct (P a) eqn:Pa.
    + rewrite first_cons. intros [[T ->]|[NT H]].
      * exists [], chain. repeat split; try done.
      * destruct (IH H) as (c1 & c2 & -> & Pl & T & N). exists (a :: c1), c2. repeat split; try done. intros l' [<-|Hl]; [done|by apply N].
    + intros H. destruct (IH H) as (c1 & c2 & -> & Pl & T & N). exists (a :: c1), c2. repeat split; try done. intros l' [<-|Hl]; [congruence|by apply N].
  - intros (c1 & c2 & -> & Pl & T & N). induction c1 as [|a c1 IH]; cbn [app List.filter].
    + rewrite Pl, first_cons. by left.
    + assert (IH' : first_of t (List.filter P (c1 ++ l :: c2)) l) by (apply IH; intros l' Hl; apply N; by right). destruct (P a) eqn:Pa; [|done]. rewrite first_cons. right. split; [|done]. apply N; [by left|done].
Qed.
Lemma in_filter (P : log -> bool) chain l : In l (List.filter P chain) <-> In l chain /\ P l = true.
Proof. apply filter_In. Qed.
Lemma first_exists t logs : (exists l, In l logs /\ lg_tx l = Some t) -> exists l, first_of t logs l.
Proof.
  intros (l & I & T). induction logs as [|a logs IH]; [done|]. destruct (decide (lg_tx a = Some t)) as [D|D].
  - exists a. apply first_cons. by left.
  - destruct I as [->|I]; [done|]. destruct (IH I) as [l' H]. exists l'. apply first_cons. by right.
Qed.

Lemma parse_log_tx l f : parse_log l = Parsed f -> lg_tx l = Some (fo_tx f) /\ lg_block l = Some (fo_block f) /\ exists ts, lg_topics l = fo_sig f :: ts.
Proof.
  unfold parse_log. destruct (lg_topics l) as [|s ts]; [done|]. destruct (lg_tx l) as [tx|]; [|done]. destruct (parse_by_registry _ _ _); cbn [pbind]; try done. destruct (lg_block l); [|done]. intros [= <-]. cbn. eauto.
Qed.
Lemma collect_in seen logs fs : collect seen logs = Parsed fs ->
  forall f, In f fs <-> ~ In (fo_tx f) seen /\ exists l, first_of (fo_tx f) logs l /\ parse_log l = Parsed f.
Proof.
  revert seen fs. induction logs as [|a logs IH]; cbn [collect]; intros seen fs H f.
  - injection H as <-. split; [done|]. intros (_ & l & F & _). by apply first_nil in F.
  - destruct (lg_tx a) as [tx|] eqn:T.
    + destruct (mem tx seen) eqn:M.
      * apply mem_in in M. rewrite (IH seen fs H f). split; intros (NI & l & F & P); (split; [done|]); exists l; (split; [|done]).
        -- apply first_cons. right. split; [|done]. rewrite T. intros [= ->]. done.
        -- apply first_cons in F as [[T' _]|[_ F]]; [|done]. rewrite T in T'. injection T' as ->. done.
      * apply mem_out in M. destruct (parse_log a) as [g|e|] eqn:PA; cbn [pbind] in H; try done. destruct (collect (tx :: seen) logs) as [gs|e|] eqn:C; cbn [pbind] in H; try done. injection H as <-.
        destruct (parse_log_tx a g PA) as (Tg & _ & _). rewrite T in Tg. injection Tg as ->. split.
        -- intros [<-|I]; [split; [done|]; exists a; split; [apply first_cons; by left|done]|]. apply (IH _ _ C) in I as (NI & l & F & P). cbn in NI. split; [tauto|]. exists l. split; [|done]. apply first_cons. right. split; [|done]. rewrite T. intros [= E]. tauto.
        -- intros (NI & l & F & P). apply first_cons in F as [[T' ->]|[NT F]]; [left; congruence|]. right. apply (IH _ _ C). split; [|eauto]. intros [E|I]; [|done]. apply NT. by rewrite T, E.
    + rewrite (IH seen fs H f). split; intros (NI & l & F & P); (split; [done|]); exists l; (split; [|done]).
      * apply first_cons. right. split; [by rewrite T|done].
      * apply first_cons in F as [[T' _]|[_ F]]; [congruence|done].
Qed.
Lemma collect_nodup seen logs fs : collect seen logs = Parsed fs -> NoDup (map fo_tx fs).
Proof.
  revert seen fs. induction logs as [|a logs IH]; cbn [collect]; intros seen fs H.
  - injection H as <-. constructor.
  - destruct (lg_tx a) as [tx|] eqn:T; [|by eapply IH]. destruct (mem tx seen); [by eapply IH|]. destruct (parse_log a) as [g|e|] eqn:PA; cbn [pbind] in H; try done. destruct (collect (tx :: seen) logs) as [gs|e|] eqn:C; cbn [pbind] in H; try done. injection H as <-.
    cbn [map]. constructor; [|by eapply IH]. rewrite elem_of_list_In. intros I. apply in_map_iff in I as (h & E & I). apply (collect_in _ _ _ C) in I as (NI & _). apply NI. destruct (parse_log_tx a g PA) as (Tg & _ & _). rewrite T in Tg. injection Tg as ->. rewrite E. by left.
Qed.
Lemma collect_total seen logs : (forall t l, ~ In t seen -> first_of t logs l -> exists f, parse_log l = Parsed f) -> exists fs, collect seen logs = Parsed fs.
Proof.
  revert seen. induction logs as [|a logs IH]; cbn [collect]; intros seen H; [eauto|].
  destruct (lg_tx a) as [tx|] eqn:T.
  - destruct (mem tx seen) eqn:M.
    + apply mem_in in M. apply IH. intros t l NI F. apply (H t l NI). apply first_cons. right. split; [|done]. rewrite T. intros [= ->]. done.
    + apply mem_out in M. destruct (H tx a M) as [f Pf]; [apply first_cons; by left|]. rewrite Pf. cbn [pbind]. destruct (IH (tx :: seen)) as [fs ->]; [|cbn; eauto].
      intros t l NI F. cbn in NI. apply (H t l); [tauto|]. apply first_cons. right. split; [|done]. rewrite T. intros [= ->]. tauto.
  - apply IH. intros t l NI F. apply (H t l NI). apply first_cons. right. split; [by rewrite T|done].
Qed.
Lemma collect_parses seen logs fs : collect seen logs = Parsed fs -> forall t l, ~ In t seen -> first_of t logs l -> exists f, parse_log l = Parsed f.
Proof.
  revert seen fs. induction logs as [|a logs IH]; cbn [collect]; intros seen fs H t l NI F; [by apply first_nil in F|].
  apply first_cons in F. destruct (lg_tx a) as [tx|] eqn:T.
  - destruct (mem tx seen) eqn:M.
    + apply mem_in in M. destruct F as [[[= ->] _]|[_ F]]; [done|by eapply IH].
    + destruct (parse_log a) as [g|e|] eqn:PA; cbn [pbind] in H; try done. destruct (collect (tx :: seen) logs) as [gs|e|] eqn:C; cbn [pbind] in H; try done.
      destruct F as [[_ ->]|[NT F]]; [eauto|]. eapply (IH _ _ C); [|done]. intros [->|?]; [by apply NT|done].
  - destruct F as [[? _]|[_ F]]; [done|by eapply IH].
Qed.
(** No panic: the topics have 32 bytes. *)
Lemma parse_log_no_panic l : parse_log l <> Panics \/ ~ bytes (lg_data l).
Proof.
  destruct (decide (Forall (fun b => b < 256) (lg_data l))) as [B|B]; [|by right]. left. unfold parse_log. destruct (lg_topics l) as [|s ts]; [done|]. destruct (lg_tx l); [|done].
  unfold parse_by_registry. destruct (kind_of s) as [k|]; [|done].
  destruct (parse_event k _ _) as [e|e|] eqn:P; cbn [pbind]; [by destruct (lg_block l)|done|]. exfalso. revert P. apply C63_no_panic.
  - split; [by destruct (lg_data l)|]. apply Forall_forall. intros x Hx. apply elem_of_list_fmap in Hx as (w & -> & _). apply word_bytes.
  - apply Forall_forall. intros x Hx. apply elem_of_list_fmap in Hx as (w & -> & _). apply word_length.
Qed.
Lemma collect_panics seen logs : collect seen logs = Panics -> exists l, In l logs /\ parse_log l = Panics.
Proof.
  revert seen. induction logs as [|a logs IH]; cbn [collect]; intros seen H; [done|].
  destruct (lg_tx a) as [tx|]; [destruct (mem tx seen)|].
  - destruct (IH _ H) as (l & ? & ?). exists l. split; [by right|done].
  - destruct (parse_log a) eqn:P; cbn [pbind] in H; try done; [|exists a; split; [by left|done]]. destruct (collect (tx :: seen) logs) eqn:C; cbn [pbind] in H; try done. destruct (IH _ C) as (l & ? & ?). exists l. split; [by right|done].
  - destruct (IH _ H) as (l & ? & ?). exists l. split; [by right|done].
Qed.

(** *** Sorting: an order of keys that identify the elements has one sorted list *)
Lemma sorted_unique_keys (l1 l2 : list discovered) : (forall a b, In a l1 -> In b l1 -> disc_le a b -> disc_le b a -> a = b) ->
  StronglySorted disc_le l1 -> StronglySorted disc_le l2 -> l1 ≡ₚ l2 -> l1 = l2.
Proof.
  intros K H1. revert l2 K. induction H1 as [|x1 l1 ? IH Hx1]; intros l2 K H2 E.
  { symmetry. by apply Permutation_nil. }
  destruct H2 as [|x2 l2 ? Hx2].
  { by apply Permutation_nil_r in E. }
  assert (x1 = x2) as ->.
  { rewrite Forall_forall in Hx1, Hx2.
    assert (x2 ∈ x1 :: l1) as Hx2' by (by rewrite E; left).
    assert (x1 ∈ x2 :: l2) as Hx1' by (by rewrite <- E; left).
    apply elem_of_cons in Hx1' as [?|Hx1']; [done|]. apply elem_of_cons in Hx2' as [?|Hx2']; [done|].
    apply K; [by left|right; by apply elem_of_list_In|by apply Hx1|by apply Hx2]. }
  f_equal. apply IH; [|done|by apply (inj (x2 ::.))]. intros a b Ha Hb. apply K; by right.
Qed.
