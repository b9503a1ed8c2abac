(** Replay protection (C04) and the life of a lower (C05, C06). *)
From Verif Require Import Base BaseLemmas CodecModel CodecProofs SigModel TokenModel TokenSpec TokenProofs TokenProofs2.

(** ** C04 *)
Definition nonce_up (a : N) (s : st) : gmap N N := <[a := (nonce_of s a + 1) mod 2 ^ 64]> (s_nonces s).

Lemma xfer_nonces token from to amount s s1 : xfer token from to amount s s1 -> s_nonces s1 = s_nonces s.
Proof. now intros []. Qed.

Lemma run_inner_facts c cr origin i s s' : run_inner c cr origin i s = (s', Ok tt) ->
  exists p, inner_proof i = Some p /\ origin = from_of i /\
    verify_signature cr p (payload_of i (nonce_of s (from_of i))) = true /\ s_nonces s' = nonce_up (from_of i) s.
Proof.
  intros H. apply run_inner_ok in H as [(p & from & to & token & amount & s1 & -> & -> & Hv & Hx & ->)|(p & from & token & amount & t1 & -> & -> & Hz & Hv & Ha & ->)];
    exists p; cbn; (split; [reflexivity|]); (split; [reflexivity|]); (split; [exact Hv|]).
  - unfold nonce_up, nonce_of. apply xfer_nonces in Hx. now rewrite Hx.
  - reflexivity.
Qed.

Lemma accepted_inv c cr s o i : accepted c cr s o = Some i ->
  exists p, inner_proof i = Some p /\
    verify_signature cr p (payload_of i (nonce_of s (from_of i))) = true /\
    s_nonces (step c cr s o) = nonce_up (from_of i) s /\
    match o with
    | OpSigned origin _ => origin = from_of i
    | OpProxy relayer _ => relayer = pf_relayer p /\ pf_signer p = from_of i
    | _ => False
    end.
Proof.
  unfold accepted, step. destruct o; try (cbn; discriminate); cbn [call_of].
  - destruct (exec c cr (OpSigned origin i0) s) as [s' [[]|e]] eqn:E; cbn; [|discriminate]. intros H; injection H as ->.
    cbn in E. apply dispatch_ok in E. apply run_inner_facts in E as (p & Hp & Ho & Hv & Hn). eauto.
  - destruct (exec c cr (OpProxy relayer i0) s) as [s' [[]|e]] eqn:E; cbn; [|discriminate]. intros H; injection H as ->.
    cbn in E. apply dispatch_ok in E. unfold proxy, emit in E. minv E. units.
    match goal with X : dispatch _ _ = _ |- _ => apply dispatch_ok in X; apply run_inner_facts in X as (p & Hp & Ho & Hv & Hn) end.
    assert (a = p) as -> by congruence. exists p. split; [exact Hp|]. split; [exact Hv|]. split; [exact Hn|]. split; [lia|exact Ho].
Qed.

Lemma not_accepted c cr s o i : call_of o = Some i -> accepted c cr s o = None -> step c cr s o = s.
Proof.
  unfold accepted, step. destruct o; try (cbn; discriminate); cbn [call_of]; intros _.
  - destruct (exec c cr (OpSigned origin i0) s) as [s' [[]|e]] eqn:E; cbn; [discriminate|]. intros _.
    cbn in E. apply dispatch_err in E. auto.
  - destruct (exec c cr (OpProxy relayer i0) s) as [s' [[]|e]] eqn:E; cbn; [discriminate|]. intros _.
    cbn in E. apply dispatch_err in E. auto.
Qed.

Lemma payouts_frame s s' : payouts s s' ->
  s_nonces s' = s_nonces s /\ s_ready s' = s_ready s /\ s_pending s' = s_pending s /\ s_failed s' = s_failed s /\
  s_agenda s' = s_agenda s /\ s_lower_nonce s' = s_lower_nonce s /\ s_bal s' = s_bal s /\
  exists new, s_events s' = new ++ s_events s /\ forall e, In e new -> exists a n, e = CollatorPaid a n.
Proof.
  induction 1 as [s|s a n s' Hz Hb Hp IH].
  - repeat split. exists []. split; [reflexivity|intros ? []].
  - destruct IH as (H1 & H2 & H3 & H4 & H5 & H6 & H7 & new & H8 & H9). cbn in *. repeat split; try assumption.
    exists (new ++ [CollatorPaid a n]). split; [rewrite H8; now rewrite <- app_assoc|].
    intros e Hin. apply in_app_or in Hin as [Hin|[<-|[]]]; [auto|eauto].
Qed.

Lemma unsigned_nonces c cr s o : call_of o = None -> s_nonces (step c cr s o) = s_nonces s.
Proof.
  intros Hc. pose proof (step_effect c cr s o) as He. revert Hc. generalize (step c cr s o), He. clear He. intros s' He.
  destruct He as [o'|o' s2 Hn Hsc|o' origin p from to token amount s1 Hs Ho Hv Hx|o' origin p from token amount t1 Hs Ho Hz Hv Ha
    |from token amount t1 Hz Ha|o' token from to amount s1 Hc Hx|id t s1 Ha Hw Hd Hdeb|id t Ha Hw|id t Ha|id t w Ha
    |from to token amount t1 id s1 Hd Hdeb|who id params d Hr|who id params Hr Hf|id params d Hp Hl|id params Hp|id params d Hp Hl
    |e token who amount s1 Hk Hc|e amount period s1 s2 fl Hk Hz Hc Hp Hfl|e id x Hk Hr|e token who amount id t1 x s1 Hk Hr Hc
    |e token who amount id t1 x Hk Hr Hc|token who amount Hb]; intros Hcall; try reflexivity.
  - apply (SC_nonces _ _ Hsc).
  - exfalso. destruct o'; cbn in *; discriminate.
  - exfalso. destruct o'; cbn in *; discriminate.
  - cbn. now apply xfer_nonces in Hx.
  - destruct Hdeb; reflexivity.
  - destruct Hdeb; reflexivity.
  - destruct Hc; reflexivity.
  - cbn. apply payouts_frame in Hp as (-> & _). destruct Hc; reflexivity.
  - destruct Hc; reflexivity.
Qed.

(** The nonces after any step. *)
Lemma step_nonces c cr s o :
  s_nonces (step c cr s o) = match accepted c cr s o with Some i => nonce_up (from_of i) s | None => s_nonces s end.
Proof.
  destruct (accepted c cr s o) as [i|] eqn:Ea.
  - apply accepted_inv in Ea as (p & _ & _ & H & _). exact H.
  - destruct (call_of o) as [i|] eqn:Ec; [now rewrite (not_accepted _ _ _ _ _ Ec Ea)|now apply unsigned_nonces].
Qed.

Lemma nonce_up_of a b s : mget 0 b (nonce_up a s) = if decide (a = b) then (nonce_of s a + 1) mod 2 ^ 64 else nonce_of s b.
Proof. unfold nonce_up. now rewrite mget_insertN. Qed.

Lemma nonce_step c cr s o a : nonce_of s a + 1 < 2 ^ 64 ->
  nonce_of s a <= nonce_of (step c cr s o) a <= nonce_of s a + 1.
Proof.
  intros Hb. unfold nonce_of at 2 3. rewrite step_nonces. destruct (accepted c cr s o) as [i|]; [|unfold nonce_of; lia].
  rewrite nonce_up_of. destruct (decide _) as [->|]; [|lia]. rewrite N.mod_small by exact Hb. lia.
Qed.
Lemma nonce_run c cr ops s a : nonce_of s a + N.of_nat (length ops) < 2 ^ 64 ->
  nonce_of s a <= nonce_of (run c cr s ops) a <= nonce_of s a + N.of_nat (length ops).
Proof.
  revert s. induction ops as [|o ops IH]; intros s Hb; [cbn; lia|]. cbn [length] in Hb. rewrite Nat2N.inj_succ in Hb.
  pose proof (nonce_step c cr s o a ltac:(lia)). cbn [run fold_left length]. rewrite Nat2N.inj_succ.
  specialize (IH (step c cr s o) ltac:(lia)). fold (run c cr (step c cr s o) ops) in *. lia.
Qed.

(** *** Payloads *)
Definition same_instruction (i i' : inner_call) : Prop :=
  match i, i' with
  | CSignedTransfer p from to token amount, CSignedTransfer p' from' to' token' amount' =>
      pf_relayer p = pf_relayer p' /\ from = from' /\ to = to' /\ token = token' /\ amount = amount'
  | CSignedLower p from token amount t1, CSignedLower p' from' token' amount' t1' =>
      pf_relayer p = pf_relayer p' /\ from = from' /\ token = token' /\ amount = amount' /\ t1 = t1'
  | _, _ => False
  end.

Lemma be32 n m x y : n < 2 ^ 256 -> m < 2 ^ 256 -> be_bytes 32 n ++ x = be_bytes 32 m ++ y -> n = m /\ x = y.
Proof. intros Hn Hm E. apply app_split in E as [E1 E2]; [|now rewrite !be_bytes_length]. apply be_bytes_inj in E1; auto. Qed.
Lemma be20 n m x y : n < 2 ^ 160 -> m < 2 ^ 160 -> be_bytes 20 n ++ x = be_bytes 20 m ++ y -> n = m /\ x = y.
Proof. intros Hn Hm E. apply app_split in E as [E1 E2]; [|now rewrite !be_bytes_length]. apply be_bytes_inj in E1; auto. Qed.
Lemma le16 n m x y : n < 2 ^ 128 -> m < 2 ^ 128 -> le_bytes 16 n ++ x = le_bytes 16 m ++ y -> n = m /\ x = y.
Proof. intros Hn Hm E. apply app_split in E as [E1 E2]; [|now rewrite !le_bytes_length]. apply le_bytes_inj in E1; auto. Qed.
Lemma le8 n m : n < 2 ^ 64 -> m < 2 ^ 64 -> le_bytes 8 n = le_bytes 8 m -> n = m.
Proof. intros Hn Hm E. apply le_bytes_inj in E; auto. Qed.

Lemma payload_inj i i' n n' p p' : typed_call i -> typed_call i' -> n < 2 ^ 64 -> n' < 2 ^ 64 ->
  inner_proof i = Some p -> inner_proof i' = Some p' ->
  payload_of i n = payload_of i' n' -> same_instruction i i' /\ n = n'.
Proof.
  intros Ht Ht' Hn Hn' Hp Hp' E. destruct i as [q from to token amount|q from token amount t1|], i' as [q' from' to' token' amount'|q' from' token' amount' t1'|];
    try discriminate; cbn in *.
  - destruct Ht as (? & ? & ? & ? & ?), Ht' as (? & ? & ? & ? & ?). unfold transfer_payload in E.
    apply scale_bytes_prefix in E as [_ E]; [|vm_compute; reflexivity|vm_compute; reflexivity].
    apply be32 in E as [-> E]; [|assumption|assumption]. apply be32 in E as [-> E]; [|assumption|assumption].
    apply be32 in E as [-> E]; [|assumption|assumption]. apply be20 in E as [-> E]; [|assumption|assumption].
    apply le16 in E as [-> E]; [|assumption|assumption]. apply le8 in E; [|assumption|assumption]. auto 10.
  - destruct Ht as (? & ? & ? & ? & ?), Ht' as (? & ? & ? & ? & ?). unfold lower_payload in E.
    apply scale_bytes_prefix in E as [_ E]; [|vm_compute; reflexivity|vm_compute; reflexivity].
    apply be32 in E as [-> E]; [|assumption|assumption]. apply be32 in E as [-> E]; [|assumption|assumption].
    apply be20 in E as [-> E]; [|assumption|assumption]. apply le16 in E as [-> E]; [|assumption|assumption].
    apply be20 in E as [-> E]; [|assumption|assumption]. apply le8 in E; [|assumption|assumption]. auto 10.
Qed.

Lemma payload_head i n p : inner_proof i = Some p -> hd 0 (payload_of i n) <> 60.
Proof. destruct i; try discriminate; intros _; cbn; discriminate. Qed.
Lemma wrapped_inj a b : wrapped a = wrapped b -> a = b.
Proof. unfold wrapped. intros E. apply app_inv_head in E. now apply app_inv_tail in E. Qed.
Lemma wrapped_ne i n p a : inner_proof i = Some p -> wrapped a <> payload_of i n.
Proof. intros Hp E. apply (payload_head _ n) in Hp. rewrite <- E in Hp. now apply Hp. Qed.

Lemma same_from i i' : same_instruction i i' -> from_of i = from_of i'.
Proof. destruct i, i'; cbn; intuition congruence. Qed.

Lemma accepted_call c cr s o i : accepted c cr s o = Some i -> call_of o = Some i.
Proof. unfold accepted. destruct (call_of o); [|discriminate]. destruct (snd _); congruence. Qed.

Lemma accepted_payloads_bound c cr ops s p : Forall typed_op ops ->
  (forall a, nonce_of s a + N.of_nat (length ops) < 2 ^ 64) ->
  In p (accepted_payloads c cr s ops) ->
  exists i n q, typed_call i /\ inner_proof i = Some q /\ p = payload_of i n /\ nonce_of s (from_of i) <= n < 2 ^ 64.
Proof.
  revert s. induction ops as [|o ops IH]; intros s Ht Hb Hin; [destruct Hin|]. inversion Ht as [|? ? Ht1 Ht2]; subst.
  assert (Hb' : forall a, nonce_of s a + 1 + N.of_nat (length ops) < 2 ^ 64).
  { intros a. specialize (Hb a). cbn [length] in Hb. lia. }
  cbn in Hin. apply in_app_or in Hin as [Hin|Hin].
  - destruct (accepted c cr s o) as [i|] eqn:Ea; [|destruct Hin]. destruct Hin as [<-|[]].
    pose proof (accepted_call _ _ _ _ _ Ea) as Hc. apply accepted_inv in Ea as (q & Hq & _).
    exists i, (nonce_of s (from_of i)), q. unfold typed_op in Ht1. rewrite Hc in Ht1.
    split; [exact Ht1|]. split; [exact Hq|]. split; [reflexivity|]. specialize (Hb' (from_of i)). lia.
  - apply IH in Hin as (i & n & q & H1 & H2 & H3 & H4); [|exact Ht2|].
    + exists i, n, q. split; [exact H1|]. split; [exact H2|]. split; [exact H3|]. pose proof (nonce_step c cr s o (from_of i)). specialize (Hb' (from_of i)). lia.
    + intros a. pose proof (nonce_step c cr s o a). specialize (Hb' a). lia.
Qed.
Lemma accepted_payloads_nodup c cr ops s : Forall typed_op ops ->
  (forall a, nonce_of s a + N.of_nat (length ops) < 2 ^ 64) -> NoDup (accepted_payloads c cr s ops).
Proof.
  revert s. induction ops as [|o ops IH]; intros s Ht Hb; [constructor|]. inversion Ht as [|? ? Ht1 Ht2]; subst.
  assert (Hb' : forall a, nonce_of s a + 1 + N.of_nat (length ops) < 2 ^ 64).
  { intros a. specialize (Hb a). cbn [length] in Hb. lia. }
  assert (Hb2 : forall a, nonce_of (step c cr s o) a + N.of_nat (length ops) < 2 ^ 64).
  { intros a. pose proof (nonce_step c cr s o a). specialize (Hb' a). lia. }
  cbn. destruct (accepted c cr s o) as [i|] eqn:Ea; [|cbn; apply IH; assumption]. cbn. constructor; [|apply IH; assumption].
  intros Hin. apply elem_of_list_In in Hin. apply accepted_payloads_bound in Hin as (i' & n & q & H1 & H2 & H3 & H4 & H5); [|exact Ht2|exact Hb2].
  pose proof (accepted_call _ _ _ _ _ Ea) as Hc. unfold typed_op in Ht1. rewrite Hc in Ht1.
  pose proof (step_nonces c cr s o) as Hn. rewrite Ea in Hn.
  apply accepted_inv in Ea as (p & Hp & _ & _ & _).
  apply payload_inj with (p := p) (p' := q) in H3 as [Hs <-]; auto; [|specialize (Hb' (from_of i)); lia].
  apply same_from in Hs. rewrite <- Hs in H4. unfold nonce_of in H4 at 1. rewrite Hn, nonce_up_of, decide_True in H4 by reflexivity.
  specialize (Hb' (from_of i)). rewrite N.mod_small in H4 by lia. lia.
Qed.

(** ** C05, C06 *)
Definition seqN (n : N) : list N := rev (map N.of_nat (seq 0 (N.to_nat n))).
Lemma seqN_succ n : seqN (n + 1) = n :: seqN n.
Proof.
  unfold seqN. replace (N.to_nat (n + 1)) with (S (N.to_nat n)) by lia. rewrite seq_S, map_app, rev_app_distr. cbn. now rewrite N2Nat.id.
Qed.
Lemma in_seqN n i : In i (seqN n) <-> i < n.
Proof.
  unfold seqN. rewrite <- in_rev, in_map_iff. split.
  - intros (k & <- & Hk). apply in_seq in Hk. lia.
  - intros H. exists (N.to_nat i). split; [apply N2Nat.id|]. apply in_seq. lia.
Qed.
Lemma nodup_seqN n : NoDup (seqN n).
Proof.
  induction n as [|n IH] using N.peano_ind; [constructor|]. rewrite <- N.add_1_r, seqN_succ. constructor; [|exact IH].
  rewrite elem_of_list_In, in_seqN. lia.
Qed.

(** Why a lower is in no stage any more. *)
Definition explained (evs : list event) (id : N) : Prop :=
  In (SchedulerDispatched id false) evs \/ In (SchedulerCanceled id) evs \/ In id (settled evs) \/ In (EventRejected (Some id)) evs.

Record Life (s : st) : Prop := mkLife {
  L_req : requested (s_events s) = seqN (s_lower_nonce s);
  L_exec_nd : NoDup (executed (s_events s));
  L_sett_nd : NoDup (settled (s_events s));
  L_agenda : forall id, is_Some (s_agenda s !! id) -> id < s_lower_nonce s /\ ~ In id (executed (s_events s));
  L_pending : forall id, is_Some (s_pending s !! id) -> In id (executed (s_events s)) /\ s_ready s !! id = None /\ s_failed s !! id = None /\ ~ In id (settled (s_events s));
  L_ready : forall id, is_Some (s_ready s !! id) -> In id (executed (s_events s)) /\ s_failed s !! id = None /\ ~ In id (settled (s_events s));
  L_failed : forall id, is_Some (s_failed s !! id) -> In id (executed (s_events s)) /\ ~ In id (settled (s_events s));
  L_exec_lt : forall id, In id (executed (s_events s)) -> id < s_lower_nonce s;
  L_sett_exec : forall id, In id (settled (s_events s)) -> In id (executed (s_events s)) }.

(** Lifecycle-neutral steps. *)
Definition quiet (e : event) : Prop :=
  match e with
  | TokenLowered _ _ _ _ _ _ | AvtLowered _ _ _ _ _ | AVTLowerReverted _ _ _ _ _ | TokenLowerReverted _ _ _ _ _ _
  | LowerRequested _ _ _ _ _ _ | AvtLowerClaimed _ => False
  | _ => True
  end.
Lemma quiet_lists e l : quiet e -> requested (e :: l) = requested l /\ executed (e :: l) = executed l /\ settled (e :: l) = settled l.
Proof. destruct e; cbn; tauto. Qed.
Lemma quiet_app new l : (forall e, In e new -> quiet e) ->
  requested (new ++ l) = requested l /\ executed (new ++ l) = executed l /\ settled (new ++ l) = settled l.
Proof.
  induction new as [|e new IH]; intros H; [auto|]. destruct IH as (A & B & C); [intros; apply H; now right|].
  destruct (quiet_lists e (new ++ l) (H e (or_introl eq_refl))) as (A' & B' & C'). cbn [app]. rewrite A', B', C'. auto.
Qed.

Record frame (s s' : st) : Prop := mkFrame {
  FR_ready : s_ready s' = s_ready s; FR_pending : s_pending s' = s_pending s; FR_failed : s_failed s' = s_failed s;
  FR_agenda : s_agenda s' = s_agenda s; FR_ln : s_lower_nonce s' = s_lower_nonce s;
  FR_events : exists new, s_events s' = new ++ s_events s /\ forall e, In e new -> quiet e }.
Lemma frame_life s s' : frame s s' -> Life s -> Life s'.
Proof.
  intros [H1 H2 H3 H4 H5 (new & H6 & H7)] []. destruct (quiet_app new (s_events s) H7) as (E1 & E2 & E3).
  constructor; rewrite ?H1, ?H2, ?H3, ?H4, ?H5, ?H6, ?E1, ?E2, ?E3; assumption.
Qed.
Lemma frame_refl s : frame s s.
Proof. constructor; try reflexivity. exists []. split; [reflexivity|intros ? []]. Qed.
Lemma frame_trans s s1 s2 : frame s s1 -> frame s1 s2 -> frame s s2.
Proof.
  intros [H1 H2 H3 H4 H5 (new & H6 & H7)] [G1 G2 G3 G4 G5 (new' & G6 & G7)].
  constructor; [congruence..|]. exists (new' ++ new). split; [rewrite G6, H6; now rewrite app_assoc|].
  intros e Hin. apply in_app_or in Hin as []; auto.
Qed.
Lemma xfer_frame token from to amount s s1 : xfer token from to amount s s1 -> frame s s1.
Proof.
  intros []; constructor; try reflexivity; first [exists []; split; [reflexivity|intros ? []]|eexists [_]; split; [reflexivity|intros ? [<-|[]]; exact I]].
Qed.
Lemma proxy_event_quiet o e : In e (proxy_event o) -> quiet e.
Proof. intros H. apply proxy_event_zero in H as [r ->]. exact I. Qed.

Lemma life_ids s : Life s -> forall id, id < s_lower_nonce s <-> In id (requested (s_events s)).
Proof. intros H id. rewrite (L_req _ H). symmetry. apply in_seqN. Qed.

Lemma scheduled_life c from token amount t1 nonce s : Life s -> s_lower_nonce s + 1 < 2 ^ 32 ->
  Life (scheduled c from token amount t1 nonce s).
Proof.
  intros HL Hb. destruct HL. constructor; cbn -[requested executed settled]; rewrite ?(N.mod_small _ (2 ^ 32)) by exact Hb.
  - change (requested (?e :: ?l)) with (s_lower_nonce s :: requested l). rewrite L_req0. symmetry. apply seqN_succ.
  - exact L_exec_nd0.
  - exact L_sett_nd0.
  - intros id Hid. destruct (decide (id = s_lower_nonce s)) as [->|Hne].
    + split; [lia|]. intros Hin. apply L_exec_lt0 in Hin. lia.
    + rewrite lookup_insert_ne in Hid by auto. apply L_agenda0 in Hid as [? ?]. split; [lia|assumption].
  - exact L_pending0.
  - exact L_ready0.
  - exact L_failed0.
  - intros id Hin. apply L_exec_lt0 in Hin. lia.
  - exact L_sett_exec0.
Qed.

Lemma delete_agenda_life id s : Life s -> Life (s <| s_agenda := delete id (s_agenda s) |>).
Proof.
  intros []. constructor; cbn; try assumption.
  intros i Hi. apply L_agenda0. destruct (decide (i = id)) as [->|]; [rewrite lookup_delete in Hi; destruct Hi; discriminate|now rewrite lookup_delete_ne in Hi by auto].
Qed.

Lemma debit_frame token from to amount t1 id s s1 : debit token from to amount t1 id s s1 ->
  s_ready s1 = s_ready s /\ s_pending s1 = s_pending s /\ s_failed s1 = s_failed s /\ s_agenda s1 = s_agenda s /\
  s_lower_nonce s1 = s_lower_nonce s /\ requested (s_events s1) = requested (s_events s) /\
  executed (s_events s1) = id :: executed (s_events s) /\ settled (s_events s1) = settled (s_events s).
Proof. intros []; repeat split. Qed.

Lemma is_some_delete {V} (m : gmap N V) i k : is_Some (delete i m !! k) -> i <> k /\ is_Some (m !! k).
Proof. intros [x H]. apply lookup_delete_Some in H as [? ?]. eauto. Qed.
Lemma is_some_insert {V} (m : gmap N V) i x k : is_Some (<[i := x]> m !! k) -> i = k \/ (i <> k /\ is_Some (m !! k)).
Proof. intros [y H]. apply lookup_insert_Some in H as [[? _]|[? ?]]; eauto. Qed.
Lemma not_some {V} (m : gmap N V) k : ~ is_Some (m !! k) -> m !! k = None.
Proof. intros H. apply eq_None_not_Some. exact H. Qed.
Lemma some_none {V} (m : gmap N V) k x : m !! k = Some x -> m !! k = None -> False.
Proof. congruence. Qed.

Lemma effect_life c cr s o s' : effect c cr s o s' -> s_lower_nonce s + 1 < 2 ^ 32 ->
  (match o with OpRootExecute _ _ _ _ _ _ => False | _ => True end) -> Life s -> Life s'.
Proof.
  intros [o'|o' s2 Hn Hsc|o' origin p from to token amount s1 Hs Ho Hv Hx|o' origin p from token amount t1 Hs Ho Hz Hv Ha
    |from token amount t1 Hz Ha|o' token from to amount s1 Hc Hx|id t s1 Ha Hw Hd Hdeb|id t Ha Hw|id t Ha|id t w Ha
    |from to token amount t1 id s1 Hd Hdeb|who id params d Hr|who id params Hr Hf|id params d Hp Hl|id params Hp|id params d Hp Hl
    |e token who amount s1 Hk Hc|e amount period s1 s2 fl Hk Hz Hc Hp Hfl|e id x Hk Hr|e token who amount id t1 x s1 Hk Hr Hc
    |e token who amount id t1 x Hk Hr Hc|token who amount Hb] Hbound Hroot HL.
  - exact HL.
  - apply (frame_life s); [|exact HL]. destruct Hsc as [? ? ? ? ? ? ? ? ? (new & He & Hq)]. constructor; auto. exists new. split; [exact He|].
    intros e Hin. apply Hq in Hin as [->|[->|[(?&->)|[(?&?&->)|[(?&?&->)|[->|(?&->)]]]]]]; exact I.
  - apply (frame_life s); [|exact HL]. apply xfer_frame in Hx. apply (frame_trans _ _ _ Hx). constructor; try reflexivity.
    exists (proxy_event o'). split; [reflexivity|apply proxy_event_quiet].
  - apply (frame_life (scheduled c from token amount t1 (Some (nonce_of s from)) s)); [|now apply scheduled_life]. constructor; try reflexivity.
    exists (proxy_event o'). split; [reflexivity|apply proxy_event_quiet].
  - now apply scheduled_life.
  - apply (frame_life s); [|exact HL]. apply xfer_frame in Hx. apply (frame_trans _ _ _ Hx). constructor; try reflexivity.
    eexists. split; [reflexivity|]. intros e Hin. destruct o'; cbn in Hin; try contradiction; destruct Hin as [<-|[]]; exact I.
  - (* task executed *)
    destruct (L_agenda _ HL id (ex_intro _ t Ha)) as [Hlt Hnx].
    apply debit_frame in Hdeb as (E1 & E2 & E3 & E4 & E5 & E6 & E7 & E8). cbn in E1, E2, E3, E4, E5, E6, E7, E8.
    destruct HL. constructor; cbn -[requested executed settled];
      change (requested (SchedulerDispatched id true :: ?l)) with (requested l);
      change (executed (SchedulerDispatched id true :: ?l)) with (executed l);
      change (settled (SchedulerDispatched id true :: ?l)) with (settled l);
      rewrite ?E1, ?E2, ?E3, ?E4, ?E5, ?E6, ?E7, ?E8.
    + assumption.
    + constructor; [|assumption]. now rewrite elem_of_list_In.
    + assumption.
    + intros i Hi. apply is_some_delete in Hi as [Hne Hi]. apply L_agenda0 in Hi as [? ?]. split; [assumption|]. intros [?|?]; auto.
    + intros i Hi. apply is_some_insert in Hi as [<-|[Hne Hi]].
      * repeat split; [now left|apply not_some; intros H; apply L_ready0 in H; tauto|apply not_some; intros H; apply L_failed0 in H; tauto|].
        intros H. apply L_sett_exec0 in H. auto.
      * apply L_pending0 in Hi as (? & ? & ? & ?). repeat split; auto. now right.
    + intros i Hi. apply L_ready0 in Hi as (? & ? & ?). repeat split; auto. now right.
    + intros i Hi. apply L_failed0 in Hi as (? & ?). repeat split; auto. now right.
    + intros i [<-|Hi]; auto.
    + intros i Hi. right. auto.
  - apply (frame_life (s <| s_agenda := delete id (s_agenda s) |>)); [|now apply delete_agenda_life].
    constructor; try reflexivity. eexists [_]. split; [reflexivity|]. intros e [<-|[]]; exact I.
  - apply (frame_life (s <| s_agenda := delete id (s_agenda s) |>)); [|now apply delete_agenda_life].
    constructor; try reflexivity. eexists [_]. split; [reflexivity|]. intros e [<-|[]]; exact I.
  - destruct HL. constructor; cbn; try assumption. intros i Hi. apply is_some_insert in Hi as [<-|[Hne Hi]]; apply L_agenda0; eauto.
  - contradiction.
  - (* regenerate, from ready *)
    destruct HL. destruct (L_ready0 id (ex_intro _ _ Hr)) as (He & Hf & Hs).
    constructor; cbn -[requested executed settled];
      change (requested (RegeneratingLowerProof id who :: ?l)) with (requested l);
      change (executed (RegeneratingLowerProof id who :: ?l)) with (executed l);
      change (settled (RegeneratingLowerProof id who :: ?l)) with (settled l); try assumption.
    + intros i Hi. apply is_some_insert in Hi as [<-|[Hne Hi]].
      * repeat split; auto. apply lookup_delete.
      * apply L_pending0 in Hi as (? & ? & ? & ?). repeat split; auto. rewrite lookup_delete_ne; auto.
    + intros i Hi. apply is_some_delete in Hi as [Hne Hi]. auto.
  - (* regenerate, from failed *)
    destruct HL. destruct (L_failed0 id (ex_intro _ _ Hf)) as (He & Hs).
    constructor; cbn -[requested executed settled];
      change (requested (RegeneratingFailedLowerProof id who :: ?l)) with (requested l);
      change (executed (RegeneratingFailedLowerProof id who :: ?l)) with (executed l);
      change (settled (RegeneratingFailedLowerProof id who :: ?l)) with (settled l); try assumption.
    + intros i Hi. apply is_some_insert in Hi as [<-|[Hne Hi]].
      * repeat split; auto. apply lookup_delete.
      * apply L_pending0 in Hi as (? & ? & ? & ?). repeat split; auto. rewrite lookup_delete_ne; auto.
    + intros i Hi. apply L_ready0 in Hi as (? & ? & ?). repeat split; auto.
      destruct (decide (id = i)) as [<-|]; [apply lookup_delete|now rewrite lookup_delete_ne].
    + intros i Hi. apply is_some_delete in Hi as [Hne Hi]. auto.
  - (* proof ready *)
    destruct HL. destruct (L_pending0 id (ex_intro _ _ Hp)) as (He & Hr & Hf & Hs).
    constructor; cbn -[requested executed settled];
      change (requested (LowerReadyToClaim id :: ?l)) with (requested l);
      change (executed (LowerReadyToClaim id :: ?l)) with (executed l);
      change (settled (LowerReadyToClaim id :: ?l)) with (settled l); try assumption.
    + intros i Hi. apply is_some_delete in Hi as [Hne Hi]. apply L_pending0 in Hi as (? & ? & ? & ?). repeat split; auto. rewrite lookup_insert_ne; auto.
    + intros i Hi. apply is_some_insert in Hi as [<-|[Hne Hi]]; auto.
  - (* proof failed *)
    destruct HL. destruct (L_pending0 id (ex_intro _ _ Hp)) as (He & Hr & Hf & Hs).
    constructor; cbn -[requested executed settled];
      change (requested (FailedToGenerateLowerProof id :: ?l)) with (requested l);
      change (executed (FailedToGenerateLowerProof id :: ?l)) with (executed l);
      change (settled (FailedToGenerateLowerProof id :: ?l)) with (settled l); try assumption.
    + intros i Hi. apply is_some_delete in Hi as [Hne Hi]. apply L_pending0 in Hi as (? & ? & ? & ?). repeat split; auto. rewrite lookup_insert_ne; auto.
    + intros i Hi. pose proof Hi as Hi'. apply L_ready0 in Hi as (? & ? & ?). repeat split; auto. rewrite lookup_insert_ne; auto.
      intros <-. rewrite Hr in Hi'. destruct Hi'; discriminate.
    + intros i Hi. apply is_some_insert in Hi as [<-|[Hne Hi]]; auto.
  - (* proof lost *)
    destruct HL. constructor; cbn; try assumption. intros i Hi. apply is_some_delete in Hi as [Hne Hi]. auto.
  - apply (frame_life s); [|exact HL]. destruct Hc; constructor; try reflexivity; eexists [_]; (split; [reflexivity|]); intros e' [<-|[]]; exact I.
  - apply (frame_life s); [|exact HL]. apply payouts_frame in Hp as (P1 & P2 & P3 & P4 & P5 & P6 & _ & new & P7 & P8).
    apply (frame_trans _ s1); [destruct Hc; constructor; try reflexivity; eexists [_]; (split; [reflexivity|]); intros e' [<-|[]]; exact I|].
    constructor; try assumption. exists (fl ++ new). split; [cbn; rewrite P7; now rewrite app_assoc|].
    intros e' Hin. apply in_app_or in Hin as [Hin|Hin].
    + destruct Hfl as [->| ->]; [destruct Hin|]. destruct Hin as [<-|[]]. exact I.
    + apply P8 in Hin as (? & ? & ->). exact I.
  - (* claim *)
    destruct HL. destruct (L_ready0 id (ex_intro _ _ Hr)) as (He & Hf & Hs).
    assert (Hp : s_pending s !! id = None) by (apply not_some; intros H; apply L_pending0 in H as (_ & H & _); congruence).
    constructor; cbn -[requested executed settled];
      change (requested (AvtLowerClaimed id :: ?l)) with (requested l);
      change (executed (AvtLowerClaimed id :: ?l)) with (executed l);
      change (settled (AvtLowerClaimed id :: ?l)) with (id :: settled l); try assumption.
    + constructor; [now rewrite elem_of_list_In|assumption].
    + intros i Hi. assert (id <> i) by (intros <-; rewrite Hp in Hi; destruct Hi; discriminate).
      apply L_pending0 in Hi as (? & ? & ? & ?). repeat split; auto; [rewrite lookup_delete_ne; auto|intros [?|?]; auto].
    + intros i Hi. apply is_some_delete in Hi as [Hne Hi]. apply L_ready0 in Hi as (? & ? & ?). repeat split; auto. intros [?|?]; auto.
    + intros i Hi. assert (id <> i) by (intros <-; rewrite Hf in Hi; destruct Hi; discriminate).
      apply L_failed0 in Hi as (? & ?). repeat split; auto. intros [?|?]; auto.
    + intros i [<-|Hi]; auto.
  - (* refund *)
    destruct HL. destruct (L_ready0 id (ex_intro _ _ Hr)) as (He & Hf & Hs).
    assert (Hp : s_pending s !! id = None) by (apply not_some; intros H; apply L_pending0 in H as (_ & H & _); congruence).
    assert (G : s_ready s1 = delete id (s_ready s) /\ s_pending s1 = s_pending s /\ s_failed s1 = s_failed s /\ s_agenda s1 = s_agenda s /\
      s_lower_nonce s1 = s_lower_nonce s /\ requested (s_events s1) = requested (s_events s) /\
      executed (s_events s1) = executed (s_events s) /\ settled (s_events s1) = id :: settled (s_events s)) by (destruct Hc; repeat split).
    destruct G as (E1 & E2 & E3 & E4 & E5 & E6 & E7 & E8).
    constructor; rewrite ?E1, ?E2, ?E3, ?E4, ?E5, ?E6, ?E7, ?E8; try assumption.
    + constructor; [now rewrite elem_of_list_In|assumption].
    + intros i Hi. assert (id <> i) by (intros <-; rewrite Hp in Hi; destruct Hi; discriminate).
      apply L_pending0 in Hi as (? & ? & ? & ?). repeat split; auto; [rewrite lookup_delete_ne; auto|intros [?|?]; auto].
    + intros i Hi. apply is_some_delete in Hi as [Hne Hi]. apply L_ready0 in Hi as (? & ? & ?). repeat split; auto. intros [?|?]; auto.
    + intros i Hi. assert (id <> i) by (intros <-; rewrite Hf in Hi; destruct Hi; discriminate).
      apply L_failed0 in Hi as (? & ?). repeat split; auto. intros [?|?]; auto.
    + intros i [<-|Hi]; auto.
  - (* consumed without credit *)
    destruct HL. constructor; cbn -[requested executed settled];
      change (requested (EventRejected (Some id) :: ?l)) with (requested l);
      change (executed (EventRejected (Some id) :: ?l)) with (executed l);
      change (settled (EventRejected (Some id) :: ?l)) with (settled l); try assumption.
    + intros i Hi. apply L_pending0 in Hi as (? & ? & ? & ?). repeat split; auto.
      destruct (decide (id = i)) as [<-|]; [apply lookup_delete|now rewrite lookup_delete_ne].
    + intros i Hi. apply is_some_delete in Hi as [Hne Hi]. auto.
  - apply (frame_life s); [|exact HL]. constructor; try reflexivity; eexists [_]; (split; [reflexivity|]); intros e' [<-|[]]; exact I.
Qed.

Lemma effect_lower_nonce c cr s o s' : effect c cr s o s' -> s_lower_nonce s' = s_lower_nonce s \/ s_lower_nonce s' = (s_lower_nonce s + 1) mod 2 ^ 32.
Proof.
  intros [o'|o' s2 Hn Hsc|o' origin p from to token amount s1 Hs Ho Hv Hx|o' origin p from token amount t1 Hs Ho Hz Hv Ha
    |from token amount t1 Hz Ha|o' token from to amount s1 Hc Hx|id t s1 Ha Hw Hd Hdeb|id t Ha Hw|id t Ha|id t w Ha
    |from to token amount t1 id s1 Hd Hdeb|who id params d Hr|who id params Hr Hf|id params d Hp Hl|id params Hp|id params d Hp Hl
    |e token who amount s1 Hk Hc|e amount period s1 s2 fl Hk Hz Hc Hp Hfl|e id x Hk Hr|e token who amount id t1 x s1 Hk Hr Hc
    |e token who amount id t1 x Hk Hr Hc|token who amount Hb]; auto.
  - left. apply (SC_ln _ _ Hsc).
  - left. destruct Hx; reflexivity.
  - left. destruct Hx; reflexivity.
  - left. destruct Hdeb; reflexivity.
  - left. destruct Hdeb; reflexivity.
  - left. destruct Hc; reflexivity.
  - left. apply payouts_frame in Hp as (_ & _ & _ & _ & _ & Hp & _). cbn. rewrite Hp. destruct Hc; reflexivity.
  - left. destruct Hc; reflexivity.
Qed.

Lemma run_life c cr ops s : no_root_execute ops -> s_lower_nonce s + N.of_nat (length ops) < 2 ^ 32 -> Life s ->
  Life (run c cr s ops) /\ s_lower_nonce (run c cr s ops) <= s_lower_nonce s + N.of_nat (length ops).
Proof.
  revert s. induction ops as [|o ops IH]; intros s Hr Hb HL; [split; [exact HL|cbn; lia]|].
  cbn [length] in *. rewrite Nat2N.inj_succ in *.
  pose proof (step_effect c cr s o) as He.
  assert (HL1 : Life (step c cr s o)) by (eapply effect_life; [exact He|lia|apply (Hr o (or_introl eq_refl))|exact HL]).
  assert (Hn : s_lower_nonce (step c cr s o) <= s_lower_nonce s + 1).
  { destruct (effect_lower_nonce _ _ _ _ _ He) as [->| ->]; [lia|]. rewrite N.mod_small; lia. }
  cbn. destruct (IH (step c cr s o)) as [IH1 IH2]; [intros o' Hin; apply Hr; now right|lia|exact HL1|].
  fold (run c cr (step c cr s o) ops) in *. split; [exact IH1|lia].
Qed.

Lemma genesis_life free bal avt period : Life (genesis free bal avt period).
Proof.
  constructor; cbn; try (intros id [x Hx]; rewrite lookup_empty in Hx; discriminate); try (intros id []); try constructor.
Qed.

(** *** Why lowers end *)
Definition short_proofs (ops : list op) : Prop :=
  forall id caller d, In (OpProofResult id caller (Some d)) ops -> N.of_nat (length d) <= LOWER_DATA_LIMIT.
Definition somewhere (s : st) (id : N) : Prop := exists g, in_stage s id g.
Definition Told (s : st) : Prop := forall id, id < s_lower_nonce s -> somewhere s id \/ explained (s_events s) id.

Lemma explained_app new l id : explained l id -> explained (new ++ l) id.
Proof.
  unfold explained, settled. rewrite omap_app. intros [H|[H|[H|H]]]; [left|right; left|right; right; left|right; right; right]; apply in_or_app; now right.
Qed.
Lemma frame_told s s' : (forall id, somewhere s id -> somewhere s' id \/ explained (s_events s') id) ->
  s_lower_nonce s' = s_lower_nonce s -> (exists new, s_events s' = new ++ s_events s) -> Told s -> Told s'.
Proof.
  intros H1 H2 (new & H3) HT id Hid. rewrite H2 in Hid. destruct (HT id Hid) as [H|H]; [auto|right]. rewrite H3. now apply explained_app.
Qed.
Lemma frame_somewhere s s' : frame s s' -> forall id, somewhere s id -> somewhere s' id.
Proof. intros [] id [g Hg]. exists g. destruct g; cbn in *; congruence. Qed.

Lemma frame_is_told s s' : frame s s' -> Told s -> Told s'.
Proof.
  intros HF. pose proof (frame_somewhere _ _ HF) as Hs. destruct HF as [_ _ _ _ H5 (new & H6 & _)].
  apply frame_told; [auto|exact H5|eauto].
Qed.

Lemma frame_told_agenda s id s' : s_lower_nonce s' = s_lower_nonce s -> s_agenda s' = delete id (s_agenda s) ->
  s_pending s' = s_pending s -> s_ready s' = s_ready s -> s_failed s' = s_failed s ->
  (exists new, s_events s' = new ++ s_events s) -> explained (s_events s') id -> Told s -> Told s'.
Proof.
  intros H1 H2 H3 H4 H5 H6 H7. apply frame_told; [|exact H1|exact H6].
  intros i [g Hg]. destruct (decide (id = i)) as [<-|Hne]; [right; exact H7|left]. exists g. destruct g; cbn in *; rewrite ?H2, ?H3, ?H4, ?H5; try assumption.
  now rewrite lookup_delete_ne.
Qed.

Lemma effect_told c cr s o s' : effect c cr s o s' -> s_lower_nonce s + 1 < 2 ^ 32 ->
  (forall id caller d, o = OpProofResult id caller (Some d) -> N.of_nat (length d) <= LOWER_DATA_LIMIT) ->
  Told s -> Told s'.
Proof.
  intros [o'|o' s2 Hn Hsc|o' origin p from to token amount s1 Hs Ho Hv Hx|o' origin p from token amount t1 Hs Ho Hz Hv Ha
    |from token amount t1 Hz Ha|o' token from to amount s1 Hc Hx|id t s1 Ha Hw Hd Hdeb|id t Ha Hw|id t Ha|id t w Ha
    |from to token amount t1 id s1 Hd Hdeb|who id params d Hr|who id params Hr Hf|id params d Hp Hl|id params Hp|id params d Hp Hl
    |e token who amount s1 Hk Hc|e amount period s1 s2 fl Hk Hz Hc Hp Hfl|e id x Hk Hr|e token who amount id t1 x s1 Hk Hr Hc
    |e token who amount id t1 x Hk Hr Hc|token who amount Hb] Hbound Hshort HT.
  - exact HT.
  - revert HT. destruct Hsc as [? ? ? ? E1 E2 E3 E4 E5 (new & He & _)]. apply frame_told; [|exact E4|eauto].
    intros id [g Hg]. left. exists g. destruct g; cbn in *; congruence.
  - apply (frame_is_told s); [|exact HT]. apply xfer_frame in Hx. apply (frame_trans _ _ _ Hx). constructor; try reflexivity.
    exists (proxy_event o'). split; [reflexivity|apply proxy_event_quiet].
  - intros i Hi. cbn in Hi. rewrite N.mod_small in Hi by exact Hbound. destruct (decide (i = s_lower_nonce s)) as [->|Hne].
    + left. exists Scheduled. cbn. rewrite lookup_insert. eauto.
    + destruct (HT i) as [[g Hg]|He]; [lia| |].
      * left. exists g. destruct g; cbn in *; try assumption. rewrite lookup_insert_ne by auto. exact Hg.
      * right. cbn. apply explained_app. apply (explained_app [_]). exact He.
  - intros i Hi. cbn in Hi. rewrite N.mod_small in Hi by exact Hbound. destruct (decide (i = s_lower_nonce s)) as [->|Hne].
    + left. exists Scheduled. cbn. rewrite lookup_insert. eauto.
    + destruct (HT i) as [[g Hg]|He]; [lia| |].
      * left. exists g. destruct g; cbn in *; try assumption. rewrite lookup_insert_ne by auto. exact Hg.
      * right. apply (explained_app [_]). exact He.
  - apply (frame_is_told s); [|exact HT]. apply xfer_frame in Hx. apply (frame_trans _ _ _ Hx). constructor; try reflexivity.
    eexists. split; [reflexivity|]. intros e Hin. destruct o'; cbn in Hin; try contradiction; destruct Hin as [<-|[]]; exact I.
  - revert HT. apply frame_told; [|destruct Hdeb; reflexivity|destruct Hdeb; eexists [_; _]; reflexivity].
    intros i [g Hg]. left. destruct (decide (id = i)) as [<-|Hne].
    + exists AwaitingProof. cbn. rewrite lookup_insert. eauto.
    + exists g. destruct g; destruct Hdeb; cbn in *; try assumption; try (now rewrite lookup_delete_ne); now rewrite lookup_insert_ne.
  - revert HT. apply (frame_told_agenda s id); try reflexivity; [eexists [_]; reflexivity|]. left. now left.
  - revert HT. apply (frame_told_agenda s id); try reflexivity; [eexists [_]; reflexivity|]. right; left. now left.
  - revert HT. apply frame_told; [|reflexivity|eexists []; reflexivity]. intros i [g Hg]. left. exists g. destruct g; cbn in *; try assumption.
    destruct (decide (id = i)) as [<-|Hne]; [rewrite lookup_insert; eauto|now rewrite lookup_insert_ne].
  - revert HT. apply frame_told; [|destruct Hdeb; reflexivity|destruct Hdeb; eexists [_]; reflexivity].
    intros i [g Hg]. left. exists g. destruct g; destruct Hdeb; cbn in *; try assumption;
      (destruct (decide (id = i)) as [<-|Hne]; [rewrite lookup_insert; eauto|now rewrite lookup_insert_ne]).
  - revert HT. apply frame_told; [|reflexivity|eexists [_]; reflexivity]. intros i [g Hg]. left.
    destruct (decide (id = i)) as [<-|Hne]; [exists AwaitingProof; cbn; rewrite lookup_insert; eauto|].
    exists g. destruct g; cbn in *; try assumption; rewrite ?lookup_delete_ne, ?lookup_insert_ne; auto.
  - revert HT. apply frame_told; [|reflexivity|eexists [_]; reflexivity]. intros i [g Hg]. left.
    destruct (decide (id = i)) as [<-|Hne]; [exists AwaitingProof; cbn; rewrite lookup_insert; eauto|].
    exists g. destruct g; cbn in *; try assumption; rewrite ?lookup_delete_ne, ?lookup_insert_ne; auto.
  - revert HT. apply frame_told; [|reflexivity|eexists [_]; reflexivity]. intros i [g Hg]. left.
    destruct (decide (id = i)) as [<-|Hne]; [exists Ready; cbn; rewrite lookup_insert; eauto|].
    exists g. destruct g; cbn in *; try assumption; rewrite ?lookup_delete_ne, ?lookup_insert_ne; auto.
  - revert HT. apply frame_told; [|reflexivity|eexists [_]; reflexivity]. intros i [g Hg]. left.
    destruct (decide (id = i)) as [<-|Hne]; [exists ProofFailed; cbn; rewrite lookup_insert; eauto|].
    exists g. destruct g; cbn in *; try assumption; rewrite ?lookup_delete_ne, ?lookup_insert_ne; auto.
  - exfalso. specialize (Hshort _ _ _ eq_refl). lia.
  - apply (frame_is_told s); [|exact HT]. destruct Hc; constructor; try reflexivity; eexists [_]; (split; [reflexivity|]); intros e' [<-|[]]; exact I.
  - apply (frame_is_told s); [|exact HT]. apply payouts_frame in Hp as (P1 & P2 & P3 & P4 & P5 & P6 & _ & new & P7 & P8).
    apply (frame_trans _ s1); [destruct Hc; constructor; try reflexivity; eexists [_]; (split; [reflexivity|]); intros e' [<-|[]]; exact I|].
    constructor; try assumption. exists (fl ++ new). split; [cbn; rewrite P7; now rewrite app_assoc|].
    intros e' Hin. apply in_app_or in Hin as [Hin|Hin].
    + destruct Hfl as [->| ->]; [destruct Hin|]. destruct Hin as [<-|[]]. exact I.
    + apply P8 in Hin as (? & ? & ->). exact I.
  - revert HT. apply frame_told; [|reflexivity|eexists [_]; reflexivity]. intros i [g Hg].
    destruct (decide (id = i)) as [<-|Hne]; [right; right; right; left; now left|left].
    exists g. destruct g; cbn in *; try assumption; rewrite ?lookup_delete_ne, ?lookup_insert_ne; auto.
  - revert HT. apply frame_told; [|destruct Hc; reflexivity|destruct Hc; eexists [_]; reflexivity]. intros i [g Hg].
    destruct (decide (id = i)) as [<-|Hne]; [right; right; right; left; destruct Hc; now left|left].
    exists g. destruct g; destruct Hc; cbn in *; try assumption; rewrite ?lookup_delete_ne, ?lookup_insert_ne; auto.
  - revert HT. apply frame_told; [|reflexivity|eexists [_]; reflexivity]. intros i [g Hg].
    destruct (decide (id = i)) as [<-|Hne]; [right; right; right; right; now left|left].
    exists g. destruct g; cbn in *; try assumption; rewrite ?lookup_delete_ne, ?lookup_insert_ne; auto.
  - apply (frame_is_told s); [|exact HT]. constructor; try reflexivity; eexists [_]; (split; [reflexivity|]); intros e' [<-|[]]; exact I.
Qed.
Lemma run_told c cr ops s : no_root_execute ops -> short_proofs ops -> s_lower_nonce s + N.of_nat (length ops) < 2 ^ 32 -> Life s -> Told s ->
  Told (run c cr s ops).
Proof.
  revert s. induction ops as [|o ops IH]; intros s Hr Hsh Hb HL HT; [exact HT|].
  cbn [length] in *. rewrite Nat2N.inj_succ in *. pose proof (step_effect c cr s o) as He. cbn. apply IH.
  - intros o' Hin; apply Hr; now right.
  - intros id cl d Hin. apply (Hsh id cl d). now right.
  - destruct (effect_lower_nonce _ _ _ _ _ He) as [->| ->]; [lia|]. rewrite N.mod_small; lia.
  - eapply effect_life; [exact He|lia|apply (Hr o (or_introl eq_refl))|exact HL].
  - eapply effect_told; [exact He|lia| |exact HT]. intros id cl d ->. apply (Hsh id cl d). now left.
Qed.
