(** What accepted anchor calls do, and what every reachable state satisfies. *)
From Verif Require Import Base BaseLemmas CodecModel CodecProofs SigModel AnchorModel.
From Verif Require TokenModel TokenProofs.

Definition add_event (e : event) (s : st) : st := s <| s_events := e :: s_events s |>.
(** The three effects. *)
Definition registered (h : N) (name : list N) (s : st) : st :=
  let ch := s_next_chain s in
  add_event (ChainHandlerRegistered h ch name)
    (s <| s_next_chain := ch + 1 |> <| s_handlers := <[h := ch]> (s_handlers s) |> <| s_data := <[ch := name]> (s_data s) |> <| s_nonces := <[ch := 0]> (s_nonces s) |>).
Definition handed_over (old new ch : N) (name : list N) (s : st) : st :=
  add_event (ChainHandlerUpdated old new ch name) (s <| s_handlers := delete old (<[new := ch]> (s_handlers s)) |>).
Definition bumped (ch : N) (s : st) : st := s <| s_nonces := <[ch := (nonce_of s ch + 1) mod 2 ^ 64]> (s_nonces s) |>.
Definition anchored (c : config) (h hash ch o : N) (tm : TokenModel.st) (s : st) : st :=
  let id := next_cp_of s ch in
  add_event (CheckpointFeeCharged h ch (fee_of c s ch))
    ((bumped ch (add_event (CheckpointSubmitted h ch id hash)
      (s <| s_next_cp := <[ch := id + 1]> (s_next_cp s) |> <| s_cps := <[(ch, id) := (hash, o)]> (s_cps s) |> <| s_origins := <[(ch, o) := id]> (s_origins s) |>)))
     <| s_tm := tm |>).
Definition may_register (s : st) (h : N) (name : list N) : Prop := s_handlers s !! h = None /\ name <> [] /\ s_next_chain s + 1 <= U32_MAX.
Definition may_hand_over (s : st) (old new ch : N) (name : list N) : Prop := s_handlers s !! old = Some ch /\ s_handlers s !! new = None /\ s_data s !! ch = Some name.
Definition may_anchor (c : config) (s : st) (h ch o : N) (tm : TokenModel.st) : Prop :=
  s_handlers s !! h = Some ch /\ s_origins s !! (ch, o) = None /\ next_cp_of s ch + 1 <= U64_MAX /\
  TokenModel.pay_treasury (c_tm c) (fee_of c s ch) h (s_tm s) = (tm, Ok tt).
Inductive effect (c : config) (cr : crypto) (s : st) (who : N) : call -> st -> Prop :=
| ERegister name : may_register s who name -> effect c cr s who (Register name) (registered who name s)
| ESRegister p name : may_register s who name -> verify_signature cr p (register_payload (pf_relayer p) who name) = true -> effect c cr s who (SRegister p who name) (registered who name s)
| EUpdate new ch name : may_hand_over s who new ch name -> effect c cr s who (Update new) (handed_over who new ch name s)
| ESUpdate p new ch name : may_hand_over s who new ch name -> verify_signature cr p (update_payload (pf_relayer p) who new ch (nonce_of s ch)) = true ->
    effect c cr s who (SUpdate p who new) (bumped ch (handed_over who new ch name s))
| ESubmit hash o ch tm : may_anchor c s who ch o tm -> effect c cr s who (Submit hash o) (anchored c who hash ch o tm s)
| ESSubmit p hash o ch tm : may_anchor c s who ch o tm -> verify_signature cr p (submit_payload (pf_relayer p) who hash ch (nonce_of s ch) o) = true ->
    effect c cr s who (SSubmit p who hash o) (anchored c who hash ch o tm s).

Lemma do_register_ok h name s s' : do_register h name s = (s', Ok tt) -> may_register s h name /\ s' = registered h name s.
Proof.
  unfold do_register, emit. intros H. minv H. split; [|done]. split; [by destruct (s_handlers s !! h)|]. split; [by destruct name|]. by apply N.leb_le.
Qed.
Lemma do_update_ok old new ch s s' : do_update old new ch s = (s', Ok tt) -> s_handlers s !! new = None /\ exists name, s_data s !! ch = Some name /\ s' = handed_over old new ch name s.
Proof. unfold do_update, emit. intros H. minv H. split; [by destruct (s_handlers s !! new)|]. eexists. split; [done|]. done. Qed.
Lemma do_submit_ok c h hash ch o s s' : do_submit c h hash ch o s = (s', Ok tt) ->
  s_origins s !! (ch, o) = None /\ next_cp_of s ch + 1 <= U64_MAX /\
  exists tm, TokenModel.pay_treasury (c_tm c) (fee_of c s ch) h (s_tm s) = (tm, Ok tt) /\ s' = anchored c h hash ch o tm s.
Proof.
  unfold do_submit, emit, bump, charge_fee. intros H. minv H. split; [by destruct (s_origins s !! _)|]. split; [by apply N.leb_le|].
  match goal with X : in_tm _ _ = _ |- _ => rename X into Hp end. unfold in_tm in Hp. injection Hp as <- Hr. unfold emit in H. minv H.
  exists (TokenModel.pay_treasury (c_tm c) (fee_of c s ch) h (s_tm s)).1. split; [|done].
  match goal with |- ?x = _ => change (snd x = Ok a4) in Hr; destruct x as [tm r]; cbn [fst snd] in *; by subst; destruct a4 end.
Qed.
Lemma call_ok c cr who x s s' : call_body c cr who x s = (s', Ok tt) -> effect c cr s who x s'.
Proof.
  unfold call_body. destruct x; intros H; minv H.
  - apply do_register_ok in H as [? ->]. by constructor.
  - apply do_update_ok in H as (? & name & ? & ->). by constructor.
  - apply do_submit_ok in H as (? & ? & tm & ? & ->). by constructor.
  - apply N.eqb_eq in Hens as <-. apply do_register_ok in H as [? ->]. by constructor.
  - apply N.eqb_eq in Hens as <-. match goal with X : do_update _ _ _ _ = (_, Ok ?u) |- _ => destruct u; apply do_update_ok in X end. match goal with X : _ /\ _ |- _ => rename X into Hu end. destruct Hu as (? & name & ? & ->). unfold bump in H. minv H. by constructor.
  - apply N.eqb_eq in Hens as <-. apply do_submit_ok in H as (? & ? & tm & ? & ->). by constructor.
Qed.

(** Who acts in an operation, and through which call. *)
Definition acts (o : op) : option (N * call) :=
  match o with Call who x => Some (who, x) | Relay _ x => match proof_of x with Some p => Some (pf_signer p, x) | None => None end | _ => None end.
Definition accepted (c : config) (cr : crypto) (s : st) (o : op) : Prop := snd (exec c cr o s) = Ok tt.
Lemma rejected_same c cr s o : accepted c cr s o \/ step c cr s o = s.
Proof.
  unfold accepted, step. destruct (exec c cr o s) as [s' [[]|e]] eqn:E; [by left|right]. by apply dispatch_err in E.
Qed.
Lemma accepted_acts c cr s o who x : accepted c cr s o -> acts o = Some (who, x) -> effect c cr s who x (step c cr s o).
Proof.
  unfold accepted, step. destruct (exec c cr o s) as [s' [[]|e]] eqn:E; cbn [fst snd]; [intros _|done]. apply dispatch_ok in E.
  destruct o as [w y|r y| |]; cbn [acts body] in *; intros Ha; try done.
  - injection Ha as -> ->. by apply call_ok.
  - unfold relay in E. minv E. rewrite Hsome in Ha. injection Ha as <- <-. by apply call_ok.
Qed.
Lemma accepted_relay c cr s r x : accepted c cr s (Relay r x) ->
  exists p pl, proof_of x = Some p /\ r = pf_relayer p /\ payload_now s x = Some pl /\ verify_signature cr p pl = true.
Proof.
  unfold accepted. destruct (exec c cr _ s) as [s' [[]|e]] eqn:E; cbn [snd]; [intros _|done]. apply dispatch_ok in E. cbn [body] in E.
  unfold relay in E. minv E. exists a, a1. split; [done|]. split; [by apply N.eqb_eq|]. done.
Qed.
Lemma idle c cr s o : acts o = None -> step c cr s o = s \/
  (exists ch f, o = SetFee ch f /\ step c cr s o = add_event (CheckpointFeeUpdated ch f) (s <| s_fees := <[ch := f]> (s_fees s) |>)) \/
  (exists tm, o = Elsewhere tm /\ step c cr s o = s <| s_tm := tm |>).
Proof.
  destruct o as [w y|r y| |]; cbn [acts]; intros Ha; try done.
  - destruct (proof_of y) eqn:Ep; [done|]. left. destruct (rejected_same c cr s (Relay r y)) as [H|H]; [|done].
    apply accepted_relay in H as (? & ? & H & _). congruence.
  - right. left. eexists _, _. split; [done|]. done.
  - right. right. eexists. split; done.
Qed.

(** ** What every reachable state satisfies *)
Record Inv (s : st) : Prop := {
  i_bound : forall h ch, s_handlers s !! h = Some ch -> ch < s_next_chain s;
  i_one : forall h h' ch, s_handlers s !! h = Some ch -> s_handlers s !! h' = Some ch -> h = h';
  i_some : forall ch, ch < s_next_chain s -> exists h, s_handlers s !! h = Some ch;
  i_data : forall ch, is_Some (s_data s !! ch) <-> ch < s_next_chain s;
  i_nonce : forall ch, s_next_chain s <= ch -> nonce_of s ch = 0;
  i_nonce_small : forall ch, nonce_of s ch < 2 ^ 64;
  i_fresh : forall ch, s_next_chain s <= ch -> next_cp_of s ch = 0;
  i_ids : forall ch i, is_Some (s_cps s !! (ch, i)) <-> i < next_cp_of s ch;
  i_origin : forall ch o i, s_origins s !! (ch, o) = Some i <-> exists hash, s_cps s !! (ch, i) = Some (hash, o) }.
Lemma inv_genesis tm : Inv (genesis tm).
Proof.
  split; unfold genesis, nonce_of, next_cp_of, mget; cbn.
  - intros h ch. by rewrite lookup_empty.
  - intros h h' ch. by rewrite lookup_empty.
  - lia.
  - intros ch. rewrite lookup_empty. split; [by intros []|lia].
  - intros ch _. by rewrite lookup_empty.
  - intros ch. rewrite lookup_empty. done.
  - intros ch _. by rewrite lookup_empty.
  - intros ch i. rewrite !lookup_empty. split; [by intros []|lia].
  - intros ch o i. rewrite lookup_empty. split; [done|]. intros [h H]. by rewrite lookup_empty in H.
Qed.
Lemma mget_insert {K} `{Countable K} (d : N) (k k' : K) (v : N) (m : gmap K N) : mget d k (<[k' := v]> m) = if bool_decide (k = k') then v else mget d k m.
Proof. unfold mget. case_bool_decide as E; [subst; by rewrite lookup_insert|by rewrite lookup_insert_ne]. Qed.
Lemma inv_registered h name s : Inv s -> may_register s h name -> Inv (registered h name s).
Proof.
  intros I (Hn & Hname & Hb). destruct I. split; unfold registered, add_event, nonce_of, next_cp_of in *; cbn; try done.
  - intros h' ch [[-> <-]|[_ H']]%lookup_insert_Some; [lia|]. specialize (i_bound0 _ _ H'). lia.
  - intros h1 h2 ch [[-> <-]|[N1 H1]]%lookup_insert_Some [[-> E]|[N2 H2]]%lookup_insert_Some; [done| | |by eauto].
    + specialize (i_bound0 _ _ H2). lia.
    + subst. specialize (i_bound0 _ _ H1). lia.
  - intros ch Hc. destruct (decide (ch = s_next_chain s)) as [->|Hne]; [exists h; apply lookup_insert|].
    destruct (i_some0 ch) as [h' H']; [lia|]. exists h'. rewrite lookup_insert_ne; [done|]. intros ->. congruence.
  - intros ch. rewrite lookup_insert_is_Some, i_data0. destruct (decide (s_next_chain s = ch)); [subst; split; [lia|by left]|]. split; [intros [?|[? ?]]; lia|right; split; [done|lia]].
  - intros ch Hc. rewrite mget_insert. case_bool_decide; [done|]. apply i_nonce0. lia.
  - intros ch. rewrite mget_insert. case_bool_decide; [done|]. apply i_nonce_small0.
  - intros ch Hc. apply i_fresh0. lia.
Qed.
Lemma inv_handed_over old new ch name s : Inv s -> may_hand_over s old new ch name -> Inv (handed_over old new ch name s).
Proof.
  intros I (Ho & Hn & Hd). assert (old <> new) by (intros ->; congruence). destruct I. split; unfold handed_over, add_event, nonce_of, next_cp_of in *; cbn; try done.
  - intros h' ch' [N1 [[-> <-]|[_ H']]%lookup_insert_Some]%lookup_delete_Some; eauto.
  - intros h1 h2 k [M1 [[-> <-]|[N1 H1]]%lookup_insert_Some]%lookup_delete_Some [M2 [[-> E]|[N2 H2]]%lookup_insert_Some]%lookup_delete_Some; [done| | |by eauto].
    + by destruct (i_one0 _ _ _ Ho H2).
    + subst k. by destruct (i_one0 _ _ _ Ho H1).
  - intros k Hk. destruct (i_some0 k Hk) as [h' H']. destruct (decide (k = ch)) as [->|Hne].
    + exists new. rewrite lookup_delete_ne by done. apply lookup_insert.
    + exists h'. assert (h' <> old) by (intros ->; congruence). assert (h' <> new) by (intros ->; congruence). rewrite lookup_delete_ne by done. by rewrite lookup_insert_ne.
Qed.
Lemma inv_bumped ch s : Inv s -> ch < s_next_chain s -> Inv (bumped ch s).
Proof.
  intros I Hc. destruct I. split; unfold bumped, nonce_of, next_cp_of in *; cbn; try done.
  - intros k Hk. rewrite mget_insert. case_bool_decide; [lia|]. by apply i_nonce0.
  - intros k. rewrite mget_insert. case_bool_decide; [|done]. apply N.mod_lt. done.
Qed.
Lemma inv_anchored c h hash ch o tm s : Inv s -> may_anchor c s h ch o tm -> Inv (anchored c h hash ch o tm s).
Proof.
  intros I (Hh & Ho & Hb & _). assert (Hc : ch < s_next_chain s) by (by eapply i_bound).
  pose proof (inv_bumped ch s I Hc) as I'. destruct I, I'. split; unfold anchored, add_event, bumped, nonce_of, next_cp_of in *; cbn in *; try done.
  - intros k Hk. rewrite mget_insert. case_bool_decide; [lia|]. by apply i_fresh0.
  - intros k i. rewrite mget_insert, lookup_insert_is_Some, i_ids0. case_bool_decide as E.
    + subst k. destruct (decide (i = mget 0 ch (s_next_cp s))) as [->|Hne]; [split; [lia|by left]|]. split; [intros [E|[_ ?]]; [injection E; lia|lia]|]. intros Hi. right. split; [congruence|lia].
    + split; [intros [E1|[_ ?]]; [by injection E1|done]|]. right. split; [congruence|done].
  - intros k o' i. split.
    + intros H'. apply lookup_insert_Some in H' as [[E1 <-]|[Hne H']]; [injection E1 as <- <-; exists hash; apply lookup_insert|]. apply i_origin0 in H' as [x Hx]. exists x. rewrite lookup_insert_ne; [done|].
      intros [= <- <-]. assert (mget 0 ch (s_next_cp s) < mget 0 ch (s_next_cp s)); [|lia]. apply i_ids0. by eexists.
    + intros [x Hx]. apply lookup_insert_Some in Hx as [[E1 E2]|[Hne Hx]]; [injection E1 as <- <-; injection E2 as -> ->; apply lookup_insert|]. assert (H' : s_origins s !! (k, o') = Some i) by (apply i_origin0; eauto).
      rewrite lookup_insert_ne; [done|]. intros [= -> ->]. congruence.
Qed.
Lemma inv_effect c cr s who x s' : Inv s -> effect c cr s who x s' -> Inv s'.
Proof.
  intros I E. inversion E; subst; eauto using inv_registered, inv_handed_over, inv_anchored.
  apply inv_bumped; [by apply inv_handed_over|]. destruct H as (H & _). cbn. by eapply i_bound.
Qed.
Lemma inv_step c cr s o : Inv s -> Inv (step c cr s o).
Proof.
  intros I. destruct (acts o) as [[who x]|] eqn:Ea.
  - destruct (rejected_same c cr s o) as [H| ->]; [|done]. eapply inv_effect; [exact I|]. by eapply accepted_acts.
  - destruct (idle c cr s o Ea) as [ -> | [(ch & f & -> & ->)|(tm & -> & ->)]]; [done| |]; destruct I; by split.
Qed.
Lemma inv_run c cr ops : forall s, Inv s -> Inv (run c cr s ops).
Proof. induction ops as [|o ops IH]; intros s I; [done|]. apply IH. by apply inv_step. Qed.
