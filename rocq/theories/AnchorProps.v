(** C44-C47: anchored checkpoints. *)
From Verif Require Import Base BaseLemmas CodecModel CodecProofs SigModel AnchorModel AnchorProofs.
From Verif Require TokenModel TokenProofs.

(** What the chain has reached after any operations. *)
Definition reached (c : config) (cr : crypto) (tm : TokenModel.st) (ops : list op) : st := run c cr (genesis tm) ops.
Lemma reached_inv c cr tm ops : Inv (reached c cr tm ops).
Proof. apply inv_run, inv_genesis. Qed.
Lemma reached_snoc c cr tm ops o : reached c cr tm (ops ++ [o]) = step c cr (reached c cr tm ops) o.
Proof. unfold reached, run. by rewrite fold_left_app. Qed.
(** The call [x] made by [who] submits the checkpoint [hash] numbered [oid] by the chain itself. *)
Definition submits (who : N) (x : call) (hash oid : N) : Prop := x = Submit hash oid \/ exists p, x = SSubmit p who hash oid.
(** The call [x] made by [who] hands its chain over to [new]. *)
Definition hands_over (who : N) (x : call) (new : N) : Prop := x = Update new \/ exists p, x = SUpdate p who new.
(** The call [x] made by [who] registers a chain of this name. *)
Definition registers (who : N) (x : call) (name : list N) : Prop := x = Register name \/ exists p, x = SRegister p who name.

(** ** C44: checkpoints *)
(** The only way a checkpoint record comes to differ: the chain's handler submits it, under the next free number. *)
Theorem C44_only_new_checkpoints c cr tm ops o ch i : let s := reached c cr tm ops in
  s_cps (step c cr s o) !! (ch, i) = s_cps s !! (ch, i) \/
  (s_cps s !! (ch, i) = None /\ i = next_cp_of s ch /\
   exists who x hash oid, acts o = Some (who, x) /\ submits who x hash oid /\ s_handlers s !! who = Some ch /\
     s_cps (step c cr s o) !! (ch, i) = Some (hash, oid)).
Proof.
  intros s. pose proof (reached_inv c cr tm ops) as I. fold s in I. destruct (acts o) as [[who x]|] eqn:Ea.
  - destruct (rejected_same c cr s o) as [H| ->]; [|by left]. pose proof (accepted_acts _ _ _ _ _ _ H Ea) as E. clear H. generalize dependent (step c cr s o). intros s' E. 
    assert (HA : forall hash oid ch' tm', may_anchor c s who ch' oid tm' -> submits who x hash oid -> s' = anchored c who hash ch' oid tm' s ->
      s_cps s' !! (ch, i) = s_cps s !! (ch, i) \/
      (s_cps s !! (ch, i) = None /\ i = next_cp_of s ch /\
       exists who' x' hash oid, Some (who, x) = Some (who', x') /\ submits who' x' hash oid /\ s_handlers s !! who' = Some ch /\ s_cps s' !! (ch, i) = Some (hash, oid))).
    { intros hash oid ch' tm' (Hh & Ho & Hb & _) Hs ->. unfold anchored, add_event, bumped. cbn. destruct (decide ((ch, i) = (ch', next_cp_of s ch'))) as [E'|Hne].
      - injection E' as -> ->. right. split. { destruct (s_cps s !! _) eqn:Ec; [|done]. assert (is_Some (s_cps s !! (ch', next_cp_of s ch'))) as Hi by by eexists. apply (i_ids s I) in Hi. lia. }
        split; [done|]. exists who, x, hash, oid. split; [done|]. split; [done|]. split; [done|]. apply lookup_insert.
      - left. by rewrite lookup_insert_ne. }
    inversion E; subst; try (left; done).
    + eapply HA; [eassumption|by left|done].
    + eapply HA; [eassumption|right; by eexists|done].
  - destruct (idle c cr s o Ea) as [ -> | [(ch' & f & -> & ->)|(tm' & -> & ->)]]; by left.
Qed.
(** A recorded checkpoint is never changed or removed. *)
Theorem C44_permanent c cr tm ops more k v :
  s_cps (reached c cr tm ops) !! k = Some v -> s_cps (reached c cr tm (ops ++ more)) !! k = Some v.
Proof.
  revert ops. induction more as [|o more IH]; intros ops H; [by rewrite app_nil_r|]. replace (ops ++ o :: more) with ((ops ++ [o]) ++ more) by by rewrite <- app_assoc.
  apply IH. rewrite reached_snoc. destruct k as [ch i]. destruct (C44_only_new_checkpoints c cr tm ops o ch i) as [E|(E & _)]; [by rewrite E|congruence].
Qed.
(** The checkpoints of a chain are numbered 0, 1, 2, ... without gaps, and unregistered chains have none. *)
Theorem C44_numbered c cr tm ops ch : let s := reached c cr tm ops in
  (forall i, is_Some (s_cps s !! (ch, i)) <-> i < next_cp_of s ch) /\ (s_next_chain s <= ch -> next_cp_of s ch = 0).
Proof. intros s. pose proof (reached_inv c cr tm ops) as I. split; [apply (i_ids _ I)|apply (i_fresh _ I)]. Qed.
(** A chain's own number identifies at most one of its checkpoints, and looking it up gives that one. *)
Theorem C44_origin_unique c cr tm ops ch oid : let s := reached c cr tm ops in
  (forall i j h h', s_cps s !! (ch, i) = Some (h, oid) -> s_cps s !! (ch, j) = Some (h', oid) -> i = j) /\
  (forall i, s_origins s !! (ch, oid) = Some i <-> exists hash, s_cps s !! (ch, i) = Some (hash, oid)).
Proof.
  intros s. pose proof (i_origin _ (reached_inv c cr tm ops) ch oid) as I. fold s in I. split; [|exact I]. intros i j h h' Hi Hj.
  assert (Hi' : s_origins s !! (ch, oid) = Some i) by (apply I; eauto). assert (Hj' : s_origins s !! (ch, oid) = Some j) by (apply I; eauto). congruence.
Qed.
(** A submission the chain accepts is recorded at once under the next number and announced. *)
Theorem C44_recorded c cr tm ops o who x hash oid : let s := reached c cr tm ops in
  accepted c cr s o -> acts o = Some (who, x) -> submits who x hash oid ->
  exists ch, s_handlers s !! who = Some ch /\ s_cps (step c cr s o) !! (ch, next_cp_of s ch) = Some (hash, oid) /\
    next_cp_of (step c cr s o) ch = next_cp_of s ch + 1 /\ CheckpointSubmitted who ch (next_cp_of s ch) hash ∈ s_events (step c cr s o).
Proof.
  intros s Ha Hx Hs. pose proof (accepted_acts _ _ _ _ _ _ Ha Hx) as E. generalize dependent (step c cr s o). intros s' E.
  assert (HA : forall ch tm', may_anchor c s who ch oid tm' -> s' = anchored c who hash ch oid tm' s -> exists ch, s_handlers s !! who = Some ch /\ s_cps s' !! (ch, next_cp_of s ch) = Some (hash, oid) /\
    next_cp_of s' ch = next_cp_of s ch + 1 /\ CheckpointSubmitted who ch (next_cp_of s ch) hash ∈ s_events s').
  { intros ch tm' (Hh & _) ->. exists ch. split; [done|]. unfold anchored, add_event, bumped, next_cp_of. cbn. rewrite lookup_insert, mget_insert, bool_decide_true by done. split; [done|]. split; [done|]. set_solver. }
  destruct Hs as [ -> |[p ->]]; inversion E; subst; eapply HA; eauto.
Qed.
(** The handler of a chain can always anchor: a number not used before, the fee affordable. *)
Theorem C44_can_anchor c cr tm ops who ch hash oid : let s := reached c cr tm ops in
  s_handlers s !! who = Some ch -> (forall i h, s_cps s !! (ch, i) <> Some (h, oid)) -> next_cp_of s ch < U64_MAX ->
  snd (TokenModel.pay_treasury (c_tm c) (fee_of c s ch) who (s_tm s)) = Ok tt -> accepted c cr s (Call who (Submit hash oid)).
Proof.
  intros s Hh Hn Hb Hp. assert (Ho : s_origins s !! (ch, oid) = None).
  { destruct (s_origins s !! (ch, oid)) as [i|] eqn:E; [|done]. apply (C44_origin_unique c cr tm ops ch oid) in E as [h E]. by apply Hn in E. }
  unfold accepted, exec, dispatch. cbn [body]. unfold call_body, mbind_, get_st, some_or. rewrite Hh. unfold mret_. cbv beta iota. unfold do_submit, mbind_, get_st, ensure. cbv beta iota zeta. rewrite Ho.
  assert (Hl : (next_cp_of s ch + 1 <=? U64_MAX) = true) by (apply N.leb_le; lia). rewrite Hl. unfold emit, bump, charge_fee, modify, mbind_, gets, in_tm. cbv beta iota. cbn [fst snd].
  match goal with |- context [TokenModel.pay_treasury ?a ?f ?h ?t] => change (TokenModel.pay_treasury a f h t) with (TokenModel.pay_treasury (c_tm c) (fee_of c s ch) who (s_tm s)) end.
  destruct (TokenModel.pay_treasury (c_tm c) (fee_of c s ch) who (s_tm s)) as [t r]. cbn [fst snd] in *. by subst r.
Qed.

(** ** C45: handlers *)
(** Every registered chain, and no other, has exactly one handler, and an account handles at most one chain. *)
Theorem C45_one_handler c cr tm ops : let s := reached c cr tm ops in
  (forall ch, ch < s_next_chain s -> exists h, forall h', s_handlers s !! h' = Some ch <-> h' = h) /\
  (forall h ch, s_handlers s !! h = Some ch -> ch < s_next_chain s).
Proof.
  intros s. pose proof (reached_inv c cr tm ops) as I. fold s in I. split; [|apply (i_bound _ I)]. intros ch Hc. destruct (i_some _ I ch Hc) as [h Hh]. exists h.
  intros h'. split; [intros H'; by eapply (i_one _ I)|by intros ->].
Qed.
(** Registrations and hand-overs are the only changes: an account gets a chain when it registers a new one, with the next
    identifier, or when the present handler gives it away; an account loses its chain only by giving it away. *)
Theorem C45_changes c cr tm ops o h : let s := reached c cr tm ops in
  s_handlers (step c cr s o) !! h = s_handlers s !! h \/
  exists who x, acts o = Some (who, x) /\
   ((h = who /\ (exists name, registers who x name /\ name <> []) /\ s_handlers s !! h = None /\ s_handlers (step c cr s o) !! h = Some (s_next_chain s)) \/
    (hands_over who x h /\ s_handlers s !! h = None /\ is_Some (s_handlers s !! who) /\ s_handlers (step c cr s o) !! h = s_handlers s !! who) \/
    (h = who /\ exists new, hands_over who x new /\ s_handlers (step c cr s o) !! h = None /\ s_handlers (step c cr s o) !! new = s_handlers s !! h)).
Proof.
  intros s. destruct (acts o) as [[who x]|] eqn:Ea.
  - destruct (rejected_same c cr s o) as [H| ->]; [|by left]. pose proof (accepted_acts _ _ _ _ _ _ H Ea) as E. clear H. generalize dependent (step c cr s o). intros s' E.
    assert (HR : forall name, may_register s who name -> registers who x name -> s_handlers s' = <[who := s_next_chain s]> (s_handlers s) ->
       s_handlers s' !! h = s_handlers s !! h \/ exists who' x', Some (who, x) = Some (who', x') /\
       ((h = who' /\ (exists name, registers who' x' name /\ name <> []) /\ s_handlers s !! h = None /\ s_handlers s' !! h = Some (s_next_chain s)) \/
        (hands_over who' x' h /\ s_handlers s !! h = None /\ is_Some (s_handlers s !! who') /\ s_handlers s' !! h = s_handlers s !! who') \/
        (h = who' /\ exists new, hands_over who' x' new /\ s_handlers s' !! h = None /\ s_handlers s' !! new = s_handlers s !! h))).
    { intros name (Hn & Hnm & _) Hr ->. destruct (decide (h = who)) as [->|Hne]; [|left; by rewrite lookup_insert_ne]. right. exists who, x. split; [done|]. left. split; [done|]. split; [by exists name|]. split; [done|]. apply lookup_insert. }
    assert (HU : forall new ch name, may_hand_over s who new ch name -> hands_over who x new -> s_handlers s' = delete who (<[new := ch]> (s_handlers s)) ->
       s_handlers s' !! h = s_handlers s !! h \/ exists who' x', Some (who, x) = Some (who', x') /\
       ((h = who' /\ (exists name, registers who' x' name /\ name <> []) /\ s_handlers s !! h = None /\ s_handlers s' !! h = Some (s_next_chain s)) \/
        (hands_over who' x' h /\ s_handlers s !! h = None /\ is_Some (s_handlers s !! who') /\ s_handlers s' !! h = s_handlers s !! who') \/
        (h = who' /\ exists new, hands_over who' x' new /\ s_handlers s' !! h = None /\ s_handlers s' !! new = s_handlers s !! h))).
    { intros new ch name (Hh & Hn & _) Hr ->. assert (who <> new) by (intros ->; congruence). destruct (decide (h = who)) as [->|Hne].
      - right. exists who, x. split; [done|]. right. right. split; [done|]. exists new. split; [done|]. split; [apply lookup_delete|]. rewrite lookup_delete_ne, lookup_insert by done. done.
      - rewrite lookup_delete_ne by done. destruct (decide (h = new)) as [->|]; [|left; by rewrite lookup_insert_ne]. right. exists who, x. split; [done|]. right. left. split; [done|]. split; [done|]. split; [by eexists|]. by rewrite lookup_insert. }
    inversion E; subst; try (left; done).
    + eapply HR; [eassumption|by left|done].
    + eapply HR; [eassumption|right; by eexists|done].
    + eapply HU; [eassumption|by left|done].
    + eapply HU; [eassumption|right; by eexists|done].
  - destruct (idle c cr s o Ea) as [ -> | [(ch' & f & -> & ->)|(tm' & -> & ->)]]; by left.
Qed.
(** Chain identifiers are given out once, and the name a chain registered under stays. *)
Theorem C45_names_permanent c cr tm ops more ch name :
  s_data (reached c cr tm ops) !! ch = Some name -> s_data (reached c cr tm (ops ++ more)) !! ch = Some name /\ ch < s_next_chain (reached c cr tm (ops ++ more)).
Proof.
  intros H. assert (G : s_data (reached c cr tm (ops ++ more)) !! ch = Some name); [|split; [exact G|apply (i_data _ (reached_inv _ _ _ _)); by eexists]].
  revert ops H. induction more as [|o more IH]; intros ops H; [by rewrite app_nil_r|]. replace (ops ++ o :: more) with ((ops ++ [o]) ++ more) by by rewrite <- app_assoc.
  apply IH. rewrite reached_snoc. set (s := reached c cr tm ops) in *. pose proof (reached_inv c cr tm ops) as I. fold s in I.
  assert (Hc : ch < s_next_chain s) by (apply (i_data _ I); by eexists). destruct (acts o) as [[who x]|] eqn:Ea.
  - destruct (rejected_same c cr s o) as [Ha| ->]; [|done]. pose proof (accepted_acts _ _ _ _ _ _ Ha Ea) as E. inversion E; subst; try done; unfold registered, add_event; cbn; (rewrite lookup_insert_ne by lia; done).
  - by destruct (idle c cr s o Ea) as [ -> | [(ch' & f & -> & ->)|(tm' & -> & ->)]].
Qed.

(** ** C46: relayed calls *)
(** A relayer can only carry a call that its signer signed over the relayer, this call, and the chain's current nonce; it
    acts as the signer.  When it concerns a chain, the signer is the handler. *)
Theorem C46_needs_signature c cr s r x : accepted c cr s (Relay r x) ->
  exists p, proof_of x = Some p /\ r = pf_relayer p /\ acts (Relay r x) = Some (pf_signer p, x) /\
  match x with
  | SRegister _ h name => h = pf_signer p /\ verify_signature cr p (register_payload r h name) = true
  | SUpdate _ old new => old = pf_signer p /\ exists ch, s_handlers s !! old = Some ch /\ verify_signature cr p (update_payload r old new ch (nonce_of s ch)) = true
  | SSubmit _ h hash oid => h = pf_signer p /\ exists ch, s_handlers s !! h = Some ch /\ verify_signature cr p (submit_payload r h hash ch (nonce_of s ch) oid) = true
  | _ => False
  end.
Proof.
  intros H. pose proof H as H0. apply accepted_relay in H as (p & pl & Hp & -> & Hpl & Hv). exists p. split; [done|]. split; [done|]. assert (Ha : acts (Relay (pf_relayer p) x) = Some (pf_signer p, x)) by (cbn; by rewrite Hp).
  split; [done|]. pose proof (accepted_acts _ _ _ _ _ _ H0 Ha) as E. destruct x; cbn in Hp; try done; injection Hp as ->; cbn in Hpl.
  - injection Hpl as <-. inversion E; subst. done.
  - destruct (s_handlers s !! old) as [ch|] eqn:Eh; [|done]. injection Hpl as <-. inversion E; subst. split; [done|]. by exists ch.
  - destruct (s_handlers s !! handler) as [ch|] eqn:Eh; [|done]. injection Hpl as <-. inversion E; subst. split; [done|]. by exists ch.
Qed.
Local Opaque be_bytes le_bytes compact.
(** The three kinds of signed bytes. *)
Inductive message := MRegister (relayer handler : N) (name : list N) | MUpdate (relayer old new chain nonce : N) | MSubmit (relayer handler hash chain nonce oid : N).
Definition message_bytes (m : message) : list N :=
  match m with MRegister r h n => register_payload r h n | MUpdate r o n ch k => update_payload r o n ch k | MSubmit r h x ch k o => submit_payload r h x ch k o end.
Definition typed_message (m : message) : Prop :=
  match m with
  | MRegister r h n => r < 2 ^ 256 /\ h < 2 ^ 256 /\ N.of_nat (length n) < 2 ^ 32
  | MUpdate r o n ch k => r < 2 ^ 256 /\ o < 2 ^ 256 /\ n < 2 ^ 256 /\ ch < 2 ^ 32 /\ k < 2 ^ 64
  | MSubmit r h x ch k o => r < 2 ^ 256 /\ h < 2 ^ 256 /\ x < 2 ^ 256 /\ ch < 2 ^ 32 /\ k < 2 ^ 64 /\ o < 2 ^ 64
  end.
(** Signed bytes determine the kind of call, the relayer and every argument. *)
Theorem C46_signature_binds m m' : typed_message m -> typed_message m' -> message_bytes m = message_bytes m' -> m = m'.
Proof.
  assert (HB : forall a b y z, a < 2 ^ 256 -> b < 2 ^ 256 -> be_bytes 32 a ++ y = be_bytes 32 b ++ z -> a = b /\ y = z).
  { intros a b y z Ha Hb H. apply app_split in H as [H1 H2]; [|by rewrite !be_bytes_length]. apply be_bytes_inj in H1; done. }
  assert (H4 : forall a b y z, a < 2 ^ 32 -> b < 2 ^ 32 -> le_bytes 4 a ++ y = le_bytes 4 b ++ z -> a = b /\ y = z).
  { intros a b y z Ha Hb H. apply app_split in H as [H1 H2]; [|by rewrite !le_bytes_length]. apply le_bytes_inj in H1; done. }
  assert (H8 : forall a b y z, a < 2 ^ 64 -> b < 2 ^ 64 -> le_bytes 8 a ++ y = le_bytes 8 b ++ z -> a = b /\ y = z).
  { intros a b y z Ha Hb H. apply app_split in H as [H1 H2]; [|by rewrite !le_bytes_length]. apply le_bytes_inj in H1; done. }
  destruct m, m'; cbn [message_bytes typed_message]; unfold register_payload, update_payload, submit_payload; intros T T' E;
    apply scale_bytes_prefix in E as [E1 E]; try done; clear E1.
  - destruct T as (? & ? & ?), T' as (? & ? & ?). apply HB in E as [-> E]; [|done..]. apply HB in E as [-> E]; [|done..].
    rewrite <- (app_nil_r (scale_bytes name)), <- (app_nil_r (scale_bytes name0)) in E. apply scale_bytes_prefix in E as [-> _]; done.
  - destruct T as (? & ? & ? & ? & ?), T' as (? & ? & ? & ? & ?). do 3 (apply HB in E as [-> E]; [|done..]). apply H4 in E as [-> E]; [|done..]. apply le_bytes_inj in E; [by subst|done..].
  - destruct T as (? & ? & ? & ? & ? & ?), T' as (? & ? & ? & ? & ? & ?). do 3 (apply HB in E as [-> E]; [|done..]). apply H4 in E as [-> E]; [|done..]. apply H8 in E as [-> E]; [|done..]. apply le_bytes_inj in E; [by subst|done..].
Qed.
(** *** No replay of hand-overs and submissions *)
Definition typed_call (x : call) : Prop :=
  match x with
  | SUpdate p old new => pf_relayer p < 2 ^ 256 /\ old < 2 ^ 256 /\ new < 2 ^ 256
  | SSubmit p h hash oid => pf_relayer p < 2 ^ 256 /\ h < 2 ^ 256 /\ hash < 2 ^ 256 /\ oid < 2 ^ 64
  | _ => True
  end.
Definition typed_op (o : op) : Prop := match o with Call _ x | Relay _ x => typed_call x | _ => True end.
(** The signed bytes with which a hand-over or submission, relayed or not, is accepted. *)
Definition used (c : config) (cr : crypto) (s : st) (o : op) : option (list N) :=
  match snd (exec c cr o s), acts o with
  | Ok _, Some (_, SUpdate p old new) => payload_now s (SUpdate p old new)
  | Ok _, Some (_, SSubmit p h hash oid) => payload_now s (SSubmit p h hash oid)
  | _, _ => None
  end.
Fixpoint used_payloads (c : config) (cr : crypto) (s : st) (ops : list op) : list (list N) :=
  match ops with [] => [] | o :: r => match used c cr s o with Some pl => [pl] | None => [] end ++ used_payloads c cr (step c cr s o) r end.
Definition low (s : st) (k : N) : Prop := forall ch, nonce_of s ch + k < 2 ^ 64.
Definition GInv (s : st) : Prop := Inv s /\ s_next_chain s <= U32_MAX.
Lemma ginv_step c cr s o : GInv s -> GInv (step c cr s o).
Proof.
  intros [I Hn]. split; [by apply inv_step|]. destruct (acts o) as [[who x]|] eqn:Ea.
  - destruct (rejected_same c cr s o) as [H| ->]; [|done]. pose proof (accepted_acts _ _ _ _ _ _ H Ea) as E. inversion E; subst; try done; match goal with X : may_register _ _ _ |- _ => destruct X as (_ & _ & X); cbn; exact X end.
  - by destruct (idle c cr s o Ea) as [ -> | [(ch' & f & -> & ->)|(tm' & -> & ->)]].
Qed.
(** Nonces never go down; using signed bytes takes the nonce in them. *)
Lemma nonce_bumped s ch k : nonce_of s ch + 1 < 2 ^ 64 -> nonce_of (bumped ch s) k = if bool_decide (k = ch) then nonce_of s ch + 1 else nonce_of s k.
Proof. intros H. unfold bumped, nonce_of in *. cbn. rewrite mget_insert. rewrite N.mod_small by exact H. done. Qed.
Lemma step_nonce c cr s o : GInv s -> low s 1 ->
  (forall k, nonce_of s k <= nonce_of (step c cr s o) k <= nonce_of s k + 1) /\
  (typed_op o -> forall pl, used c cr s o = Some pl -> exists m ch, typed_message m /\ pl = message_bytes m /\ nonce_of (step c cr s o) ch = nonce_of s ch + 1 /\
     ((exists r a b, m = MUpdate r a b ch (nonce_of s ch)) \/ exists r a b o', m = MSubmit r a b ch (nonce_of s ch) o')).
Proof.
  intros [I Hn] HL. unfold used. destruct (acts o) as [[who x]|] eqn:Ea.
  - destruct (rejected_same c cr s o) as [H|E].
    + pose proof (accepted_acts _ _ _ _ _ _ H Ea) as E. unfold accepted in H. rewrite H.
      assert (Ho : typed_op o -> typed_call x). { destruct o; cbn in Ea |- *; try done; [by injection Ea as _ ->|]. destruct (proof_of x0); [|done]. by injection Ea as _ ->. }
      assert (HN : forall ch s1, nonce_of s1 ch = nonce_of s ch -> (forall k, nonce_of s1 k = nonce_of s k) -> (forall k, nonce_of s k <= nonce_of (bumped ch s1) k <= nonce_of s k + 1) /\ nonce_of (bumped ch s1) ch = nonce_of s ch + 1).
      { intros ch s1 E1 E2. specialize (HL ch). assert (nonce_of s1 ch + 1 < 2 ^ 64) by lia. split; [intros k|]; rewrite nonce_bumped by done; [|by rewrite bool_decide_true, E1]. case_bool_decide; [subst; lia|]. rewrite E2. lia. }
      assert (Hch : forall h ch, s_handlers s !! h = Some ch -> ch < 2 ^ 32 /\ nonce_of s ch < 2 ^ 64). { intros h ch Hh. apply (i_bound s I) in Hh. split; [unfold U32_MAX in Hn; lia|apply (i_nonce_small s I)]. }
      inversion E; subst; (split; [|try done]); try (intros k; unfold handed_over, add_event, nonce_of; cbn; lia).
      * intros k. unfold registered, add_event, nonce_of. cbn. rewrite mget_insert. case_bool_decide; [|lia]. subst. pose proof (i_nonce s I (s_next_chain s)). unfold nonce_of in *. lia.
      * intros k. unfold registered, add_event, nonce_of. cbn. rewrite mget_insert. case_bool_decide; [|lia]. subst. pose proof (i_nonce s I (s_next_chain s)). unfold nonce_of in *. lia.
      * apply HN; done.
      * intros Ht pl. apply Ho in Ht as (T1 & T2 & T3). destruct H1 as (Hh & _). cbn [payload_now]. rewrite Hh. intros [= <-]. destruct (Hch _ _ Hh).
        exists (MUpdate (pf_relayer p) who new ch (nonce_of s ch)), ch. split; [done|]. split; [done|]. split; [by apply HN|]. left. by eexists _, _, _.
      * unfold anchored. change (forall k, nonce_of s k <= nonce_of (bumped ch (add_event (CheckpointSubmitted who ch (next_cp_of s ch) hash) (s <| s_next_cp := <[ch := next_cp_of s ch + 1]> (s_next_cp s) |> <| s_cps := <[(ch, next_cp_of s ch) := (hash, o0)]> (s_cps s) |> <| s_origins := <[(ch, o0) := next_cp_of s ch]> (s_origins s) |>))) k <= nonce_of s k + 1). apply HN; done.
      * unfold anchored. change (forall k, nonce_of s k <= nonce_of (bumped ch (add_event (CheckpointSubmitted who ch (next_cp_of s ch) hash) (s <| s_next_cp := <[ch := next_cp_of s ch + 1]> (s_next_cp s) |> <| s_cps := <[(ch, next_cp_of s ch) := (hash, o0)]> (s_cps s) |> <| s_origins := <[(ch, o0) := next_cp_of s ch]> (s_origins s) |>))) k <= nonce_of s k + 1). apply HN; done.
      * intros Ht pl. apply Ho in Ht as (T1 & T2 & T3 & T4). destruct H1 as (Hh & _). cbn [payload_now]. rewrite Hh. intros [= <-]. destruct (Hch _ _ Hh).
        exists (MSubmit (pf_relayer p) who hash ch (nonce_of s ch) o0), ch. split; [done|]. split; [done|]. split; [|right; by eexists _, _, _, _].
        change (nonce_of (bumped ch (add_event (CheckpointSubmitted who ch (next_cp_of s ch) hash) (s <| s_next_cp := <[ch := next_cp_of s ch + 1]> (s_next_cp s) |> <| s_cps := <[(ch, next_cp_of s ch) := (hash, o0)]> (s_cps s) |> <| s_origins := <[(ch, o0) := next_cp_of s ch]> (s_origins s) |>))) ch = nonce_of s ch + 1). apply HN; done.
    + rewrite E. split; [intros k; lia|]. intros _ pl. assert (Hr : snd (exec c cr o s) <> Ok tt \/ snd (exec c cr o s) = Ok tt) by (destruct (snd (exec c cr o s)) as [[]|]; [by right|by left]).
      destruct Hr as [Hr|Hr]; [destruct (snd (exec c cr o s)) as [[]|]; done|]. pose proof (accepted_acts _ _ _ _ _ _ Hr Ea) as F. rewrite E in F. rewrite Hr.
      destruct x; try done; exfalso; inversion F; subst;
      match goal with X : _ = s |- _ => assert (Y : nonce_of s ch = nonce_of s ch + 1) by (rewrite <- X at 1; 
        match type of X with
        | bumped _ ?s1 = _ => rewrite (nonce_bumped s1 ch ch); [by rewrite bool_decide_true|specialize (HL ch); exact HL]
        | anchored _ _ _ _ _ _ _ = _ => unfold anchored, add_event, bumped, nonce_of; cbn; rewrite mget_insert, bool_decide_true by done; apply N.mod_small; specialize (HL ch); exact HL end); lia end.
  - assert (Hu : match snd (exec c cr o s) with Ok _ => @None (list N) | Err _ => None end = None) by by destruct (snd _). split; [|intros _ pl; by rewrite Hu].
    destruct (idle c cr s o Ea) as [ -> | [(ch' & f & -> & ->)|(tm' & -> & ->)]]; intros k; unfold add_event, nonce_of; cbn; lia.
Qed.
Lemma low_le s k k' : low s k -> k' <= k -> low s k'. Proof. intros H ? ch. specialize (H ch). lia. Qed.
Lemma later_used c cr ops : forall s pl, GInv s -> low s (N.of_nat (length ops)) -> Forall typed_op ops -> pl ∈ used_payloads c cr s ops ->
  exists m ch n, typed_message m /\ pl = message_bytes m /\ nonce_of s ch <= n /\ ((exists r a b, m = MUpdate r a b ch n) \/ exists r a b o', m = MSubmit r a b ch n o').
Proof.
  induction ops as [|o ops IH]; intros s pl G HL Ht Hin; cbn [used_payloads] in Hin; [by apply elem_of_nil in Hin|]. apply Forall_cons in Ht as [Ho Ht].
  destruct (step_nonce c cr s o G) as [S1 S2]; [eapply low_le; [exact HL|cbn [length]; lia]|]. apply elem_of_app in Hin as [Hin|Hin].
  - destruct (used c cr s o) as [pl'|] eqn:E; [|by apply elem_of_nil in Hin]. apply elem_of_list_singleton in Hin as ->. destruct (S2 Ho _ eq_refl) as (m & ch & T & -> & _ & Hm). exists m, ch, (nonce_of s ch). split; [done|]. split; [done|]. split; [lia|done].
  - apply IH in Hin as (m & ch & n & T & -> & Hle & Hm); [|by apply ginv_step| |done]; [|intros ch; specialize (S1 ch); specialize (HL ch); cbn [length] in HL; lia].
    exists m, ch, n. split; [done|]. split; [done|]. split; [specialize (S1 ch); lia|done].
Qed.
Lemma used_nodup c cr ops : forall s, GInv s -> low s (N.of_nat (length ops)) -> Forall typed_op ops -> NoDup (used_payloads c cr s ops).
Proof.
  induction ops as [|o ops IH]; intros s G HL Ht; [constructor|]. cbn [used_payloads]. apply Forall_cons in Ht as [Ho Ht].
  destruct (step_nonce c cr s o G) as [S1 S2]; [eapply low_le; [exact HL|cbn [length]; lia]|].
  assert (HL' : low (step c cr s o) (N.of_nat (length ops))) by (intros ch; specialize (S1 ch); specialize (HL ch); cbn [length] in HL; lia).
  specialize (IH (step c cr s o) (ginv_step _ _ _ _ G) HL' Ht). destruct (used c cr s o) as [pl|] eqn:E; [|exact IH]. cbn [app]. constructor; [|exact IH]. intros Hin.
  destruct (S2 Ho _ eq_refl) as (m & ch & T & -> & Hup & Hm). apply later_used in Hin as (m' & ch' & n & T' & Eb & Hle & Hm'); [|by apply ginv_step|done..].
  apply C46_signature_binds in Eb; [|done..]. subst m'. destruct Hm as [(r & a & b & ->)|(r & a & b & o' & ->)], Hm' as [(r' & a' & b' & Em)|(r' & a' & b' & o'' & Em)]; try discriminate Em; injection Em; intros; subst; lia.
Qed.
(** In a history of fewer than 2^64 operations no signed hand-over or submission takes effect twice. *)
Theorem C46_no_replay c cr tm ops : Forall typed_op ops -> N.of_nat (length ops) < 2 ^ 64 -> NoDup (used_payloads c cr (genesis tm) ops).
Proof.
  intros Ht Hb. apply used_nodup; [|intros ch; unfold nonce_of, mget; cbn; rewrite lookup_empty; lia|done]. split; [apply inv_genesis|done].
Qed.
(** Registrations carry no nonce: once a handler has handed its chain over, whoever relayed its registration can submit
    it again, and the old handler gets a second chain it did not ask for (lib.rs:618-624). *)
Theorem C46_registration_replay_refuted c cr tm p name new : let h := pf_signer p in let replayed := Relay (pf_relayer p) (SRegister p h name) in
  name <> [] -> new <> h -> verify_signature cr p (register_payload (pf_relayer p) h name) = true ->
  let s := reached c cr tm [replayed; Call h (Update new); replayed] in
  s_handlers s !! new = Some 0 /\ s_handlers s !! h = Some 1 /\ s_data s !! 1 = Some name.
Proof.
  intros h replayed Hn Hne Hv. subst h.
  assert (HR : forall s, s_handlers s !! pf_signer p = None -> s_next_chain s + 1 <= U32_MAX -> step c cr s replayed = registered (pf_signer p) name s).
  { intros s Hs Hb. unfold step, exec, dispatch, replayed. cbn [body]. unfold relay, mbind_, get_st, some_or, ensure. cbn [proof_of payload_now]. unfold mret_. rewrite N.eqb_refl, Hv.
    unfold call_body, mbind_, get_st, ensure. rewrite N.eqb_refl, Hv. unfold do_register, mbind_, get_st, ensure, modify, emit. rewrite Hs. destruct name as [|b l]; [done|].
    assert (Hl : (s_next_chain s + 1 <=? U32_MAX) = true) by by apply N.leb_le. rewrite Hl. done. }
  assert (HU : forall s nm, s_handlers s !! pf_signer p = Some 0 -> s_handlers s !! new = None -> s_data s !! 0 = Some nm -> step c cr s (Call (pf_signer p) (Update new)) = handed_over (pf_signer p) new 0 nm s).
  { intros s nm E1 E2 E3. unfold step, exec, dispatch. cbn [body]. unfold call_body, mbind_, get_st, some_or, ensure. rewrite E2, E1. unfold mret_. unfold do_update, mbind_, get_st, ensure, some_or, modify, emit, mret_. rewrite E2, E1, E3. done. }
  unfold reached, run. cbn [fold_left]. rewrite (HR (genesis tm)); [|apply lookup_empty|by vm_compute]. rewrite (HU _ name).
  - rewrite HR; [|cbn; by rewrite lookup_delete|by vm_compute]. cbn. split; [|split]; [|by rewrite lookup_insert|by rewrite lookup_insert]. rewrite lookup_insert_ne, lookup_delete_ne, lookup_insert by done. done.
  - cbn. by rewrite lookup_insert.
  - cbn. rewrite lookup_insert_ne by done. by rewrite lookup_empty.
  - cbn. by rewrite lookup_insert.
Qed.

(** ** C47: fees *)
#[local] Existing Instance TokenModel.eta_st.
(** An accepted submission moves exactly the chain's current fee from the handler to the treasury: no other balance, no
    token and no issuance changes. *)
Theorem C47_submission_pays c cr s o who x hash oid : accepted c cr s o -> acts o = Some (who, x) -> submits who x hash oid ->
  exists ch, s_handlers s !! who = Some ch /\
  let fee := fee_of c s ch in let t := s_tm s in let t' := s_tm (step c cr s o) in let treasury := TokenModel.c_treasury (c_tm c) in
  (who <> treasury -> fee <= TokenModel.free_of t who) /\
  (forall a, TokenModel.free_of t' a + (if a =? who then fee else 0) = TokenModel.free_of t a + (if a =? treasury then fee else 0)) /\
  t' = t <| TokenModel.s_free := TokenModel.s_free t' |> /\
  CheckpointFeeCharged who ch fee ∈ s_events (step c cr s o).
Proof.
  intros Ha Hx Hs. pose proof (accepted_acts _ _ _ _ _ _ Ha Hx) as E. generalize dependent (step c cr s o). intros s' E.
  assert (HA : forall ch tm', may_anchor c s who ch oid tm' -> s' = anchored c who hash ch oid tm' s -> exists ch, s_handlers s !! who = Some ch /\
    let fee := fee_of c s ch in let t := s_tm s in let t' := s_tm s' in let treasury := TokenModel.c_treasury (c_tm c) in
    (who <> treasury -> fee <= TokenModel.free_of t who) /\
    (forall a, TokenModel.free_of t' a + (if a =? who then fee else 0) = TokenModel.free_of t a + (if a =? treasury then fee else 0)) /\
    t' = t <| TokenModel.s_free := TokenModel.s_free t' |> /\ CheckpointFeeCharged who ch fee ∈ s_events s').
  { intros ch tm' (Hh & _ & _ & Hp) ->. exists ch. split; [done|]. cbv zeta. unfold anchored at 1. cbn [s_tm add_event]. change (s_tm (anchored c who hash ch oid tm' s)) with tm'.
    unfold TokenModel.pay_treasury in Hp. minv Hp. apply TokenProofs.settle_transfer_ok in Hp. set (fee := fee_of c s ch) in *. set (t := s_tm s) in *.
    assert (Hev : CheckpointFeeCharged who ch fee ∈ s_events (anchored c who hash ch oid tm' s)) by (left).
    inversion Hp as [E0 E1 E2|E0 E1 E2 E3 E4 E5|E0|E0]; try done.
    - subst tm'. split; [destruct E1 as [E1|E1]; [rewrite E1; lia|done]|]. split; [|split; [by destruct t|done]]. intros a. destruct E1 as [E1| <-]; [rewrite E1; by destruct (a =? _), (a =? _)|done].
    - split; [done|]. split; [|split; [by destruct t|done]]. intros a. unfold TokenModel.free_of. cbn. rewrite !mget_insert. unfold TokenModel.free_of in *.
      destruct (N.eqb_spec a who) as [->|Hw]; [rewrite bool_decide_false, bool_decide_true by done; destruct (N.eqb_spec who (TokenModel.c_treasury (c_tm c))); [done|lia]|].
      destruct (N.eqb_spec a (TokenModel.c_treasury (c_tm c))) as [->|Ht]; [rewrite bool_decide_true by done; lia|]. rewrite !bool_decide_false by done. lia. }
  destruct Hs as [ -> |[p ->]]; inversion E; subst; eapply HA; eauto.
Qed.
(** Nothing else the pallet does moves money. *)
Theorem C47_nothing_else_moves_money c cr s o : match o with Elsewhere _ => False | _ => True end ->
  (forall who x hash oid, accepted c cr s o -> acts o = Some (who, x) -> ~ submits who x hash oid) -> s_tm (step c cr s o) = s_tm s.
Proof.
  intros Ho Hn. destruct (acts o) as [[who x]|] eqn:Ea.
  - destruct (rejected_same c cr s o) as [H| ->]; [|done]. pose proof (accepted_acts _ _ _ _ _ _ H Ea) as E. specialize (Hn who x). inversion E; subst; try done.
    + exfalso. eapply Hn; [done|done|by left].
    + exfalso. eapply Hn; [done|done|right; by eexists].
  - by destruct (idle c cr s o Ea) as [ -> | [(ch' & f & -> & ->)|(tm' & -> & ->)]].
Qed.
(** The fee of a chain is what root last set for it, else the configured default. *)
Fixpoint last_fee (c : config) (ch : N) (ops : list op) : N :=
  match ops with [] => c_fee c | SetFee ch' f :: r => if ch =? ch' then f else last_fee c ch r | _ :: r => last_fee c ch r end.
Theorem C47_fee_is_roots c cr tm ops ch : fee_of c (reached c cr tm ops) ch = last_fee c ch (rev ops).
Proof.
  induction ops as [|o ops IH] using rev_ind; [cbn; unfold fee_of, mget; cbn; by rewrite lookup_empty|]. rewrite reached_snoc, rev_app_distr. cbn [rev app last_fee]. set (s := reached c cr tm ops) in *.
  destruct (acts o) as [[who x]|] eqn:Ea.
  - assert (E : fee_of c (step c cr s o) ch = fee_of c s ch); [|rewrite E, IH; by destruct o].
    destruct (rejected_same c cr s o) as [H| ->]; [|done]. pose proof (accepted_acts _ _ _ _ _ _ H Ea) as E. by inversion E.
  - destruct o as [w y|r y|ch' f|tm']; try done.
    + destruct (idle c cr s (Relay r y) Ea) as [ -> | [(? & ? & ? & ?)|(? & ? & ?)]]; done.
    + unfold step, exec. cbn. unfold fee_of. cbn. rewrite mget_insert. destruct (N.eqb_spec ch ch') as [->|]; [by rewrite bool_decide_true|rewrite bool_decide_false by done]. exact IH.
Qed.

(** ** Example: two chains, a hand-over, three checkpoints. *)
Definition ex_tm : TokenModel.st := TokenModel.mkSt 0 0 (<[1 := 100]> (<[3 := 50]> ∅)) ∅ 150 ∅ ∅ 7 ∅ ∅ ∅ 0 0 false ∅ ∅ true true ([], true) [].
Definition ex_c : config := mkConfig 2 (TokenModel.mkConfig 9 0 8).
Definition ex_cr : crypto := mkCrypto (fun a m sg => bool_decide (sg = be_value m + a)) (fun _ _ => None).
Definition ex_sign (who relayer : N) (m : list N) : proof := mkProof who relayer (SigSr25519 (be_value m + who)).
Definition ex_ops : list op :=
  [Call 1 (Register [65]); Relay 5 (SRegister (ex_sign 3 5 (register_payload 5 3 [66])) 3 [66]); SetFee 1 4;
   Call 1 (Submit 11 100); Relay 5 (SSubmit (ex_sign 3 5 (submit_payload 5 3 22 1 0 7)) 3 22 7);
   Relay 5 (SUpdate (ex_sign 1 5 (update_payload 5 1 2 0 1)) 1 2); Elsewhere (ex_tm <| TokenModel.s_free := <[2 := 10]> ∅ |>);
   Call 2 (Submit 12 101);
   (* rejected: not a handler any more; number used before; replayed *)
   Call 1 (Submit 13 102); Call 2 (Submit 12 101); Relay 5 (SSubmit (ex_sign 3 5 (submit_payload 5 3 22 1 0 7)) 3 22 7)].
Example C44_example : let s := reached ex_c ex_cr ex_tm ex_ops in
  Forall typed_op ex_ops /\ s_cps s !! (0, 0) = Some (11, 100) /\ s_cps s !! (0, 1) = Some (12, 101) /\ s_cps s !! (1, 0) = Some (22, 7) /\ next_cp_of s 0 = 2 /\ next_cp_of s 1 = 1 /\ s_handlers s !! 2 = Some 0 /\ s_handlers s !! 3 = Some 1 /\ s_handlers s !! 1 = None /\ TokenModel.free_of (s_tm s) 2 = 8 /\ TokenModel.free_of (s_tm s) 9 = 2 /\ length (used_payloads ex_c ex_cr (genesis ex_tm) ex_ops) = 2%nat /\ let s5 := reached ex_c ex_cr ex_tm (take 5 ex_ops) in TokenModel.free_of (s_tm s5) 1 = 98 /\ TokenModel.free_of (s_tm s5) 3 = 46 /\ TokenModel.free_of (s_tm s5) 9 = 6.
Proof. split; [repeat constructor|]. vm_compute. repeat split. Qed.
