(** What accepted calls of the ethereum-events pallet do, and what every reachable state satisfies. *)
From Verif Require Import Base BaseLemmas AvnModel CodecModel SigModel LogModel.
Lemma mget_insert {K} `{Countable K} {V} (d : V) (k k' : K) (v : V) (m : gmap K V) : mget d k (<[k' := v]> m) = if bool_decide (k = k') then v else mget d k m.
Proof. unfold mget. case_bool_decide as E; [by subst; rewrite lookup_insert|by rewrite lookup_insert_ne]. Qed.
#[global] Arguments add_processed : simpl never.
#[global] Arguments remove_first : simpl never.
#[global] Arguments remove_last : simpl never.
#[global] Arguments find_last : simpl never.
#[global] Arguments challenge_successful : simpl never.
#[global] Arguments known : simpl never.
#[global] Arguments signed_by : simpl never.
#[global] Arguments verify_signature : simpl never.
#[global] Arguments add_payload : simpl never.

Notation uid := (fun e : event_id * N * N => e.1.1).
Notation pid := (fun e : check * N * N => ck_id e.1.1).
Definition by_id (id : event_id) (e : check * N * N) : bool := bool_decide (ck_id e.1.1 = id).

(** *** Effects *)
Definition added (kind tx who : N) (s : st) : st :=
  mkSt (s_ingress s + 1) (s_unchecked s ++ [((kind, tx), s_ingress s + 1, s_block s)]) (s_pending s) (s_processed s) (s_challenges s) (s_period s)
    (s_contracts s) (s_nonces s) (s_validators s) (s_block s) (s_delivered s) (EthereumEventAdded (kind, tx) who :: s_events s).
Definition may_add (c : config) (s : st) (kind tx : N) : Prop :=
  c_kind c kind = true /\ is_primary_kind kind = true /\ tx <> 0 /\ known s (kind, tx) = false /\ N.of_nat (length (s_unchecked s)) < MAX_UNCHECKED.
Definition with_nonce (who n : N) (s : st) : st := s <| s_nonces := <[who := n]> (s_nonces s) |>.
Definition stored (c : config) (s : st) (r : check) : check :=
  mkCheck (ck_id r) (ck_data r) (ck_result r) (ck_by r) (ck_at r) (s_block s + s_period s) (N.of_nat (length (s_validators s)) / c_quorum c).
Definition checked (c : config) (r : check) (counter : N) (s : st) : st :=
  mkSt (s_ingress s) (remove_first (unchecked_is (ck_id r) counter) (s_unchecked s))
    (if N.of_nat (length (s_pending s)) <? MAX_PENDING then s_pending s ++ [(stored c s r, counter, s_block s)] else s_pending s)
    (s_processed s) (s_challenges s) (s_period s) (s_contracts s) (s_nonces s) (s_validators s) (s_block s) (s_delivered s)
    (EventValidated (ck_id r) (ck_result r) (ck_by r) :: s_events s).
Definition may_check (c : config) (s : st) (r : check) (counter : N) (v : validator) (sig : N) : Prop :=
  existsb (unchecked_is (ck_id r) counter) (s_unchecked s) = true /\ c_data_ok c (ck_data r) = true /\
  primary_for_block (s_validators s) (ck_at r) = Ok (ck_by r) /\ v_account v = ck_by r /\
  is_validator (s_validators s) (ck_by r) = true /\ c_verify c (v_key v) (MCheck r counter) sig = true /\ s_block s + s_period s <= U32_MAX.
Definition challenged (ch : challenge) (s : st) : st :=
  mkSt (s_ingress s) (s_unchecked s) (s_pending s) (s_processed s)
    (if N.of_nat (length (challengers s (ch_id ch))) <? MAX_CHALLENGES
     then <[ch_id ch := challengers s (ch_id ch) ++ [ch_by ch]]> (s_challenges s) else s_challenges s)
    (s_period s) (s_contracts s) (s_nonces s) (s_validators s) (s_block s) (s_delivered s) (EventChallenged (ch_id ch) (ch_by ch) (ch_reason ch) :: s_events s).
Definition may_challenge (c : config) (s : st) (ch : challenge) (counter : N) (v : validator) (sig : N) (e : check * N * N) : Prop :=
  find_last (pending_is (ch_id ch) counter) (s_pending s) = Some e /\ v_account v = ch_by ch /\ is_validator (s_validators s) (ch_by ch) = true /\
  c_verify c (v_key v) (MChallenge ch counter) sig = true /\ ck_by e.1.1 <> ch_by ch /\ ch_by ch ∉ challengers s (ch_id ch).
Definition delivers (c : config) (s : st) (r : check) : bool :=
  bool_decide (ck_result r = ROk) && negb (challenge_successful c s r) && negb (is_processed s (ck_id r).2).
Definition again (c : config) (s : st) (r : check) : bool :=
  bool_decide (ck_result r = RInvalid) || (challenge_successful c s r && negb (is_processed s (ck_id r).2)).
Definition process_events (c : config) (s : st) (r : check) (who : N) (handled : bool) : list event :=
  let id := ck_id r in let ok := challenge_successful c s r in
  (if delivers c s r && handled then EventAccepted id else EventRejected id (ck_result r) ok) ::
  (if ok then [OffenceReported true [ck_by r]; ChallengeSucceeded id (ck_result r)]
   else match challengers s id with [] => [] | l => [OffenceReported false l] end) ++
  [EventProcessed id who (negb (is_processed s id.2) && negb ok)].
Definition processed (c : config) (r : check) (who : N) (handled : bool) (s : st) : st :=
  let id := ck_id r in
  mkSt (s_ingress s) (s_unchecked s) (remove_last (by_id id) (s_pending s))
    (if again c s r then s_processed s else s_processed (add_processed id true s))
    (if challenge_successful c s r then s_challenges s else delete id (s_challenges s))
    (s_period s) (s_contracts s) (s_nonces s) (s_validators s) (s_block s)
    (if delivers c s r then (id, ck_data r) :: s_delivered s else s_delivered s)
    (process_events c s r who handled ++ s_events s).
Definition may_process (c : config) (s : st) (id : event_id) (counter : N) (v : validator) (sig : N) (e : check * N * N) : Prop :=
  existsb (pending_is id counter) (s_pending s) = true /\ find_last (by_id id) (s_pending s) = Some e /\ ck_id e.1.1 = id /\
  is_validator (s_validators s) (v_account v) = true /\ c_verify c (v_key v) (MProcess id counter) sig = true /\ ck_ready e.1.1 < s_block s.

Inductive effect (c : config) (s : st) : op -> st -> Prop :=
| EAdd who k tx : may_add c s k tx -> effect c s (AddLog who k tx) (added k tx who s)
| ESigned p k tx : may_add c s k tx -> verify_signature (c_crypto c) p (add_payload (pf_relayer p) k tx (nonce_of s (pf_signer p))) = true ->
    effect c s (SignedAddLog (pf_signer p) p k tx) (added k tx (pf_signer p) (with_nonce (pf_signer p) ((nonce_of s (pf_signer p) + 1) mod 2 ^ 64) s))
| ECheck r n v sig : may_check c s r n v sig -> effect c s (SubmitCheck r n v sig) (checked c r n s)
| EChallenge ch n v sig e : may_challenge c s ch n v sig e -> effect c s (ChallengeEvent ch n v sig) (challenged ch s)
| EProcess id n v sig h e : may_process c s id n v sig e -> effect c s (ProcessEvent id n v sig h) (processed c e.1.1 (v_account v) h s)
| EContract a : a <> 0 -> effect c s (InsertNftContract true a) (s <| s_contracts := a :: s_contracts s |>)
| EPeriod n : MIN_PERIOD <= n -> effect c s (SetPeriod true n) (s <| s_period := n |> <| s_events := EventChallengePeriodUpdated n :: s_events s |>)
| EBridge k tx a : effect c s (BridgeProcessed k tx a) (add_processed (k, tx) a s)
| EBlock vs m : effect c s (NewBlock vs m) (s <| s_validators := vs |> <| s_block := s_block s + 1 + m |>).

Lemma find_some_existsb {A} (f : A -> bool) l : List.find f l <> None <-> existsb f l = true.
Proof. induction l as [|x l IH]; cbn; [done|]. destruct (f x) eqn:E; cbn; [done|exact IH]. Qed.
Lemma existsb_rev {A} (f : A -> bool) l : existsb f (rev l) = existsb f l.
Proof. apply eq_true_iff_eq. rewrite !existsb_exists. by setoid_rewrite <- in_rev. Qed.
Lemma find_last_some {A} (f : A -> bool) l x : find_last f l = Some x -> x ∈ l /\ f x = true.
Proof. unfold find_last. intros H. apply find_some in H as [H1 H2]. split; [|done]. apply elem_of_list_In. by apply in_rev. Qed.
Lemma find_last_exists {A} (f : A -> bool) l : existsb f l = true <-> exists x, find_last f l = Some x.
Proof.
  rewrite <- (existsb_rev f l), <- find_some_existsb. unfold find_last. destruct (List.find f (rev l)); split; try done; eauto. by intros [? ?].
Qed.
Lemma memN_false x l : negb (memN x l) = true <-> x ∉ l.
Proof.
  unfold memN. rewrite negb_true_iff, <- not_true_iff_false, existsb_exists. setoid_rewrite N.eqb_eq. split; intros H1 H2; apply H1.
  - exists x. split; [by apply elem_of_list_In|done].
  - destruct H2 as (y & Hy & ->). by apply elem_of_list_In.
Qed.

Lemma add_event_ok c k tx who s s' : add_event c k tx who s = (s', Ok tt) ->
  c_kind c k = true /\ is_primary_kind k = true /\ known s (k, tx) = false /\ N.of_nat (length (s_unchecked s)) < MAX_UNCHECKED /\ s' = added k tx who s.
Proof.
  unfold add_event, emit. intros H. minv H. split; [done|]. split; [done|]. split; [by apply negb_true_iff|]. split; [by apply N.ltb_lt|].
  by match goal with |- context [s_ingress ?x] => destruct x end.
Qed.
Lemma add_processed_shape id a s : exists m, add_processed id a s = s <| s_processed := m |>.
Proof. unfold add_processed. repeat case_match; try by eexists. exists (s_processed s). by destruct s. Qed.
Lemma settle_ok c r who h s : settle_event c (ck_id r) r who h s = (processed c r who h s, Ok tt).
Proof.
  unfold settle_event, processed, process_events, again, delivers, emit, mbind_, get_st, modify, mret_. cbv beta iota zeta.
  destruct (add_processed_shape (ck_id r) true s) as [m Hm].
  destruct (challenge_successful c s r), (challengers s (ck_id r)), (bool_decide (ck_result r = RInvalid)), (is_processed s (ck_id r).2), (bool_decide (ck_result r = ROk)), h;
    cbn [negb andb orb app]; rewrite ?Hm; clear Hm; by destruct s.
Qed.
Lemma effect_ok c s o s' : op_body c o s = (s', Ok tt) -> effect c s o s'.
Proof.
  destruct o; cbn [op_body]; intros H.
  - unfold add_log in H. minv H. apply add_event_ok in H as (?&?&?&?& ->). constructor. repeat split; try done. intros ->. done.
  - unfold signed_add_log in H. minv H. match goal with X : (who =? _) = true |- _ => apply N.eqb_eq in X; subst end.
    apply add_event_ok in H as (?&?&?&?& ->). constructor; [|done]. repeat split; try done. intros ->. done.
  - unfold submit_check, validate_check, emit in H. minv H.
    repeat match goal with X : (_ =? _) = true |- _ => apply N.eqb_eq in X end. subst.
    match goal with X : signed_by _ _ _ _ _ = true |- _ => unfold signed_by in X; apply andb_true_iff in X as [? ?] end.
    match goal with X : checked_add _ _ _ = Some _ |- _ => unfold checked_add in X; case_match eqn:Hle; [|done]; apply N.leb_le in Hle; injection X as <- end.
    match goal with |- effect _ ?s _ ?s2 => replace s2 with (checked c r counter s) end.
    { constructor. repeat split; try done. }
    unfold checked. match goal with |- context [set _ _ (if ?b then _ else _)] => destruct b end; by match goal with |- context [s_ingress ?x] => destruct x end.
  - unfold challenge_event, emit in H. minv H.
    repeat match goal with X : (_ =? _) = true |- _ => apply N.eqb_eq in X end.
    match goal with X : signed_by _ _ _ _ _ = true |- _ => unfold signed_by in X; apply andb_true_iff in X as [? ?] end.
    match goal with X : negb (memN _ _) = true |- _ => apply memN_false in X end.
    match goal with X : negb (_ =? _) = true |- _ => apply negb_true_iff, N.eqb_neq in X end.
    match goal with |- effect _ ?s _ ?s2 => replace s2 with (challenged ch s) end.
    { econstructor. repeat split; try done. }
    unfold challenged. match goal with |- context [set _ _ (if ?b then _ else _)] => destruct b end; by match goal with |- context [s_ingress ?x] => destruct x end.
  - unfold process_event, emit in H. minv H.
    match goal with X : find_last _ _ = Some ?x |- _ => pose proof (find_last_some _ _ _ X) as [_ Hid]; apply bool_decide_eq_true in Hid; rename X into Hf end.
    match goal with X : signed_by _ _ _ _ _ = true |- _ => unfold signed_by in X; apply andb_true_iff in X as [? ?] end.
    match goal with X : (_ <? _) = true |- _ => apply N.ltb_lt in X end.
    subst id. rewrite settle_ok in H. injection H as <-. econstructor. repeat split; done.
  - unfold insert_contract in H. minv H. constructor. by intros ->.
  - unfold set_period, emit in H. minv H. apply (EPeriod c s n). by apply N.leb_le.
  - minv H. constructor.
  - minv H. constructor.
Qed.
(** Conversely, nothing else is required. *)
Ltac go H := rewrite H; cbv beta iota; cbn [negb andb some_or lift_res]; unfold mret_; cbv beta iota.
Lemma ok_effect c s o s' : effect c s o s' -> op_body c o s = (s', Ok tt).
Proof.
  intros E. destruct E; cbn [op_body].
  - match goal with X : may_add _ _ _ _ |- _ => destruct X as (H1 & H2 & H3 & H4 & H5) end.
    unfold add_log, add_event, emit, mbind_, ensure, get_st, modify. apply N.eqb_neq in H3. apply N.ltb_lt in H5. go H3. go H1. go H2. go H4. go H5. by destruct s.
  - match goal with X : may_add _ _ _ _ |- _ => destruct X as (H1 & H2 & H3 & H4 & H5) end.
    unfold signed_add_log, add_event, emit, mbind_, ensure, gets, get_st, modify. apply N.eqb_neq in H3. apply N.ltb_lt in H5. go (N.eqb_refl (pf_signer p)). go H3.
    match goal with X : verify_signature _ _ _ = true |- _ => go X end. go H1. go H2.
    match goal with |- context [known ?x _] => change (known x (k, tx)) with (known s (k, tx)); change (s_unchecked x) with (s_unchecked s) end. go H4. go H5. by destruct s.
  - match goal with X : may_check _ _ _ _ _ _ |- _ => destruct X as (H1 & H2 & H3 & H4 & H5 & H6 & H7) end.
    unfold submit_check, validate_check, emit, mbind_, ensure, get_st, modify, signed_by. go H1. go H2. go H3. go (N.eqb_refl (ck_by r)). rewrite H4. go (N.eqb_refl (ck_by r)). rewrite H5. go H6. go H5. go H1.
    unfold checked_add. apply N.leb_le in H7. go H7. unfold checked. destruct (N.of_nat (length (s_pending s)) <? MAX_PENDING); by destruct s.
  - match goal with X : may_challenge _ _ _ _ _ _ _ |- _ => destruct X as (H1 & H2 & H3 & H4 & H5 & H6) end.
    unfold challenge_event, emit, mbind_, ensure, get_st, modify, signed_by. rewrite (proj2 (find_last_exists _ _)) by eauto. cbv beta iota. rewrite H2. go (N.eqb_refl (ch_by ch)). rewrite H3. go H4. go H1.
    apply N.eqb_neq in H5. go H5. rewrite (proj2 (memN_false _ _)) by done. cbv beta iota. unfold challenged. destruct (_ <? MAX_CHALLENGES); by destruct s.
  - match goal with X : may_process _ _ _ _ _ _ _ |- _ => destruct X as (H1 & H2 & H3 & H4 & H5 & H6) end.
    unfold process_event, mbind_, ensure, get_st, signed_by. go H1. rewrite H4. go H5. unfold by_id in H2. go H2. apply N.ltb_lt in H6. go H6.
    subst id. apply settle_ok.
  - unfold insert_contract, mbind_, ensure, modify. match goal with X : _ <> 0 |- _ => apply N.eqb_neq in X; rewrite X end. done.
  - unfold set_period, emit, mbind_, ensure, modify. match goal with X : MIN_PERIOD <= _ |- _ => apply N.leb_le in X; rewrite X end. done.
  - done.
  - done.
Qed.
Definition accepted (c : config) (s : st) (o : op) : Prop := (exec c s o).2 = Ok tt.
Lemma exec_effect c s o s' : exec c s o = (s', Ok tt) <-> effect c s o s'.
Proof.
  unfold exec, dispatch. destruct (op_body c o s) as [s1 [[]|e]] eqn:E; split.
  - intros H. injection H as <-. by apply effect_ok.
  - intros H. apply ok_effect in H. rewrite E in H. injection H as <-. done.
  - done.
  - intros H. apply ok_effect in H. rewrite E in H. done.
Qed.
Lemma step_cases c s o : (accepted c s o /\ effect c s o (step c s o)) \/ (~ accepted c s o /\ step c s o = s).
Proof.
  unfold accepted, step. destruct (exec c s o) as [s1 [[]|e]] eqn:E; cbn.
  - left. split; [done|]. by apply exec_effect.
  - right. split; [done|]. unfold exec, dispatch in E. destruct (op_body c o s) as [s2 [|]]; [done|]. by injection E as <- _.
Qed.
Lemma effect_accepted c s o s' : effect c s o s' -> accepted c s o /\ step c s o = s'.
Proof. intros E. apply exec_effect in E. unfold accepted, step. by rewrite E. Qed.

(** *** Lists *)
Lemma remove_first_spec {A} (f : A -> bool) l : existsb f l = true ->
  exists l1 x l2, l = l1 ++ x :: l2 /\ f x = true /\ remove_first f l = l1 ++ l2 /\ List.find f l = Some x.
Proof.
  induction l as [|y l IH]; cbn [existsb]; [done|]. destruct (f y) eqn:E; cbn [orb].
  - intros _. exists [], y, l. unfold remove_first; cbn. by rewrite E.
  - intros H. destruct (IH H) as (l1 & x & l2 & -> & Hx & Hr & Hf). exists (y :: l1), x, l2. cbn. rewrite E. repeat split; try done.
    unfold remove_first in *. rewrite E. by rewrite Hr.
Qed.
Lemma remove_last_spec {A} (f : A -> bool) l x : find_last f l = Some x ->
  exists l1 l2, l = l1 ++ x :: l2 /\ f x = true /\ remove_last f l = l1 ++ l2.
Proof.
  intros H. assert (E : existsb f (rev l) = true). { apply find_some_existsb. unfold find_last in H. by rewrite H. }
  apply remove_first_spec in E as (l1 & y & l2 & El & Hy & Hr & Hf). unfold find_last in H. rewrite H in Hf. injection Hf as <-.
  exists (rev l2), (rev l1). split; [|split; [done|]].
  - rewrite <- (rev_involutive l), El, rev_app_distr. cbn. by rewrite <- app_assoc.
  - unfold remove_last. rewrite Hr. apply rev_app_distr.
Qed.
Lemma NoDup_fmap_eq {A B} (f : A -> B) (l : list A) x y : NoDup (map f l) -> x ∈ l -> y ∈ l -> f x = f y -> x = y.
Proof.
  induction l as [|z l IH]; cbn; intros Hn Hx Hy E; [by apply elem_of_nil in Hx|]. apply NoDup_cons in Hn as [Hz Hn].
  apply elem_of_cons in Hx as [->|Hx]; apply elem_of_cons in Hy as [->|Hy]; try done; [| |by apply IH];
    exfalso; apply Hz; [rewrite E|rewrite <- E]; apply elem_of_list_In, in_map, elem_of_list_In; done.
Qed.
Lemma map_elem {A B} (f : A -> B) (l : list A) x : x ∈ l -> f x ∈ map f l.
Proof. intros H. apply elem_of_list_In, in_map, elem_of_list_In, H. Qed.
Lemma elem_map {A B} (f : A -> B) (l : list A) y : y ∈ map f l -> exists x, x ∈ l /\ f x = y.
Proof. intros H. apply elem_of_list_In, in_map_iff in H as (x & E & H). exists x. split; [by apply elem_of_list_In|done]. Qed.
Lemma existsb_elem {A} (f : A -> bool) l : existsb f l = true <-> exists x, x ∈ l /\ f x = true.
Proof. rewrite existsb_exists. by setoid_rewrite elem_of_list_In. Qed.
Lemma existsb_none {A} (f : A -> bool) l : existsb f l = false <-> forall x, x ∈ l -> f x = false.
Proof. rewrite <- not_true_iff_false, existsb_elem. split; [intros H x Hx|intros H (x & Hx & E)]; [destruct (f x) eqn:E; [exfalso; eauto|done]|by rewrite H in E]. Qed.

(** *** Invariant *)
Definition ids (s : st) : list event_id := map uid (s_unchecked s) ++ map pid (s_pending s).
Definition counters (s : st) : list N := map (fun e => e.1.2) (s_unchecked s) ++ map (fun e => e.1.2) (s_pending s).
Record Inv (s : st) : Prop := {
  i_ids : NoDup (ids s);
  i_counters : NoDup (counters s);
  i_low : forall n, n ∈ counters s -> 0 < n <= s_ingress s;
  i_unchecked : N.of_nat (length (s_unchecked s)) <= MAX_UNCHECKED;
  i_pending : N.of_nat (length (s_pending s)) <= MAX_PENDING;
  i_chal : forall id, NoDup (challengers s id) /\ N.of_nat (length (challengers s id)) <= MAX_CHALLENGES;
  i_once : NoDup (map (fun d => d.1.2) (s_delivered s));
  i_marked : forall d, d ∈ s_delivered s -> exists k, s_processed s !! d.1.2 = Some (k, true) }.

Lemma number_spec l : forall n, NoDup l -> NoDup (map uid (number n l)) /\ NoDup (map (fun e => e.1.2) (number n l)) /\
  (forall id, id ∈ map uid (number n l) -> id.1 = 1 /\ id.2 ∈ l) /\ (forall k, k ∈ map (fun e => e.1.2) (number n l) -> n <= k < n + N.of_nat (length l)) /\ length (number n l) = length l.
Proof.
  induction l as [|x l IH]; intros n Hn; cbn [number map length].
  - repeat split; try constructor; intros; by match goal with X : _ ∈ [] |- _ => apply elem_of_nil in X end.
  - apply NoDup_cons in Hn as [Hx Hn]. destruct (IH (n + 1) Hn) as (H1 & H2 & H3 & H4 & H5). cbn [fst snd]. repeat split.
    + constructor; [|done]. intros Hi. apply H3 in Hi as [_ Hi]. by apply Hx.
    + constructor; [|done]. intros Hi. apply H4 in Hi. lia.
    + apply elem_of_cons in H as [->|H]; [done|]. by apply H3 in H as [? _].
    + apply elem_of_cons in H as [->|H]; [by left|]. apply H3 in H as [_ H]. by right.
    + apply elem_of_cons in H as [->|H]; [lia|]. apply H4 in H. lia.
    + apply elem_of_cons in H as [->|H]; [lia|]. apply H4 in H. lia.
    + lia.
Qed.
Lemma genesis_inv p lifts pr cs vs : NoDup lifts -> N.of_nat (length lifts) <= MAX_UNCHECKED -> Inv (genesis p lifts pr cs vs).
Proof.
  intros Hn Hl. destruct (number_spec lifts 1 Hn) as (H1 & H2 & H3 & H4 & H5).
  constructor; cbn; unfold ids, counters, challengers, mget; cbn; rewrite ?app_nil_r; try done.
  - intros n Hi. apply H4 in Hi. lia.
  - by rewrite H5.
  - intros id. rewrite lookup_empty. split; [constructor|done].
  - constructor.
  - intros d Hd. by apply elem_of_nil in Hd.
Qed.
Lemma add_processed_mono id a s tx : (forall k, s_processed s !! tx = Some (k, true) -> s_processed (add_processed id a s) !! tx = Some (k, true)) /\
  (is_processed s tx = true -> is_processed (add_processed id a s) tx = true).
Proof.
  unfold is_processed, add_processed. split.
  - intros k H. destruct (s_processed s !! id.2) as [[k' []]|] eqn:E; [done| |]; cbn; rewrite lookup_insert_ne; try done; intros <-; by rewrite E in H.
  - intros H. destruct (s_processed s !! id.2) as [[k' []]|] eqn:E; [done| |]; cbn; (destruct (decide (id.2 = tx)) as [<-|Hne]; [by rewrite lookup_insert|by rewrite lookup_insert_ne]).
Qed.
Lemma add_processed_marks id s : exists k, s_processed (add_processed id true s) !! id.2 = Some (k, true).
Proof. unfold add_processed. destruct (s_processed s !! id.2) as [[k' []]|] eqn:E; [by exists k'| |]; cbn; rewrite lookup_insert; by eexists. Qed.
Lemma add_processed_fresh id s : is_processed s id.2 = false -> s_processed (add_processed id true s) !! id.2 = Some (id.1, true).
Proof. unfold is_processed, add_processed. destruct (s_processed s !! id.2) as [[k' []]|] eqn:E; try done. intros _. cbn. by rewrite lookup_insert. Qed.
Lemma known_false s id : known s id = false <-> is_processed s id.2 = false /\ id ∉ ids s.
Proof.
  unfold known, ids. rewrite !orb_false_iff, !existsb_none, not_elem_of_app. split.
  - intros [[H1 H2] H3]. split; [done|]. split; intros Hi; apply elem_map in Hi as (e & He & Ee); [apply H2 in He|apply H3 in He]; rewrite bool_decide_true in He; done.
  - intros (H1 & H2 & H3). split; [split; [done|]|]; intros e He; apply bool_decide_eq_false; intros <-; [apply H2; by apply (map_elem uid _ e)|apply H3; by apply (map_elem pid _ e)].
Qed.
Lemma with_nonce_inv s a n : Inv s -> Inv (with_nonce a n s).
Proof. intros []; constructor; done. Qed.
Lemma added_inv k tx who s : known s (k, tx) = false -> N.of_nat (length (s_unchecked s)) < MAX_UNCHECKED -> Inv s -> Inv (added k tx who s).
Proof.
  intros Hk Hl []. apply known_false in Hk as [_ Hk]. constructor; cbn; try done.
  - unfold ids; cbn. rewrite map_app. cbn. rewrite <- app_assoc. cbn.
    apply (NoDup_Permutation_proper _ ((k, tx) :: ids s)); [unfold ids; by rewrite Permutation_middle|]. by constructor.
  - unfold counters; cbn. rewrite map_app. cbn. rewrite <- app_assoc. cbn.
    apply (NoDup_Permutation_proper _ ((s_ingress s + 1) :: counters s)); [unfold counters; by rewrite Permutation_middle|]. constructor; [|done]. intros Hi. apply i_low0 in Hi. lia.
  - intros n. unfold counters; cbn. rewrite map_app. cbn. rewrite !elem_of_app, elem_of_list_singleton. unfold counters in i_low0. setoid_rewrite elem_of_app in i_low0.
    intros [[Hi|Hi]|Hi]; [specialize (i_low0 n (or_introl Hi)); lia|lia|specialize (i_low0 n (or_intror Hi)); lia].
  - rewrite app_length. cbn. lia.
Qed.
Lemma checked_lists c r n s : existsb (unchecked_is (ck_id r) n) (s_unchecked s) = true ->
  exists l1 b l2, s_unchecked s = l1 ++ (ck_id r, n, b) :: l2 /\ s_unchecked (checked c r n s) = l1 ++ l2 /\
    s_pending (checked c r n s) = (if N.of_nat (length (s_pending s)) <? MAX_PENDING then s_pending s ++ [(stored c s r, n, s_block s)] else s_pending s).
Proof.
  intros H. destruct (remove_first_spec _ _ H) as (l1 & [[i m] b] & l2 & E & Hx & Hr & _). exists l1, b, l2. unfold unchecked_is in Hx. cbn in Hx. apply andb_true_iff in Hx as [H1 H2].
  apply bool_decide_eq_true in H1. apply N.eqb_eq in H2. subst. done.
Qed.
Lemma checked_inv c r n s : existsb (unchecked_is (ck_id r) n) (s_unchecked s) = true -> Inv s -> Inv (checked c r n s).
Proof.
  intros H []. destruct (checked_lists c r n s H) as (l1 & b & l2 & E1 & E2 & E3).
  unfold ids, counters in *. rewrite E1 in i_ids0, i_counters0, i_low0, i_unchecked0. rewrite map_app in *. cbn [map] in *. rewrite <- app_assoc in *. cbn [app fst snd] in *.
  constructor; unfold ids, counters; rewrite ?E2; try done.
  - rewrite E3, map_app. destruct (_ <? MAX_PENDING) eqn:Hp.
    + rewrite map_app. cbn [map]. eapply NoDup_Permutation_proper; [|exact i_ids0]. cbn. rewrite <- app_assoc. apply Permutation_app_head. rewrite app_assoc. by rewrite <- Permutation_cons_append.
    + rewrite <- app_assoc. eapply NoDup_app. apply NoDup_app in i_ids0 as (A & B & C). apply NoDup_cons in C as [C1 C2]. repeat split; try done. intros x Hx Hx2. apply (B x Hx). by right.
  - rewrite E3, map_app. destruct (_ <? MAX_PENDING) eqn:Hp.
    + rewrite map_app. cbn [map]. eapply NoDup_Permutation_proper; [|exact i_counters0]. cbn. rewrite <- app_assoc. apply Permutation_app_head. rewrite app_assoc. by rewrite <- Permutation_cons_append.
    + rewrite <- app_assoc. eapply NoDup_app. apply NoDup_app in i_counters0 as (A & B & C). apply NoDup_cons in C as [C1 C2]. repeat split; try done. intros x Hx Hx2. apply (B x Hx). by right.
  - intros m. rewrite E3, map_app. intros Hi. change (s_ingress (checked c r n s)) with (s_ingress s). apply i_low0. destruct (_ <? MAX_PENDING) eqn:Hp; [rewrite map_app in Hi; cbn in Hi|]; set_solver.
  - rewrite app_length in *. cbn in *. lia.
  - rewrite E3. destruct (_ <? MAX_PENDING) eqn:Hp; [|done]. apply N.ltb_lt in Hp. rewrite app_length. cbn. lia.
Qed.
Lemma challenged_inv ch s : ch_by ch ∉ challengers s (ch_id ch) -> Inv s -> Inv (challenged ch s).
Proof.
  intros H []. constructor; try done. intros id. unfold challenged, challengers; cbn. destruct (_ <? MAX_CHALLENGES) eqn:Hc; [|apply i_chal0].
  apply N.ltb_lt in Hc. destruct (decide (id = ch_id ch)) as [->|Hne].
  - unfold mget at 1 3. rewrite !lookup_insert. destruct (i_chal0 (ch_id ch)) as [A B]. split.
    + apply NoDup_app. repeat split; [done|intros x Hx Hi; apply elem_of_list_singleton in Hi as ->; done|apply NoDup_singleton].
    + rewrite app_length. cbn. unfold challengers in Hc. lia.
  - unfold mget. rewrite !lookup_insert_ne by done. apply i_chal0.
Qed.
Lemma processed_inv c r who h s e : find_last (by_id (ck_id r)) (s_pending s) = Some e -> Inv s -> Inv (processed c r who h s).
Proof.
  intros H []. destruct (remove_last_spec _ _ _ H) as (l1 & l2 & E & He & Hr).
  unfold ids, counters in *. rewrite E in i_ids0, i_counters0, i_low0, i_pending0. rewrite map_app in i_ids0, i_counters0. rewrite map_app in i_low0. cbn [map] in *. rewrite app_assoc in i_ids0, i_counters0.
  constructor; unfold ids, counters; cbn [processed s_unchecked s_pending s_ingress s_delivered s_processed]; rewrite ?Hr; try done.
  - rewrite map_app, app_assoc. apply NoDup_app in i_ids0 as (A & B & C). apply NoDup_cons in C as [C1 C2]. apply NoDup_app. repeat split; try done. intros x Hx Hx2. apply (B x Hx). by right.
  - rewrite map_app, app_assoc. apply NoDup_app in i_counters0 as (A & B & C). apply NoDup_cons in C as [C1 C2]. apply NoDup_app. repeat split; try done. intros x Hx Hx2. apply (B x Hx). by right.
  - intros m Hi. apply i_low0. rewrite map_app in Hi. set_solver.
  - rewrite app_length in *. cbn in *. lia.
  - intros id. unfold challengers. cbn [processed s_challenges]. destruct (challenge_successful c s r); [apply i_chal0|]. unfold mget. destruct (decide (id = ck_id r)) as [->|Hne].
    + rewrite lookup_delete. split; [constructor|done].
    + rewrite lookup_delete_ne by done. apply i_chal0.
  - destruct (delivers c s r) eqn:Hd; [|done]. cbn. constructor; [|done]. intros Hi. apply elem_map in Hi as (d & Hin & Ed). apply i_marked0 in Hin as [k Hk]. rewrite Ed in Hk.
    unfold delivers in Hd. apply andb_true_iff in Hd as [_ Hd]. unfold is_processed in Hd. by rewrite Hk in Hd.
  - intros d Hin. destruct (delivers c s r) eqn:Hd.
    + assert (again c s r = false) as ->.
      { unfold delivers in Hd. unfold again. apply andb_true_iff in Hd as [Hd H3]. apply andb_true_iff in Hd as [H1 H2]. apply bool_decide_eq_true in H1. apply negb_true_iff in H2. rewrite H2, bool_decide_false; [done|]. by rewrite H1. }
      apply elem_of_cons in Hin as [->|Hin]; [apply add_processed_marks|]. apply i_marked0 in Hin as [k Hk]. exists k. by apply add_processed_mono.
    + apply i_marked0 in Hin as [k Hk]. exists k. destruct (again c s r); [done|]. by apply add_processed_mono.
Qed.
Lemma step_inv c s o : Inv s -> Inv (step c s o).
Proof.
  intros I. destruct (step_cases c s o) as [[_ E]|[_ ->]]; [|done]. revert E. generalize (step c s o). intros s' E. destruct E.
  - destruct H as (?&?&?&?&?). by apply added_inv.
  - destruct H as (?&?&?&?&?). apply added_inv; [done|done|by apply with_nonce_inv].
  - destruct H as (?&_). by apply checked_inv.
  - destruct H as (?&?&?&?&?&?). by apply challenged_inv.
  - destruct H as (?&Hf&<-&_). by eapply processed_inv.
  - destruct I; by constructor.
  - destruct I; by constructor.
  - destruct (add_processed_shape (k, tx) a s) as [m Em]. destruct I; constructor; rewrite ?Em; try done. intros d Hd. apply i_marked0 in Hd as [k' Hk]. exists k'. rewrite <- Em. by apply add_processed_mono.
  - destruct I; by constructor.
Qed.
Lemma run_inv c ops : forall s, Inv s -> Inv (run c s ops).
Proof. induction ops as [|o ops IH]; intros s I; cbn; [done|]. apply IH. by apply step_inv. Qed.
