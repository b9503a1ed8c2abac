(** C87: what a worker submits is accepted.  C88: as long as a request is open somebody's worker has something to do. *)
From Verif Require Import Base BaseLemmas AvnModel AvnProofs CodecModel CodecProofs HttpModel BridgeModel BridgeProofs BridgeSpec BridgeProofs2 BridgeProofs3 BridgeProofs4.
From Verif Require Import CorroborateModel CorroborateProps BridgeProps BridgeOcwModel BridgeOcwSpec BridgeOcwProofs BridgeOcwProofs2 BridgeOcwProofs3 BridgeOcwProps.

(** * C87 *)
(** ** When the worker does what *)
Lemma ocw_full s me fin signs h l rep :
  match ocw s me fin signs h l rep with
  | Nothing => True
  | SubmitConfirmation id conf => exists a, s_active s = Some a /\ id = request_id (ac_req a) /\ conf = signs (ac_msg a) /\ has_enough_confirmations s a = false /\ ~ In conf (ac_confirmations a) /\
      match ac_req a with RSend _ => exists t, ac_tx a = Some t /\ me <> tx_sender t | RLower _ => True end
  | SendAndSubmitHash id hash => exists a r t, s_active s = Some a /\ ac_req a = RSend r /\ ac_tx a = Some t /\ id = sr_id r /\ hash = h /\ has_enough_confirmations s a = true /\ tx_hash t = 0 /\ me = tx_sender t
  | SubmitCorroboration id su hv k => exists a r t, s_active s = Some a /\ ac_req a = RSend r /\ ac_tx a = Some t /\ id = sr_id r /\ k = tx_attempt t /\ rep = Some (su, hv) /\
      me <> tx_sender t /\ ~ In me (tx_success t) /\ ~ In me (tx_failure t) /\ has_enough_confirmations s a = true
  end.
Proof.
  unfold ocw. destruct (s_active s) as [a|] eqn:Ea; [|exact I]. cbv zeta. destruct (fin <? ac_updated a); [exact I|]. destruct (ac_req a) as [r|r] eqn:Er.
  - destruct (ac_tx a) as [t|] eqn:Et; [|exact I]. destruct (N.eqb_spec me (tx_sender t)) as [Em|Em], (has_enough_confirmations s a) eqn:Ee; cbn [negb andb].
    + destruct (N.eqb_spec (tx_hash t) 0) as [E0|E0]; cbn [negb andb]; [|exact I]. destruct l; [exact I|]. exists a, r, t. auto 9.
    + exact I.
    + destruct (_ || _); [|exact I]. destruct (requires_corroboration t me) eqn:Eq; [|exact I]. unfold requires_corroboration in Eq. rewrite andb_true_iff, !negb_true_iff, !memN_false in Eq.
      destruct rep as [[su hv]|]; [|exact I]. exists a, r, t. destruct Eq. auto 11.
    + destruct (memN _ _) eqn:Eq; [exact I|]. apply memN_false in Eq. exists a. rewrite Er. split_and!; auto. exists t. auto.
  - destruct (has_enough_confirmations s a) eqn:Ee; [exact I|]. destruct (memN _ _) eqn:Eq; [exact I|]. apply memN_false in Eq. exists a. rewrite Er. auto 8.
Qed.
Lemma worker_full c n s v x : worker c n s = Some (v, x) -> In v (s_vs s) /\ In (v_key v) (n_keys n) /\
  match x with
  | Nothing => True
  | SubmitConfirmation id conf => exists a, s_active s = Some a /\ id = request_id (ac_req a) /\ n_signs n (ac_msg a) = Some conf /\ has_enough_confirmations s a = false /\ ~ In conf (ac_confirmations a) /\
      match ac_req a with RSend _ => exists t, ac_tx a = Some t /\ v_account v <> tx_sender t | RLower _ => True end
  | SendAndSubmitHash id hash => exists a r t, s_active s = Some a /\ ac_req a = RSend r /\ ac_tx a = Some t /\ id = sr_id r /\ n_send n = Some hash /\ has_enough_confirmations s a = true /\ tx_hash t = 0 /\ v_account v = tx_sender t
  | SubmitCorroboration id su hv k => exists a r t, s_active s = Some a /\ ac_req a = RSend r /\ ac_tx a = Some t /\ id = sr_id r /\ k = tx_attempt t /\ report c n s = Some (su, hv) /\
      v_account v <> tx_sender t /\ ~ In (v_account v) (tx_success t) /\ ~ In (v_account v) (tx_failure t) /\ has_enough_confirmations s a = true
  end.
Proof.
  unfold worker, local_validator. destruct (List.find _ (s_vs s)) as [u|] eqn:Ef; [|discriminate]. intros E. apply (inj Some) in E. apply pair_equal_spec in E as [-> <-].
  apply find_some in Ef as [Hin Hk]. apply memN_spec in Hk. split; [exact Hin|]. split; [exact Hk|].
  pose proof (ocw_full s (v_account v) (n_finalised n) (fun m => default 0 (n_signs n m)) (default 0 (n_send n)) (n_locked n) (report c n s)) as H.
  destruct (ocw _ _ _ _ _ _ _) as [|id conf|id h|id su hv k]; auto.
  - destruct H as (a & Ha & Eid & Ec & H). rewrite Ha. destruct (n_signs n (ac_msg a)) as [y|] eqn:Es; [|exact I]. exists a. cbn in Ec. subst conf. auto.
  - destruct H as (a & r & t & Ha & Hr & Ht & Eid & Eh & H). destruct (n_send n) as [y|]; [|exact I]. exists a, r, t. cbn in Eh. subst h. auto 9.
Qed.

(** ** Accepted *)
(** Whatever a worker submits passes the chain's validation of unsigned calls, in the state that the worker saw. *)
Theorem C87_valid c w n v x o : worker c n (w_st w) = Some (v, x) -> op_of v x = Some o -> valid (verified (wstep c w (WWorker n))) (w_st w) o = true.
Proof.
  intros Hw Ho. destruct (worker_full _ _ _ _ _ Hw) as (Hin & _ & _).
  assert (Hv : is_validator (s_vs (w_st w)) (v_account v) = true) by (apply is_validator_spec; unfold accounts; now apply in_map).
  assert (Hs : forall p, payload_of (w_st w) (v_account v) x = Some p -> verified (wstep c w (WWorker n)) (v_key v) p 0 = true).
  { intros p Hp. unfold verified. apply bool_decide_eq_true, elem_of_list_In. cbn. rewrite Hw, Hp. cbn. auto. }
  unfold valid. destruct x as [|id conf|id h|id su hv k]; [discriminate|..]; apply (inj Some) in Ho as <-; cbn [signed_payload]; rewrite Hv; cbn [andb]; apply Hs; reflexivity.
Qed.
Lemma step_exec c w n v x o : worker c n (w_st w) = Some (v, x) -> op_of v x = Some o -> step c (verified (wstep c w (WWorker n))) (w_st w) o = fst (exec c o (w_st w)).
Proof. intros Hw Ho. unfold step. now rewrite (C87_valid c w n v x o). Qed.

(** A confirmation counts, if the service signed with the author's registered Ethereum key and there are not a hundred confirmations: it is recorded, or it completes the proof. *)
Theorem C87_confirmation c w n v id conf o a : worker c n (w_st w) = Some (v, SubmitConfirmation id conf) -> op_of v (SubmitConfirmation id conf) = Some o ->
  s_active (w_st w) = Some a -> eth_signature_is_valid c (w_st w) (ac_msg a) (v_account v) conf = true -> len (ac_confirmations a) < CONFIRMATIONS_LIMIT ->
  let s' := w_st (wstep c (wstep c w (WWorker n)) (WSubmit o)) in
  (exists a', s_active s' = Some a' /\ ac_req a' = ac_req a /\ ac_confirmations a' = ac_confirmations a ++ [conf]) \/
  (exists r more, ac_req a = RLower r /\ s_notices s' = more ++ NProof (lr_id r) (lr_caller r) true :: s_notices (w_st w)).
Proof.
  intros Hw Ho Ha Hsig Hl s'. unfold s'. rewrite wstep_st, (wstep_st c w (WWorker n)). rewrite (step_exec _ _ _ _ _ _ Hw Ho). clear s'.
  apply worker_full in Hw as (_ & _ & a0 & Ha0 & -> & _ & Hen & Hni & Hq). assert (a0 = a) as -> by congruence. clear Ha0. apply (inj Some) in Ho as <-. cbn [exec].
  assert (Hm : id_matches (ac_req a) (request_id (ac_req a)) = true) by (destruct (ac_req a); cbn; apply N.eqb_refl).
  assert (Hse : (match ac_req a, ac_tx a with RSend _, Some t => v_account v =? tx_sender t | _, _ => false end) = false).
  { destruct (ac_req a); [|reflexivity]. destruct Hq as (t & -> & Hne). now apply N.eqb_neq. }
  unfold dispatch, add_confirmation, mbind_, get_st. rewrite Ha, Hm, Hen, Hse, Hsig. unfold ensure, mret_. rewrite (proj2 (memN_false _ _) Hni). cbn [negb]. rewrite (proj2 (N.ltb_lt _ _) Hl).
  destruct (ac_req a) as [r|r] eqn:Er.
  - left. cbn. eexists. split; [reflexivity|]. cbn. auto.
  - cbv zeta beta. match goal with |- context [has_enough_confirmations (w_st w) ?b] => destruct (has_enough_confirmations (w_st w) b) eqn:E2 end.
    + right. unfold complete_lower_proof_request, notify, modify, mbind_. match goal with |- context [process_next_request c ?s1] => destruct (process_next_request c s1) as [s2 r2] eqn:Ep end. pose proof (process_next_inv _ _ _ _ Ep) as [-> Hp].
      cbn [fst]. apply served_facts in Hp as (told & nn & _ & E & _); [|reflexivity]. exists r, nn. split; [reflexivity|]. exact E.
    + left. cbn. eexists. split; [reflexivity|]. cbn. auto.
Qed.
(** The hash of the transaction sent is recorded. *)
Theorem C87_hash c w n v id h o : worker c n (w_st w) = Some (v, SendAndSubmitHash id h) -> op_of v (SendAndSubmitHash id h) = Some o ->
  exists a t, s_active (w_st (wstep c (wstep c w (WWorker n)) (WSubmit o))) = Some a /\ ac_tx a = Some t /\ tx_hash t = h /\ tx_sender t = v_account v.
Proof.
  intros Hw Ho. rewrite wstep_st, (wstep_st c w (WWorker n)). rewrite (step_exec _ _ _ _ _ _ Hw Ho).
  apply worker_full in Hw as (_ & _ & a & r & t & Ha & Hr & Ht & -> & _ & _ & E0 & Es). apply (inj Some) in Ho as <-. cbn [exec].
  unfold dispatch, add_eth_tx_hash, mbind_, get_st. rewrite Ha, Hr. cbn [id_matches]. rewrite N.eqb_refl, Ht, E0. unfold ensure, mret_. cbn [N.eqb]. rewrite (proj2 (N.eqb_eq _ _) (eq_sym Es)).
  cbn. do 2 eexists. split; [reflexivity|]. cbn. auto.
Qed.
Lemma wrun_W_Lists c next life inst vs ops : let w := wrun c (wstart (genesis next life inst vs)) ops in W c (w_st w) /\ Lists (w_st w).
Proof.
  cbv zeta. enough (H : forall w, W c (w_st w) /\ Lists (w_st w) -> W c (w_st (wrun c w ops)) /\ Lists (w_st (wrun c w ops))) by (apply H; split; [apply genesis_W|apply untouched_lists; discriminate]).
  induction ops as [|o ops IH]; intros w H; [exact H|]. cbn. apply IH. rewrite wstep_st. destruct o; auto. pose proof (step_effect c (verified w) (w_st w) o) as He. destruct H as [H1 H2].
  split; [now destruct (effect_fifo _ _ _ _ _ He H1)|now apply (effect_Lists _ _ _ _ _ He)].
Qed.

(** A report counts: it is recorded if it does not decide; if it decides, the transaction is settled with this outcome when its caller accepts the result, and a failure with
    an invalid hash starts the next attempt when that can be set up. *)
Definition counted (s s' : st) (a : active) (r : send_req) (t : tx_data) (su hv : bool) (who : N) : Prop :=
  let same := if su then tx_success t else tx_failure t in
  let invalid := N.of_nat (length (tx_invalid_hash t)) + if hv then 0 else 1 in
  if has_enough_corroborations s (N.of_nat (length same) + 1) then
    if negb su && has_enough_corroborations s invalid
    then s' = s \/ exists a' t', s_active s' = Some a' /\ ac_req a' = RSend r /\ ac_tx a' = Some t' /\ tx_attempt t' = N.min 65535 (tx_attempt t + 1) /\ tx_hash t' = 0
    else if s_handler s (sr_id r) su then fmap se_succeeded (s_settled s' !! sr_id r) = Some su /\ exists more, s_notices s' = more ++ NResult (sr_id r) (sr_caller r) su :: s_notices s
    else s' = s
  else exists a' t', s_active s' = Some a' /\ ac_req a' = RSend r /\ ac_tx a' = Some t' /\ (if su then tx_success t' else tx_failure t') = same ++ [who] /\
         tx_invalid_hash t' = tx_invalid_hash t ++ if hv then [] else [who].
Theorem C87_report c next life inst vs ops n v id su hv k o a r t :
  let w := wrun c (wstart (genesis next life inst vs)) ops in
  worker c n (w_st w) = Some (v, SubmitCorroboration id su hv k) -> op_of v (SubmitCorroboration id su hv k) = Some o ->
  s_active (w_st w) = Some a -> ac_req a = RSend r -> ac_tx a = Some t -> N.of_nat (length (tx_success t ++ tx_failure t)) < 100 ->
  counted (w_st w) (w_st (wstep c (wstep c w (WWorker n)) (WSubmit o))) a r t su hv (v_account v).
Proof.
  intros w Hw Ho Ha Hr Ht Hl. destruct (wrun_W_Lists c next life inst vs ops) as [_ HL]. fold w in HL. destruct (L_tx _ HL a t Ha Ht) as (_ & _ & Hp). apply Permutation_length in Hp.
  rewrite wstep_st, (wstep_st c w (WWorker n)). rewrite (step_exec _ _ _ _ _ _ Hw Ho). set (s := w_st w) in *. clearbody s.
  apply worker_full in Hw as (_ & _ & a0 & r0 & t0 & Ha0 & Hr0 & Ht0 & -> & -> & _ & Hse & Hn1 & Hn2 & _). assert (a0 = a) as -> by congruence. assert (r0 = r) as -> by congruence. assert (t0 = t) as -> by congruence.
  apply (inj Some) in Ho as <-. cbn [exec]. unfold counted. rewrite app_length in Hl, Hp. rewrite app_length in Hp.
  unfold dispatch, add_corroboration, mbind_, get_st. rewrite Ha, Hr. cbn [id_matches]. rewrite N.eqb_refl, Ht. unfold ensure, mret_, requires_corroboration. rewrite N.eqb_refl, (proj2 (N.eqb_neq _ _) Hse).
  rewrite (proj2 (memN_false _ _) Hn1), (proj2 (memN_false _ _) Hn2). cbn [negb andb].
  replace (len (if hv then tx_valid_hash t else tx_invalid_hash t) <? CONFIRMATIONS_LIMIT) with true by (symmetry; apply N.ltb_lt; unfold len, CONFIRMATIONS_LIMIT; destruct hv; lia).
  replace (len (if su then tx_success t else tx_failure t) <? CONFIRMATIONS_LIMIT) with true by (symmetry; apply N.ltb_lt; unfold len, CONFIRMATIONS_LIMIT; destruct su; lia).
  cbv zeta.
  match goal with |- context [finalize_state c r ?T su] => set (t2 := T) end.
  assert (E2 : tx_attempt t2 = tx_attempt t /\ tx_invalid_hash t2 = tx_invalid_hash t ++ (if hv then [] else [v_account v]) /\
     (if su then tx_success t2 else tx_failure t2) = (if su then tx_success t else tx_failure t) ++ [v_account v]).
  { unfold t2. destruct su, hv; cbn; rewrite ?app_nil_r; auto. }
  destruct E2 as (Eat & Einv & Esame). rewrite Esame. replace (len ((if su then tx_success t else tx_failure t) ++ [v_account v])) with (N.of_nat (length (if su then tx_success t else tx_failure t)) + 1) by (unfold len; rewrite app_length; cbn; lia).
  clearbody t2. destruct (has_enough_corroborations s _) eqn:Een.
  - unfold finalize_state, mbind_, get_st. replace (len (tx_invalid_hash t2)) with (N.of_nat (length (tx_invalid_hash t)) + (if hv then 0 else 1)) by (rewrite Einv; unfold len; rewrite app_length; destruct hv; cbn; lia).
    destruct (negb su && has_enough_corroborations s _) eqn:Erp.
    + unfold replay_send_request, emit, modify, mbind_. match goal with |- context [set_up_active_tx c r ?k ?s0] => destruct (set_up_active_tx c r k s0) as [s1 [[]|e]] eqn:Eu end; [right|left; reflexivity].
      cbn [fst]. apply set_up_tx_inv in Eu as [[_ Hst]|[_ [e He]]]; [|discriminate]. destruct (started_fields _ _ _ _ _ Hst) as (_ & _ & _ & _ & _ & _ & _ & b & Eb & Er & _ & Et & [t' Et']).
      destruct (Et t' Et') as (_ & _ & _ & _ & E0 & Ek). exists b, t'. split_and!; auto. rewrite Ek, Eat. unfold saturating_add. cbn. lia.
    + unfold complete_transaction, mbind_, get_st, notify, modify, ensure, mret_. cbn [s_handler]. destruct (s_handler s (sr_id r) su) eqn:Eh; [|reflexivity].
      assert (Hfin : forall s1, s_settled s1 = s_settled s -> s_notices s1 = NResult (sr_id r) (sr_caller r) su :: s_notices s -> forall d, se_succeeded d = su ->
        let s3 := fst (match process_next_request c (s1 <| s_settled := <[sr_id r:=d]> (s_settled s1) |>) with (s2, Ok x) => (s2, Ok x) | (_, Err e) => (s, Err e) end) in
        fmap se_succeeded (s_settled s3 !! sr_id r) = Some su /\ exists more, s_notices s3 = more ++ NResult (sr_id r) (sr_caller r) su :: s_notices s).
      { intros s1 E1 E3 d Ed. destruct (process_next_request c _) as [s2 res] eqn:Ep. apply process_next_inv in Ep as [-> Hsv]. cbn [fst]. pose proof (served_next _ _ _ _ Hsv eq_refl) as (_ & E4 & _).
        apply served_facts in Hsv as (told & nn & _ & E5 & _); [|reflexivity]. split.
        - rewrite E4. cbn. rewrite lookup_insert. cbn. now rewrite Ed.
        - exists nn. rewrite E5. cbn. now rewrite E3. }
      assert (Hh : s_handler (s <| s_notices := NResult (sr_id r) (sr_caller r) su :: s_notices s |>) (sr_id r) su = true) by exact Eh.
      unfold report_offence, emit, modify. destruct su; destruct (len _ =? 0); apply Hfin; reflexivity.
  - unfold save_active, modify. cbn [fst]. do 2 eexists. split; [reflexivity|]. cbn. split; [exact Hr|]. split; [reflexivity|]. auto.
Qed.
(** Refuted: ... whenever it decides.  If the caller of the transaction does not accept the result, the deciding report is undone, and so is every later one that says the same. *)
Definition ex_refused : list wop := ex_sent ++
  [WSubmit (EnvHandler (fun _ su => negb su)); WClock 500; WExecute 1 100 600; WWorker (ex_node 1 (Some (view_body Executed)) ex_seen); WSubmit (OpCorroborate 100 true true (ex_v 1) 0 0)].
Theorem C87_report_counts_refuted : ~ forall c next life inst vs ops n v id su hv k o,
  let w := wrun c (wstart (genesis next life inst vs)) ops in
  worker c n (w_st w) = Some (v, SubmitCorroboration id su hv k) -> op_of v (SubmitCorroboration id su hv k) = Some o ->
  w_st (wstep c (wstep c w (WWorker n)) (WSubmit o)) <> w_st w.
Proof.
  intros H. apply (H ex_c 100 600 1 ex_vs ex_refused (ex_node 3 (Some (view_body Executed)) ex_seen) (ex_v 3) 100 true true 0 (OpCorroborate 100 true true (ex_v 3) 0 0)); [by vm_compute|reflexivity|].
  by vm_compute.
Qed.
(** A worker confirms, its service sends, its report decides: the hypotheses are met along the history of C85. *)
Example C87_example : let w k := wrun ex_c ex_w0 (firstn k ex_good) in
  worker ex_c (ex_node 1 None None) (w_st (w 2%nat)) = Some (ex_v 1, SubmitConfirmation 100 (ex_sig 71 1 0)) /\
  (exists a, s_active (w_st (w 2%nat)) = Some a /\ eth_signature_is_valid ex_c (w_st (w 2%nat)) (ac_msg a) 1 (ex_sig 71 1 0) = true /\ len (ac_confirmations a) < CONFIRMATIONS_LIMIT) /\
  worker ex_c (ex_node 2 None None) (w_st (w 4%nat)) = Some (ex_v 2, SendAndSubmitHash 100 555) /\
  worker ex_c (ex_node 3 (Some (view_body Executed)) ex_seen) (w_st (w 12%nat)) = Some (ex_v 3, SubmitCorroboration 100 true true 0).
Proof. cbv zeta. split_and!; [by vm_compute| |by vm_compute|by vm_compute]. eexists. split_and!; [vm_compute; reflexivity|by vm_compute|by vm_compute]. Qed.

(** * C88 *)
(** The node of author [v]: it has that key and no other author's, and is up to date with the request. *)
Definition runs_for (n : node) (s : st) (v : validator) : Prop := local_validator n s = Some v /\ forall a, s_active s = Some a -> ac_updated a <= n_finalised n.
Lemma pigeon {X} (f : X -> N) (l : list X) (used : list N) : NoDup (map f l) -> (length used < length l)%nat -> exists x, In x l /\ ~ In (f x) used.
Proof.
  intros Hnd Hlen. destruct (List.find (fun x => negb (memN (f x) used)) l) as [x|] eqn:E.
  - apply find_some in E as [H1 H2]. exists x. split; [exact H1|]. now apply negb_true_iff, memN_false in H2.
  - exfalso. assert (Hin : forall y, In y (map f l) -> In y used).
    { intros y Hy. apply in_map_iff in Hy as (x & <- & Hx). apply (find_none _ _ E) in Hx. apply negb_false_iff, memN_spec in Hx. exact Hx. }
    apply NoDup_ListNoDup in Hnd. pose proof (NoDup_incl_length Hnd Hin) as Hle. rewrite map_length in Hle. lia.
Qed.
(** Authors other than [who]. *)
Definition others (who : N) (vs : list validator) : list validator := List.filter (fun v => negb (v_account v =? who)) vs.
Lemma others_length who vs : NoDup (map v_account vs) -> (length vs <= S (length (others who vs)))%nat.
Proof.
  induction vs as [|v vs IH]; intros H; [cbn; lia|]. cbn [map] in H. apply NoDup_cons in H as [Hni H]. cbn [others List.filter]. destruct (N.eqb_spec (v_account v) who) as [E|E]; cbn [negb length].
  - assert (Hall : others who vs = vs); [|unfold others in Hall; rewrite Hall; lia]. clear - Hni E. unfold others. induction vs as [|u vs IH]; [reflexivity|]. cbn [map] in Hni. apply not_elem_of_cons in Hni as [H1 H2]. cbn [List.filter].
    destruct (N.eqb_spec (v_account u) who); [congruence|]. cbn [negb]. f_equal. now apply IH.
  - apply IH in H. fold (others who vs). lia.
Qed.
Lemma others_in who vs v : In v (others who vs) <-> In v vs /\ v_account v <> who.
Proof. unfold others. rewrite filter_In, negb_true_iff, N.eqb_neq. tauto. Qed.
Lemma others_nodup {X} (f : validator -> X) who vs : NoDup (map f vs) -> NoDup (map f (others who vs)).
Proof.
  induction vs as [|v vs IH]; intros H; [exact H|]. cbn [map] in H. apply NoDup_cons in H as [Hni H]. cbn [others List.filter]. fold (others who vs). destruct (negb _); [|now apply IH]. cbn [map]. apply NoDup_cons.
  split; [|now apply IH]. intros Hin. apply Hni. apply elem_of_list_In, in_map_iff in Hin as (u & E & Hu). apply others_in in Hu as [Hu _]. apply elem_of_list_In, in_map_iff. eauto.
Qed.

(** While confirmations are lacking some author, not the sender, has not confirmed, and its worker does. [sg]: the signatures that the authors' services give. *)
Theorem C88_confirmations_come c s a (sg : validator -> N) : W c s -> s_active s = Some a -> has_enough_confirmations s a = false -> NoDup (map v_account (s_vs s)) -> NoDup (map sg (s_vs s)) ->
  exists v, In v (s_vs s) /\ ~ In (sg v) (ac_confirmations a) /\
    forall n, runs_for n s v -> n_signs n (ac_msg a) = Some (sg v) -> worker c n s = Some (v, SubmitConfirmation (request_id (ac_req a)) (sg v)).
Proof.
  intros HW Ha Hen Hnd Hsg. pose proof (W_shape _ _ HW a Ha) as Hsh.
  assert (Hgo : forall v, ~ In (sg v) (ac_confirmations a) -> (forall r t, ac_req a = RSend r -> ac_tx a = Some t -> v_account v <> tx_sender t) ->
    forall n, runs_for n s v -> n_signs n (ac_msg a) = Some (sg v) -> worker c n s = Some (v, SubmitConfirmation (request_id (ac_req a)) (sg v))).
  { intros v Hni Hse n [Hl Hf] Hs. unfold worker. rewrite Hl. specialize (Hf a Ha). unfold ocw. rewrite Ha. rewrite (proj2 (N.ltb_ge _ _) Hf). cbv beta zeta. rewrite Hen, Hs. change (default 0 (Some (sg v))) with (sg v). rewrite (proj2 (memN_false _ _) Hni).
    destruct (ac_req a) as [r|r] eqn:Er; [|reflexivity]. destruct Hsh as [t Ht]. rewrite Ht. rewrite (proj2 (N.eqb_neq _ _) (Hse r t eq_refl Ht)). cbn [negb andb]. reflexivity. }
  unfold has_enough_confirmations in Hen. destruct (ac_req a) as [r|r] eqn:Er.
  - destruct Hsh as [t Ht]. unfold avn_quorum, quorum_for in Hen. apply N.leb_gt in Hen. unfold len in Hen.
    destruct (pigeon sg (others (tx_sender t) (s_vs s)) (ac_confirmations a)) as (v & Hin & Hni); [now apply others_nodup|pose proof (others_length (tx_sender t) (s_vs s) Hnd); lia|].
    apply others_in in Hin as [Hin Hne]. exists v. split; [exact Hin|]. split; [exact Hni|]. apply Hgo; [exact Hni|]. intros r' t' _ Ht'. congruence.
  - unfold avn_supermajority, supermajority_for in Hen. apply N.leb_gt in Hen. unfold len in Hen.
    destruct (pigeon sg (s_vs s) (ac_confirmations a)) as (v & Hin & Hni); [exact Hsg|lia|]. exists v. split; [exact Hin|]. split; [exact Hni|]. apply Hgo; [exact Hni|]. discriminate.
Qed.
(** With enough confirmations the sender's worker sends, unless a sending is already under way. *)
Theorem C88_sender_sends c s a r t n v h : s_active s = Some a -> ac_req a = RSend r -> ac_tx a = Some t -> has_enough_confirmations s a = true -> tx_hash t = 0 ->
  runs_for n s v -> v_account v = tx_sender t -> n_locked n = false -> n_send n = Some h -> worker c n s = Some (v, SendAndSubmitHash (sr_id r) h).
Proof.
  intros Ha Hr Ht Hen H0 [Hl Hf] Hv Hlk Hs. unfold worker. rewrite Hl. specialize (Hf a Ha). unfold ocw. rewrite Ha, (proj2 (N.ltb_ge _ _) Hf), Hr, Ht. cbv zeta. rewrite Hen, Hv, N.eqb_refl, H0, Hlk, Hs. reflexivity.
Qed.
(** Once it is sent or expired, and not decided, some author, not the sender, has not reported, and its worker reports what Ethereum tells it. *)
Theorem C88_reports_come c s a r t : s_active s = Some a -> ac_req a = RSend r -> ac_tx a = Some t -> has_enough_confirmations s a = true ->
  tx_hash t <> 0 \/ tx_expiry t < s_time s -> NoDup (map v_account (s_vs s)) -> 2 <= N.of_nat (length (s_vs s)) < 2 ^ 32 ->
  has_enough_corroborations s (N.of_nat (length (tx_success t))) = false -> has_enough_corroborations s (N.of_nat (length (tx_failure t))) = false ->
  exists v, In v (s_vs s) /\ ~ In (v_account v) (tx_success t ++ tx_failure t) /\
    forall n su hv, runs_for n s v -> report c n s = Some (su, hv) -> worker c n s = Some (v, SubmitCorroboration (sr_id r) su hv (tx_attempt t)).
Proof.
  intros Ha Hr Ht Hen Hsent Hnd Hn H1 H2. unfold has_enough_corroborations, len, quorum_for in H1, H2. apply N.leb_gt in H1, H2.
  replace ((N.of_nat (length (s_vs s)) + 2 ^ 32 - 1) mod 2 ^ 32) with (N.of_nat (length (s_vs s)) - 1) in *.
  2: { replace (N.of_nat (length (s_vs s)) + 2 ^ 32 - 1) with ((N.of_nat (length (s_vs s)) - 1) + 1 * 2 ^ 32) by lia. rewrite N.mod_add by discriminate. rewrite N.mod_small by lia. reflexivity. }
  destruct (pigeon v_account (others (tx_sender t) (s_vs s)) (tx_success t ++ tx_failure t)) as (v & Hin & Hni).
  { now apply others_nodup. }
  { rewrite app_length. pose proof (others_length (tx_sender t) (s_vs s) Hnd). lia. }
  apply others_in in Hin as [Hin Hne]. exists v. split; [exact Hin|]. split; [exact Hni|]. intros n su hv [Hl Hf] Hrep. rewrite in_app_iff in Hni.
  unfold worker. rewrite Hl. specialize (Hf a Ha). unfold ocw. rewrite Ha, (proj2 (N.ltb_ge _ _) Hf), Hr, Ht. cbv zeta. rewrite Hen, (proj2 (N.eqb_neq _ _) Hne). cbn [negb andb].
  replace (negb (tx_hash t =? 0) || (tx_expiry t <? s_time s)) with true by (symmetry; apply orb_true_iff; destruct Hsent as [H|H]; [left; now apply negb_true_iff, N.eqb_neq|right; now apply N.ltb_lt]).
  unfold requires_corroboration. rewrite (proj2 (memN_false _ (tx_success t))), (proj2 (memN_false _ (tx_failure t))) by tauto. cbn [negb andb]. rewrite Hrep. reflexivity.
Qed.
Example C88_hypotheses : let s k := w_st (wrun ex_c ex_w0 (firstn k ex_good)) in
  (exists a, s_active (s 2%nat) = Some a /\ has_enough_confirmations (s 2%nat) a = false /\ NoDup (map v_account (s_vs (s 2%nat))) /\ NoDup (map (fun v => ex_sig 71 (v_account v) 0) (s_vs (s 2%nat))) /\
     runs_for (ex_node 1 None None) (s 2%nat) (ex_v 1) /\ n_signs (ex_node 1 None None) (ac_msg a) = Some (ex_sig 71 1 0)) /\
  (exists a t, s_active (s 11%nat) = Some a /\ ac_tx a = Some t /\ has_enough_confirmations (s 11%nat) a = true /\ tx_hash t = 555 /\ 2 <= N.of_nat (length (s_vs (s 11%nat))) < 2 ^ 32 /\
     has_enough_corroborations (s 11%nat) (N.of_nat (length (tx_success t))) = false /\ has_enough_corroborations (s 11%nat) (N.of_nat (length (tx_failure t))) = false /\
     runs_for (ex_node 3 (Some (view_body Executed)) ex_seen) (s 11%nat) (ex_v 3) /\ report ex_c (ex_node 3 (Some (view_body Executed)) ex_seen) (s 11%nat) = Some (true, true)).
Proof.
  cbv zeta. split.
  - eexists. split; [vm_compute; reflexivity|]. split; [by vm_compute|]. split; [apply (bool_decide_unpack _); by vm_compute|]. split; [apply (bool_decide_unpack _); by vm_compute|]. split; [|by vm_compute].
    split; [by vm_compute|]. intros a Ha. vm_compute in Ha. injection Ha as <-. vm_compute. discriminate.
  - do 2 eexists. split; [vm_compute; reflexivity|]. split; [reflexivity|]. split; [by vm_compute|]. split; [reflexivity|]. split; [vm_compute; split; [discriminate|reflexivity]|]. split; [by vm_compute|]. split; [by vm_compute|].
    split; [|by vm_compute]. split; [by vm_compute|]. intros a Ha. vm_compute in Ha. injection Ha as <-. vm_compute. discriminate.
Qed.

(** With one author only nothing is ever settled: the sender may not report on its own transaction.  Only an administrator, or a new set of authors, gets the bridge going again. *)
Definition unaided (o : op) : Prop := match o with EnvValidators _ | OpRemoveActive | OpSetInstance _ => False | _ => True end.
Lemma single_stuck c verify v r s ops : (forall o, In o ops -> unaided o) -> s_vs s = [v] -> (exists a t, s_active s = Some a /\ ac_req a = RSend r /\ ac_tx a = Some t /\ tx_sender t = v_account v) ->
  let s' := run c verify s ops in s_vs s' = [v] /\ (exists a t, s_active s' = Some a /\ ac_req a = RSend r /\ ac_tx a = Some t /\ tx_sender t = v_account v) /\ s_settled s' = s_settled s.
Proof.
  cbv zeta. revert s. induction ops as [|o ops IH]; intros s Hu Hv Hact; [auto|]. cbn.
  assert (Hone : s_vs (step c verify s o) = [v] /\ (exists a t, s_active (step c verify s o) = Some a /\ ac_req a = RSend r /\ ac_tx a = Some t /\ tx_sender t = v_account v) /\ s_settled (step c verify s o) = s_settled s).
  { pose proof (Hu o (or_introl eq_refl)) as Hun. assert (Hne : forall vs, o <> EnvValidators vs) by (intros vs ->; exact Hun). rewrite step_vs by exact Hne. split; [exact Hv|].
    destruct Hact as (a & t & Ha & Hr & Ht & Hs).
    assert (Hval : forall id su hv u k sig, valid verify s (OpCorroborate id su hv u k sig) = true -> v_account u = v_account v).
    { intros id su hv u k sig H. unfold valid in H. cbn [signed_payload] in H. apply andb_true_iff in H as [H _]. rewrite Hv in H. cbn in H. rewrite orb_false_r in H. apply N.eqb_eq in H. auto. }
    pose proof (step_effect c verify s o) as He. remember (step c verify s o) as s' eqn:Es. clear Es. destruct He; try congruence; try (exfalso; exact Hun); try (split; [|reflexivity]).
    - exists a, t. auto.
    - match goal with X : same_core _ _ |- _ => rewrite (SC_active _ _ X), (SC_settled _ _ X) end. split; [|reflexivity]. exists a, t. auto.
    - exists a, t. auto.
    - exists a, t. auto.
    - exists a, t. auto.
    - match goal with X : s_active s = Some ?b |- _ => assert (b = a) as -> by congruence end. cbn. do 2 eexists. split; [reflexivity|]. cbn. eauto.
    - match goal with X : s_active s = Some ?b, Y : ac_tx ?b = Some ?u |- _ => assert (b = a) as -> by congruence; assert (u = t) as -> by congruence end. cbn. do 2 eexists. split; [reflexivity|]. cbn. eauto.
    - exfalso. match goal with X : valid _ _ _ = true, Y : v_account _ <> tx_sender ?u, Z : s_active s = Some ?b |- _ => apply Hval in X; assert (b = a) as -> by congruence; assert (u = t) as -> by congruence end. congruence.
    - exfalso. match goal with X : valid _ _ _ = true, Y : v_account _ <> tx_sender ?u, Z : s_active s = Some ?b |- _ => apply Hval in X; assert (b = a) as -> by congruence; assert (u = t) as -> by congruence end. congruence.
    - exfalso. match goal with X : valid _ _ _ = true, Y : v_account _ <> tx_sender ?u, Z : s_active s = Some ?b |- _ => apply Hval in X; assert (b = a) as -> by congruence; assert (u = t) as -> by congruence end. congruence. }
  destruct Hone as (H1 & H2 & H3). destruct (IH (step c verify s o)) as (E1 & E2 & E3); auto.
  - intros p Hp. apply Hu. now right.
  - split; [exact E1|]. split; [exact E2|]. unfold run in E3. congruence.
Qed.
(** Refuted: whatever the set of authors, an accepted transaction can be settled without the help of an administrator. *)
Theorem C88_can_settle_refuted : ~ forall c verify next life inst vs pre a r, vs <> [] -> (forall o, In o pre -> unaided o) ->
  let s := run c verify (genesis next life inst vs) pre in s_active s = Some a -> ac_req a = RSend r ->
  exists ops, (forall o, In o ops -> unaided o) /\ is_Some (s_settled (run c verify s ops) !! sr_id r).
Proof.
  intros H. set (pre := [OpPublish true [112] [] [7]]).
  assert (E : exists a t, s_active (run ex_c ex_verify (genesis 100 600 1 [ex_v 1]) pre) = Some a /\ ac_req a = RSend (mkSend 100 [112] [] [7]) /\ ac_tx a = Some t /\ tx_sender t = v_account (ex_v 1)).
  { do 2 eexists. split_and!; [vm_compute; reflexivity|reflexivity..]. }
  pose proof E as (a & t & Ha & Hr & _). destruct (H ex_c ex_verify 100 600 1 [ex_v 1] pre a (mkSend 100 [112] [] [7])) as (ops & Hu & [d Hd]).
  - intros E'. inversion E'.
  - intros o [<-|[]]. exact I.
  - exact Ha.
  - exact Hr.
  - destruct (single_stuck ex_c ex_verify (ex_v 1) (mkSend 100 [112] [] [7]) (run ex_c ex_verify (genesis 100 600 1 [ex_v 1]) pre) ops Hu) as (_ & _ & E3); [by vm_compute|exact E|].
    rewrite E3 in Hd. vm_compute in Hd. discriminate Hd.
Qed.
