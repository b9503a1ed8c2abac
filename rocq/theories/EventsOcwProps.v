(** C95-C97: what authors say about Ethereum events, and what becomes of it. *)
From Verif Require Import Base BaseLemmas AvnModel CodecModel CodecProofs SigModel LogModel LogProofs LogProps EventsOcwModel EventsOcwSpec EventsOcwProofs.

Section props.
Context (wc : wconfig) (A K : N -> Prop) (eth : event_id -> receipt) (g : start) (ops : list wop).
Notation c := (wc_pallet wc).
Let w := wrun wc (world0 g) ops.
Let s := w_log w.
Let F := fact eth (wc_bridge wc) (g_contracts g).
Hypothesis G : sound g.
Hypothesis Hk : keys_of_honest A K (g_validators g).
Hypothesis Hh : honest_history wc A K eth (world0 g) ops.
Let HJ : J wc A K eth (g_contracts g) w := J_reached wc A K eth g ops G Hk Hh.
Let Es : s = reached c g (calls ops) := world_log wc g ops.

(** ** C95 *)
(** Every check in an honest author's name is true. *)
Theorem C95_honest_checks_true r n b : (r, n, b) ∈ s_pending s -> A (ck_by r) -> true_check F r.
Proof. apply (j_pending _ _ _ _ _ _ HJ). Qed.
(** Every challenge in an honest author's name that the chain accepts is of a false check, by somebody else. *)
Theorem C95_honest_challenges_just ch n v sig : allowed wc A K eth w (WChain (ChallengeEvent ch n v sig)) -> accepted c s (ChallengeEvent ch n v sig) -> A (ch_by ch) ->
  exists r b, (r, n, b) ∈ s_pending s /\ ck_id r = ch_id ch /\ ck_by r <> ch_by ch /\ ~ true_check F r.
Proof.
  intros (Hsig & _) Ha HA. destruct (Hsig v (MChallenge ch n) sig eq_refl) as [Hv Hs]. rewrite Es in Ha. apply (proj1 (C59_challenge_accepted c g (calls ops) ch n v sig G)) in Ha as (r & b & H1 & H2 & H3 & H4 & H5 & H6 & H7).
  rewrite <-Es in H1. exists r, b. split; [exact H1|]. split; [done|]. split; [done|].
  assert (HK : K (v_key v)). { apply (j_keys _ _ _ _ _ _ HJ v Hv). by rewrite H6. }
  destruct (j_chal _ _ _ _ _ _ HJ _ _ _ (Hs HK H7) HK) as (r1 & Hs1 & _ & Hf). by rewrite (settled_unique _ _ _ _ _ Hs1 H1).
Qed.
(** While no challenge of an event has succeeded, an honest author among its challengers means that its pending check is false. *)
Theorem C95_honest_challengers_just id a : (forall res, ChallengeSucceeded id res ∉ s_events s) -> a ∈ challengers s id -> A a ->
  exists r n b, (r, n, b) ∈ s_pending s /\ ck_id r = id /\ ~ true_check F r.
Proof. intros Hn Ha HA. destruct (j_just _ _ _ _ _ _ HJ a id Ha HA) as [[res Hr]|H]; [by destruct (Hn res)|exact H]. Qed.

(** ** C96 *)
(** A true check stands, if fewer authors are dishonest than a challenge takes and no challenge of the event has succeeded before: its author is not reported, no honest
    author is, and a genuine event is delivered, with its data, unless its transaction was processed before. *)
Theorem C96_true_check_stands B r n b v sig h : (r, n, b) ∈ s_pending s -> true_check F r -> (forall res, ChallengeSucceeded (ck_id r) res ∉ s_events s) ->
  (forall a, ~ A a -> In a B) -> N.of_nat (length B) <= tolerated c s r -> let o := ProcessEvent (ck_id r) n v sig h in accepted c s o -> let s' := step c s o in
  s_delivered s' = (if bool_decide (ck_result r = ROk) && negb (is_processed s (ck_id r).2) then (ck_id r, ck_data r) :: s_delivered s else s_delivered s) /\
  (ck_result r = ROk -> F (ck_id r) = Some (ck_data r)) /\
  (forall off, OffenceReported true off ∈ s_events s' <-> OffenceReported true off ∈ s_events s) /\
  (forall off a, OffenceReported false off ∈ s_events s' -> OffenceReported false off ∉ s_events s -> a ∈ off -> ~ A a).
Proof.
  intros Hin Ht Hn HB HL o Ha s'.
  assert (Hno : forall a, a ∈ challengers s (ck_id r) -> ~ A a).
  { intros a Hc HA. destruct (C95_honest_challengers_just (ck_id r) a Hn Hc HA) as (r' & n' & b' & H1 & H2 & H3).
    assert (E : (r', n', b') = (r, n, b)) by (apply (pending_unique s); [apply (j_inv _ _ _ _ _ _ HJ)|done..]). injection E as -> -> ->. done. }
  assert (Hle : N.of_nat (length (challengers s (ck_id r))) <= tolerated c s r).
  { etransitivity; [|exact HL]. destruct (i_chal _ (j_inv _ _ _ _ _ _ HJ) (ck_id r)) as [Hnd _]. fold s in Hnd. apply NoDup_ListNoDup in Hnd.
    enough ((length (challengers s (ck_id r)) <= length B)%nat) by lia. apply NoDup_incl_length; [exact Hnd|]. intros a Hc. apply HB, Hno. by apply elem_of_list_In. }
  unfold s'. rewrite Es in Ha. pose proof (C59_decision c g (calls ops) (ck_id r) n v sig h G Ha) as (r' & b' & H1 & H2 & _ & _ & _ & D). rewrite <-Es in H1, D.
  assert (E : (r', n, b') = (r, n, b)) by (apply (pending_unique s); [apply (j_inv _ _ _ _ _ _ HJ)|done..]). injection E as -> ->.
  destruct (D Hle) as (_ & D2 & _ & D4 & D5 & _). split; [exact D5|]. split; [|split; [exact D2|]].
  - intros Er. unfold true_check in Ht. by rewrite Er in Ht.
  - intros off a Ho Hno' Hao. apply D4 in Ho as [Ho|[-> _]]; [done|]. by apply Hno.
Qed.

(** ** C97 *)
(** A false check falls, if more authors challenge it than are tolerated: whoever processes the event, nothing is delivered, and its author is reported.  (For challenges in honest names see C95:
    they are only ever of false checks.) *)
Theorem C97_outvoted V r n b v sig h : (r, n, b) ∈ s_pending s -> NoDup V -> (forall a, a ∈ V -> a ∈ challengers s (ck_id r)) -> tolerated c s r < N.of_nat (length V) ->
  let o := ProcessEvent (ck_id r) n v sig h in accepted c s o -> let s' := step c s o in
  s_delivered s' = s_delivered s /\ OffenceReported true [ck_by r] ∈ s_events s' /\ (is_processed s (ck_id r).2 = false -> is_processed s' (ck_id r).2 = false).
Proof.
  intros Hin HV Hsub HL o Ha s'.
  assert (Hlt : tolerated c s r < N.of_nat (length (challengers s (ck_id r)))).
  { eapply N.lt_le_trans; [exact HL|]. enough ((length V <= length (challengers s (ck_id r)))%nat) by lia. apply NoDup_incl_length; [by apply NoDup_ListNoDup|]. intros a Hc. apply elem_of_list_In, Hsub. by apply elem_of_list_In. }
  unfold s'. rewrite Es in Ha. pose proof (C59_decision c g (calls ops) (ck_id r) n v sig h G Ha) as (r' & b' & H1 & H2 & _ & _ & D & _). rewrite <-Es in H1, D.
  assert (E : (r', n, b') = (r, n, b)) by (apply (pending_unique s); [rewrite Es; by apply reached_inv|done..]). injection E as -> ->.
  destruct (D Hlt) as (D1 & D2 & D3). split; [exact D1|]. split; [|exact D2]. unfold o. rewrite D3. right. by left.
Qed.
(** The worker of an honest author whose turn it is not, whose next event to look at is one with a false check, and whose service answers about it (with enough confirmations), signs a challenge; submitted while
    the check is pending and the author has not challenged the event, it is accepted, and counts as one of the first fifty.  Not every false check: see C62_suppression_refuted. *)
Theorem C97_worker_challenges n v fin p r k b : n_first n = true -> n_saves n = true -> n_signs n = true -> local_validator n s = Some v -> n_finalised n = Some fin ->
  primary_for_block (s_validators s) (s_block s) = Ok p -> p <> v_account v -> truthful eth n ->
  next_to_validate s (v_account v) (w_seen w (n_id n)) fin = Some (r, k, b) -> (found wc n s (ck_id r)).1 <> RHttp -> (found wc n s (ck_id r)).1 <> RYoung ->
  ck_result r = ROk \/ F (ck_id r) <> None -> ~ true_check F r ->
  exists why, let ch := mkChallenge (ck_id r) why (v_account v) in In (v_key v, MChallenge ch k) (w_sigs (wstep wc w (WWorker n))) /\
  (v_account v ∉ challengers s (ck_id r) -> forall sig, c_verify c (v_key v) (MChallenge ch k) sig = true -> let o := ChallengeEvent ch k v sig in
     accepted c s o /\ (N.of_nat (length (challengers s (ck_id r))) < 50 -> v_account v ∈ challengers (step c s o) (ck_id r))).
Proof.
  intros H1 H2 H3 Hl Hf Hp Hne Ht Hn Hh1 Hy Hr Hfalse. pose proof (j_contracts _ _ _ _ _ _ HJ) as Hc. fold s in Hc.
  destruct (challenge_made eth wc n s (v_account v) r Ht Hh1 Hy) as [why Hw]; [by rewrite Hc|by rewrite Hc|]. exists why. intros ch.
  pose proof (proj1 (C62_next_to_validate s (v_account v) (w_seen w (n_id n)) fin) _ Hn) as (Hin & Hby & _ & _). cbn [fst] in Hin, Hby. split.
  - cbn [wstep]. fold s. unfold worker. rewrite H1, Hl, Hf, Hp. rewrite (proj2 (N.eqb_neq _ _) Hne). unfold try_validate. rewrite Hn. cbn [fst snd]. rewrite bool_decide_false by done. rewrite H2, H3. cbn [negb]. rewrite Hw. cbn. by left.
  - intros Hnew sig Hver o. assert (Hacc : accepted c s o).
    { unfold o. rewrite Es. apply (proj1 (C59_challenge_accepted c g (calls ops) ch k v sig G)). exists r, b. rewrite <-Es. cbn [ch ch_id ch_by]. split_and!; try done.
      apply find_some in Hl as [Hl _]. unfold is_validator. apply existsb_exists. exists v. split; [done|]. apply N.eqb_refl. }
    split; [exact Hacc|]. intros H50. rewrite Es in Hacc |- *. rewrite (proj2 (C59_challenge_accepted c g (calls ops) ch k v sig G) Hacc). cbn [ch ch_id ch_by]. rewrite bool_decide_true by done. rewrite <-Es. apply N.ltb_lt in H50. rewrite H50. cbn [andb].
    apply elem_of_app. right. by apply elem_of_list_singleton.
Qed.
End props.

(** A challenge counts until the check it is of is settled, whatever happens. *)
Theorem C97_challenge_stays c g ops more r n b a : sound g -> (r, n, b) ∈ s_pending (reached c g ops) -> a ∈ challengers (reached c g ops) (ck_id r) ->
  (r, n, b) ∈ s_pending (reached c g (ops ++ more)) -> a ∈ challengers (reached c g (ops ++ more)) (ck_id r).
Proof.
  intros G Hin Ha. induction more as [|o more IH] using rev_ind; [by rewrite app_nil_r|]. rewrite app_assoc, reached_snoc. intros Hin'.
  pose proof (reached_inv c g (ops ++ more) G) as I.
  assert (Hold : (r, n, b) ∈ s_pending (reached c g (ops ++ more))).
  { destruct (step_cases c (reached c g (ops ++ more)) o) as [[_ E]|[_ E]]; [|by rewrite E in Hin']. destruct (effect_pending _ _ _ _ _ E Hin') as [H|(r0 & n0 & v & sig & -> & Ee)]; [done|].
    exfalso. inversion E as [| |r1 n1 v1 sig1 Hm| | | | | |]; subst. destruct Hm as (Hu & _). apply unchecked_in in Hu as (b0 & Hu). assert (n = n0) as <- by congruence.
    pose proof (pending_settled _ _ _ _ (reached_inv c g ops G) Hin) as Hs. rewrite <-(app_nil_r ops) in Hs.
    assert (Hs' : settled (reached c g (ops ++ more)) n r). { unfold reached. rewrite run_app. rewrite app_nil_r in Hs. unfold reached in Hs. clear - Hs. revert Hs. generalize (run c (genesis (g_period g) (g_lifts g) (g_processed g) (g_contracts g) (g_validators g)) ops).
      induction more as [|o more IH]; intros x Hs; [done|]. cbn. apply IH. by apply settled_step. }
    destruct Hs' as (_ & Hs' & _). by apply (Hs' _ _ Hu). }
  specialize (IH Hold). destruct (step_cases c (reached c g (ops ++ more)) o) as [[_ E]|[_ E]]; [|by rewrite E].
  remember (step c (reached c g (ops ++ more)) o) as s' eqn:Es'. clear Es'. destruct E as [who k tx Hm|p k tx Hm Hs|r0 n0 v sig Hm|ch n0 v sig e Hm|id0 n0 v sig h e Hm|a0 Ha0|p Hp0|k tx a0|vs m]; try exact IH.
  - unfold challengers. cbn [challenged s_challenges]. destruct (_ <? MAX_CHALLENGES); [|exact IH]. rewrite mget_insert. case_bool_decide as Eid; [|exact IH]. rewrite <-Eid. apply elem_of_app. left. exact IH.
  - pose proof Hm as Hm'. apply may_process_iff in Hm as (r1 & b1 & -> & Hin1 & <- & _); [|done]. cbn [fst] in *. destruct Hm' as (_ & Hf & _).
    destruct (decide (ck_id r = ck_id r1)) as [Eid|Hne].
    + exfalso. cbn in Hin'. destruct (remove_last_spec _ _ _ Hf) as (l1 & l2 & El & _ & Hr). rewrite Hr in Hin'. assert (Ee : (r, n, b) = (r1, n0, b1)) by (by apply (pending_unique (reached c g (ops ++ more)))). 
      pose proof (i_ids _ I) as Hn. unfold ids in Hn. apply NoDup_app in Hn as (_ & _ & Hn). rewrite El, map_app in Hn. cbn in Hn. apply NoDup_app in Hn as (_ & P & Q). apply NoDup_cons in Q as [Q _]. rewrite Ee in Hin'.
      apply elem_of_app in Hin' as [X|X]; [apply (P (ck_id r1)); [by apply (map_elem pid _ (r1, n0, b1))|by left]|apply Q; by apply (map_elem pid _ (r1, n0, b1))].
    + unfold challengers. cbn [processed s_challenges]. destruct (challenge_successful _ _ _); [exact IH|]. unfold mget. rewrite lookup_delete_ne by done. exact IH.
  - destruct (add_processed_shape (k, tx) a0 (reached c g (ops ++ more))) as [mm Em]. rewrite Em in *. exact IH.
Qed.
(** A node that has once looked at an event, whatever it found (other than an HTTP error), never challenges it again. *)
Theorem C97_looks_once wc ops : forall w i id, id ∈ w_seen w i -> let w' := wrun wc w ops in
  id ∈ w_seen w' i /\ forall n key ch k, n_id n = i -> In (key, MChallenge ch k) (worker wc n (w_log w') (w_seen w' i)).1 -> ch_id ch <> id.
Proof.
  assert (Hstep : forall w o i id, id ∈ w_seen w i -> id ∈ w_seen (wstep wc w o) i).
  { intros w o i id H. destruct o as [n|k m|o]; [|exact H..]. cbn [wstep]. destruct (worker wc n (w_log w) (w_seen w (n_id n))) as [l seen] eqn:E. cbn [w_seen]. destruct (N.eqb_spec i (n_id n)) as [->|]; [|exact H].
    unfold worker in E. destruct (n_first n); [|by injection E as _ <-]. destruct (local_validator n (w_log w)) as [v|]; [|by injection E as _ <-]. destruct (n_finalised n) as [fin|]; [|by injection E as _ <-].
    destruct (primary_for_block _ _) as [p|]; [|by injection E as _ <-]. destruct (p =? v_account v); [by injection E as _ <-|]. unfold try_validate in E.
    destruct (next_to_validate _ _ _ _) as [e|]; [|by injection E as _ <-]. cbv zeta in E. destruct (bool_decide _); [by injection E as _ <-|]. destruct (n_saves n); cbn [negb] in E; [|by injection E as _ <-].
    injection E as _ <-. apply elem_of_app. by left. }
  induction ops as [|o ops IH]; intros w i id H; [|cbn; apply IH; by apply Hstep]. cbn [wrun fold_left]. split; [exact H|]. intros n key ch k <- Hin.
  unfold worker in Hin. destruct (n_first n); [|done]. destruct (local_validator n (w_log w)) as [v|]; [|done]. destruct (n_finalised n) as [fin|]; [|done]. destruct (primary_for_block _ _) as [p|]; [|done]. destruct (p =? v_account v).
  - cbn [fst] in Hin. destruct (n_signs n); [|done]. apply in_map_iff in Hin as (m & Em & Hin). apply in_app_or in Hin as [Hin|Hin].
    + unfold try_check in Hin. destruct (next_to_check _ _); [|done]. destruct (check_to_submit _ _ _ _); [|done]. destruct Hin as [<-|[]]. discriminate Em.
    + unfold try_process in Hin. destruct (next_to_process _ _ _); [|done]. destruct Hin as [<-|[]]. discriminate Em.
  - unfold try_validate in Hin. destruct (next_to_validate _ _ _ _) as [e|] eqn:En; [|by destruct (n_signs n)]. cbv zeta in Hin. destruct (bool_decide _); [by destruct (n_signs n)|]. destruct (n_saves n); cbn [negb fst] in Hin; [|by destruct (n_signs n)].
    destruct (n_signs n); [|done]. apply in_map_iff in Hin as (m & Em & Hin). destruct (challenge_required _ _ _) as [ch'|] eqn:Ec; [|done]. destruct Hin as [<-|[]]. injection Em as _ <- _.
    apply (proj1 (C62_next_to_validate _ _ _ _)) in En as (_ & _ & Hns & _). intros Eid. apply Hns. rewrite <-Eid in H. unfold challenge_required in Ec. repeat case_match; try done; by injection Ec as <-.
Qed.

(** ** Cases: five authors, number 10 dishonest, four honest; the transaction 7 contains a mint with data 5 from a trusted contract. *)
Definition ex_wc : wconfig := mkWconfig demo_config 20 99.
Definition ex_start : start := mkStart 100 [] ∅ [500] demo_validators.
Definition ex_eth (id : event_id) : receipt := mkReceipt true true (if bool_decide (id = (2, 7)) then Some (500, Some 5) else None) 1000.
Definition ex_A (a : N) : Prop := a <> 10.
Definition ex_node (a conf : N) : node :=
  mkNode a [a] true (Some 1000) (fun id => Some (mkReceipt true true (rc_event (ex_eth id)) conf)) true true.
Lemma ex_truthful a conf : truthful ex_eth (ex_node a conf).
Proof. intros id rc E. cbn in E. injection E as <-. done. Qed.
Lemma ex_sound : sound ex_start. Proof. split; [constructor|done]. Qed.
Lemma ex_keys : keys_of_honest ex_A ex_A demo_validators.
Proof. intros v Hv. cbn in Hv. unfold ex_A. repeat destruct Hv as [<-|Hv]; try done. Qed.
Definition ex_val (a : N) : validator := mkValidator a a.
Definition ex_false : check := demo_check (2, 7) 77 ROk 0.
Definition ex_ch (a : N) : challenge := mkChallenge (2, 7) IncorrectEventData a.
Ltac allowed_op := cbn [allowed]; first
  [ intros ? _ _; apply ex_truthful
  | (intros H; apply H; reflexivity)
  | (split; [intros ? ? ? E; cbn [signed_call] in E; first [discriminate E | (injection E as <- <- <-; split; [vm_compute; tauto|intros HK _; first [(exfalso; apply HK; reflexivity) | (vm_compute; tauto)]])]
            | split; [intros ? ? E; first [discriminate E | (injection E as <- _; exact ex_keys)] | intros ? E; discriminate E]]) ].
(** An honest check is made, processed and delivered. *)
Definition ex_good : list wop := [WChain (AddLog 1 2 7); WChain (NewBlock demo_validators 0); WWorker (ex_node 11 100); WChain (SubmitCheck (mkCheck (2, 7) 5 ROk 11 1 0 0) 1 (ex_val 11) 0);
  WWorker (ex_node 12 100); WWorker (ex_node 13 5); WChain (NewBlock demo_validators 100); WWorker (ex_node 13 100)].
Example C96_example : honest_history ex_wc ex_A ex_A ex_eth (world0 ex_start) ex_good /\
  let s := w_log (wrun ex_wc (world0 ex_start) ex_good) in
  (exists b, (mkCheck (2, 7) 5 ROk 11 1 101 1, 1, b) ∈ s_pending s) /\ challengers s (2, 7) = [] /\ tolerated demo_config s (mkCheck (2, 7) 5 ROk 11 1 101 1) = 1 /\
  accepted demo_config s (ProcessEvent (2, 7) 1 (ex_val 13) 0 true) /\ s_delivered (step demo_config s (ProcessEvent (2, 7) 1 (ex_val 13) 0 true)) = [((2, 7), 5)] /\
  fact ex_eth 99 [500] (2, 7) = Some 5.
Proof.
  split; [unfold ex_good; cbn [honest_history]; split_and!; try exact I; allowed_op|]. split_and!; try (vm_compute; reflexivity). exists 1. apply elem_of_list_In. vm_compute. tauto.
Qed.
(** A false check is challenged by two and falls. *)
Definition ex_bad : list wop := [WChain (AddLog 1 2 7); WSign 10 (MCheck ex_false 1); WChain (SubmitCheck ex_false 1 (ex_val 10) 0); WChain (NewBlock demo_validators 0);
  WWorker (ex_node 12 100); WWorker (ex_node 13 100); WChain (ChallengeEvent (ex_ch 12) 1 (ex_val 12) 0); WChain (ChallengeEvent (ex_ch 13) 1 (ex_val 13) 0); WChain (NewBlock demo_validators 100); WWorker (ex_node 12 100)].
Example C97_example : honest_history ex_wc ex_A ex_A ex_eth (world0 ex_start) ex_bad /\
  let s := w_log (wrun ex_wc (world0 ex_start) ex_bad) in
  challengers s (2, 7) = [12; 13] /\ accepted demo_config s (ProcessEvent (2, 7) 1 (ex_val 12) 0 true) /\ s_delivered (step demo_config s (ProcessEvent (2, 7) 1 (ex_val 12) 0 true)) = [] /\
  map (fun e => (ck_data e.1.1, e.1.2)) (s_pending s) = [(77, 1)] /\ tolerated demo_config s (mkCheck (2, 7) 77 ROk 10 0 100 1) = 1.
Proof. split; [unfold ex_bad; cbn [honest_history]; split_and!; try exact I; allowed_op|]. split_and!; vm_compute; reflexivity. Qed.

(** The condition of C96 that no challenge of the event succeeded before is needed: a challenge that succeeded is not forgotten (lib.rs:590-612), so when the event is brought in again, the next check is overruled at once,
    however true, and its honest author is reported. *)
Definition ex_again : list wop := ex_bad ++ [WChain (ProcessEvent (2, 7) 1 (ex_val 12) 0 true); WChain (AddLog 1 2 7); WWorker (ex_node 12 100); WChain (SubmitCheck (mkCheck (2, 7) 5 ROk 12 102 0 0) 2 (ex_val 12) 0);
  WChain (NewBlock demo_validators 100); WWorker (ex_node 13 100); WChain (ProcessEvent (2, 7) 2 (ex_val 13) 0 true)].
Theorem C96_honest_author_reported_refuted : ~ forall wc A K eth g ops B off a,
  sound g -> keys_of_honest A K (g_validators g) -> honest_history wc A K eth (world0 g) ops -> (forall a, ~ A a -> In a B) ->
  (forall vs k, In (WChain (NewBlock vs k)) ops -> vs = g_validators g) -> N.of_nat (length B) <= N.of_nat (length (g_validators g)) / c_quorum (wc_pallet wc) ->
  OffenceReported true off ∈ s_events (w_log (wrun wc (world0 g) ops)) -> a ∈ off -> ~ A a.
Proof.
  intros H. apply (H ex_wc ex_A ex_A ex_eth ex_start ex_again [10] [12] 12); clear H.
  - exact ex_sound.
  - exact ex_keys.
  - unfold ex_again, ex_bad; cbn [app honest_history]; split_and!; try exact I; allowed_op.
  - intros a Ha. destruct (N.eq_dec a 10) as [->|]; [by left|]. by destruct Ha.
  - intros vs k Hin. unfold ex_again, ex_bad in Hin. cbn [app In] in Hin. repeat destruct Hin as [Hin|Hin]; try discriminate Hin; try contradiction; by injection Hin as <- _.
  - vm_compute. discriminate.
  - apply elem_of_list_In. vm_compute. tauto.
  - by left.
  - intros E. discriminate E.
Qed.
(** And "a false check falls if every honest author's node looks at it in time, with an answer" is false: a node that looks too early finds too few confirmations, which it takes for no reason to challenge, and
    notes the event as validated (lib.rs:1304-1310, 1352-1368); it never looks again (C97_looks_once).  So a false report of a young transaction goes through. *)
Definition ex_early : list wop := [WChain (AddLog 1 2 7); WSign 10 (MCheck ex_false 1); WChain (SubmitCheck ex_false 1 (ex_val 10) 0); WChain (NewBlock demo_validators 0);
  WWorker (ex_node 12 5); WWorker (ex_node 13 5); WWorker (ex_node 14 5); WChain (NewBlock demo_validators 0); WWorker (ex_node 11 5);
  WChain (NewBlock demo_validators 2); WWorker (ex_node 11 100); WWorker (ex_node 12 100); WWorker (ex_node 13 100); WWorker (ex_node 14 100);
  WChain (NewBlock demo_validators 100); WSign 10 (MProcess (2, 7) 1); WChain (ProcessEvent (2, 7) 1 (ex_val 10) 0 true)].
Definition looked (wc : wconfig) (g : start) (ops : list wop) (id : event_id) (a : N) : Prop :=
  exists before n after v p, ops = before ++ WWorker n :: after /\ let s := w_log (wrun wc (world0 g) before) in
  n_first n = true /\ n_saves n = true /\ n_signs n = true /\ local_validator n s = Some v /\ v_account v = a /\ primary_for_block (s_validators s) (s_block s) = Ok p /\ p <> a /\
  (found wc n s id).1 = ROk /\ exists r k b fin, (r, k, b) ∈ s_pending s /\ ck_id r = id /\ ck_by r <> a /\ n_finalised n = Some fin /\ b <= fin.
Lemma nth_split {X} k : forall (l : list X) x, nth_error l k = Some x -> l = firstn k l ++ x :: skipn (S k) l.
Proof. induction k as [|k IH]; intros [|y l] x H; try discriminate H; cbn in H; [by injection H as ->|]. cbn [firstn app]. f_equal. by apply IH. Qed.
Theorem C97_all_look_refuted : ~ forall wc A K eth g ops id d, sound g -> keys_of_honest A K (g_validators g) -> honest_history wc A K eth (world0 g) ops ->
  (forall v, In v (g_validators g) -> A (v_account v) -> looked wc g ops id (v_account v)) ->
  (id, d) ∈ s_delivered (w_log (wrun wc (world0 g) ops)) -> fact eth (wc_bridge wc) (g_contracts g) id = Some d.
Proof.
  intros H. assert (E : fact ex_eth (wc_bridge ex_wc) (g_contracts ex_start) (2, 7) = Some 77); [|vm_compute in E; discriminate E].
  apply (H ex_wc ex_A ex_A ex_eth ex_start ex_early (2, 7) 77); clear H.
  - exact ex_sound.
  - exact ex_keys.
  - unfold ex_early; cbn [honest_history]; split_and!; try exact I; allowed_op.
  - intros v Hv HA.
    assert (L : forall k a, nth_error ex_early k = Some (WWorker (ex_node a 100)) -> let s := w_log (wrun ex_wc (world0 ex_start) (firstn k ex_early)) in
      local_validator (ex_node a 100) s = Some (ex_val a) -> s_validators s = demo_validators -> s_block s = 5 -> a <> 10 -> (found ex_wc (ex_node a 100) s (2, 7)).1 = ROk ->
      s_pending s = [(mkCheck (2, 7) 77 ROk 10 0 100 1, 1, 0)] -> looked ex_wc ex_start ex_early (2, 7) a).
    { intros k a Hk s Hl Hvs Hb Ha Hf Hp. exists (firstn k ex_early), (ex_node a 100), (skipn (S k) ex_early), (ex_val a), 10. split.
      - exact (nth_split k _ _ Hk).
      - fold s. cbn zeta. rewrite Hvs, Hb. split_and!; try reflexivity; try exact Hl; try exact Hf; [intros E; by subst a|].
        exists (mkCheck (2, 7) 77 ROk 10 0 100 1), 1, 0, 1000. rewrite Hp. split_and!; [by left|done|cbn; intros E; by subst a|done|done]. }
    cbn in Hv. repeat destruct Hv as [<-|Hv]; try contradiction; [apply (L 10%nat 11)|apply (L 11%nat 12)|apply (L 12%nat 13)|apply (L 13%nat 14)]; try (vm_compute; reflexivity); discriminate.
  - apply elem_of_list_In. vm_compute. tauto.
Qed.
