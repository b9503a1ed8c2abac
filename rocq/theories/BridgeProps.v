(** Theorems about the outgoing Ethereum bridge: C09 - C14, C35. *)
From Verif Require Import Base BaseLemmas AvnModel CodecModel BridgeModel BridgeProofs BridgeSpec BridgeProofs2 BridgeProofs3 BridgeProofs4.

(** A concrete world: validators 1 - 5 with session keys 11 - 15 and Ethereum keys 1 - 5.  A toy
    signature of message [m] by Ethereum key [k] is [1000 m + 10 k + x] for any digit [x] (ECDSA
    also has many valid signatures of one message by one key). *)
Definition ex_c : config := mkConfig 3 (fun fn ps inst => Some (inst + 70)) (fun ps inst => match ps with [] => None | x :: _ => Some (x + inst) end)
  (fun sig msg => if sig / 1000 =? msg then Some (sig mod 1000 / 10) else None) (fun _ => true) 20.
Definition ex_verify (key : N) (p : payload) (sig : N) : bool := sig =? key.
Definition ex_vs : list validator := [mkValidator 1 11; mkValidator 2 12; mkValidator 3 13; mkValidator 4 14; mkValidator 5 15].
Definition ex_keys : gmap N N := list_to_map [(1, 1); (2, 2); (3, 3); (4, 4); (5, 5)].
Definition ex_g : st := genesis 100 600 1 ex_vs.
Definition ex_sig (msg key x : N) : N := 1000 * msg + 10 * key + x.
Definition ex_conf (id msg k x : N) : op := OpConfirm id (ex_sig msg k x) (mkValidator k (10 + k)) (10 + k).
Definition ex_corr (id k : N) (su hv : bool) (n : N) : op := OpCorroborate id su hv (mkValidator k (10 + k)) n (10 + k).
(** A transaction is published (sender 2), another one and two lower proofs are queued (one of which
    cannot be set up), the first transaction fails with a wrong hash, is replayed (sender 3), and succeeds;
    a publish with an over-long function name fails and burns an id in a hook. *)
Definition ex_ops : list op :=
  [EnvKeys ex_keys; EnvBlock 5 1000; OpPublish true [112] [] [7]; OpPublish true [113] [] [8]; OpLowerProof true 9 [] [9]; OpLowerProof true 9 [4] [9];
   OpPublish true [114] [] [8];
   OpPublish false (repeat 65 33) [] [8];
   ex_conf 100 71 1 0; OpEthTxHash 100 555 (mkValidator 2 12) 12; OpEthTxHash 100 556 (mkValidator 2 12) 12;
   ex_corr 100 1 false false 0; ex_corr 100 3 false false 0;
   ex_corr 100 1 true true 0; ex_corr 100 1 true true 1; ex_corr 100 3 true true 1; ex_corr 100 1 true true 1; ex_corr 100 2 true true 1].
Example ex_history :
  let s := run ex_c ex_verify ex_g ex_ops in
  accepted (s_events s) = [RSend (mkSend 100 [112] [] [7]); RSend (mkSend 101 [113] [] [8]); RLower (mkLower 9 [] [9]); RLower (mkLower 9 [4] [9])] /\
  outstanding s = [RSend (mkSend 101 [113] [] [8]); RLower (mkLower 9 [] [9]); RLower (mkLower 9 [4] [9])] /\
  s_notices s = [NResult 100 [7] true] /\ fmap se_succeeded (s_settled s !! 100) = Some true /\ s_next s = 103 /\
  fmap ac_req (s_active s) = Some (RSend (mkSend 101 [113] [] [8])).
Proof. vm_compute. auto 20. Qed.

(** ** C09: ids *)

(** A successful publish returns the counter and moves it on by one (u32); a failed one inside a
    dispatched call changes nothing, and inside a hook at most skips an id. *)
Theorem C09_publish_returns_counter c fn ps caller s s' id : publish c fn ps caller s = (s', Ok id) ->
  id = s_next s /\ s_next s' = (s_next s + 1) mod 2 ^ 32 /\
  accepted (s_events s') = accepted (s_events s) ++ [RSend (mkSend id fn ps caller)].
Proof.
  intros H. apply (publish_effect c (fun _ _ _ => true) true) in H as H'. destruct H' as [-> _]. split; [reflexivity|].
  unfold publish, emit in H. minv H.
  match goal with X : add_new_send_request _ _ _ _ _ = _ |- _ => apply add_new_send_ok in X as [-> [(x & Ea & Hl & ->)|[Ea Hst]]] end.
  - cbn -[accepted]. now rewrite accepted_cons.
  - pose proof (started_fields _ _ _ _ _ Hst) as (_ & En & _ & _ & Ev & _). cbn in En, Ev. cbn -[accepted]. now rewrite accepted_cons, En, Ev.
Qed.
Print Assumptions C09_publish_returns_counter.

(** As long as the administrator does not set the counter and it does not run over u32, the ids of all
    accepted transactions are strictly increasing in the order of acceptance: none is ever handed out
    twice, and none handed out so far will be handed out again. *)
Theorem C09_ids_increase c verify next life inst vs ops : no_id_reset ops -> next + N.of_nat (length ops) < 2 ^ 32 ->
  let s := run c verify (genesis next life inst vs) ops in
  let ids := send_ids (accepted (s_events s)) in
  StronglySorted N.lt ids /\ NoDup ids /\ Forall (fun i => i < s_next s) ids.
Proof.
  intros Hr Hb s ids. destruct (run_Ids c verify (genesis next life inst vs) ops Hr Hb) as [[H1 H2 _] _]; [apply genesis_W|apply genesis_Ids|].
  split; [exact H1|]. split; [now apply sorted_nodup|exact H2].
Qed.
Print Assumptions C09_ids_increase.

(** A transaction still waiting has no settled entry, so its result never overwrites another one. *)
Theorem C09_outstanding_not_settled c verify next life inst vs ops : no_id_reset ops -> next + N.of_nat (length ops) < 2 ^ 32 ->
  let s := run c verify (genesis next life inst vs) ops in
  forall r, In (RSend r) (outstanding s) -> s_settled s !! sr_id r = None.
Proof.
  intros Hr Hb s r Hin. destruct (run_Ids c verify (genesis next life inst vs) ops Hr Hb) as [[H1 H2 (told & HT & HS)] _]; [apply genesis_W|apply genesis_Ids|].
  fold s in H1, H2, HT, HS. destruct (s_settled s !! sr_id r) as [d|] eqn:E; [|reflexivity]. exfalso.
  assert (In (sr_id r) (send_ids told)) by (apply HS; rewrite E; eauto).
  assert (In (sr_id r) (send_ids (outstanding s))) by (unfold send_ids; apply elem_of_list_In, elem_of_list_omap; exists (RSend r); split; [now apply elem_of_list_In|reflexivity]).
  apply sorted_nodup in H1. rewrite HT, send_ids_app in H1. apply NoDup_app in H1 as (_ & H1 & _). eapply H1; apply elem_of_list_In; eassumption.
Qed.
Print Assumptions C09_outstanding_not_settled.

(** With an administrator reset the claim fails: the same id is handed out twice. *)
Theorem C09_reset_reuses_id_refuted : exists ops, let s := run ex_c ex_verify ex_g ops in
  send_ids (accepted (s_events s)) = [100; 100] /\ length (outstanding s) = 2%nat.
Proof. exists [OpPublish true [112] [] [7]; OpSetTxId 100; OpPublish true [113] [] [8]]. vm_compute. auto. Qed.
Print Assumptions C09_reset_reuses_id_refuted.

Example C09_hypotheses : no_id_reset ex_ops /\ 100 + N.of_nat (length ex_ops) < 2 ^ 32.
Proof. split; [|reflexivity]. intros o Ho. cbn in Ho. repeat (destruct Ho as [<-|Ho]; [exact I|]). destruct Ho. Qed.

(** ** C10: one at a time, first in first out *)
Theorem C10_queue c verify next life inst vs ops : let s := run c verify (genesis next life inst vs) ops in
  (s_active s = None -> s_queue s = []) /\ N.of_nat (length (s_queue s)) <= c_max_queue c.
Proof. intros s. destruct (run_W c verify _ ops (genesis_W c next life inst vs)) as [H1 _ H2]. auto. Qed.
Print Assumptions C10_queue.

(** One operation: accepted requests join at the back, finished ones leave at the front. *)
Theorem C10_fifo c verify next life inst vs ops o : let s := run c verify (genesis next life inst vs) ops in let s' := step c verify s o in
  exists told new, outstanding s ++ new = told ++ outstanding s' /\ accepted (s_events s') = accepted (s_events s) ++ new.
Proof.
  intros s s'. destruct (effect_fifo c verify s o s') as [_ (told & new & nn & H1 & _ & _ & H4)]; [apply step_effect|apply run_W, genesis_W|]. eauto.
Qed.
Print Assumptions C10_fifo.
(** Over a whole history: the requests accepted so far, in order, are the finished ones followed by the
    active one and the queue. *)
Theorem C10_history c verify next life inst vs ops : let s := run c verify (genesis next life inst vs) ops in
  exists finished, accepted (s_events s) = finished ++ outstanding s.
Proof. intros s. destruct (run_told c verify (genesis next life inst vs) ops) as (told & H & _); auto using genesis_W. eauto. Qed.
Print Assumptions C10_history.
(** A publish while a request is active queues it and leaves the active request alone; it is refused
    exactly when the queue is full (or the request itself is malformed). *)
Theorem C10_queued_behind c fn ps caller s s' id a : s_active s = Some a -> publish c fn ps caller s = (s', Ok id) ->
  s_active s' = Some a /\ s_queue s' = s_queue s ++ [RSend (mkSend id fn ps caller)] /\ N.of_nat (length (s_queue s)) < c_max_queue c.
Proof.
  intros Ha H. unfold publish, emit in H. minv H.
  match goal with X : add_new_send_request _ _ _ _ _ = _ |- _ => apply add_new_send_ok in X as [-> [(x & Ea & Hl & ->)|[Ea Hst]]] end; [|congruence].
  cbn. auto.
Qed.
Print Assumptions C10_queued_behind.

(** ** C11: the requesting pallet hears about each request exactly once *)

(** The accepted requests are the outstanding ones and the finished ones; the notifications sent are,
    one by one and in order, about the finished ones. *)
Theorem C11_notified_exactly_once c verify next life inst vs ops : let s := run c verify (genesis next life inst vs) ops in
  exists finished, accepted (s_events s) = finished ++ outstanding s /\ Forall2 about finished (rev (s_notices s)).
Proof. apply run_told; auto using genesis_W. Qed.
Print Assumptions C11_notified_exactly_once.
(** A notification is sent only when its request leaves the active slot, or when it could not be set
    up after reaching the front of the queue. *)
Theorem C11_only_when_leaving c verify next life inst vs ops o : let s := run c verify (genesis next life inst vs) ops in let s' := step c verify s o in
  exists told nn rest, s_notices s' = nn ++ s_notices s /\ Forall2 about told (rev nn) /\
    (told = [] \/ exists a, s_active s = Some a /\ ac_req a :: s_queue s = told ++ rest /\ outstanding s' = rest).
Proof.
  intros s s'. pose proof (run_W c verify _ ops (genesis_W c next life inst vs)) as HW. fold s in HW.
  pose proof (step_effect c verify s o) as He. fold s' in He.
  destruct (effect_fifo _ _ _ _ _ He HW) as [HW' (told & new & nn & H1 & H2 & H3 & H4)].
  destruct (decide (told = [])) as [->|Hne].
  - exists [], nn, []. auto.
  - assert (Hnew : new = []).
    { destruct (effect_told_or_new _ _ _ _ _ He) as [E|E].
      - exfalso. rewrite E in H2. assert (nn = []) as -> by (apply (f_equal length) in H2; rewrite app_length in H2; destruct nn; [reflexivity|cbn in H2; lia]).
        cbn in H3. apply Forall2_nil_inv_r in H3. contradiction.
      - rewrite E in H4. rewrite <- (app_nil_r (accepted _)) in H4 at 1. now apply app_inv_head in H4. }
    subst new. rewrite app_nil_r in H1. exists told, nn, (outstanding s'). split; [exact H2|]. split; [exact H3|]. right.
    destruct (s_active s) as [a|] eqn:Ea.
    + exists a. unfold outstanding in H1 at 1. rewrite Ea in H1. auto.
    + exfalso. unfold outstanding in H1 at 1. rewrite Ea, (W_idle _ _ HW Ea) in H1. cbn in H1. symmetry in H1. apply app_eq_nil in H1 as [? _]. contradiction.
Qed.
Print Assumptions C11_only_when_leaving.

(** ** C12: an outcome needs a quorum *)

(** Whenever a transaction is recorded as settled with an outcome: there was an attempt [a] that began
    after [pre] and was active all through [post], and distinct accounts [A], none of them the sender of
    that attempt, each of which, while a validator, reported that outcome for that attempt during it;
    their number reached the quorum of the other validators at the moment of recording. *)
Theorem C12_settled_needs_quorum c verify next life inst vs ops id d : let g := genesis next life inst vs in
  s_settled (run c verify g ops) !! id = Some d ->
  exists pre post o rest a t A,
    ops = pre ++ post ++ o :: rest /\ began c verify g pre post a /\
    s_active (run c verify g (pre ++ post)) = Some a /\ request_id (ac_req a) = id /\ ac_tx a = Some t /\ se_sender d = tx_sender t /\
    NoDup A /\ ~ In (tx_sender t) A /\
    quorum_for ((N.of_nat (length (s_vs (run c verify g (pre ++ post)))) - 1) mod 2 ^ 32) <= N.of_nat (length A) /\
    (forall x, In x A -> happened c verify (run c verify g pre) (post ++ [o]) (reports verify id (se_succeeded d) (tx_attempt t) x)).
Proof.
  intros g Hd. destruct (run_settled c verify g ops id d eq_refl Hd) as (q & o & rest & Eops & Hnot & Hset).
  destruct (effect_settled_done _ _ _ _ _ _ _ (step_effect c verify (run c verify g q) o) Hset) as [?|(a & r & t & hv & w & Ha & Hr & Hid & Ht & Hrep & Hw & Hws & Hwf & Hq & _ & _ & Hse)]; [contradiction|].
  destruct (run_history c verify g q eq_refl a Ha) as (pre & post & Eq & Hb & _ & Hrs).
  set (su := se_succeeded d) in *. exists pre, post, o, rest, a, t, (matching (corroborated t su hv w) su).
  destruct (run_Lists c verify g q eq_refl) as [_ HL]. destruct (HL a t Ha Ht) as (HL1 & HL2 & HL3).
  destruct (corroborated_ok t su hv w HL1 HL2 HL3 Hw Hws Hwf) as (C1 & C2 & _).
  rewrite <- Eq. split; [now rewrite Eops, Eq, <- app_assoc|]. split; [exact Hb|]. split; [exact Ha|]. split; [rewrite Hr; exact Hid|]. split; [exact Ht|]. split; [exact Hse|].
  assert (Es : tx_sender (corroborated t su hv w) = tx_sender t) by (unfold corroborated; destruct su, hv; reflexivity). rewrite Es in C2.
  split; [|split; [|split]].
  - apply NoDup_app in C1 as (N1 & _ & N2). now destruct su.
  - intros Hin. apply C2, in_or_app. destruct su; auto.
  - unfold has_enough_corroborations in Hq. apply N.leb_le in Hq. unfold len in Hq.
    assert (Hv : (1 <= length (s_vs (run c verify g q)))%nat).
    { destruct Hrep as (_ & _ & _ & _ & Hv & _). unfold is_validator in Hv. destruct (s_vs (run c verify g q)); [discriminate|cbn; lia]. }
    replace (N.of_nat (length (s_vs (run c verify g q))) + 2 ^ 32 - 1) with (N.of_nat (length (s_vs (run c verify g q))) - 1 + 1 * 2 ^ 32) in Hq by lia.
    now rewrite N.mod_add in Hq by lia.
  - intros x Hx. apply corroborated_matching in Hx as [Hx|[_ ->]].
    + apply happened_snoc. assert (Ei : request_id (ac_req a) = id) by (rewrite Hr; exact Hid). rewrite <- Ei. now apply Hrs.
    + apply happened_last. now rewrite <- run_app, <- Eq.
Qed.
Print Assumptions C12_settled_needs_quorum.

(** A validator is recorded at most once per attempt, whatever it reports, and the sender never. *)
Theorem C12_counted_once c verify next life inst vs ops a t : let s := run c verify (genesis next life inst vs) ops in
  s_active s = Some a -> ac_tx a = Some t -> NoDup (tx_success t ++ tx_failure t) /\ ~ In (tx_sender t) (tx_success t ++ tx_failure t).
Proof. intros s Ha Ht. destruct (run_Lists c verify (genesis next life inst vs) ops eq_refl) as [_ HL]. destruct (HL a t Ha Ht) as (? & ? & _). auto. Qed.
Print Assumptions C12_counted_once.

(** A pallet is told that its transaction succeeded only in the very step that records the active
    transaction of that id as settled successfully; the recorded outcome and the reported one agree. *)
Theorem C12_success_told_iff_recorded c verify s o : let s' := step c verify s o in exists nn, s_notices s' = nn ++ s_notices s /\
  (forall id caller, In (NResult id caller true) nn -> exists r d, sr_id r = id /\ sr_caller r = caller /\ outstanding s = RSend r :: s_queue s /\
     s_settled s' !! id = Some d /\ se_succeeded d = true) /\
  (forall id d, s_settled s' !! id = Some d -> s_settled s !! id = Some d \/ exists caller, In (NResult id caller (se_succeeded d)) nn).
Proof.
  intros s'. pose proof (step_effect c verify s o) as He. fold s' in He. destruct (effect_good _ _ _ _ _ He) as (nn & E & Hg). exists nn. split; [exact E|]. split.
  - intros id caller Hin. destruct (Hg _ Hin I) as [(r & d & En & Hd & Hs & Ho)|(r & a & conf & v & sig & En & _)]; [|discriminate]. injection En as -> ->. eauto 10.
  - intros id d Hd. destruct (effect_settled _ _ _ _ _ He) as [Es|(a & r & d' & rest & _ & _ & Es & En)]; [left; now rewrite <- Es|].
    rewrite Es in Hd. destruct (decide (sr_id r = id)) as [<-|Hne]; [|left; now rewrite lookup_insert_ne in Hd].
    rewrite lookup_insert in Hd. injection Hd as ->. right. exists (sr_caller r). rewrite E in En.
    change (rest ++ ?x :: s_notices s) with (rest ++ [x] ++ s_notices s) in En. rewrite app_assoc in En. apply app_inv_tail in En. rewrite En. apply in_or_app. right. now left.
Qed.
Print Assumptions C12_success_told_iff_recorded.

(** ** C13: confirmations *)

(** Every stored confirmation was submitted, during the current attempt, by an account that was a
    validator then, and recovers, over the hash of the request, to an Ethereum key registered to that
    account; no signature is stored twice.  Missing: distinctness of the validators (see below). *)
Theorem C13_confirmations_partial c verify next life inst vs ops a : let g := genesis next life inst vs in
  s_active (run c verify g ops) = Some a ->
  NoDup (ac_confirmations a) /\
  exists pre post, ops = pre ++ post /\ began c verify g pre post a /\
    forall x, In x (ac_confirmations a) -> exists w, happened c verify (run c verify g pre) post (confirms c verify (request_id (ac_req a)) (ac_msg a) x w).
Proof.
  intros g Ha. destruct (run_Lists c verify g ops eq_refl) as [HL _]. split; [now apply HL|].
  destruct (run_history c verify g ops eq_refl a Ha) as (pre & post & E & Hb & Hc & _). eauto.
Qed.
Print Assumptions C13_confirmations_partial.

(** A lower proof is delivered only in the step of a fresh valid confirmation of a validator that brings the
    stored distinct confirmations to the supermajority. *)
Theorem C13_proof_needs_supermajority c verify next life inst vs ops o : let s := run c verify (genesis next life inst vs) ops in let s' := step c verify s o in
  exists nn, s_notices s' = nn ++ s_notices s /\ forall id caller, In (NProof id caller true) nn ->
    exists a conf w, s_active s = Some a /\ request_id (ac_req a) = id /\ confirms c verify id (ac_msg a) conf w s o /\
      NoDup (ac_confirmations a ++ [conf]) /\ avn_supermajority (s_vs s) <= N.of_nat (length (ac_confirmations a ++ [conf])).
Proof.
  intros s s'. destruct (effect_good _ _ _ _ _ (step_effect c verify s o)) as (nn & E & Hg). exists nn. split; [exact E|].
  intros id caller Hin. destruct (Hg _ Hin I) as [(r & d & En & _)|(r & a & conf & v & sig & En & Ha & Hr & Ho & Hc & Hn & Hq)]; [discriminate|].
  injection En as -> ->. exists a, conf, (v_account v). split; [exact Ha|]. split; [now rewrite Hr|]. split; [exact Hc|]. split.
  - destruct (run_Lists c verify (genesis next life inst vs) ops eq_refl) as [HL _]. apply NoDup_app. split; [now apply HL|]. split; [|apply NoDup_singleton].
    intros x Hx Hx'. apply elem_of_list_singleton in Hx'. subst. apply elem_of_list_In in Hx. contradiction.
  - unfold len in Hq. rewrite app_length. cbn. lia.
Qed.
Print Assumptions C13_proof_needs_supermajority.

(** If a key had only one valid signature of a message, the confirmations would come from distinct
    registered keys. *)
Theorem C13_distinct_keys_if_signatures_unique c verify next life inst vs ops a : let g := genesis next life inst vs in
  (forall x y m k, c_recover c x m = Some k -> c_recover c y m = Some k -> x = y) ->
  s_active (run c verify g ops) = Some a ->
  exists keys, NoDup keys /\ Forall2 (fun x k => c_recover c x (ac_msg a) = Some k /\
     exists q w, (exists r, ops = q ++ r) /\ s_keys (run c verify g q) !! k = Some w /\ is_validator (s_vs (run c verify g q)) w = true) (ac_confirmations a) keys.
Proof.
  intros g Hu Ha. destruct (C13_confirmations_partial c verify next life inst vs ops a Ha) as (Hn & pre & post & E & _ & Hc). fold g in Hc.
  assert (Hk : exists keys, Forall2 (fun x k => c_recover c x (ac_msg a) = Some k /\
     exists q w, (exists r, ops = q ++ r) /\ s_keys (run c verify g q) !! k = Some w /\ is_validator (s_vs (run c verify g q)) w = true) (ac_confirmations a) keys).
  { clear Hn. induction (ac_confirmations a) as [|x l IH]; [exists []; constructor|].
    destruct IH as (keys & Hkeys); [intros y Hy; apply Hc; now right|].
    destruct (Hc x (or_introl eq_refl)) as (w & q & o & r & Er & v & sig & key & -> & Hw & Hv & Hr & Hkk).
    exists (key :: keys). constructor; [|exact Hkeys]. split; [exact Hr|]. exists (pre ++ q), w. rewrite run_app. split; [|auto].
    rewrite E, Er. eexists. rewrite <- app_assoc. reflexivity. }
  destruct Hk as (keys & Hk). exists keys. split; [|exact Hk].
  clear Ha Hc. induction Hk as [|x k l ks [Hx _] Hf IH]; [constructor|]. apply NoDup_cons in Hn as [Hx1 Hn]. constructor; [|now apply IH].
  intros Hin. apply Hx1. clear IH Hx1 Hn. induction Hf as [|y k' l ks [Hy _] Hf IH]; [inversion Hin|].
  apply elem_of_cons in Hin as [<-|Hin]; [rewrite (Hu _ _ _ _ Hx Hy); constructor|constructor; now apply IH].
Qed.
Print Assumptions C13_distinct_keys_if_signatures_unique.

(** But the check compares signatures, not signers: a validator that signs twice is counted twice.
    Here validator 1 alone supplies the three confirmations an Ethereum transaction of 11 validators
    needs, and alone completes a lower proof of 3 validators. *)
Definition ex_vs3 : list validator := [mkValidator 1 11; mkValidator 2 12; mkValidator 3 13].
Definition ex_vs11 : list validator := map (fun i => mkValidator i (10 + i)) [1; 2; 3; 4; 5; 6; 7; 8; 9; 10; 11].
Theorem C13_distinct_validators_refuted :
  (exists ops a, let s := run ex_c ex_verify (genesis 100 600 1 ex_vs11) ops in s_active s = Some a /\ has_enough_confirmations s a = true /\
     avn_quorum (s_vs s) = 4 /\ (forall o, In o ops -> match o with OpConfirm _ _ v _ => v_account v = 1 | _ => True end)) /\
  (exists ops, let s := run ex_c ex_verify (genesis 100 600 1 ex_vs3) ops in s_notices s = [NProof 9 [9] true] /\
     avn_supermajority (s_vs s) = 2 /\ (forall o, In o ops -> match o with OpConfirm _ _ v _ => v_account v = 1 | _ => True end)).
Proof.
  split.
  - exists [EnvKeys ex_keys; OpPublish true [112] [] [7]; ex_conf 100 71 1 0; ex_conf 100 71 1 1; ex_conf 100 71 1 2]. eexists. cbv zeta.
    split; [vm_compute; reflexivity|]. split; [vm_compute; reflexivity|]. split; [vm_compute; reflexivity|].
    intros o Ho. cbn in Ho. repeat (destruct Ho as [<-|Ho]; [reflexivity || exact I|]). destruct Ho.
  - exists [EnvKeys ex_keys; OpLowerProof true 9 [4] [9]; ex_conf 9 5 1 0; ex_conf 9 5 1 1]. cbv zeta.
    split; [vm_compute; reflexivity|]. split; [vm_compute; reflexivity|].
    intros o Ho. cbn in Ho. repeat (destruct Ho as [<-|Ho]; [reflexivity || exact I|]). destruct Ho.
Qed.
Print Assumptions C13_distinct_validators_refuted.

(** ** C14: the Ethereum transaction hash *)

(** In any one step of any history the recorded hash of the active transaction stays the same, or goes
    from unset to the value submitted by the chosen sender, unless a fresh attempt (nothing recorded)
    takes the slot. *)
Theorem C14_hash_set_once_by_sender_partial c verify s o a t a' t' : let s' := step c verify s o in
  s_active s = Some a -> ac_tx a = Some t -> s_active s' = Some a' -> ac_tx a' = Some t' ->
  untouched a' \/ (same_attempt a a' /\ (tx_hash t' = tx_hash t \/
    (tx_hash t = 0 /\ exists hash v sig, o = OpEthTxHash (request_id (ac_req a)) hash v sig /\ valid verify s o = true /\
       v_account v = tx_sender t /\ tx_hash t' = hash))).
Proof. intros s'. apply (effect_hash c), step_effect. Qed.
Print Assumptions C14_hash_set_once_by_sender_partial.

(** The runtime does not ask for confirmations: here the hash is recorded with none, although one is required. *)
Theorem C14_confirmations_first_refuted : exists ops a t, let s := run ex_c ex_verify ex_g ops in
  s_active s = Some a /\ ac_tx a = Some t /\ tx_hash t = 555 /\ ac_confirmations a = [] /\ has_enough_confirmations s a = false.
Proof.
  exists [OpPublish true [112] [] [7]; OpEthTxHash 100 555 (mkValidator 2 12) 12]. do 2 eexists. cbv zeta.
  split; [vm_compute; reflexivity|]. split; [reflexivity|]. vm_compute. auto.
Qed.
Print Assumptions C14_confirmations_first_refuted.

(** An honest off-chain worker sends only as the chosen sender, with enough confirmations, when no hash is recorded. *)
Theorem C14_honest_worker_sends_confirmed s me fin signs h locked corr id hash : ocw s me fin signs h locked corr = SendAndSubmitHash id hash ->
  exists a t, s_active s = Some a /\ ac_tx a = Some t /\ request_id (ac_req a) = id /\ hash = h /\ me = tx_sender t /\ tx_hash t = 0 /\ locked = false /\
    avn_quorum (s_vs s) <= N.of_nat (length (ac_confirmations a)) + 1.
Proof.
  unfold ocw. destruct (s_active s) as [a|]; [|discriminate]. destruct (fin <? ac_updated a); [discriminate|].
  unfold has_enough_confirmations. destruct (ac_req a) as [r|r] eqn:Er; [|repeat (case_match; try discriminate)].
  destruct (ac_tx a) as [t|] eqn:Et; [|discriminate].
  destruct (N.eqb_spec me (tx_sender t)), (N.leb_spec (avn_quorum (s_vs s)) (len (ac_confirmations a) + 1)), (N.eqb_spec (tx_hash t) 0); cbn;
    try discriminate; repeat (case_match; try discriminate); intros H'; injection H' as <- <-; exists a, t; rewrite ?Er; cbn; auto 10.
Qed.
Print Assumptions C14_honest_worker_sends_confirmed.
Example C14_worker_sends : let s := run ex_c ex_verify ex_g (firstn 9 ex_ops) in
  ocw s 2 5 (fun m => ex_sig m 2 0) 555 false None = SendAndSubmitHash 100 555.
Proof. reflexivity. Qed.

(** ** C35: a lower proof is completed by enough confirmations *)

(** [l]: a validator record, its confirmation and its submission signature. *)
Definition confirm_ops (id : N) (l : list (validator * N * N)) : list op := map (fun '(v, conf, sig) => OpConfirm id conf v sig) l.
Lemma complete_tells c r s : exists nn, s_notices (fst (complete_lower_proof_request c r s)) = nn ++ NProof (lr_id r) (lr_caller r) true :: s_notices s.
Proof.
  unfold complete_lower_proof_request, mbind_ at 1, notify, modify. destruct (process_next_request c _) as [s1 res] eqn:E.
  apply process_next_inv in E as [-> E]. apply served_facts in E as (told & nn & _ & E & _); [|reflexivity]. exists nn. exact E.
Qed.
(** In any state where a lower proof is active without confirmations: when as many distinct valid
    confirmations as the (non-zero) supermajority arrive one after the other, the requesting pallet is
    told of its completion. *)
Theorem C35_enough_confirmations_complete_partial c verify s a r l :
  s_active s = Some a -> ac_req a = RLower r -> ac_confirmations a = [] ->
  0 < avn_supermajority (s_vs s) <= CONFIRMATIONS_LIMIT -> N.of_nat (length l) = avn_supermajority (s_vs s) ->
  NoDup (map (fun x => x.1.2) l) ->
  Forall (fun '(v, conf, sig) => valid verify s (OpConfirm (lr_id r) conf v sig) = true /\ eth_signature_is_valid c s (ac_msg a) (v_account v) conf = true) l ->
  In (NProof (lr_id r) (lr_caller r) true) (s_notices (run c verify s (confirm_ops (lr_id r) l))).
Proof.
  intros Ha Hr H0 Hn Hl Hd Hf.
  assert (H : forall l s a, s_active s = Some a -> ac_req a = RLower r ->
    len (ac_confirmations a) < avn_supermajority (s_vs s) <= CONFIRMATIONS_LIMIT -> len (ac_confirmations a) + len l = avn_supermajority (s_vs s) ->
    NoDup (ac_confirmations a ++ map (fun x => x.1.2) l) ->
    Forall (fun '(v, conf, sig) => valid verify s (OpConfirm (lr_id r) conf v sig) = true /\ eth_signature_is_valid c s (ac_msg a) (v_account v) conf = true) l ->
    In (NProof (lr_id r) (lr_caller r) true) (s_notices (run c verify s (confirm_ops (lr_id r) l)))).
  { clear. induction l as [|[[v conf] sig] l IH]; intros s a Ha Hr Hn Hl Hd Hf.
    - unfold len in *. cbn in Hl. lia.
    - apply Forall_cons in Hf as [[Hv He] Hf]. cbn [confirm_ops map] in *. change (run c verify s (?o :: ?r)) with (run c verify (step c verify s o) r).
      apply NoDup_app in Hd as (Hd1 & Hd2 & Hd3). cbn [map fst snd] in Hd2, Hd3. apply NoDup_cons in Hd3 as [Hd3 Hd4].
      assert (Hnin : ~ In conf (ac_confirmations a)) by (intros Hin; apply elem_of_list_In in Hin; apply (Hd2 _ Hin); constructor).
      assert (Hfalse : has_enough_confirmations s a = false) by (unfold has_enough_confirmations; rewrite Hr; apply N.leb_gt; lia).
      rewrite (step_confirm_lower c verify s a r _ conf v sig Ha Hr eq_refl Hv He Hnin ltac:(lia) Hfalse).
      destruct (N.leb_spec (avn_supermajority (s_vs s)) (len (ac_confirmations a) + 1)) as [Hge|Hlt].
      + assert (l = []) as -> by (unfold len in *; cbn in Hl; destruct l; [reflexivity|cbn in Hl; lia]). cbn [map run fold_left].
        destruct (complete_tells c r s) as [nn ->]. apply in_or_app. right. now left.
      + apply (IH (saved s (add_confirmation_to a conf)) ((add_confirmation_to a conf) <| ac_updated := s_block s |>)); try reflexivity.
        * exact Hr.
        * cbn. unfold len in *. rewrite app_length. cbn in *. lia.
        * cbn. unfold len in *. rewrite app_length. cbn in *. lia.
        * cbn. rewrite <- app_assoc. cbn. apply NoDup_app. split; [exact Hd1|]. split; [exact Hd2|]. now constructor.
        * exact Hf. }
  apply (H l s a); auto; rewrite ?H0; unfold len in *; cbn; auto; lia.
Qed.
Print Assumptions C35_enough_confirmations_complete_partial.

(** While the stored confirmations already reach the requirement, further confirmations change nothing. *)
Lemma stuck_confirm c verify s a id conf v sig : s_active s = Some a -> has_enough_confirmations s a = true -> step c verify s (OpConfirm id conf v sig) = s.
Proof.
  intros Ha He. unfold step. destruct (valid _ _ _); [|reflexivity]. cbn [exec]. unfold dispatch, add_confirmation, mbind_, get_st. rewrite Ha, He.
  now destruct (id_matches _ _).
Qed.
Lemma stuck_run c verify s a ops : s_active s = Some a -> has_enough_confirmations s a = true ->
  Forall (fun o => match o with OpConfirm _ _ _ _ => True | _ => False end) ops -> run c verify s ops = s.
Proof.
  intros Ha He. induction 1 as [|o ops Ho Hf IH]; [reflexivity|]. change (run c verify s (o :: ops)) with (run c verify (step c verify s o) ops).
  destruct o; try contradiction. now rewrite (stuck_confirm _ _ _ _ _ _ _ _ Ha He).
Qed.
(** So a lower proof can hang: with a single validator (supermajority of one is zero), or when the
    validator set shrinks below the confirmations already stored (here from 5 to 3 validators with 2
    of 3 confirmations stored), no sequence of confirmations whatsoever completes it, and everything queued
    behind it waits, until the administrator removes it. *)
Theorem C35_completion_refuted :
  (exists ops, forall later, Forall (fun o => match o with OpConfirm _ _ _ _ => True | _ => False end) later ->
     let s := run ex_c ex_verify (genesis 100 600 1 [mkValidator 1 11]) (ops ++ later) in s_notices s = [] /\ outstanding s = [RLower (mkLower 9 [4] [9])]) /\
  (exists ops, forall later, Forall (fun o => match o with OpConfirm _ _ _ _ => True | _ => False end) later ->
     let s := run ex_c ex_verify ex_g (ops ++ later) in
       s_vs s = ex_vs3 /\ s_notices s = [] /\ outstanding s = [RLower (mkLower 9 [4] [9]); RSend (mkSend 100 [112] [] [7])]).
Proof.
  split.
  - exists [EnvKeys ex_keys; OpLowerProof true 9 [4] [9]]. intros later Hl. cbv zeta. rewrite run_app.
    erewrite stuck_run; [|vm_compute; reflexivity|vm_compute; reflexivity|exact Hl]. vm_compute. auto.
  - exists [EnvKeys ex_keys; OpLowerProof true 9 [4] [9]; OpPublish true [112] [] [7]; ex_conf 9 5 1 0; ex_conf 9 5 2 0; EnvValidators ex_vs3]. intros later Hl. cbv zeta. rewrite run_app.
    erewrite stuck_run; [|vm_compute; reflexivity|vm_compute; reflexivity|exact Hl]. vm_compute. auto.
Qed.
Print Assumptions C35_completion_refuted.
Example C35_hypotheses :
  let s := run ex_c ex_verify ex_g [EnvKeys ex_keys; OpLowerProof true 9 [4] [9]] in
  let l := [(mkValidator 1 11, ex_sig 5 1 0, 11); (mkValidator 3 13, ex_sig 5 3 0, 13); (mkValidator 4 14, ex_sig 5 4 0, 14)] in
  exists a, s_active s = Some a /\ ac_req a = RLower (mkLower 9 [4] [9]) /\ ac_confirmations a = [] /\ avn_supermajority (s_vs s) = 3 /\
    Forall (fun '(v, conf, sig) => valid ex_verify s (OpConfirm 9 conf v sig) = true /\ eth_signature_is_valid ex_c s (ac_msg a) (v_account v) conf = true) l /\
    s_notices (run ex_c ex_verify s (confirm_ops 9 l)) = [NProof 9 [9] true].
Proof. eexists. split; [vm_compute; reflexivity|]. split; [reflexivity|]. split; [reflexivity|]. split; [reflexivity|]. split; [|vm_compute; reflexivity]. repeat constructor. Qed.
