(** C85: what the chain believes about a transaction is what happened on Ethereum. *)
From Verif Require Import Base BaseLemmas AvnModel CodecModel HttpModel BridgeModel BridgeProofs BridgeSpec BridgeProofs2 BridgeProofs3 BridgeProofs4.
From Verif Require Import CorroborateModel CorroborateProps BridgeProps BridgeOcwModel BridgeOcwSpec BridgeOcwProofs BridgeOcwProofs2 BridgeOcwProofs3.

(** Whatever the administrators do, in every history with honest keys: a transaction settles as succeeded only on the signed reports of enough different authors, the sender not
    among them, and if only one of them is honest the contract of the current instance has executed it. *)
Theorem C85_success_is_signed c A K next life inst vs ops o id d :
  keys_of_honest A K vs -> let w0 := wstart (genesis next life inst vs) in honest_history c A K w0 (ops ++ [o]) ->
  let w := wrun c w0 ops in s_settled (w_st w) !! id = None -> s_settled (w_st (wstep c w o)) !! id = Some d -> se_succeeded d = true ->
  exists l, NoDup l /\ has_enough_corroborations (w_st w) (N.of_nat (length l)) = true /\ ~ In (se_sender d) l /\
    (exists attempt, forall x, In x l -> exists key hash_valid, In (key, PCorroborate (s_instance (w_st w)) id true hash_valid x attempt) (w_sigs w)) /\
    forall x, In x l -> A x -> executed (w_eth w) (s_instance (w_st w)) id.
Proof.
  intros HK w0 Hh w Hn Hs Hsu.
  assert (HG : G c A K w /\ allowed A K w o).
  { clear Hn Hs. unfold w. pose proof (G_start c A K next life inst vs HK) as HG. fold w0 in HG. clearbody w0. clear w. revert w0 Hh HG. induction ops as [|p ops IH]; intros w0 Hh HG; [split; [exact HG|apply Hh]|].
    destruct Hh as [H1 H2]. cbn. apply IH; [exact H2|now apply G_step]. }
  destruct HG as [HG Hal]. rewrite wstep_st in Hs. destruct o as [n|k p|o|t|i j ex]; try congruence.
  pose proof (step_effect c (verified w) (w_st w) o) as He. set (s' := step c (verified w) (w_st w) o) in *.
  destruct (effect_settled_done _ _ _ _ _ _ _ He Hs) as [E|(a & r & t & hv & y & Ha & Hr & Hid & Ht & Hrep & Hns & Hn1 & Hn2 & Hen & _ & _ & Hsd)]; [congruence|]. rewrite Hsu in *. subst id.
  destruct (L_tx _ (G_lists _ _ _ _ HG) a t Ha Ht) as (Hnd & Hse & _).
  assert (Hsig : forall x, In x (y :: tx_success t) -> exists key hv', In (key, PCorroborate (s_instance (w_st w)) (sr_id r) true hv' x (tx_attempt t)) (w_sigs w) /\ (A x -> K key)).
  { intros x [<-|Hx]; [|now apply (G_act _ _ _ _ HG a r t true x)]. apply (reports_signed A K w o); [exact Hal|apply HG|exact Hrep]. }
  exists (y :: tx_success t). split_and!.
  - apply NoDup_cons. split; [now rewrite elem_of_list_In|]. now apply NoDup_app in Hnd as [? _].
  - rewrite len_corroborated in Hen. cbn [length matching] in *. replace (N.of_nat (S (length (tx_success t)))) with (N.of_nat (length (tx_success t)) + 1) by lia. exact Hen.
  - rewrite Hsd. intros [Hx|Hx]; [congruence|apply Hse, in_or_app; auto].
  - exists (tx_attempt t). intros x Hx. destruct (Hsig x Hx) as (key & hv' & ? & _). eauto.
  - intros x Hx HA. destruct (Hsig x Hx) as (key & hv' & Hin & Hk). exact (G_sig _ _ _ _ HG key _ _ hv' x _ (Hk HA) Hin).
Qed.

(** If every report that decides is backed by an honest author, and no administrator resets the id or the contract: the outcome of every settled transaction is true, now and at
    every later time, and no honest author is ever reported as an offender. *)
Theorem C85_outcomes_are_true c A K next life inst vs ops :
  keys_of_honest A K vs -> let w0 := wstart (genesis next life inst vs) in honest_history c A K w0 ops -> always c (backed A) w0 ops -> always c undisturbed w0 ops ->
  let w := wrun c w0 ops in forall id d, s_settled (w_st w) !! id = Some d -> se_succeeded d = true <-> executed (w_eth w) inst id.
Proof. intros HK w0 Hh Hb Hu w id d Hd. apply (J_outcome c A K); [|exact Hd]. apply J_run; auto. now apply J_start. Qed.
Theorem C85_honest_never_reported c A K next life inst vs ops :
  keys_of_honest A K vs -> let w0 := wstart (genesis next life inst vs) in honest_history c A K w0 ops -> always c (backed A) w0 ops -> always c undisturbed w0 ops ->
  forall reporter offenders su x, In (OffenceReported reporter offenders su) (s_events (w_st (wrun c w0 ops))) -> In x offenders -> ~ A x.
Proof. intros HK w0 Hh Hb Hu. apply (J_offence c A K inst). apply J_run; auto. now apply J_start. Qed.
(** What was settled as failed is not executed later either. *)
Theorem C85_failure_is_final c A K next life inst vs ops more :
  keys_of_honest A K vs -> let w0 := wstart (genesis next life inst vs) in
  honest_history c A K w0 (ops ++ more) -> always c (backed A) w0 (ops ++ more) -> always c undisturbed w0 (ops ++ more) ->
  forall id d, s_settled (w_st (wrun c w0 ops)) !! id = Some d -> se_succeeded d = false -> ~ executed (w_eth (wrun c w0 (ops ++ more))) inst id.
Proof.
  intros HK w0 Hh Hb Hu id d Hd Hf.
  assert (H : forall ops w0, honest_history c A K w0 (ops ++ more) -> always c (backed A) w0 (ops ++ more) -> always c undisturbed w0 (ops ++ more) -> J c A K inst w0 ->
    J c A K inst (wrun c w0 ops) /\ honest_history c A K (wrun c w0 ops) more /\ always c (backed A) (wrun c w0 ops) more /\ always c undisturbed (wrun c w0 ops) more).
  { clear. induction ops as [|o ops IH]; intros w0 Hh Hb Hu HJ; [auto|]. destruct Hh, Hb, Hu. cbn. apply IH; auto. now apply J_step. }
  destruct (H ops w0 Hh Hb Hu (J_start c A K inst next life vs HK)) as (HJ & Hh1 & Hb1 & Hu1). unfold wrun at 1. rewrite fold_left_app. fold (wrun c w0 ops). fold (wrun c (wrun c w0 ops) more).
  clear - HJ Hh1 Hb1 Hu1 Hd Hf. revert Hd. generalize dependent (wrun c w0 ops). induction more as [|o more IH]; intros w HJ Hh Hb Hu Hd.
  - intros He. apply (J_outcome c A K inst w id d HJ Hd) in He. congruence.
  - destruct Hh as [Hh1 Hh], Hb as [Hb1 Hb], Hu as [Hu1 Hu]. cbn. apply IH; auto; [now apply J_step|].
    rewrite wstep_st. destruct o as [n|k p|o|t|i j ex]; auto. destruct Hu1 as (_ & _ & _).
    destruct (effect_settled _ _ _ _ _ (step_effect c (verified w) (w_st w) o)) as [->|(a & r & d' & rest & Ha & Hr & -> & _)]; [exact Hd|].
    destruct (Ids_active _ a r (J_ids _ _ _ _ _ HJ) Ha Hr) as (E & _). rewrite lookup_insert_ne; [exact Hd|congruence].
Qed.

(** ** A concrete history *)
(** Nodes of authors 1 to 5; the view and the query answer as given. *)
Definition ex_node (k : N) (view query : option (list N)) : node :=
  mkNode [10 + k] 1000 (fun m => Some (ex_sig m k 0)) (Some 555) view query (Some [1; 2]) false.
Definition ex_v (k : N) : validator := mkValidator k (10 + k).
Definition ex_seen : option (list N) := Some (query_body 120 (Some ([1; 2], Some 100))).
(** Authors 1 to 4 are honest.  Author 2 is the sender; 1 confirms, 2 sends, the contract executes, 5 lies, 1 and 3 report what they see. *)
Definition ex_honest (x : N) : Prop := 1 <= x <= 4.
Definition ex_hkeys (k : N) : Prop := 11 <= k <= 14.
Definition ex_sent : list wop :=
  [WSubmit (EnvKeys ex_keys); WSubmit (OpPublish true [112] [] [7]);
   WWorker (ex_node 1 None None); WSubmit (OpConfirm 100 (ex_sig 71 1 0) (ex_v 1) 0); WWorker (ex_node 2 None None); WSubmit (OpEthTxHash 100 555 (ex_v 2) 0)].
Definition ex_good : list wop := ex_sent ++
  [WClock 500; WExecute 1 100 600; WSign 15 (PCorroborate 1 100 false false 5 0); WSubmit (OpCorroborate 100 false false (ex_v 5) 0 0);
   WWorker (ex_node 1 (Some (view_body Executed)) ex_seen); WSubmit (OpCorroborate 100 true true (ex_v 1) 0 0);
   WWorker (ex_node 3 (Some (view_body Executed)) ex_seen); WSubmit (OpCorroborate 100 true true (ex_v 3) 0 0)].
Definition ex_w0 : world := wstart ex_g.
Lemma honest_keys_ex : keys_of_honest ex_honest ex_hkeys ex_vs.
Proof. intros v Hv. unfold ex_honest, ex_hkeys. cbn in Hv. repeat destruct Hv as [<-|Hv]; cbn; lia. Qed.
Ltac solve_allowed :=
  match goal with
  | |- allowed _ _ _ (WWorker _) => intros ? _ _ ? ? ? ? Ha Hr Ht Hb; vm_compute in Ha, Hb; try discriminate Hb;
      try (injection Ha as <-; cbn in Hr, Ht; injection Hr as <-; injection Ht as <-; injection Hb as <-; first [exists 500; split; [vm_compute; discriminate|vm_compute; reflexivity]|exists 601; split; [vm_compute; discriminate|vm_compute; reflexivity]|exists 1300; split; [vm_compute; discriminate|vm_compute; reflexivity]])
  | |- allowed _ _ _ (WSign _ _) => unfold allowed, ex_hkeys; lia
  | |- allowed _ _ _ (WSubmit _) => split; [intros ? E; vm_compute in E; try discriminate E; try (injection E as <-; vm_compute; tauto)|intros ? E; discriminate E]
  | |- allowed _ _ _ (WClock _) => exact I
  | |- allowed _ _ _ (WExecute _ _ _) => first [exists 12; split; [unfold ex_hkeys; lia|vm_compute; tauto]|exists 11; split; [unfold ex_hkeys; lia|vm_compute; tauto]]
  end.
Ltac solve_backed := intros id su hv v k sig a t E Ha Ht; try discriminate E; injection E as <- <- <- <- <- <-; vm_compute in Ha; injection Ha as <-; cbn in Ht; injection Ht as <-; cbv zeta; intros Hen;
  first [exfalso; vm_compute in Hen; discriminate Hen | eexists; split; [left; reflexivity|unfold ex_honest; cbn; lia]].
Ltac solve_calm := split; [discriminate|]; split; [discriminate|]; split; [vm_compute; reflexivity|]; intros a t Ha Ht; vm_compute in Ha; try discriminate Ha; injection Ha as <-; cbn in Ht; injection Ht as <-; cbn; lia.
Example C85_hypotheses : honest_history ex_c ex_honest ex_hkeys ex_w0 ex_good /\ always ex_c (backed ex_honest) ex_w0 ex_good /\ always ex_c undisturbed ex_w0 ex_good.
Proof.
  split_and!.
  - unfold ex_good, ex_sent. cbn [app honest_history]. split_and!; try exact I; solve_allowed.
  - unfold ex_good, ex_sent. cbn [app always]. split_and!; try exact I; solve_backed.
  - unfold ex_good, ex_sent. cbn [app always]. split_and!; try exact I; solve_calm.
Qed.
Example C85_example : let w := wrun ex_c ex_w0 ex_good in
  fmap se_succeeded (s_settled (w_st w) !! 100) = Some true /\ executed (w_eth w) 1 100 /\ s_events (w_st w) = [OffenceReported 2 [5] true; PublishToEthereum (mkSend 100 [112] [] [7])].
Proof. cbv zeta. split_and!; [by vm_compute|exists 600, 500; vm_compute; tauto|by vm_compute]. Qed.

(** Refuted: ... also if an administrator sets the contract while a transaction is active, even to the same contract.  This starts attempt 0 anew, and a report on the old attempt 0
    is valid for the new one.  All authors are honest: the transaction of the first attempt is mined too late, 1 signs that it failed, the contract is set again, the second
    transaction is executed in time, and the old report makes the chain settle it as failed. *)
Definition ex_reset : list wop := ex_sent ++
  [WSubmit (EnvBlock 5 601); WClock 601;
   WWorker (ex_node 1 (Some (view_body Expired)) ex_seen); WWorker (ex_node 4 (Some (view_body Expired)) ex_seen);
   WSubmit (OpSetInstance 1);
   WWorker (ex_node 1 None None); WSubmit (OpConfirm 100 (ex_sig 71 1 0) (ex_v 1) 0); WWorker (ex_node 3 None None);
   WExecute 1 100 1201;
   WSubmit (OpCorroborate 100 false true (ex_v 1) 0 0); WSubmit (OpCorroborate 100 false true (ex_v 4) 0 0)].
Theorem C85_outcomes_are_true_refuted : ~ forall c A K next life inst vs ops,
  keys_of_honest A K vs -> let w0 := wstart (genesis next life inst vs) in honest_history c A K w0 ops -> always c (backed A) w0 ops ->
  (forall n, ~ In (WSubmit (OpSetTxId n)) ops) ->
  let w := wrun c w0 ops in forall id d, s_settled (w_st w) !! id = Some d -> se_succeeded d = true <-> executed (w_eth w) (s_instance (w_st w)) id.
Proof.
  intros H. assert (E : exists d, s_settled (w_st (wrun ex_c ex_w0 ex_reset)) !! 100 = Some d /\ se_succeeded d = false /\ executed (w_eth (wrun ex_c ex_w0 ex_reset)) (s_instance (w_st (wrun ex_c ex_w0 ex_reset))) 100).
  { eexists. split_and!; [vm_compute; reflexivity|reflexivity|]. exists 1201, 601. vm_compute. tauto. }
  destruct E as (d & E1 & E2 & E3). enough (X : honest_history ex_c ex_honest ex_hkeys ex_w0 ex_reset /\ always ex_c (backed ex_honest) ex_w0 ex_reset /\ forall n, ~ In (WSubmit (OpSetTxId n)) ex_reset).
  { destruct X as (X1 & X2 & X3). apply (H ex_c ex_honest ex_hkeys 100 600 1 ex_vs ex_reset honest_keys_ex X1 X2 X3 100 d E1) in E3. congruence. }
  split_and!.
  - unfold ex_reset, ex_sent. cbn [app honest_history]. split_and!; try exact I; solve_allowed.
  - unfold ex_reset, ex_sent. cbn [app always]. split_and!; try exact I; solve_backed.
  - intros n Hn. cbn in Hn. repeat destruct Hn as [Hn|Hn]; try discriminate Hn; exact Hn.
Qed.
