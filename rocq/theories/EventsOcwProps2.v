(** C98: events are checked and processed by honest workers. *)
From Verif Require Import Base BaseLemmas AvnModel CodecModel CodecProofs SigModel LogModel LogProofs LogProps EventsOcwModel EventsOcwSpec EventsOcwProofs EventsOcwProps.

(** When it is the turn of an author whose service can tell what became of the event waiting longest (in a finalised block), its worker signs a check of it; and the chain accepts the check, then or
    later, as long as the event is waiting and the authors are the same: it becomes pending for the challenge period, unless fifty checks are. *)
Theorem C98_worker_checks wc g ops more n v fin id k b : sound g -> let w := wrun wc (world0 g) ops in let s := w_log w in
  n_first n = true -> n_signs n = true -> local_validator n s = Some v -> n_finalised n = Some fin -> primary_for_block (s_validators s) (s_block s) = Ok (v_account v) ->
  next_to_check s fin = Some (id, k, b) -> (found wc n s id).1 <> RHttp -> (found wc n s id).1 <> RYoung ->
  exists r, ck_id r = id /\ ck_by r = v_account v /\ (ck_result r, ck_data r) = found wc n s id /\ In (v_key v, MCheck r k) (w_sigs (wstep wc w (WWorker n))) /\
  let s2 := w_log (wrun wc (world0 g) (ops ++ WWorker n :: more)) in forall sig,
  s_validators s2 = s_validators s -> (exists b', (id, k, b') ∈ s_unchecked s2) -> c_data_ok (wc_pallet wc) (ck_data r) = true -> c_verify (wc_pallet wc) (v_key v) (MCheck r k) sig = true ->
  s_block s2 + s_period s2 <= U32_MAX -> let o := SubmitCheck r k v sig in let s3 := step (wc_pallet wc) s2 o in
  accepted (wc_pallet wc) s2 o /\ (N.of_nat (length (s_pending s2)) < 50 -> exists r', (r', k, s_block s2) ∈ s_pending s3 /\ ck_id r' = id /\ ck_data r' = ck_data r /\ ck_result r' = ck_result r /\
    ck_by r' = v_account v /\ ck_ready r' = s_block s2 + s_period s2).
Proof.
  intros G w s H1 H3 Hl Hf Hp Hn Hh Hy. destruct (found wc n s id) as [res d] eqn:Ef. cbn [fst] in Hh, Hy. set (r := mkCheck id d res (v_account v) (s_block s) 0 0).
  assert (Hc : check_to_submit (v_account v) (s_block s) id (found wc n s id) = Some r) by (rewrite Ef; unfold check_to_submit; cbn; by destruct res).
  exists r. split; [reflexivity|]. split; [reflexivity|]. split; [reflexivity|]. split.
  - cbn [wstep]. fold s. unfold worker. rewrite H1, Hl, Hf, Hp, N.eqb_refl. unfold try_check. rewrite Hn. cbn [fst snd]. rewrite Hc, H3. cbn [app map fst w_sigs In]. by left.
  - intros s2 sig Hvs [b' Hu] Hd Hver Hb o s3.
    assert (Hm : may_check (wc_pallet wc) s2 r k v sig).
    { unfold may_check. cbn [r ck_id ck_data ck_at ck_by]. split; [apply unchecked_in; by exists b'|]. rewrite Hvs. split_and!; try done. apply find_some in Hl as [Hl _]. unfold is_validator. apply existsb_exists. exists v. split; [done|]. apply N.eqb_refl. }
    pose proof (effect_accepted (wc_pallet wc) s2 _ _ (ECheck _ _ r k v sig Hm)) as Q. fold o in Q. destruct Q as [Ha Es]. split; [exact Ha|]. intros H50. unfold s3. rewrite Es. exists (stored (wc_pallet wc) s2 r). split; [|done].
    cbn. apply N.ltb_lt in H50. change MAX_PENDING with 50. rewrite H50. apply elem_of_app. right. by apply elem_of_list_singleton.
Qed.
(** When it is an author's turn and the challenge period of some check (from a finalised block) is over, its worker signs its processing, and the chain accepts that. *)
Theorem C98_worker_processes wc g ops n v fin r0 k0 b0 : sound g -> let w := wrun wc (world0 g) ops in let s := w_log w in
  n_first n = true -> n_signs n = true -> local_validator n s = Some v -> n_finalised n = Some fin -> primary_for_block (s_validators s) (s_block s) = Ok (v_account v) ->
  (r0, k0, b0) ∈ s_pending s -> ck_ready r0 < s_block s -> b0 <= fin ->
  exists r k b, (r, k, b) ∈ s_pending s /\ ck_ready r < s_block s /\ In (v_key v, MProcess (ck_id r) k) (w_sigs (wstep wc w (WWorker n))) /\
  forall sig h, c_verify (wc_pallet wc) (v_key v) (MProcess (ck_id r) k) sig = true -> let o := ProcessEvent (ck_id r) k v sig h in
    accepted (wc_pallet wc) s o /\ (r, k, b) ∉ s_pending (step (wc_pallet wc) s o).
Proof.
  intros G w s H1 H3 Hl Hf Hp Hin Hr Hb. pose proof (world_log wc g ops) as Es. fold w in Es. fold s in Es.
  destruct (next_to_process s (s_block s) fin) as [[[r k] b]|] eqn:En.
  - exists r, k, b. pose proof En as En'. unfold next_to_process in En. apply find_last_some in En as [Hi Hx]. cbn in Hx. apply andb_true_iff in Hx as [Hx _]. apply N.ltb_lt in Hx. split; [done|]. split; [done|]. split.
    + cbn [wstep]. fold s. unfold worker. rewrite H1, Hl, Hf, Hp, N.eqb_refl, H3. unfold try_process. rewrite En'. cbn [fst w_sigs]. apply in_or_app. left. rewrite map_app. apply in_or_app. right. cbn. by left.
    + intros sig h Hver o. assert (Hval : is_validator (s_validators s) (v_account v) = true) by (apply find_some in Hl as [Hl _]; unfold is_validator; apply existsb_exists; exists v; split; [done|]; apply N.eqb_refl).
      assert (Ha : accepted (wc_pallet wc) s o). { unfold o. rewrite Es in *. by apply (proj2 (C58_processable (wc_pallet wc) g (calls ops) r k b v sig h G)). }
      split; [exact Ha|]. rewrite Es in Ha |- *. pose proof (C59_decision _ g (calls ops) (ck_id r) k v sig h G Ha) as (r' & b' & X1 & X2 & _ & X4 & _). intros X. apply X4 in X as [X X']. apply X'.
      apply (pending_unique (reached (wc_pallet wc) g (calls ops))); [by apply reached_inv|done..].
  - exfalso. unfold next_to_process, find_last in En. pose proof (find_none _ _ En (r0, k0, b0)) as B. rewrite <- in_rev, <- elem_of_list_In in B. specialize (B Hin). cbn in B. apply andb_false_iff in B as [B|B]; [apply N.ltb_ge in B|apply N.leb_gt in B]; lia.
Qed.
Example C98_example : let w := wrun ex_wc (world0 ex_start) [WChain (AddLog 1 2 7); WChain (NewBlock demo_validators 0)] in
  next_to_check (w_log w) 1000 = Some ((2, 7), 1, 0) /\ primary_for_block (s_validators (w_log w)) (s_block (w_log w)) = Ok 11 /\ local_validator (ex_node 11 100) (w_log w) = Some (ex_val 11) /\
  found ex_wc (ex_node 11 100) (w_log w) (2, 7) = (ROk, 5) /\ found ex_wc (ex_node 11 5) (w_log w) (2, 7) = (RYoung, 0).
Proof. split_and!; vm_compute; reflexivity. Qed.
Example C98_example_process : let w := wrun ex_wc (world0 ex_start) (firstn 7 ex_good) in
  (exists r b, (r, 1, b) ∈ s_pending (w_log w) /\ ck_ready r < s_block (w_log w) /\ b <= 1000) /\ exists v, local_validator (ex_node 12 100) (w_log w) = Some v /\ primary_for_block (s_validators (w_log w)) (s_block (w_log w)) = Ok (v_account v).
Proof.
  split; [exists (mkCheck (2, 7) 5 ROk 11 1 101 1), 1; split; [apply elem_of_list_In; vm_compute; tauto|split; apply N.ltb_lt || apply N.leb_le; vm_compute; reflexivity]|]. exists (ex_val 12). split; vm_compute; reflexivity.
Qed.
