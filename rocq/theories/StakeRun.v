(** Every history keeps the invariant. *)
From Verif Require Import Base BaseLemmas CodecModel SigModel StakeModel StakeSpec StakeBook StakeCross StakeInv StakeOps StakeNom StakeLeave StakeExit StakeCand.

Section run.
Variable c : config.
Hypothesis Hc : config_ok c.

Lemma nominate_each_ok w per dust n l : forall i remaining count s, Inv c s ->
  wp (nominate_each c w per dust n i remaining count l) (fun _ s' => Inv c s') s.
Proof.
  induction l as [|k l IH]; intros i remaining count s H; cbn [nominate_each]; wps; [done|].
  eapply wp_mono; [by apply call_nominate_ok|]. intros ? s' H'. by apply IH.
Qed.
Lemma bond_extra_each_ok w per dust n l : forall i remaining s, Inv c s -> wp (bond_extra_each c w per dust n i remaining l) (fun _ s' => Inv c s') s.
Proof.
  induction l as [|k l IH]; intros i remaining s H; cbn [bond_extra_each]; wps; [done|].
  eapply wp_mono; [by apply call_bond_extra_ok|]. intros ? s' H'. by apply IH.
Qed.
Lemma decrease_each_ok w l : forall out s, Inv c s -> wp (decrease_each c w l out) (fun _ s' => Inv c s') s.
Proof.
  induction l as [|[[k spare] x] l IH]; intros out s H; cbn [decrease_each]; wps; [done|].
  eapply wp_mono; [by apply schedule_decrease_ok|]. intros ? s' H'. by apply IH.
Qed.
Lemma execute_each_ok w l : forall s, Inv c s -> wp (execute_each c w l) (fun _ s' => Inv c s') s.
Proof.
  induction l as [|k l IH]; intros s H; cbn [execute_each]; wps; [done|].
  destruct (_ <=? _); [eapply wp_mono; [by apply execute_request_ok|]; intros ? s' H'; by apply IH|]. wps. by apply IH.
Qed.
Lemma call_body_ok w x s : Inv c s -> wp (call_body c w x) (fun _ s' => Inv c s') s.
Proof.
  intros H. destruct x; cbn [call_body].
  - unfold split_and_nominate. wps. by apply nominate_each_ok.
  - unfold bond_extra_all. wps. by apply bond_extra_each_ok.
  - by apply candidate_bond_extra_ok.
  - by apply schedule_candidate_unbond_ok.
  - unfold unbond_spread. wps. destruct (withdraw_from _ _ _ _). by apply decrease_each_ok.
  - by apply schedule_revoke_ok.
  - by apply schedule_revoke_all_ok.
  - wps. by apply execute_revoke_all_ok.
  - unfold execute_all. wps. by apply execute_each_ok.
  - by apply execute_candidate_unbond_ok.
Qed.
Lemma signed_call_ok cr w p x s : Inv c s -> wp (signed_call c cr w p x) (fun _ s' => Inv c s') s.
Proof.
  intros H. unfold signed_call. wps. eapply wp_mono; [by apply call_body_ok|]. intros ? s' H'. wps.
  apply (inv_same c s'); try done. apply (i_min _ _ H').
Qed.
Lemma env_balances_ok s f h : Inv c s -> balances_ok s f h = true -> Inv c (s <| s_free := f |> <| s_held := h |>).
Proof.
  unfold balances_ok. intros H Hb. apply andb_prop in Hb as [Hb H3]. apply andb_prop in Hb as [H1 H2].
  apply bool_decide_eq_true in H1, H2. destruct H. constructor; try done.
  cbn. lia.
Qed.

Lemma body_ok cr o s : Inv c s ->
  match body c cr o s with (s', Ok _) => Inv c s' | (_, Err e) => e = "panic"%string -> o = NewBlock /\ U32_MAX <= s_era s end.
Proof.
  intros H.
  assert (Hwp : forall m : M st unit, wp m (fun _ s' => Inv c s') s -> match m s with (s', Ok _) => Inv c s' | (_, Err e) => e = "panic"%string -> o = NewBlock /\ U32_MAX <= s_era s end).
  { intros m Hm. unfold wp in Hm. destruct (m s) as [s' [[]|e]]; [done|]. intros ->. done. }
  destruct o; cbn [body]; lazymatch goal with |- context[on_initialize] => idtac | _ => apply Hwp end.
  - by apply join_ok.
  - by apply schedule_leave_ok.
  - by apply execute_leave_ok.
  - by apply cancel_leave_ok.
  - by apply go_offline_ok.
  - by apply go_online_ok.
  - by apply candidate_bond_extra_ok.
  - by apply schedule_candidate_unbond_ok.
  - by apply execute_candidate_unbond_ok.
  - by apply cancel_candidate_unbond_ok.
  - wps. by apply call_nominate_ok.
  - wps. by apply call_bond_extra_ok.
  - by apply schedule_revoke_all_ok.
  - by apply execute_revoke_all_ok.
  - by apply cancel_revoke_all_ok.
  - by apply schedule_revoke_ok.
  - by apply schedule_decrease_ok.
  - by apply execute_request_ok.
  - by apply cancel_request_ok.
  - by apply hotfix_ok.
  - by apply signed_call_ok.
  - by apply set_total_selected_ok.
  - by apply set_blocks_per_era_ok.
  - by apply set_admin_ok.
  - pose proof (on_initialize_ok c s H) as Ho. destruct (on_initialize c s) as [s' [[]|e]]; [done|]. intros He. split; [done|]. by apply Ho.
  - wps. by apply env_balances_ok.
  - wps. apply (inv_same c s); try done. apply (i_min _ _ H).
Qed.
Lemma step_ok cr s o : Inv c s -> Inv c (step c cr s o).
Proof.
  intros H. unfold step, exec, dispatch. pose proof (body_ok cr o s H) as Hb. destruct (body c cr o s) as [s' [[]|e]]; cbn; done.
Qed.
Lemma run_ok cr l : forall s, Inv c s -> Inv c (run c cr s l).
Proof. unfold run. induction l as [|o l IH]; intros s H; cbn; [done|]. apply IH. by apply step_ok. Qed.
Lemma genesis_ok delay min_col min_nom : c_min_per_collator c <= min_nom -> Inv c (genesis c delay min_col min_nom).
Proof.
  intros Hm. constructor; cbn; try done; try (rewrite ?msum_empty; lia).
  - rewrite map_size_empty. lia.
  - constructor; cbn; try done.
    intros k. unfold mget. rewrite lookup_empty. cbn. split; [constructor|lia].
  - intros k Hk. by apply elem_of_nil in Hk.
Qed.
End run.
