(** What honest workers sign, and what that means for the chain. *)
From Verif Require Import Base BaseLemmas AvnModel CodecModel CodecProofs SigModel LogModel LogProofs LogProps EventsOcwModel EventsOcwSpec.

Lemma wrun_log wc ops : forall w, w_log (wrun wc w ops) = run (wc_pallet wc) (w_log w) (calls ops).
Proof.
  induction ops as [|o ops IH]; intros w; [done|]. cbn [wrun fold_left]. fold (wrun wc (wstep wc w o) ops). rewrite IH. destruct o as [n|k m|o]; cbn [calls wstep]; [|done|done].
  destruct (worker wc n (w_log w) (w_seen w (n_id n))) as [l seen]. done.
Qed.
Lemma wrun_snoc wc w ops o : wrun wc w (ops ++ [o]) = wstep wc (wrun wc w ops) o.
Proof. unfold wrun. by rewrite fold_left_app. Qed.
Lemma honest_snoc wc A K eth ops o : forall w, honest_history wc A K eth w (ops ++ [o]) <-> honest_history wc A K eth w ops /\ allowed wc A K eth (wrun wc w ops) o.
Proof.
  induction ops as [|p ops IH]; intros w; cbn [app honest_history]; [cbn; tauto|]. rewrite IH. cbn [wrun fold_left]. tauto.
Qed.

(** *** What a truthful node finds *)
Lemma found_truth eth wc n s id : truthful eth n -> let F := fact eth (wc_bridge wc) (s_contracts s) in let f := found wc n s id in
  f = (RHttp, 0) \/ (f = (RYoung, 0) /\ exists d, F id = Some d) \/ (f.1 = ROk /\ F id = Some f.2) \/ (f = (RInvalid, 0) /\ F id = None).
Proof.
  intros Ht. cbv zeta. unfold found, compute_result, fact. destruct (n_eth n id) as [rc|] eqn:E; [|by left]. destruct (Ht id rc E) as (-> & -> & ->).
  destruct (rc_readable (eth id)); cbn [negb andb]; [|by right; right; right]. destruct (rc_success (eth id)); cbn [negb]; [|by right; right; right].
  destruct (rc_event (eth id)) as [[addr [d|]]|].
  - fold (contract_ok (wc_bridge wc) (s_contracts s) id.1 addr). destruct (contract_ok (wc_bridge wc) (s_contracts s) id.1 addr); cbn [negb]; [|by right; right; right].
    destruct (_ <? _); [right; left; split; [done|by eexists]|]. right; right; left. done.
  - destruct (contract_ok _ _ _ _); cbn [negb]; by right; right; right.
  - by right; right; right.
Qed.
Lemma check_true eth wc n s me block id r : truthful eth n -> check_to_submit me block id (found wc n s id) = Some r ->
  true_check (fact eth (wc_bridge wc) (s_contracts s)) r /\ ck_id r = id /\ ck_by r = me.
Proof.
  intros Ht E. destruct (found_truth eth wc n s id Ht) as [Ef|[[Ef _]|[[Ef F]|[Ef F]]]]; unfold check_to_submit in E.
  - by rewrite Ef in E.
  - by rewrite Ef in E.
  - rewrite Ef in E. injection E as <-. unfold true_check. cbn. done.
  - rewrite Ef in E. injection E as <-. unfold true_check. cbn. done.
Qed.
Lemma challenge_false eth wc n s me r ch : truthful eth n -> challenge_required me r (found wc n s (ck_id r)) = Some ch ->
  ~ true_check (fact eth (wc_bridge wc) (s_contracts s)) r /\ ch_id ch = ck_id r /\ ch_by ch = me.
Proof.
  intros Ht. unfold challenge_required, true_check. destruct (found_truth eth wc n s (ck_id r) Ht) as [Ef|[[Ef (d & F)]|[[Ef F]|[Ef F]]]].
  - rewrite Ef. done.
  - rewrite Ef. cbn [fst snd]. destruct (ck_result r); cbn; repeat case_match; done.
  - destruct (found wc n s (ck_id r)) as [res d]. cbn [fst snd] in *. subst res. cbn. rewrite orb_false_r. rewrite F. destruct (ck_result r) eqn:Er; cbn; try (intros [= <-]; cbn; split; [intros X; discriminate X || destruct X|done]).
    destruct (d =? ck_data r) eqn:Ed; cbn; [done|]. intros [= <-]. split; [|done]. intros [= ->]. by rewrite N.eqb_refl in Ed.
  - rewrite Ef. cbn [fst snd]. rewrite F. destruct (ck_result r) eqn:Er; cbn; try (by repeat case_match). intros [= <-]; cbn; split; [intros X; discriminate X|done].
Qed.
Lemma challenge_made eth wc n s me r : truthful eth n -> (found wc n s (ck_id r)).1 <> RHttp -> (found wc n s (ck_id r)).1 <> RYoung ->
  (ck_result r = ROk \/ fact eth (wc_bridge wc) (s_contracts s) (ck_id r) <> None) ->
  ~ true_check (fact eth (wc_bridge wc) (s_contracts s)) r -> exists why, challenge_required me r (found wc n s (ck_id r)) = Some (mkChallenge (ck_id r) why me).
Proof.
  intros Ht H1 H2 H3 Hf. unfold challenge_required, true_check in *. destruct (found_truth eth wc n s (ck_id r) Ht) as [Ef|[[Ef (d & F)]|[[Ef F]|[Ef F]]]].
  - by rewrite Ef in H1.
  - by rewrite Ef in H2.
  - destruct (found wc n s (ck_id r)) as [res d]. cbn [fst snd] in *. subst res. rewrite F in *. cbn. rewrite orb_false_r. destruct (ck_result r) eqn:Er; cbn; try by eexists.
    destruct (d =? ck_data r) eqn:Ed; cbn; [apply N.eqb_eq in Ed; subst; done|]. by eexists.
  - rewrite Ef, F in *. cbn [fst snd]. destruct H3 as [->|?]; [|done]. cbn. by eexists.
Qed.

(** *** Numbers name checks for ever *)
Definition settled (s : st) (n : N) (r : check) : Prop := n <= s_ingress s /\ (forall id b, (id, n, b) ∉ s_unchecked s) /\ forall r' b, (r', n, b) ∈ s_pending s -> r' = r.
Lemma counters_pending s e : e ∈ s_pending s -> e.1.2 ∈ counters s.
Proof. intros H. unfold counters. apply elem_of_app. right. apply (map_elem (fun e : check * N * N => e.1.2) _ _ H). Qed.
Lemma counters_unchecked s e : e ∈ s_unchecked s -> e.1.2 ∈ counters s.
Proof. intros H. unfold counters. apply elem_of_app. left. apply (map_elem (fun e : event_id * N * N => e.1.2) _ _ H). Qed.
Lemma pending_settled s r n b : Inv s -> (r, n, b) ∈ s_pending s -> settled s n r.
Proof.
  intros I H. split; [apply (i_low _ I), (counters_pending s _ H)|]. pose proof (i_counters _ I) as Hn. unfold counters in Hn. apply NoDup_app in Hn as (_ & Hd & Hp). split.
  - intros id b' Hu. apply (Hd n); [apply (map_elem (fun e : event_id * N * N => e.1.2) _ _ Hu)|apply (map_elem (fun e : check * N * N => e.1.2) _ _ H)].
  - intros r' b' H'. assert (E : (r', n, b') = (r, n, b)) by (by apply (NoDup_fmap_eq (fun e : check * N * N => e.1.2) (s_pending s))). congruence.
Qed.
Lemma settled_effect c s o s' n r : effect c s o s' -> settled s n r -> settled s' n r.
Proof.
  intros E (H1 & H2 & H3). destruct E as [who k tx Hm|p k tx Hm Hs|r0 n0 v sig Hm|ch n0 v sig e Hm|id n0 v sig h e Hm|a Ha|p Hp|k tx a|vs m].
  - split; [cbn; lia|]. split; [|exact H3]. intros id b Hi. cbn in Hi. apply elem_of_app in Hi as [Hi|Hi]; [by apply (H2 id b)|]. apply elem_of_list_singleton in Hi. assert (n = s_ingress s + 1) by congruence. lia.
  - split; [cbn; lia|]. split; [|exact H3]. intros id b Hi. cbn in Hi. apply elem_of_app in Hi as [Hi|Hi]; [by apply (H2 id b)|]. apply elem_of_list_singleton in Hi. assert (n = s_ingress s + 1) by congruence. lia.
  - destruct Hm as (He & _). pose proof He as Hu. apply unchecked_in in Hu as (b0 & Hu). apply remove_first_spec in He as (l1 & x & l2 & El & _ & Er & _). split; [exact H1|]. split.
    + intros id b Hi. cbn in Hi. rewrite Er in Hi. apply (H2 id b). rewrite El. set_solver.
    + intros r' b Hi. cbn in Hi. destruct (_ <? MAX_PENDING); [|by apply (H3 r' b)]. apply elem_of_app in Hi as [Hi|Hi]; [by apply (H3 r' b)|]. apply elem_of_list_singleton in Hi.
      assert (n = n0) as -> by congruence. by destruct (H2 _ _ Hu).
  - split; [exact H1|]. split; [exact H2|exact H3].
  - split; [exact H1|]. split; [exact H2|]. intros r' b Hi. cbn in Hi. destruct Hm as (_ & Hf & <- & _). destruct (remove_last_spec _ _ _ Hf) as (l1 & l2 & El & _ & Hr). rewrite Hr in Hi. apply (H3 r' b). rewrite El. set_solver.
  - done.
  - done.
  - destruct (add_processed_shape (k, tx) a s) as [m Em]. rewrite Em. done.
  - done.
Qed.
Lemma settled_step c s o n r : settled s n r -> settled (step c s o) n r.
Proof. intros H. destruct (step_cases c s o) as [[_ E]|[_ ->]]; [by eapply settled_effect|done]. Qed.
Lemma settled_unique s n r r' b : settled s n r -> (r', n, b) ∈ s_pending s -> r' = r.
Proof. intros (_ & _ & H). apply H. Qed.

(** *** The invariant *)
Section world.
Context (wc : wconfig) (A K : N -> Prop) (eth : event_id -> receipt) (cs : list N).
Notation c := (wc_pallet wc).
Notation F := (fact eth (wc_bridge wc) cs).
Record J (w : world) : Prop := {
  j_inv : Inv (w_log w);
  j_contracts : s_contracts (w_log w) = cs;
  j_keys : keys_of_honest A K (s_validators (w_log w));
  j_check : forall key r n, In (key, MCheck r n) (w_sigs w) -> K key -> true_check F r;
  j_chal : forall key ch n, In (key, MChallenge ch n) (w_sigs w) -> K key -> exists r, settled (w_log w) n r /\ ck_id r = ch_id ch /\ ~ true_check F r;
  j_pending : forall r n b, (r, n, b) ∈ s_pending (w_log w) -> A (ck_by r) -> true_check F r;
  j_just : forall a id, a ∈ challengers (w_log w) id -> A a ->
    (exists res, ChallengeSucceeded id res ∈ s_events (w_log w)) \/ (exists r n b, (r, n, b) ∈ s_pending (w_log w) /\ ck_id r = id /\ ~ true_check F r) }.

Lemma worker_signed n s seen key m : s_contracts s = cs -> Inv s -> (forall v, local_validator n s = Some v -> K (v_key v) -> truthful eth n) ->
  In (key, m) (worker wc n s seen).1 -> K key ->
  match m with
  | MCheck r _ => true_check F r
  | MChallenge ch k => exists r, settled s k r /\ ck_id r = ch_id ch /\ ~ true_check F r
  | MProcess _ _ => True
  end.
Proof.
  intros Hc I Ht H Hk. unfold worker in H. destruct (n_first n); [|done]. destruct (local_validator n s) as [v|] eqn:Ev; [|done]. destruct (n_finalised n) as [fin|]; [|done].
  specialize (Ht v eq_refl). destruct (primary_for_block _ _) as [p|]; [|done]. destruct (p =? v_account v).
  - cbn [fst] in H. destruct (n_signs n); [|done]. apply in_map_iff in H as (m' & Em & H). injection Em as <- <-. specialize (Ht Hk). apply in_app_or in H as [H|H].
    + unfold try_check in H. destruct (next_to_check s fin) as [e|]; [|done]. destruct (check_to_submit _ _ _ _) as [r|] eqn:E; [|done]. destruct H as [<-|[]]. apply (check_true eth) in E; [|done]. rewrite Hc in E. tauto.
    + unfold try_process in H. destruct (next_to_process _ _ _); [|done]. by destruct H as [<-|[]].
  - unfold try_validate in H. destruct (next_to_validate s (v_account v) seen fin) as [[[r k] b]|] eqn:En; [|by destruct (n_signs n)]. cbn [fst snd] in H.
    destruct (bool_decide _); [by destruct (n_signs n)|]. destruct (n_saves n); [|by destruct (n_signs n)]. cbn [negb fst] in H. destruct (n_signs n); [|done].
    apply in_map_iff in H as (m' & Em & H). injection Em as <- <-. specialize (Ht Hk). destruct (challenge_required _ _ _) as [ch|] eqn:E; [|done]. destruct H as [<-|[]].
    apply (challenge_false eth) in E as (E1 & E2 & _); [|done]. rewrite Hc in E1. exists r. split; [|split; [done|exact E1]].
    apply (proj1 (C62_next_to_validate s (v_account v) seen fin)) in En as (Hin & _). by apply (pending_settled s r k b).
Qed.

Lemma true_stored s r : true_check F (stored c s r) <-> true_check F r.
Proof. done. Qed.
Lemma effect_events s o s' : effect c s o s' -> forall e, e ∈ s_events s -> e ∈ s_events s'.
Proof.
  intros E e He. destruct E; first [exact He | (apply elem_of_cons; right; exact He) | (cbn; apply elem_of_cons; right; exact He) | (cbn [processed s_events]; apply elem_of_app; right; exact He) | idtac].
  match goal with |- context [add_processed ?i ?x ?y] => destruct (add_processed_shape i x y) as [mm ->] end. exact He.
Qed.
Lemma J_chain w o : allowed wc A K eth w (WChain o) -> J w -> J (wstep wc w (WChain o)).
Proof.
  intros (Hsig & Hvs & Hct) [I Hc Hk Hch Hcl Hp Hj]. cbn [wstep]. destruct (step_cases c (w_log w) o) as [[_ E]|[_ E]]; [|rewrite E; by destruct w].
  set (s := w_log w) in *. set (s' := step c s o) in *.
  assert (I' : Inv s') by by apply step_inv.
  assert (Hset : forall n r, settled s n r -> settled s' n r) by (intros n r; by apply settled_step).
  assert (Hev : forall e, e ∈ s_events s -> e ∈ s_events s') by by eapply effect_events.
  constructor; cbn [w_log w_sigs]; fold s'; [exact I'| | |exact Hch| | |].
  - rewrite <-Hc. destruct E; cbn; try done; [by destruct (Hct a)|]. match goal with |- context [add_processed ?i ?x ?y] => destruct (add_processed_shape i x y) as [mm ->] end. done.
  - destruct E; try exact Hk; [|by eapply Hvs]. match goal with |- context [add_processed ?i ?x ?y] => destruct (add_processed_shape i x y) as [mm ->] end. exact Hk.
  - intros key ch n Hin HK. destruct (Hcl key ch n Hin HK) as (r & Hs & Hr). exists r. split; [by apply Hset|done].
  - intros r n b Hin HA. destruct (effect_pending _ _ _ _ _ E Hin) as [Ho|(r0 & n0 & v & sig & -> & Ee)]; [by eapply Hp|]. assert (r = stored c s r0) as -> by congruence.
    apply true_stored. destruct (Hsig v (MCheck r0 n0) sig eq_refl) as [Hv Hsg]. inversion E as [| |r1 n1 v1 sig1 Hm| | | | | |]; subst. destruct Hm as (_ & _ & _ & Hac & _ & Hver & _).
    assert (HK : K (v_key v)). { apply Hk; [done|]. rewrite Hac. exact HA. }
    exact (Hch _ _ _ (Hsg HK Hver) HK).
  - assert (Hold : forall a id, a ∈ challengers s id -> A a -> (forall r n b, (r, n, b) ∈ s_pending s -> (r, n, b) ∈ s_pending s') ->
      (exists res, ChallengeSucceeded id res ∈ s_events s') \/ (exists r n b, (r, n, b) ∈ s_pending s' /\ ck_id r = id /\ ~ true_check F r)).
    { intros a id Ha HA Hpp. destruct (Hj a id Ha HA) as [[res Hr]|(r & n & b & H1 & H2 & H3)]; [left; exists res; by apply Hev|right; exists r, n, b; split; [by apply Hpp|done]]. }
    intros a id Ha HA. clearbody s'. destruct E as [who k tx Hm|p k tx Hm Hs|r0 n0 v sig Hm|ch n0 v sig e Hm|id0 n0 v sig h e Hm|a0 Ha0|p Hp0|k tx a0|vs m].
    + by apply (Hold a id).
    + by apply (Hold a id).
    + apply (Hold a id); try done. intros r n b Hin. cbn. destruct (_ <? MAX_PENDING); [apply elem_of_app; by left|done].
    + unfold challengers in Ha. cbn [challenged s_challenges] in Ha. destruct (_ <? MAX_CHALLENGES); [|by apply (Hold a id)]. rewrite mget_insert in Ha. case_bool_decide as Eid; [|by apply (Hold a id)]. subst id.
      apply elem_of_app in Ha as [Ha|Ha]; [by apply (Hold a (ch_id ch))|]. apply elem_of_list_singleton in Ha. subst a. right.
      destruct (Hsig v (MChallenge ch n0) sig eq_refl) as [Hv Hsg]. apply may_challenge_iff in Hm as (r & b & -> & Hin & Hid & Hne & Hac & _ & Hver & _); [|done].
      assert (HK : K (v_key v)). { apply Hk; [done|]. rewrite Hac. exact HA. }
      destruct (Hcl _ _ _ (Hsg HK Hver) HK) as (r1 & Hs1 & Hid1 & Hf1). pose proof (settled_unique _ _ _ _ _ Hs1 Hin) as Er. subst r. exists r1, n0, b. split; [exact Hin|done].
    + pose proof Hm as Hm'. apply may_process_iff in Hm as (r & b & -> & Hin & <- & _); [|done]. cbn [fst] in *. destruct Hm' as (_ & Hf & _).
      unfold challengers in Ha. cbn [processed s_challenges] in Ha. destruct (decide (id = ck_id r)) as [->|Hne].
      * destruct (challenge_successful c s r) eqn:Hsu.
        -- left. exists (ck_result r). cbn. unfold process_events. rewrite Hsu. cbn. right. right. by left.
        -- unfold mget in Ha. rewrite lookup_delete in Ha. by apply elem_of_nil in Ha.
      * assert (Ha' : a ∈ challengers s id). { unfold challengers. destruct (challenge_successful c s r); [done|]. unfold mget in *. by rewrite lookup_delete_ne in Ha. }
        destruct (Hj a id Ha' HA) as [[res Hr]|(r1 & n1 & b1 & H1 & H2 & H3)]; [left; exists res; by apply Hev|]. right. exists r1, n1, b1. split; [|done].
        cbn. destruct (remove_last_spec _ _ _ Hf) as (l1 & l2 & El & _ & Hr). rewrite Hr. rewrite El in H1. apply elem_of_app in H1 as [H1|H1]; [apply elem_of_app; by left|].
        apply elem_of_cons in H1 as [H1|H1]; [assert (r1 = r) by congruence; subst; done|apply elem_of_app; by right].
    + by apply (Hold a id).
    + by apply (Hold a id).
    + destruct (add_processed_shape (k, tx) a0 s) as [mm Em]. rewrite Em in *. apply (Hold a id); done.
    + by apply (Hold a id).
Qed.
Lemma J_step w o : allowed wc A K eth w o -> J w -> J (wstep wc w o).
Proof.
  destruct o as [n|k m|o]; [| |apply J_chain].
  - intros Ht [I Hc Hk Hch Hcl Hp Hj]. cbn [wstep allowed] in *. destruct (worker wc n (w_log w) (w_seen w (n_id n))) as [l seen] eqn:E.
    assert (W : forall key m, In (key, m) l -> K key -> _) by (intros key m Hin HK; pose proof (worker_signed n (w_log w) (w_seen w (n_id n)) key m Hc I Ht) as W; rewrite E in W; exact (W Hin HK)).
    constructor; cbn [w_log w_sigs]; try done.
    + intros key r k Hin HK. apply in_app_or in Hin as [Hin|Hin]; [exact (W _ _ Hin HK)|by eapply Hch].
    + intros key ch k Hin HK. apply in_app_or in Hin as [Hin|Hin]; [exact (W _ _ Hin HK)|by eapply Hcl].
  - intros HK [I Hc Hk Hch Hcl Hp Hj]. cbn [allowed] in HK. constructor; cbn [wstep w_log w_sigs]; try done.
    + intros key r n [Hin|Hin] HK'; [assert (key = k) by congruence; subst; done|by eapply Hch].
    + intros key ch n [Hin|Hin] HK'; [assert (key = k) by congruence; subst; done|by eapply Hcl].
Qed.
Lemma J_run ops : forall w, honest_history wc A K eth w ops -> J w -> J (wrun wc w ops).
Proof. induction ops as [|o ops IH]; intros w; [done|]. cbn [honest_history wrun fold_left]. intros [H1 H2] HJ. apply IH; [done|]. by apply J_step. Qed.
End world.
Definition world0 (g : start) : world := wstart (genesis (g_period g) (g_lifts g) (g_processed g) (g_contracts g) (g_validators g)).
Lemma J_start wc A K eth g : sound g -> keys_of_honest A K (g_validators g) -> J wc A K eth (g_contracts g) (world0 g).
Proof.
  intros G Hk. constructor; cbn; try done.
  - destruct G. by apply genesis_inv.
  - intros r n b H. by apply elem_of_nil in H.
  - intros a id H. unfold challengers, mget in H. cbn in H. by apply elem_of_nil in H.
Qed.
Lemma J_reached wc A K eth g ops : sound g -> keys_of_honest A K (g_validators g) -> honest_history wc A K eth (world0 g) ops -> J wc A K eth (g_contracts g) (wrun wc (world0 g) ops).
Proof. intros G Hk Hh. apply J_run; [done|]. by apply J_start. Qed.
Lemma world_log wc g ops : w_log (wrun wc (world0 g) ops) = reached (wc_pallet wc) g (calls ops).
Proof. apply wrun_log. Qed.
