(** C81: the locks of the summary pallet's workers. *)
From Verif Require Import Base BaseLemmas CodecModel BridgeModel HttpModel OcwModel AvnModel SummaryModel SummarySpec SummaryProps SummaryOcwModel SummaryOcwSpec SummaryOcwProofs2 SummaryOcwProofs4 SummaryOcwProps.

(** The name under which a call is remembered after it went to the pool; ends of votes are not. *)
Definition lock_of (inst slot : N) (cl : call) : option lock_id :=
  match cl with
  | CRecord to _ _ => Some (RootLock inst to)
  | CVote ((from, to), counter) _ => Some (VoteLock inst from to counter)
  | CAdvance => Some (SlotLock inst slot)
  | CChallenge (Some sl) challenger challengee => Some (ChallengeLock inst sl challenger challengee)
  | CChallenge None _ _ | CEnd _ => None
  end.
Definition lock_named inst slot cl : option (list N) := option_map lock_name (lock_of inst slot cl).

Definition locks_ok (w : wconfig) (n : node) (s : st) (r : out) : Prop :=
  o_locks r = omap (lock_named (wc_instance w) (s_slot s)) (o_sent r) /\
  forall cl l, In cl (o_signed r) -> lock_named (wc_instance w) (s_slot s) cl = Some l -> n_locked n l = false.
Lemma locks_nil w n s : locks_ok w n s out_nil.
Proof. split; [reflexivity|intros ? ? []]. Qed.
Lemma locks_app w n s a b : locks_ok w n s a -> locks_ok w n s b -> locks_ok w n s (out_app a b).
Proof.
  intros [A1 A2] [B1 B2]. split; cbn [out_app o_locks o_sent o_signed]; [by rewrite A1, B1, omap_app|].
  intros cl l Hin. apply in_app_or in Hin as [Hin|Hin]; [by apply A2|by apply B2].
Qed.
Lemma locks_attempt w n s cl lock : lock_named (wc_instance w) (s_slot s) cl = Some lock -> n_locked n lock = false -> locks_ok w n s (attempt n cl lock).
Proof.
  intros E Hl. unfold attempt. destruct (n_can_sign n); cbn [negb]; [|apply locks_nil].
  assert (X : forall cl' l, In cl' [cl] -> lock_named (wc_instance w) (s_slot s) cl' = Some l -> n_locked n l = false) by (intros cl' l [<-|[]] E'; congruence).
  destruct (n_submit n cl); (split; [|exact X]); cbn [o_locks o_sent omap list_omap]; [by rewrite E|reflexivity].
Qed.
Lemma vote_named w s rid b : lock_named (wc_instance w) (s_slot s) (CVote rid b) = Some (vote_lock w rid).
Proof. by destruct rid as [[from to] c]. Qed.
Lemma locks_cast w n s : forall rids, locks_ok w n s (cast_first w n s rids).
Proof.
  induction rids as [|rid rids IH]; cbn [cast_first]; [apply locks_nil|].
  destruct (n_locked n (vote_lock w rid)) eqn:El; [exact IH|]. destruct (compute_root _ _ _) as [h|]; [|exact IH]. destruct (s_roots s !! rid) as [d|]; [|exact IH].
  destruct (s_votes s !! rid) as [ss|]; [|exact IH]. destruct (n_can_sign n); cbn [negb]; [|exact IH].
  assert (X : forall cl' l, In cl' [CVote rid (h =? rd_hash d)] -> lock_named (wc_instance w) (s_slot s) cl' = Some l -> n_locked n l = false)
    by (intros cl' l [<-|[]] E'; rewrite vote_named in E'; congruence).
  destruct (n_submit n _).
  - split; [|exact X]. cbn [o_locks o_sent omap list_omap]. by rewrite vote_named.
  - apply locks_app; [|exact IH]. split; [reflexivity|exact X].
Qed.
Lemma locks_end w n s : forall rids, locks_ok w n s (end_all n s rids).
Proof.
  induction rids as [|rid rids IH]; cbn [end_all]; [apply locks_nil|]. destruct (s_votes s !! rid); [|apply locks_nil]. destruct (n_can_sign n); cbn [negb]; [|apply locks_nil].
  apply locks_app; [|exact IH]. split; [by destruct (n_submit n _)|]. intros cl l [<-|[]]. discriminate.
Qed.
(** A run of the worker keeps the locks of exactly the calls that it sent and the pool took (but for ends of votes, which have none), in that order; and nothing whose lock is held is signed, still less sent.
    So a call that was sent is not repeated while its lock lasts, and one that the pool refused is tried again. *)
Theorem C81_sent_once w n s v r : worker w n s = Some (v, r) ->
  o_locks r = omap (lock_named (wc_instance w) (s_slot s)) (o_sent r) /\
  (forall cl l, In cl (o_signed r) -> lock_named (wc_instance w) (s_slot s) cl = Some l -> n_locked n l = false) /\
  (forall cl, In cl (o_sent r) -> In cl (o_signed r) /\ n_submit n cl = true).
Proof.
  intros Ew. assert (Hl : locks_ok w n s r).
  { unfold worker in Ew. destruct (local_validator n s) as [x|]; [|discriminate]. apply (inj Some) in Ew. apply pair_equal_spec in Ew as [-> <-].
    apply locks_app; [|apply locks_app; [|apply locks_app; [|apply locks_app]]].
    - unfold advance_if_required. destruct (s_slot_validator s); [|apply locks_nil]. destruct (_ && _); [|apply locks_nil]. destruct (n_locked n _) eqn:El; [apply locks_nil|]. by apply locks_attempt.
    - unfold process_if_required. destruct (target_block _ _) as [to|]; [|apply locks_nil]. destruct (can_process _ _ _ _ _) eqn:Ec; [|apply locks_nil].
      destruct (compute_root _ _ _); [|apply locks_nil]. apply locks_attempt; [reflexivity|]. unfold can_process in Ec. by destruct (n_locked n _).
    - apply locks_cast.
    - apply locks_end.
    - unfold challenge_if_required. destruct (s_slot_validator s); [|apply locks_nil]. destruct (n_locked n _) eqn:El; [apply locks_nil|]. destruct (_ && _); [|apply locks_nil]. by apply locks_attempt. }
  destruct Hl as [H1 H2]. split; [exact H1|]. split; [exact H2|]. clear H1 H2.
  unfold worker in Ew. destruct (local_validator n s) as [x|]; [|discriminate]. apply (inj Some) in Ew. apply pair_equal_spec in Ew as [-> <-].
  assert (Hat : forall cl lock c, In c (o_sent (attempt n cl lock)) -> In c (o_signed (attempt n cl lock)) /\ n_submit n c = true).
  { intros cl lock c. unfold attempt. destruct (n_can_sign n); cbn [negb]; [|intros []]. destruct (n_submit n cl) eqn:E; [|intros []]. intros [<-|[]]. split; [by left|exact E]. }
  intros cl. cbn [out_app o_sent o_signed]. rewrite !in_app_iff. intros [H|[H|[H|[H|H]]]].
  - unfold advance_if_required in *. destruct (s_slot_validator s); [|destruct H]. destruct (_ && _); [|destruct H]. destruct (n_locked n _); [destruct H|]. apply Hat in H as [H ?]. tauto.
  - unfold process_if_required in *. destruct (target_block _ _) as [to|]; [|destruct H]. destruct (can_process _ _ _ _ _); [|destruct H]. destruct (compute_root _ _ _); [|destruct H]. apply Hat in H as [H ?]. tauto.
  - pose proof (cast_first_sent _ _ _ _ _ H) as H'. split; [tauto|]. unfold cast_if_required in H. clear H'. revert H. generalize (take MAX_SESSIONS (List.filter (can_vote w n (v_account v) s) (n_iter n (s_pending s)))).
    induction l as [|rid rids IH]; cbn [cast_first]; [intros []|]. destruct (n_locked n _); [exact IH|]. destruct (compute_root _ _ _) as [h|]; [|exact IH]. destruct (s_roots s !! rid) as [d|]; [|exact IH].
    destruct (s_votes s !! rid) as [ss|]; [|exact IH]. destruct (n_can_sign n); cbn [negb]; [|exact IH]. destruct (n_submit n (CVote rid (h =? rd_hash d))) eqn:E; cbn [out_app o_sent app]; [intros [<-|[]]; exact E|exact IH].
  - assert (X : In cl (o_signed (end_if_required n s)) /\ n_submit n cl = true); [|tauto]. unfold end_if_required in *. revert H.
    generalize (take MAX_SESSIONS (List.filter (fun rid => ss_end (mget session_default rid (s_votes s)) <? s_block s) (n_iter n (s_pending s)))).
    induction l as [|rid rids IH]; cbn [end_all]; [intros []|]. destruct (s_votes s !! rid); [|intros []]. destruct (n_can_sign n); cbn [negb]; [|intros []].
    cbn [out_app o_sent o_signed]. rewrite !in_app_iff. destruct (n_submit n (CEnd rid)) eqn:E; cbn [In]; intros [H|H].
    + destruct H as [<-|[]]. tauto.
    + apply IH in H. tauto.
    + destruct H.
    + apply IH in H. tauto.
  - unfold challenge_if_required in *. destruct (s_slot_validator s); [|destruct H]. destruct (n_locked n _); [destruct H|]. destruct (_ && _); [|destruct H]. apply Hat in H as [H ?]. tauto.
Qed.
(** Validator 1's worker votes for the true root once: with the vote's lock held it sends nothing. *)
Example C81_sent_once_example : let s := w_chain (wrun ex_wcfg ex_world (take 7 ex_wops)) 0 in let l := lock_name (VoteLock 1 0 30 1) in
  let again := mkNode [101] (n_service (ex_node 101)) true (fun _ => true) (fun x => bool_decide (x = l)) map_to_list in
  let refused := mkNode [101] (n_service (ex_node 101)) true (fun _ => false) (fun _ => false) map_to_list in
  option_map (fun x => (o_sent x.2, o_locks x.2)) (worker (ex_wcfg 0) (ex_node 101) s) = Some ([CVote ex_rid true], [l]) /\
  option_map (fun x => (o_sent x.2, o_locks x.2)) (worker (ex_wcfg 0) again s) = Some ([], []) /\
  option_map (fun x => (o_signed x.2, o_sent x.2, o_locks x.2)) (worker (ex_wcfg 0) refused s) = Some ([CVote ex_rid true], [], []).
Proof. split_and!; vm_compute; reflexivity. Qed.
