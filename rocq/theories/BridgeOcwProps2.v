(** C86: what authors sign for the bridge means one thing. *)
From Verif Require Import Base BaseLemmas AvnModel CodecModel CodecProofs HttpModel BridgeModel BridgeProofs BridgeSpec BridgeProofs2 BridgeProofs3 BridgeProofs4.
From Verif Require Import CorroborateModel CorroborateProps BridgeProps BridgeOcwModel BridgeOcwSpec BridgeOcwProofs BridgeOcwProofs2 BridgeOcwProofs3 BridgeOcwProps.
(** Whoever confirms a request to send, or sends it, has consented to its execution (instance, id, expiry): what the contract executes without an honest confirmation or sending is excluded, nothing less. *)
Theorem C85_confirming_or_sending_consents c n w v x id a t : worker c n (w_st w) = Some (v, x) -> (exists conf, x = SubmitConfirmation id conf) \/ (exists h, x = SendAndSubmitHash id h) ->
  s_active (w_st w) = Some a -> ac_tx a = Some t -> In (v_key v, (s_instance (w_st w), id, tx_expiry t)) (w_consents (wstep c w (WWorker n))).
Proof. intros Ew Hx Ha Ht. cbn [wstep]. rewrite Ew. cbn [w_consents]. apply in_or_app. left. destruct Hx as [[conf ->]|[h ->]]; cbn; rewrite Ha, Ht; by left. Qed.

From Verif Require SummaryOcwModel.

Lemma ctx_split a b x y : short_vec a ++ x = short_vec b ++ y -> a = b /\ x = y.
Proof.
  unfold short_vec. cbn [app]. intros E. injection E as E1 E2. apply app_split in E2; [exact E2|]. lia.
Qed.
Lemma be_split k a b x y : a < 256 ^ N.of_nat k -> b < 256 ^ N.of_nat k -> be_bytes k a ++ x = be_bytes k b ++ y -> a = b /\ x = y.
Proof. intros Ha Hb E. apply app_split in E as [E1 E2]; [|now rewrite !be_bytes_length]. apply be_bytes_inj in E1; auto. Qed.
Lemma le_split k a b x y : a < 256 ^ N.of_nat k -> b < 256 ^ N.of_nat k -> le_bytes k a ++ x = le_bytes k b ++ y -> a = b /\ x = y.
Proof. intros Ha Hb E. apply app_split in E as [E1 E2]; [|now rewrite !le_bytes_length]. apply le_bytes_inj in E1; auto. Qed.

Definition ctx_of (x : subject) : list N :=
  match x with
  | SCall (PConfirm _ _ _ _) => ctx_confirm | SCall (PHash _ _ _ _) => ctx_hash | SCall (PCorroborate _ _ _ _ _ _) => ctx_corroborate
  | SEvents _ _ _ => ctx_events | SBlock _ _ _ => ctx_block | _ => [] end.
Definition rest_of (x : subject) : list N :=
  match x with
  | SCall (PConfirm inst id sig account) => le_bytes 4 id ++ be_bytes 65 sig ++ be_bytes 32 account
  | SCall (PHash inst id hash account) => le_bytes 4 id ++ be_bytes 32 hash ++ be_bytes 32 account
  | SCall (PCorroborate inst id su hv account attempt) => le_bytes 4 id ++ [bool_byte su; bool_byte hv] ++ be_bytes 32 account ++ le_bytes 2 attempt
  | SEvents inst account part => be_bytes 32 account ++ part
  | SBlock inst account block => be_bytes 32 account ++ le_bytes 4 block
  | _ => [] end.
Lemma chain_bytes x : for_the_chain x = true -> exists i, instance_of x = Some i /\ subject_bytes x = be_bytes 32 i ++ short_vec (ctx_of x) ++ rest_of x /\ (wf_subject x -> i < 256 ^ 32).
Proof. destruct x as [[]| | | |]; try discriminate; intros _; eexists; (split; [reflexivity|]); (split; [reflexivity|]); cbn -[N.pow]; tauto. Qed.
Lemma ctx_inj x y : for_the_chain x = true -> for_the_chain y = true -> ctx_of x = ctx_of y ->
  match x, y with
  | SCall (PConfirm _ _ _ _), SCall (PConfirm _ _ _ _) | SCall (PHash _ _ _ _), SCall (PHash _ _ _ _) | SCall (PCorroborate _ _ _ _ _ _), SCall (PCorroborate _ _ _ _ _ _)
  | SEvents _ _ _, SEvents _ _ _ | SBlock _ _ _, SBlock _ _ _ => True
  | _, _ => False
  end.
Proof. destruct x as [[]| | | |], y as [[]| | | |]; try discriminate; intros _ _ E; try exact I; vm_compute in E; discriminate E. Qed.

(** Two messages for the chain with the same bytes are the same message: of the same kind, for the same contract, transaction, author, attempt and content.  A signature
    accepted for one call is a signature on no other. *)
Theorem C86_messages_distinct x y : for_the_chain x = true -> for_the_chain y = true -> wf_subject x -> wf_subject y -> subject_bytes x = subject_bytes y -> x = y.
Proof.
  intros Cx Cy Wx Wy E. destruct (chain_bytes x Cx) as (i & Ii & Ex & Li), (chain_bytes y Cy) as (j & Ij & Ey & Lj). rewrite Ex, Ey in E.
  apply be_split in E as [-> E]; [|now apply Li|now apply Lj]. apply ctx_split in E as [Ec E]. pose proof (ctx_inj x y Cx Cy Ec) as Hk. clear Ex Ey Li Lj Ec.
  assert (P4 : 256 ^ N.of_nat 4 = 2 ^ 32) by reflexivity. assert (P2 : 256 ^ N.of_nat 2 = 2 ^ 16) by reflexivity.
  destruct x as [[i1 id1 s1 a1|i1 id1 h1 a1|i1 id1 su1 hv1 a1 k1]|i1 a1 p1|i1 a1 b1|h1|a1 c1 d1], y as [[i2 id2 s2 a2|i2 id2 h2 a2|i2 id2 su2 hv2 a2 k2]|i2 a2 p2|i2 a2 b2|h2|a2 c2 d2]; try contradiction;
    unfold instance_of in Ii, Ij; apply (inj Some) in Ii, Ij; subst; unfold wf_subject, wf_payload in Wx, Wy; unfold rest_of in E.
  - destruct Wx as (_ & ? & ? & ?), Wy as (_ & ? & ? & ?). apply le_split in E as [-> E]; [|rewrite P4; assumption..]. apply be_split in E as [-> E]; [|assumption..].
    apply be_bytes_inj in E as ->; [reflexivity|assumption..].
  - destruct Wx as (_ & ? & ? & ?), Wy as (_ & ? & ? & ?). apply le_split in E as [-> E]; [|rewrite P4; assumption..]. apply be_split in E as [-> E]; [|assumption..].
    apply be_bytes_inj in E as ->; [reflexivity|assumption..].
  - destruct Wx as (_ & ? & ? & ?), Wy as (_ & ? & ? & ?). apply le_split in E as [-> E]; [|rewrite P4; assumption..].
    apply (app_split [bool_byte su1; bool_byte hv1] [bool_byte su2; bool_byte hv2]) in E as [Eb E]; [|reflexivity]. injection Eb as Eb1 Eb2.
    apply be_split in E as [-> E]; [|assumption..]. apply le_bytes_inj in E as ->; [|rewrite P2; assumption..].
    assert (su1 = su2) as -> by (destruct su1, su2; cbn in Eb1; congruence). assert (hv1 = hv2) as -> by (destruct hv1, hv2; cbn in Eb2; congruence). reflexivity.
  - destruct Wx as (_ & ?), Wy as (_ & ?). apply be_split in E as [-> ->]; [|assumption..]. reflexivity.
  - destruct Wx as (_ & ? & ?), Wy as (_ & ? & ?). apply be_split in E as [-> E]; [|assumption..]. apply le_bytes_inj in E as ->; [reflexivity|rewrite P4; assumption..].
Qed.
(** The tokens for the node's service determine what is asked for, too. *)
Theorem C86_tokens_distinct x y : for_the_chain x = false -> for_the_chain y = false -> wf_subject x -> wf_subject y -> subject_bytes x = subject_bytes y -> x = y.
Proof.
  destruct x as [?|? ? ?|? ? ?|h1|a1 c1 d1], y as [?|? ? ?|? ? ?|h2|a2 c2 d2]; try discriminate; intros _ _ Wx Wy E; unfold subject_bytes in E; unfold wf_subject in Wx, Wy.
  - apply be_bytes_inj in E as ->; [reflexivity|assumption..].
  - destruct Wx as (? & ? & ?), Wy as (? & ? & ?). apply be_split in E as [-> E]; [|assumption..]. apply be_split in E as [-> E]; [|assumption..].
    assert (scale_bytes d1 ++ [] = scale_bytes d2 ++ []) as E' by now rewrite !app_nil_r. apply scale_bytes_prefix in E' as [-> _]; [reflexivity|assumption..].
Qed.
(** A token for a signature is not a message for the chain.  A token for sending is one only if the author's account is the hash of the bridge instance. *)
Theorem C86_token_is_no_message x y : for_the_chain x = true -> for_the_chain y = false -> wf_subject x -> wf_subject y -> subject_bytes y = subject_bytes x ->
  exists account contract data, y = SSendToken account contract data /\ instance_of x = Some account.
Proof.
  intros Cx Cy Wx Wy E. destruct (chain_bytes x Cx) as (i & Ii & Ex & Li). rewrite Ex in E. destruct y as [?|? ? ?|? ? ?|h|a c d]; try discriminate; unfold subject_bytes in E; unfold wf_subject in Wy.
  apply be_split in E as [-> _]; [|apply Wy|now apply Li]. eauto.
Qed.
(** The messages that authors sign with the same key for summaries (C82) are others. *)
Theorem C86_not_a_summary_message x inst slot cl : for_the_chain x = true -> subject_bytes x <> SummaryOcwModel.message inst slot cl.
Proof.
  intros Cx E. destruct (chain_bytes x Cx) as (i & _ & Ex & _). rewrite Ex in E. clear Ex. apply (f_equal (@length N)) in E. rewrite !app_length, be_bytes_length in E. unfold short_vec in E. cbn [length] in E.
  assert (L1 : length ctx_confirm = 21%nat) by reflexivity. assert (L2 : length ctx_hash = 18%nat) by reflexivity. assert (L3 : length ctx_corroborate = 22%nat) by reflexivity.
  assert (L4 : length ctx_events = 32%nat) by reflexivity. assert (L5 : length ctx_block = 32%nat) by reflexivity.
  assert (M : (length (SummaryOcwModel.message inst slot cl) <= 90)%nat).
  { clear. unfold SummaryOcwModel.message, SummaryOcwModel.short_vec, SummaryOcwModel.session_id, SummaryOcwModel.challenge_bytes. destruct cl as [nb h ic|rid ag|rid| |[s|] c1 c2];
      rewrite ?app_length; cbn [length]; rewrite ?app_length, ?be_bytes_length, ?le_bytes_length; try (vm_compute; lia). }
  destruct x as [[]| | | |]; try discriminate; unfold ctx_of, rest_of in E; rewrite !app_length, ?be_bytes_length, ?le_bytes_length in E; cbn [length] in E; lia.
Qed.

(** A transaction's hash was signed by the author who is its sender, for this contract and this transaction. *)
Theorem C86_hash_is_signed c next life inst vs ops a r t : let w := wrun c (wstart (genesis next life inst vs)) ops in
  s_active (w_st w) = Some a -> ac_req a = RSend r -> ac_tx a = Some t -> tx_hash t <> 0 ->
  exists key, In (key, PHash (s_instance (w_st w)) (sr_id r) (tx_hash t) (tx_sender t)) (w_sigs w).
Proof.
  enough (H : forall ops w, W c (w_st w) -> (forall a r t, s_active (w_st w) = Some a -> ac_req a = RSend r -> ac_tx a = Some t -> tx_hash t <> 0 ->
    exists key, In (key, PHash (s_instance (w_st w)) (sr_id r) (tx_hash t) (tx_sender t)) (w_sigs w)) -> let w' := wrun c w ops in
    forall a r t, s_active (w_st w') = Some a -> ac_req a = RSend r -> ac_tx a = Some t -> tx_hash t <> 0 -> exists key, In (key, PHash (s_instance (w_st w')) (sr_id r) (tx_hash t) (tx_sender t)) (w_sigs w')).
  { apply (H ops (wstart (genesis next life inst vs))); [apply genesis_W|discriminate]. }
  clear. induction ops as [|o ops IH]; intros w HW HI; [exact HI|]. cbn. apply IH; clear IH.
  - rewrite wstep_st. destruct o; auto. now destruct (effect_fifo _ _ _ _ _ (step_effect c (verified w) (w_st w) o) HW).
  - intros a r t. rewrite wstep_st. intros Ha Hr Ht Hh.
    assert (Hsame : s_active (w_st w) = Some a -> exists key, In (key, PHash (s_instance (w_st w)) (sr_id r) (tx_hash t) (tx_sender t)) (w_sigs (wstep c w o))).
    { intros Ha'. destruct (HI a r t Ha' Hr Ht Hh) as [key Hin]. exists key. now apply wstep_sigs. }
    destruct o as [n|k p|o|u|i id ex]; try (apply Hsame; exact Ha). clear Hsame. change (w_sigs (wstep c w (WSubmit o))) with (w_sigs w).
    assert (Hd : (exists n, o = OpSetInstance n) \/ (forall n, o <> OpSetInstance n)) by (destruct o; try (right; discriminate); left; eauto). destruct Hd as [[n ->]|Hd].
    + destruct (step_set_instance c (verified w) (w_st w) n HW) as [E|E]; [rewrite E in *; now apply (HI a r t)|]. destruct (E a t Ha Ht) as (_ & _ & ?). contradiction.
    + rewrite step_instance by exact Hd. pose proof (step_effect c (verified w) (w_st w) o) as He.
      destruct (effect_grown _ _ _ _ _ He a Ha) as [[_ Hu]|(b & Hb & (Hsa & _))]; [destruct (Hu t Ht) as [? _]; contradiction|].
      pose proof Hsa as Hsa'. unfold same_attempt in Hsa'. rewrite Ht in Hsa'. destruct Hsa' as (Er & _ & Hsa'). destruct (ac_tx b) as [u|] eqn:Eu; [|contradiction]. destruct Hsa' as (Ese & _). rewrite Hr in Er.
      destruct (effect_hash _ _ _ _ _ b u a t He Hb Eu Ha Ht) as [[_ Hu]|[_ [Eh|(_ & hash & v & sig & -> & Hv & Ev & Eh)]]].
      * destruct (Hu t Ht) as [? _]; contradiction.
      * rewrite Eh, <- Ese. apply (HI b r u); auto. congruence.
      * exists (v_key v). unfold valid in Hv. cbn [signed_payload] in Hv. apply andb_true_iff in Hv as [_ Hv]. unfold verified in Hv. apply bool_decide_eq_true in Hv. rewrite elem_of_list_In in Hv.
        rewrite Er in Hv. cbn [request_id] in Hv. rewrite <- Ese, <- Ev, Eh. exact Hv.
Qed.
(** Refuted: ... for this attempt.  What is signed names the transaction but not the attempt: with two authors, all honest, the first sender's hash is recorded again when its turn
    comes again; the attempt then counts as sent, and the sender has not sent, and will not send, its transaction. *)
Definition ex_unknown : option (list N) := Some (query_body 120 None).
Definition ex_replayed : list wop :=
  [WSubmit (EnvKeys ex_keys); WSubmit (OpPublish true [112] [] [7]);
   WWorker (ex_node 2 None None); WSubmit (OpEthTxHash 100 555 (ex_v 2) 0);
   WSubmit (EnvBlock 5 601); WClock 601; WWorker (ex_node 1 (Some (view_body Expired)) ex_unknown); WSubmit (OpCorroborate 100 false false (ex_v 1) 0 0);
   WSubmit (EnvBlock 5 1300); WClock 699; WWorker (ex_node 2 (Some (view_body Expired)) ex_unknown); WSubmit (OpCorroborate 100 false false (ex_v 2) 1 0);
   WSubmit (OpEthTxHash 100 555 (ex_v 2) 0)].
Definition ex_two : list validator := [ex_v 1; ex_v 2].
Theorem C86_hash_is_of_the_attempt_refuted : ~ forall c A K next life inst vs ops a r t,
  keys_of_honest A K vs -> (forall v, In v vs -> A (v_account v)) -> let w0 := wstart (genesis next life inst vs) in honest_history c A K w0 ops -> let w := wrun c w0 ops in
  s_active (w_st w) = Some a -> ac_req a = RSend r -> ac_tx a = Some t -> tx_hash t <> 0 ->
  exists key, In (key, (s_instance (w_st w), sr_id r, tx_expiry t)) (w_consents w).
Proof.
  intros H. set (w0 := wstart (genesis 100 600 1 ex_two)).
  assert (E : exists a r t, s_active (w_st (wrun ex_c w0 ex_replayed)) = Some a /\ ac_req a = RSend r /\ ac_tx a = Some t /\ tx_hash t = 555 /\ tx_expiry t = 1900 /\ tx_attempt t = 2 /\ tx_sender t = 2).
  { do 3 eexists. split_and!; [vm_compute; reflexivity|reflexivity..]. }
  destruct E as (a & r & t & Ha & Hr & Ht & Eh & Ee & _). specialize (H ex_c ex_honest ex_hkeys 100 600 1 ex_two ex_replayed a r t).
  destruct H as [key H].
  - intros v Hv. cbn in Hv. unfold ex_honest, ex_hkeys. repeat destruct Hv as [<-|Hv]; cbn; lia.
  - intros v Hv. cbn in Hv. unfold ex_honest. repeat destruct Hv as [<-|Hv]; cbn; lia.
  - change (honest_history ex_c ex_honest ex_hkeys w0 ex_replayed). unfold ex_replayed. cbn [honest_history]. clear Ha Hr Ht. split_and!; try exact I; solve_allowed.
  - exact Ha.
  - exact Hr.
  - exact Ht.
  - rewrite Eh. discriminate.
  - rewrite Ee in H. fold w0 in H. assert (X : existsb (fun q => snd (snd q) =? 1900) (w_consents (wrun ex_c w0 ex_replayed)) = false) by (vm_compute; reflexivity).
    apply (eq_true_false_abs _ (proj2 (existsb_exists _ _) (ex_intro _ _ (conj H eq_refl))) X).
Qed.
