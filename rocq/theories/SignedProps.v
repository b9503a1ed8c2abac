(** C94: everything an author signs with its AvN key, in any pallet, means one thing. *)
From Verif Require Import Base BaseLemmas CodecModel CodecProofs ScaleModel ScaleProofs AvnModel SigModel SignedModel.
From Verif Require LogModel SummaryOcwModel SummaryOcwSpec SummaryOcwProps ParseModel ParseProps BridgeModel BridgeOcwModel BridgeOcwSpec BridgeOcwProps2.
Import BridgeOcwModel BridgeOcwSpec BridgeOcwProps2.

Lemma cons_split {A} (a b : A) x y : a :: x = b :: y -> a = b /\ x = y.
Proof. intros E. now injection E. Qed.
Lemma enc_split t (x y : den t) r s : valid t x -> valid t y -> enc t x ++ r = enc t y ++ s -> x = y /\ r = s.
Proof.
  intros Hx Hy E. pose proof (dec_enc t x r Hx) as H1. pose proof (dec_enc t y s Hy) as H2. rewrite E, H2 in H1. apply (inj Some) in H1. apply pair_equal_spec in H1 as [-> ->]. now split.
Qed.
Lemma edata_split d1 d2 r s : wf_edata d1 -> wf_edata d2 -> edata_bytes d1 ++ r = edata_bytes d2 ++ s -> d1 = d2 /\ r = s.
Proof.
  destruct d1, d2; cbn [wf_edata edata_bytes]; intros W1 W2 E; rewrite <-?app_comm_cons in E; apply cons_split in E as [E1 E2]; try discriminate E1; clear E1;
    try (apply enc_split in E2 as [-> ->]; [|assumption..]; now split); now split.
Qed.

Lemma P32 : 256 ^ N.of_nat 32 = 256 ^ 32. Proof. reflexivity. Qed.
Lemma P4 : 256 ^ N.of_nat 4 = 2 ^ 32. Proof. reflexivity. Qed.
Lemma P2 : 256 ^ N.of_nat 2 = 2 ^ 16. Proof. reflexivity. Qed.
Lemma P8 : 256 ^ N.of_nat 8 = 2 ^ 64. Proof. reflexivity. Qed.
Lemma ectx : ctx_check <> ctx_process /\ ctx_check <> ctx_challenge /\ ctx_process <> ctx_challenge.
Proof. split_and!; intros E; vm_compute in E; discriminate E. Qed.

(** Two of the messages of ethereum-events with the same bytes are the same message: of the same kind, about the same event, with the same result, reason, author, data, blocks
    and counter. *)
Theorem C94_event_messages_distinct x y : wf_emsg x -> wf_emsg y -> emsg_bytes x = emsg_bytes y -> x = y.
Proof.
  destruct ectx as (N1 & N2 & N3).
  destruct x as [s1 t1 d1 r1 b1 a1 e1 m1 c1|s1 t1 c1|s1 t1 r1 b1 c1], y as [s2 t2 d2 r2 b2 a2 e2 m2 c2|s2 t2 c2|s2 t2 r2 b2 c2]; unfold wf_emsg, emsg_bytes; intros Wx Wy E;
    apply ctx_split in E as [Ec E]; first [exfalso; exact (N1 Ec)|exfalso; exact (N1 (eq_sym Ec))|exfalso; exact (N2 Ec)|exfalso; exact (N2 (eq_sym Ec))|exfalso; exact (N3 Ec)|exfalso; exact (N3 (eq_sym Ec))|clear Ec].
  - destruct Wx as (? & ? & ? & ? & ? & ? & ? & ? & ?), Wy as (? & ? & ? & ? & ? & ? & ? & ? & ?).
    apply be_split in E as [-> E]; [|assumption..]. apply be_split in E as [-> E]; [|assumption..]. apply edata_split in E as [-> E]; [|assumption..].
    apply (app_split [r1] [r2]) in E as [Er E]; [|reflexivity]. apply cons_split in Er as [-> _]. apply be_split in E as [-> E]; [|assumption..].
    apply le_split in E as [-> E]; [|rewrite P4; assumption..]. apply le_split in E as [-> E]; [|rewrite P4; assumption..]. apply le_split in E as [-> E]; [|rewrite P4; assumption..].
    apply le_bytes_inj in E as ->; [reflexivity|rewrite P8; assumption..].
  - destruct Wx as (? & ? & ?), Wy as (? & ? & ?). apply be_split in E as [-> E]; [|assumption..]. apply be_split in E as [-> E]; [|assumption..].
    apply le_bytes_inj in E as ->; [reflexivity|rewrite P8; assumption..].
  - destruct Wx as (? & ? & ? & ? & ?), Wy as (? & ? & ? & ? & ?). apply be_split in E as [-> E]; [|assumption..]. apply be_split in E as [-> E]; [|assumption..].
    apply (app_split [r1] [r2]) in E as [Er E]; [|reflexivity]. apply cons_split in Er as [-> _]. apply be_split in E as [-> E]; [|assumption..].
    apply le_bytes_inj in E as ->; [reflexivity|rewrite P8; assumption..].
Qed.

(** The tuples of LogModel.v (C54-C57) stand for their encodings rightly: distinct tuples have distinct bytes.  [S] gives each kind's Ethereum signature (C63_signatures_distinct), [D] each numbered datum. *)
Theorem C94_log_messages_distinct S D x y : (forall a b, S a = S b -> a = b) -> (forall a b, D a = D b -> a = b) ->
  wf_emsg (of_log S D x) -> wf_emsg (of_log S D y) -> emsg_bytes (of_log S D x) = emsg_bytes (of_log S D y) -> x = y.
Proof.
  intros HS HD Wx Wy E. apply C94_event_messages_distinct in E; [|assumption..]. clear Wx Wy.
  destruct x as [[[k1 t1] d1 r1 b1 a1 e1 m1] c1|[k1 t1] c1|[[k1 t1] r1 b1] c1], y as [[[k2 t2] d2 r2 b2 a2 e2 m2] c2|[k2 t2] c2|[[k2 t2] r2 b2] c2]; cbn in E; try discriminate E.
  - injection E as E1 -> E2 E3 -> -> -> -> ->. apply HS in E1 as ->. apply HD in E2 as ->. assert (r1 = r2) as -> by (destruct r1, r2; cbn in E3; congruence). reflexivity.
  - injection E as E1 -> ->. now apply HS in E1 as ->.
  - injection E as E1 -> E3 -> ->. apply HS in E1 as ->. assert (r1 = r2) as -> by (destruct r1, r2; cbn in E3; congruence). reflexivity.
Qed.

(** Partitions with the same bytes are the same: range, number, last or not, and every event with its data, in order. *)
Lemma found_split f g r s : wf_found f -> wf_found g -> found_bytes f ++ r = found_bytes g ++ s -> f = g /\ r = s.
Proof.
  destruct f as [s1 t1 d1 b1], g as [s2 t2 d2 b2]. unfold wf_found, found_bytes; cbn [f_sig f_tx f_data f_block]. intros (? & ? & ? & ?) (? & ? & ? & ?) E. rewrite <-!app_assoc in E.
  apply be_split in E as [-> E]; [|assumption..]. apply be_split in E as [-> E]; [|assumption..]. apply edata_split in E as [-> E]; [|assumption..].
  apply le_split in E as [-> E]; [|rewrite P8; assumption..]. now split.
Qed.
Lemma founds_split l1 : forall l2 r s, length l1 = length l2 -> Forall wf_found l1 -> Forall wf_found l2 -> concat (map found_bytes l1) ++ r = concat (map found_bytes l2) ++ s -> l1 = l2 /\ r = s.
Proof.
  induction l1 as [|f l1 IH]; intros [|g l2] r s HL F1 F2 E; try discriminate HL; [now split|]. cbn [map concat] in E. rewrite <-!app_assoc in E.
  apply Forall_cons in F1 as [? F1], F2 as [? F2]. apply found_split in E as [-> E]; [|assumption..]. apply IH in E as [-> ->]; [now split| |assumption..]. cbn in HL. lia.
Qed.
Theorem C94_partitions_distinct p q : wf_partition p -> wf_partition q -> partition_bytes p = partition_bytes q -> p = q.
Proof.
  destruct p as [s1 l1 n1 b1 e1], q as [s2 l2 n2 b2 e2]. unfold wf_partition, partition_bytes; cbn [p_start p_length p_number p_last p_events]. intros (? & ? & ? & L1 & ?) (? & ? & ? & L2 & ?) E.
  apply le_split in E as [-> E]; [|rewrite P4; assumption..]. apply le_split in E as [-> E]; [|rewrite P4; assumption..]. apply le_split in E as [-> E]; [|rewrite P2; assumption..].
  apply (app_split [bool_byte b1] [bool_byte b2]) in E as [Eb E]; [|reflexivity]. apply cons_split in Eb as [Eb _]. assert (b1 = b2) as -> by (destruct b1, b2; cbn in Eb; congruence).
  assert (HL : N.of_nat (length e1) = N.of_nat (length e2) /\ concat (map found_bytes e1) = concat (map found_bytes e2)).
  { pose proof (dec_compact_app (N.of_nat (length e1)) (concat (map found_bytes e1)) ltac:(lia)) as D1.
    pose proof (dec_compact_app (N.of_nat (length e2)) (concat (map found_bytes e2)) ltac:(lia)) as D2. rewrite E, D2 in D1. apply (inj Some) in D1. apply pair_equal_spec in D1 as [-> ->]. now split. }
  destruct HL as [HL E2]. assert (E' : concat (map found_bytes e1) ++ [] = concat (map found_bytes e2) ++ []) by now rewrite !app_nil_r.
  apply founds_split in E' as [-> _]; [reflexivity|lia|assumption..].
Qed.
(** So a signature on a partition for the bridge is for one bridge contract, author and partition (with C86_messages_distinct). *)
Theorem C94_signed_partition i j a b p q : i < 256 ^ 32 -> j < 256 ^ 32 -> a < 256 ^ 32 -> b < 256 ^ 32 -> wf_partition p -> wf_partition q ->
  subject_bytes (SEvents i a (partition_bytes p)) = subject_bytes (SEvents j b (partition_bytes q)) -> i = j /\ a = b /\ p = q.
Proof.
  intros Hi Hj Ha Hb Wp Wq E. apply C86_messages_distinct in E; [|reflexivity|reflexivity|split; assumption|split; assumption].
  assert (Ei : i = j) by congruence. assert (Ea : a = b) by congruence. assert (Ep : partition_bytes p = partition_bytes q) by congruence. apply C94_partitions_distinct in Ep; auto.
Qed.

(** ** Across pallets *)
Lemma emsg_form m : exists c r, emsg_bytes m = short_vec c ++ r /\ In c [ctx_check; ctx_process; ctx_challenge] /\ (length c + 1 + 72 <= length (emsg_bytes m))%nat.
Proof.
  destruct m as [s1 t1 d1 r1 b1 a1 e1 m1 c1|s1 t1 c1|s1 t1 r1 b1 c1]; unfold emsg_bytes; do 2 eexists; (split; [reflexivity|]); (split; [cbn [In]; tauto|]);
    unfold short_vec; rewrite !app_length; cbn [length]; rewrite ?app_length, ?be_bytes_length, ?le_bytes_length; cbn [length]; lia.
Qed.
Lemma message_form inst slot cl : exists c r, SummaryOcwModel.message inst slot cl = short_vec c ++ r /\
  In c [inst :: SummaryOcwModel.ctx_record; SummaryOcwModel.ctx_vote; SummaryOcwModel.ctx_end; inst :: SummaryOcwModel.ctx_advance; SummaryOcwModel.ctx_challenge].
Proof. destruct cl as [nb h ic|rid ag|rid| |r c1' c2]; unfold SummaryOcwModel.message; do 2 eexists; (split; [reflexivity|]); cbn [In]; tauto. Qed.
(** The messages of ethereum-events are not those of the summary pallets, whatever the instances, slots and contents. *)
Theorem C94_events_are_not_summaries m inst slot cl : emsg_bytes m <> SummaryOcwModel.message inst slot cl.
Proof.
  intros E. destruct (emsg_form m) as (c & r & E1 & Ic & _), (message_form inst slot cl) as (c' & r' & E2 & Ic'). rewrite E1, E2 in E. apply ctx_split in E as [-> _]. clear E1 E2.
  cbn [In] in Ic, Ic'. repeat destruct Ic as [Ic|Ic]; try contradiction; repeat destruct Ic' as [Ic'|Ic']; try contradiction; rewrite <-Ic in Ic'; vm_compute in Ic'; discriminate Ic'.
Qed.
(** Nor, for events of the known kinds (all that the chain ever has pending: lib.rs:446-459, 1527), those of the bridge. *)
Definition event_signature (m : emsg) : N := match m with ECheck sig _ _ _ _ _ _ _ _ | EProcess sig _ _ | EChallenge sig _ _ _ _ => sig end.
Theorem C94_events_are_not_bridge m k x : event_signature m = ParseModel.signature k -> for_the_chain x = true -> wf_subject x -> emsg_bytes m <> subject_bytes x.
Proof.
  intros Hk Cx Wx E. destruct (chain_bytes x Cx) as (i & _ & Ex & _). rewrite Ex in E. clear Ex Wx.
  apply (f_equal (skipn 32)) in E. rewrite (skipn_app 32 (be_bytes 32 i)), be_bytes_length, (skipn_all2 (be_bytes 32 i)) in E by now rewrite be_bytes_length. cbn [Nat.sub skipn app] in E.
  assert (E3 : forall t, firstn 3 (short_vec (ctx_of x) ++ t) = firstn 3 (short_vec (ctx_of x))) by (intros t; destruct x as [[]| | | |]; try discriminate Cx; reflexivity).
  apply (f_equal (firstn 3)) in E. rewrite drop_0, E3 in E. clear E3 i.
  assert (Ec : forall c l, In c [ctx_check; ctx_process; ctx_challenge] -> firstn 3 (skipn 32 (short_vec c ++ be_bytes 32 (ParseModel.signature k) ++ l)) <> firstn 3 (short_vec (ctx_of x))).
  { clear E. intros c l Ic E. assert (E' : existsb (fun c => existsb (fun k => existsb (fun d => bool_decide (firstn 3 (skipn 32 (short_vec c ++ be_bytes 32 (ParseModel.signature k))) = firstn 3 (short_vec d)))
      [ctx_confirm; ctx_corroborate; ctx_hash; ctx_events; ctx_block]) ParseModel.kinds) [ctx_check; ctx_process; ctx_challenge] = true).
    { apply existsb_exists. exists c. split; [exact Ic|]. apply existsb_exists. exists k. split; [destruct k; cbn [ParseModel.kinds In]; tauto|]. apply existsb_exists. exists (ctx_of x).
      split; [destruct x as [[]| | | |]; try discriminate Cx; cbn [ctx_of In]; tauto|]. apply bool_decide_eq_true. rewrite <-E. rewrite app_assoc. rewrite (skipn_app 32 (_ ++ _)). rewrite (firstn_app 3 (skipn 32 _)).
      replace (3 - length (skipn 32 (short_vec c ++ be_bytes 32 (ParseModel.signature k))))%nat with 0%nat.
      { cbn [firstn]. now rewrite app_nil_r. }
      rewrite skipn_length, app_length, be_bytes_length. cbn [In] in Ic. destruct Ic as [<-|[<-|[<-|[]]]]; reflexivity. }
    vm_compute in E'. discriminate E'. }
  destruct m as [s1 t1 d1 r1 b1 a1 e1 m1 c1|s1 t1 c1|s1 t1 r1 b1 c1]; cbn [event_signature] in Hk; rewrite Hk in E; unfold emsg_bytes in E; refine (Ec _ _ _ E); cbn [In]; tauto.
Qed.

(** The tokens for the node's service.  A token for a signature is 32 bytes, and no message is. *)
Lemma message_length inst slot cl : length (SummaryOcwModel.message inst slot cl) <> 32%nat.
Proof.
  unfold SummaryOcwModel.message, SummaryOcwModel.short_vec, SummaryOcwModel.session_id, SummaryOcwModel.challenge_bytes. destruct cl as [nb h ic|rid ag|rid| |[s|] c1 c2];
    rewrite ?app_length; cbn [length]; rewrite ?app_length, ?be_bytes_length, ?le_bytes_length; vm_compute; discriminate.
Qed.
Theorem C94_sign_token_is_no_message hash : (forall m, subject_bytes (SSignToken hash) <> emsg_bytes m) /\ (forall inst slot cl, subject_bytes (SSignToken hash) <> SummaryOcwModel.message inst slot cl).
Proof.
  unfold subject_bytes. split.
  - intros m E. destruct (emsg_form m) as (c & r & _ & _ & L). rewrite <-E, be_bytes_length in L. lia.
  - intros inst slot cl E. apply (message_length inst slot cl). rewrite <-E. apply be_bytes_length.
Qed.

(** ** All together *)
Definition wf_signed (x : signed) : Prop :=
  match x with
  | ForSummary inst slot cl => SummaryOcwSpec.wf_call cl /\ slot < 2 ^ 32
  | ForBridge x => wf_subject x
  | ForEvents m => wf_emsg m /\ exists k, event_signature m = ParseModel.signature k
  end.
(** The token for sending is the one thing signed that has no context of its own. *)
Definition send_token (x : signed) : Prop := exists account contract data, x = ForBridge (SSendToken account contract data).
(** The same meaning: for summaries, the same call, for the same instance where the bytes name it (records and slots), in the same slot where they name it; otherwise, the same. *)
Definition same_meaning (x y : signed) : Prop :=
  match x, y with
  | ForSummary i s cl, ForSummary i' s' cl' => cl = cl' /\ ((exists nb h ic, cl = SummaryOcwModel.CRecord nb h ic) \/ cl = SummaryOcwModel.CAdvance -> i = i') /\ (cl = SummaryOcwModel.CAdvance -> s = s')
  | _, _ => x = y
  end.
(** Whatever the pallets, two things signed with the same bytes mean the same. *)
Theorem C94_one_meaning x y : wf_signed x -> wf_signed y -> ~ send_token x -> ~ send_token y -> signed_bytes x = signed_bytes y -> same_meaning x y.
Proof.
  assert (T : forall x, wf_subject x -> ~ send_token (ForBridge x) -> for_the_chain x = true \/ exists h, x = SSignToken h).
  { intros [|? ? ?|? ? ?|h|a c d] _ N; auto; [right; now exists h|]. destruct N. now exists a, c, d. }
  destruct x as [i s cl|x|m], y as [i' s' cl'|y|m']; unfold wf_signed, signed_bytes; intros Wx Wy Nx Ny E.
  - destruct Wx, Wy. now apply SummaryOcwProps.C82_messages_distinct.
  - exfalso. destruct (T y Wy Ny) as [Cy|[h ->]]; [exact (C86_not_a_summary_message y i s cl Cy (eq_sym E))|]. exact (proj2 (C94_sign_token_is_no_message h) _ _ _ (eq_sym E)).
  - exfalso. exact (C94_events_are_not_summaries m' i s cl (eq_sym E)).
  - exfalso. destruct (T x Wx Nx) as [Cx|[h ->]]; [exact (C86_not_a_summary_message x i' s' cl' Cx E)|]. exact (proj2 (C94_sign_token_is_no_message h) _ _ _ E).
  - unfold same_meaning. f_equal. destruct (T x Wx Nx) as [Cx|[h ->]], (T y Wy Ny) as [Cy|[h' ->]].
    + now apply C86_messages_distinct.
    + exfalso. destruct (C86_token_is_no_message x (SSignToken h') Cx eq_refl Wx Wy (eq_sym E)) as (? & ? & ? & D & _). discriminate D.
    + exfalso. destruct (C86_token_is_no_message y (SSignToken h) Cy eq_refl Wy Wx E) as (? & ? & ? & D & _). discriminate D.
    + now apply C86_tokens_distinct.
  - exfalso. destruct Wy as [_ [k Hk]]. destruct (T x Wx Nx) as [Cx|[h ->]]; [exact (C94_events_are_not_bridge m' k x Hk Cx Wx (eq_sym E))|]. exact (proj1 (C94_sign_token_is_no_message h) _ E).
  - exfalso. exact (C94_events_are_not_summaries m i' s' cl' E).
  - exfalso. destruct Wx as [_ [k Hk]]. destruct (T y Wy Ny) as [Cy|[h ->]]; [exact (C94_events_are_not_bridge m k y Hk Cy Wy E)|]. exact (proj1 (C94_sign_token_is_no_message h) _ (eq_sym E)).
  - unfold same_meaning. f_equal. destruct Wx, Wy. now apply C94_event_messages_distinct.
Qed.
(** A token for sending has the bytes of something else only if the author's own account is that thing's first 32 bytes. *)
Theorem C94_send_token a c d y : wf_signed (ForBridge (SSendToken a c d)) -> wf_signed y -> signed_bytes (ForBridge (SSendToken a c d)) = signed_bytes y ->
  y = ForBridge (SSendToken a c d) \/ (~ send_token y /\ be_bytes 32 a = firstn 32 (signed_bytes y)).
Proof.
  intros Wx Wy E. assert (F : be_bytes 32 a = firstn 32 (signed_bytes y)).
  { rewrite <-E. unfold signed_bytes, subject_bytes. rewrite firstn_app, be_bytes_length. rewrite firstn_all2 by now rewrite be_bytes_length. now rewrite app_nil_r. }
  destruct y as [i' s' cl'|y|m'].
  - right. split; [|exact F]. intros (? & ? & ? & D). discriminate D.
  - destruct y as [p|? ? ?|? ? ?|h|a' c' d'].
    + right. split; [|exact F]. intros (? & ? & ? & D). discriminate D.
    + right. split; [|exact F]. intros (? & ? & ? & D). discriminate D.
    + right. split; [|exact F]. intros (? & ? & ? & D). discriminate D.
    + right. split; [|exact F]. intros (? & ? & ? & D). discriminate D.
    + left. f_equal. symmetry. now apply C86_tokens_distinct.
  - right. split; [|exact F]. intros (? & ? & ? & D). discriminate D.
Qed.
(** So, for an author whose account does not begin with the length and text of one of the contexts, nor is the bridge's instance, a token for sending means one thing too.  In particular its first
    byte tells it from all messages of ethereum-events and of summaries. *)
Theorem C94_send_token_first_byte a c d y : wf_signed (ForBridge (SSendToken a c d)) -> wf_signed y -> ~ In (hd 0 (be_bytes 32 a)) [52; 56; 60; 68; 88; 96; 140] ->
  (forall x, y = ForBridge x -> instance_of x <> Some a) -> signed_bytes (ForBridge (SSendToken a c d)) = signed_bytes y -> y = ForBridge (SSendToken a c d).
Proof.
  intros Wx Wy Hb Hi E. destruct (C94_send_token a c d y Wx Wy E) as [->|[Nt F]]; [reflexivity|]. exfalso.
  assert (H : forall c r, In c [ctx_check; ctx_process; ctx_challenge] -> signed_bytes y = short_vec c ++ r -> False).
  { intros ctx r Ic Ey. rewrite Ey in F. apply Hb. rewrite F. destruct Ic as [<-|[<-|[<-|[]]]]; cbn; tauto. }
  destruct y as [i' s' cl'|y|m'].
  - destruct (message_form i' s' cl') as (ctx & r & Ey & Ic). unfold signed_bytes at 1 in F. rewrite Ey in F. apply Hb. rewrite F. cbn [In] in Ic. destruct Ic as [<-|[<-|[<-|[<-|[<-|[]]]]]]; cbn; tauto.
  - destruct (for_the_chain y) eqn:Cy.
    + destruct (C86_token_is_no_message y (SSendToken a c d) Cy eq_refl Wy Wx E) as (a' & c' & d' & D & Hi'). assert (a = a') as <- by congruence. exact (Hi y eq_refl Hi').
    + pose proof (C86_tokens_distinct (SSendToken a c d) y eq_refl Cy Wx Wy E) as <-. apply Nt. now exists a, c, d.
  - destruct (emsg_form m') as (ctx & r & Ey & Ic & _). exact (H ctx r Ic Ey).
Qed.

(** Cases. *)
Definition ex_lift : den t_lifted := (repeat 7 20, (repeat 9 20, (repeat 5 32, (1000, 3)))).
Definition ex_signature : N := ParseModel.signature ParseModel.Lifted.
Definition ex_report : emsg := ECheck ex_signature 77 (DLifted ex_lift) 0 12 100 103 1 4.
Definition ex_part : partition := mkPartition 100 20 0 true [mkFound ex_signature 77 (DLifted ex_lift) 105; mkFound ex_signature 78 DEmpty 106].
Lemma lt_of_bool a b : (a <? b) = true -> a < b. Proof. apply N.ltb_lt. Qed.
Lemma ex_lift_valid : valid t_lifted ex_lift.
Proof.
  assert (F : forall x k, x < 256 -> Forall (fun b => b < 256) (repeat x k)) by (intros x k Hx; apply List.Forall_forall; intros y Hy; apply repeat_spec in Hy; now subst).
  unfold valid, t_lifted, ex_lift; cbn [fst snd]. repeat split; try reflexivity; try (apply F; reflexivity); apply lt_of_bool; vm_compute; reflexivity.
Qed.
Example C94_example_report : wf_signed (ForEvents ex_report) /\ ~ send_token (ForEvents ex_report) /\ wf_signed (ForBridge (SEvents 5 12 (partition_bytes ex_part))) /\ wf_partition ex_part /\
  wf_signed (ForBridge (SSignToken 99)) /\ wf_signed (ForBridge (SSendToken 12 20 [1; 2])).
Proof.
  split_and!; try (apply lt_of_bool; vm_compute; reflexivity); try (split; apply lt_of_bool; vm_compute; reflexivity).
  - split; [|now exists ParseModel.Lifted]. unfold wf_emsg, ex_report. split_and!; try (apply lt_of_bool; vm_compute; reflexivity). apply ex_lift_valid.
  - intros (? & ? & ? & D). discriminate D.
  - unfold wf_partition, ex_part; cbn [p_start p_length p_number p_events length]. split_and!; try (apply lt_of_bool; vm_compute; reflexivity); [lia|].
    repeat apply Forall_cons_2; try apply Forall_nil_2; unfold wf_found; cbn [f_sig f_tx f_data f_block]; split_and!; try (apply lt_of_bool; vm_compute; reflexivity); [apply ex_lift_valid|exact I].
  - unfold wf_signed, wf_subject. split_and!; apply lt_of_bool; vm_compute; reflexivity.
Qed.
Example C94_example_log : let S k := match k with 0 => ex_signature | _ => ParseModel.signature ParseModel.NftMint + k - 1 end in
  emsg_bytes (of_log S (fun n => DBatch n) (LogModel.MProcess (0, 77) 3)) <> emsg_bytes (of_log S (fun n => DBatch n) (LogModel.MProcess (0, 77) 4)).
Proof. intros S E. vm_compute in E. discriminate E. Qed.
