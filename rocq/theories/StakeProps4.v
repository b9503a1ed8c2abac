(** C42: relayed staking calls need a fresh signature of their owner.  C43: amounts are split exactly. *)
From Verif Require Import Base BaseLemmas CodecModel CodecProofs SigModel StakeModel StakeSpec StakeBook StakeCross StakeInv StakeOps StakeNom StakeLeave StakeExit StakeCand StakeRun StakeFrame StakeMoves StakeSteps StakeProps StakeProps2 StakeProps3.

(** The relayed call that was accepted. *)
Definition relayed (c : config) (cr : crypto) (s : st) (o : op) : option (N * proof * scall) :=
  match o with Signed w p x => match snd (exec c cr o s) with Ok _ => Some (w, p, x) | Err _ => None end | _ => None end.
Lemma relayed_inv c cr s o w p x : relayed c cr s o = Some (w, p, x) -> o = Signed w p x /\ accepted c cr s o.
Proof. destruct o; cbn [relayed]; try done. destruct (snd (exec c cr (Signed who p0 x0) s)) as [[]|] eqn:E; [|done]. intros [= -> -> ->]. done. Qed.

(** It is submitted by the signer named in the proof, who signed exactly this call over the current nonce; the nonce
    goes up by one and nobody else's changes. *)
Theorem C42_needs_signature c cr s w p x : accepted c cr s (Signed w p x) ->
  w = pf_signer p /\ verify_signature cr p (payload (pf_relayer p) x (nonce_of s w)) = true /\
  forall a, nonce_of (step c cr s (Signed w p x)) a = if a =? w then (nonce_of s w + 1) mod 2 ^ 64 else nonce_of s a.
Proof.
  unfold accepted, step, exec, dispatch. cbn [body].
  assert (Hp : post (signed_call c cr w p x) (fun _ s' => w = pf_signer p /\ verify_signature cr p (payload (pf_relayer p) x (nonce_of s w)) = true /\
    forall a, nonce_of s' a = if a =? w then (nonce_of s w + 1) mod 2 ^ 64 else nonce_of s a) s).
  { unfold signed_call. ps. apply N.eqb_eq in Hens0. eapply post_mono; [apply kb_call_body|]. intros ? s1 E. ps. split; [done|]. split; [done|].
    assert (En : s_nonces s1 = s_nonces s) by (unfold rest in E; congruence). intros b. unfold nonce_of, mget. cbn. rewrite En.
    destruct (N.eqb_spec b w) as [->|Hne]; [by rewrite lookup_insert | by rewrite lookup_insert_ne]. }
  unfold post in Hp. destruct (signed_call c cr w p x s) as [s1 [[]|e]]; [|done]. by intros _.
Qed.
Lemma env_nonces c cr s o : staking_call o = false -> s_nonces (step c cr s o) = s_nonces s.
Proof.
  intros Es. unfold step, exec, dispatch. assert (Hp : post (body c cr o) (fun _ s' => s_nonces s' = s_nonces s) s).
  { destruct o; try done; cbn [body]; unfold set_total_selected, set_blocks_per_era, set_admin_setting, on_initialize, select_top_candidates; ps; try done; [by destruct v|].
    destruct (_ <=? _); [|by ps]. ps. destruct (compute_top_candidates _); by ps. }
  unfold post in Hp. by destruct (body c cr o s) as [s1 [[]|e]].
Qed.

Theorem C42_nonces_only_by_relayed c cr s o : relayed c cr s o = None -> s_nonces (step c cr s o) = s_nonces s.
Proof.
  intros Hr. destruct (not_accepted c cr s o) as [Ha|E]; [|by rewrite E]. destruct (staking_call o) eqn:Es; [|by apply env_nonces].
  apply C41_calls_touch_nothing_else; [done|]. intros w p x ->. unfold accepted in Ha. unfold relayed in Hr. by rewrite Ha in Hr.
Qed.

(** ** What is signed says everything *)
Definition typed_call (x : scall) : Prop :=
  match x with
  | SNominate l a => Forall (fun k => k < 2 ^ 256) l /\ N.of_nat (length l) < 2 ^ 32 /\ a < 2 ^ 128
  | SBondExtra a | SCandidateBondExtra a | SNominatorUnbond a | SCandidateUnbond a => a < 2 ^ 128
  | SRevoke k | SExecuteLeaveNominators k | SExecuteRequests k | SExecuteCandidateUnbond k => k < 2 ^ 256
  | SLeaveNominators => True
  end.
Definition kind (x : scall) : N :=
  match x with SNominate _ _ => 0 | SBondExtra _ => 1 | SCandidateBondExtra _ => 2 | SNominatorUnbond _ => 3 | SCandidateUnbond _ => 4 | SRevoke _ => 5
  | SLeaveNominators => 6 | SExecuteLeaveNominators _ => 7 | SExecuteRequests _ => 8 | SExecuteCandidateUnbond _ => 9 end.
Definition kind_context (n : N) : string :=
  nth (N.to_nat n) ["parachain authorization for nominate operation"; "parachain authorization for nominator bond extra operation";
   "parachain authorization for candidate bond extra operation"; "parachain authorization for scheduling nominator unbond operation";
   "parachain authorization for scheduling candidate unbond operation"; "parachain authorization for nominator remove bond operation";
   "parachain authorization for scheduling leaving nominators operation"; "parachain authorization for executing leave nominators operation";
   "parachain authorization for executing nomination requests operation"; "parachain authorization for executing candidate unbond operation"]%string ""%string.
Lemma context_of_kind x : call_context x = context (kind_context (kind x)). Proof. by destruct x. Qed.
Lemma kind_lt x : kind x < 10. Proof. destruct x; cbn; lia. Qed.
Lemma kinds_differ n m : n < 10 -> m < 10 -> ascii_bytes (kind_context n) = ascii_bytes (kind_context m) -> n = m.
Proof.
  intros Hn Hm. assert (G : forallb (fun a => forallb (fun b => (a =? b) || negb (bool_decide (ascii_bytes (kind_context a) = ascii_bytes (kind_context b)))) [0;1;2;3;4;5;6;7;8;9]) [0;1;2;3;4;5;6;7;8;9] = true) by (vm_compute; done).
  rewrite forallb_forall in G. assert (Hin : forall a, a < 10 -> In a [0;1;2;3;4;5;6;7;8;9]).
  { intros a Ha. assert (a = 0 \/ a = 1 \/ a = 2 \/ a = 3 \/ a = 4 \/ a = 5 \/ a = 6 \/ a = 7 \/ a = 8 \/ a = 9) by lia. cbn. lia. }
  specialize (G n (Hin n Hn)). rewrite forallb_forall in G. specialize (G m (Hin m Hm)). intros E. apply orb_true_iff in G as [G|G]; [by apply N.eqb_eq|].
  apply negb_true_iff, bool_decide_eq_false in G. done.
Qed.
Lemma kind_short x : N.of_nat (length (ascii_bytes (kind_context (kind x)))) < 2 ^ 32. Proof. by destruct x. Qed.
Local Opaque be_bytes le_bytes compact.
Lemma targets_length l : length (concat (map enc_target l)) = (33 * length l)%nat.
Proof. induction l as [|k l IH]; [done|]. cbn [map concat]. rewrite app_length, IH. unfold enc_target. cbn [length]. rewrite be_bytes_length. lia. Qed.
Lemma targets_inj l l' : length l = length l' -> Forall (fun k => k < 2 ^ 256) l -> Forall (fun k => k < 2 ^ 256) l' -> concat (map enc_target l) = concat (map enc_target l') -> l = l'.
Proof.
  revert l'. induction l as [|k l IH]; intros [|k' l'] Hl H1 H2 E; try done. cbn in Hl. apply Forall_cons in H1 as [H1 H1'], H2 as [H2 H2']. cbn [map concat] in E.
  apply app_split in E as [E1 E2]; [|unfold enc_target; cbn [length]; by rewrite !be_bytes_length]. unfold enc_target in E1. apply (f_equal (@tl N)) in E1. cbn [tl] in E1. apply be_bytes_inj in E1; [|done..].
  subst. f_equal. apply IH; [lia|done..].
Qed.
(** The signed bytes determine the relayer, the call with all its arguments, and the nonce. *)
Theorem C42_signature_binds r r' x x' n n' : r < 2 ^ 256 -> r' < 2 ^ 256 -> typed_call x -> typed_call x' -> n < 2 ^ 64 -> n' < 2 ^ 64 ->
  payload r x n = payload r' x' n' -> r = r' /\ x = x' /\ n = n'.
Proof.
  intros Hr Hr' Hx Hx' Hn Hn' E. unfold payload in E. rewrite !context_of_kind in E. unfold context in E.
  apply scale_bytes_prefix in E as [E1 E]; [|apply kind_short..]. apply kinds_differ in E1; [|apply kind_lt..].
  apply app_split in E as [E2 E]; [|by rewrite !be_bytes_length]. apply be_bytes_inj in E2; [|done..].
  split; [done|]. enough (x = x' /\ le_bytes 8 n = le_bytes 8 n') as [-> En]. { split; [done|]. apply le_bytes_inj in En; done. }
  assert (HL : forall a b y z, a < 2 ^ 128 -> b < 2 ^ 128 -> le_bytes 16 a ++ y = le_bytes 16 b ++ z -> a = b /\ y = z).
  { intros a b y z Ha Hb H. apply app_split in H as [H1 H2]; [|by rewrite !le_bytes_length]. apply le_bytes_inj in H1; done. }
  assert (HB : forall a b y z, a < 2 ^ 256 -> b < 2 ^ 256 -> be_bytes 32 a ++ y = be_bytes 32 b ++ z -> a = b /\ y = z).
  { intros a b y z Ha Hb H. apply app_split in H as [H1 H2]; [|by rewrite !be_bytes_length]. apply be_bytes_inj in H1; done. }
  destruct x, x'; cbn in E1; try lia; cbn [call_args typed_call] in *;
    try (apply HL in E as [-> E]; done); try (apply HB in E as [-> E]; done); [|done].
  destruct Hx as (X1 & X2 & X3), Hx' as (Y1 & Y2 & Y3). rewrite <- !app_assoc in E. apply compact_prefix in E as [E3 E]; [|done..].
  apply app_split in E as [E4 E]; [|rewrite !targets_length; lia]. apply targets_inj in E4; [|lia|done..]. apply HL in E as [-> E]; [|done..]. by subst.
Qed.

(** ** No replay *)
Definition typed_op (o : op) : Prop := match o with Signed _ p x => pf_relayer p < 2 ^ 256 /\ typed_call x | _ => True end.
(** The signers and signed bytes of the relayed calls accepted along a history. *)
Fixpoint relayed_payloads (c : config) (cr : crypto) (s : st) (ops : list op) : list (N * list N) :=
  match ops with
  | [] => []
  | o :: r => match relayed c cr s o with Some (w, p, x) => [(w, payload (pf_relayer p) x (nonce_of s w))] | None => [] end
              ++ relayed_payloads c cr (step c cr s o) r
  end.
Definition low (s : st) (k : N) : Prop := forall a, nonce_of s a + k < 2 ^ 64.
Lemma step_nonce c cr s o a k : low s (k + 1) -> nonce_of (step c cr s o) a =
  match relayed c cr s o with Some (w, _, _) => if a =? w then nonce_of s w + 1 else nonce_of s a | None => nonce_of s a end.
Proof.
  intros HL. destruct (relayed c cr s o) as [[[w p] x]|] eqn:E.
  - apply relayed_inv in E as [-> Ha]. destruct (C42_needs_signature c cr s w p x Ha) as (_ & _ & ->). destruct (N.eqb_spec a w) as [->|]; [|done].
    specialize (HL w). rewrite N.mod_small; [done|lia].
  - unfold nonce_of. by rewrite C42_nonces_only_by_relayed.
Qed.
Lemma step_low c cr s o k : low s (k + 1) -> low (step c cr s o) k.
Proof.
  intros HL a. rewrite (step_nonce _ _ _ _ _ _ HL). pose proof (HL a) as H1. destruct (relayed c cr s o) as [[[w p] x]|]; [|lia]. destruct (N.eqb_spec a w) as [->|]; lia.
Qed.
Lemma low_le s k k' : low s k -> k' <= k -> low s k'.
Proof. intros H ? a. specialize (H a). lia. Qed.
Lemma relayed_typed c cr s o w p x : typed_op o -> relayed c cr s o = Some (w, p, x) -> pf_relayer p < 2 ^ 256 /\ typed_call x.
Proof. intros Ho E. by apply relayed_inv in E as [-> _]. Qed.
Lemma later_relayed c cr ops : forall s w pl, low s (N.of_nat (length ops)) -> Forall typed_op ops -> (w, pl) ∈ relayed_payloads c cr s ops ->
  exists r x n, r < 2 ^ 256 /\ typed_call x /\ nonce_of s w <= n < 2 ^ 64 /\ pl = payload r x n.
Proof.
  induction ops as [|o ops IH]; intros s w pl HL Ht Hin; cbn [relayed_payloads] in Hin; [by apply elem_of_nil in Hin|]. apply Forall_cons in Ht as [Ho Ht].
  assert (HL1 : low s (N.of_nat (length ops) + 1)) by (eapply low_le; [exact HL|cbn [length]; lia]).
  apply elem_of_app in Hin as [Hin|Hin].
  - destruct (relayed c cr s o) as [[[w' p] x]|] eqn:E; [|by apply elem_of_nil in Hin]. apply elem_of_list_singleton in Hin as [= -> ->].
    destruct (relayed_typed _ _ _ _ _ _ _ Ho E) as [T1 T2]. exists (pf_relayer p), x, (nonce_of s w'). split; [done|]. split; [done|]. split; [|done]. specialize (HL w'). lia.
  - apply IH in Hin as (r & x & n & T1 & T2 & T3 & T4); [|by apply step_low|done]. exists r, x, n. split; [done|]. split; [done|]. split; [|done].
    rewrite (step_nonce _ _ _ _ _ _ HL1) in T3. destruct (relayed c cr s o) as [[[w' p] y]|]; [|lia]. destruct (N.eqb_spec w w') as [->|]; lia.
Qed.
Lemma relayed_nodup c cr ops : forall s, low s (N.of_nat (length ops)) -> Forall typed_op ops -> NoDup (relayed_payloads c cr s ops).
Proof.
  induction ops as [|o ops IH]; intros s HL Ht; [constructor|]. cbn [relayed_payloads]. apply Forall_cons in Ht as [Ho Ht].
  assert (HL1 : low s (N.of_nat (length ops) + 1)) by (eapply low_le; [exact HL|cbn [length]; lia]).
  specialize (IH (step c cr s o) (step_low _ _ _ _ _ HL1) Ht). destruct (relayed c cr s o) as [[[w p] x]|] eqn:E; [|exact IH].
  cbn [app]. constructor; [|exact IH]. intros Hin. destruct (relayed_typed _ _ _ _ _ _ _ Ho E) as [T1 T2].
  apply later_relayed in Hin as (r' & x' & n & T3 & T4 & T5 & T6); [|by apply step_low|done].
  apply C42_signature_binds in T6 as (_ & _ & <-); [|done|done|done|done| |lia]; [|specialize (HL w); lia].
  rewrite (step_nonce _ _ _ _ _ _ HL1), E, N.eqb_refl in T5. lia.
Qed.
(** In a history of fewer than 2^64 operations nothing anybody signed takes effect twice. *)
Theorem C42_no_replay c cr delay min_col min_nom ops : Forall typed_op ops -> N.of_nat (length ops) < 2 ^ 64 ->
  NoDup (relayed_payloads c cr (genesis c delay min_col min_nom) ops).
Proof.
  intros Ht Hb. apply relayed_nodup; [|done]. intros a. replace (nonce_of (genesis c delay min_col min_nom) a) with 0; [lia|]. unfold nonce_of, mget. cbn. by rewrite lookup_empty.
Qed.
