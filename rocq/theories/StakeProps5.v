(** C43: what a relayed call spreads over several candidates is spread exactly. *)
From Verif Require Import Base BaseLemmas CodecModel SigModel StakeModel StakeSpec StakeBook StakeCross StakeInv StakeOps StakeNom StakeLeave StakeExit StakeCand StakeRun StakeFrame StakeMoves StakeSteps StakeProps StakeProps2 StakeProps3 StakeProps4.

Lemma accepted_post c cr s o (Q : st -> Prop) : post (body c cr o) (fun _ s' => Q s') s -> accepted c cr s o -> Q (step c cr s o).
Proof. intros Hp. unfold accepted, step, exec, dispatch. unfold post in Hp. destruct (body c cr o s) as [s1 [[]|e]]; [|done]. done. Qed.
Lemma signed_post c cr s w p x (Q : st -> Prop) : (forall s1 n, Q s1 -> Q (s1 <| s_nonces := n |>)) ->
  post (call_body c w x) (fun _ s' => Q s') s -> accepted c cr s (Signed w p x) -> Q (step c cr s (Signed w p x)).
Proof.
  intros HQ Hp. apply accepted_post. cbn [body]. unfold signed_call. ps. eapply post_mono; [exact Hp|]. intros ? s1 H1. ps. by apply HQ.
Qed.

Ltac sp Ha := match type of Ha with accepted _ _ _ ?o => match goal with |- context[step ?c ?cr ?s o] =>
  pattern (step c cr s o); match goal with |- ?Q _ => apply (signed_post c cr s _ _ _ Q); [cbv beta; intros ? ?; exact (fun H => H) | | exact Ha]; cbv beta; clear Ha end end end.

(** ** Nominating several candidates *)

(** Each of the targets becomes a new nomination, the amounts add up to the amount signed for, no other nomination of
    the signer changes. *)
Theorem C43_nominate_exact c cr s w p l a : reachable c cr s -> l <> [] -> accepted c cr s (Signed w p (SNominate l a)) ->
  let s' := step c cr s (Signed w p (SNominate l a)) in
  exists amounts, length amounts = length l /\ nsum amounts = a /\
    Forall2 (fun k x => nomination s w k = None /\ nomination s' w k = Some x) l amounts /\
    (forall k, k ∉ l -> nomination s' w k = nomination s w k).
Proof.
  intros Hr Hl. pose proof (proj1 Hr) as Hc. apply reachable_inv in Hr. cbv zeta. intros Ha. sp Ha. cbn [call_body]. unfold split_and_nominate. ps.
  eapply post_mono; [by apply nominate_each_moves|]. intros ? s1 (M1 & M2 & _). eexists. split; [apply parts_length|]. split; [|split; [exact M1|exact M2]].
  by apply parts_exact.
Qed.

(** ** Bonding more on every nomination *)
Theorem C43_bond_extra_exact c cr s w p x m : reachable c cr s -> s_nominators s !! w = Some m -> accepted c cr s (Signed w p (SBondExtra x)) ->
  let s' := step c cr s (Signed w p (SBondExtra x)) in
  exists more : N -> N, nsum (map more (keys (m_noms m))) = x /\
    (forall k b, nomination s w k = Some b -> nomination s' w k = Some (b + more k)) /\
    (forall v k, v <> w \/ nomination s v k = None -> nomination s' v k = nomination s v k).
Proof.
  intros Hr Hm. pose proof (proj1 Hr) as Hc. apply reachable_inv in Hr. cbv zeta. intros Ha. sp Ha. cbn [call_body]. unfold bond_extra_all. ps.
  assert (Some a = Some m) as [= ->] by congruence.
  assert (Hne : keys (m_noms m) <> []).
  { pose proof (proj1 (cr_nom _ _ _ _ _ (i_cross _ _ Hr) w m Hm)) as Hn. intros E. pose proof (keys_length (m_noms m)) as El. rewrite E in El. cbn in El. symmetry in El. by apply map_size_empty_inv in El. }
  eapply post_mono; [apply bond_extra_each_moves; [done|apply keys_nodup|done]|]. intros ? s1 (M1 & M2).
  pose proof (parts_exact (one_over (N.of_nat (size (m_noms m))) x) x (s_block s) (keys (m_noms m)) Hne) as Hsum. cbv zeta in Hsum. rewrite keys_length in Hsum.
  revert M1 Hsum. generalize (parts (one_over (N.of_nat (size (m_noms m))) x) (saturating_sub x ((one_over (N.of_nat (size (m_noms m))) x * N.of_nat (size (m_noms m))) mod 2 ^ 128))
    (s_block s mod N.of_nat (size (m_noms m))) 0 x (keys (m_noms m))). intros xs M1 Hsum.
  assert (Hf : exists more, map more (keys (m_noms m)) = xs).
  { pose proof (keys_nodup (m_noms m)) as Hnd. clear -M1 Hnd. induction M1 as [|k a l xs _ M1 IH]; [by exists (fun _ => 0)|]. apply NoDup_cons in Hnd as [Hk Hnd].
    destruct (IH Hnd) as (f & <-). exists (fun j => if j =? k then a else f j). cbn. rewrite N.eqb_refl. f_equal. apply map_ext_in. intros j Hj. apply elem_of_list_In in Hj.
    destruct (N.eqb_spec j k) as [->|]; [done|done]. }
  destruct Hf as (more & <-). exists more. split; [done|]. split.
  - intros k b Hb. assert (Hk : k ∈ keys (m_noms m)). { apply keys_elem. unfold nomination in Hb. rewrite Hm in Hb. by exists b. }
    clear -M1 Hk Hb. revert M1 Hk. generalize (keys (m_noms m)). intros l. induction l as [|j l IH]; intros M1 Hk; [by apply elem_of_nil in Hk|]. cbn in M1. apply Forall2_cons in M1 as [(b' & E1 & E2) M1].
    apply elem_of_cons in Hk as [->|Hk]; [congruence|by apply IH].
  - intros v k Hv. apply M2. destruct Hv as [Hv|Hv]; [by left|]. destruct (N.eq_dec v w) as [->|]; [|by left]. right. intros Hk. apply keys_elem in Hk as [b Hk].
    unfold nomination in Hv. rewrite Hm in Hv. congruence.
Qed.

(** ** Unbonding over several nominations *)
Lemma withdraw_sum c target l : forall out, let r := withdraw_from c target l out in nsum (map snd r.1) + r.2 = out /\ map (fun y => y.1.1) r.1 `prefix_of` map fst l.
Proof.
  induction l as [|[k a] l IH]; intros out; cbn [withdraw_from].
  { split; [cbn; lia|done]. }
  set (x := N.min out (saturating_sub a target)). cbv zeta in IH. specialize (IH (out - x)). destruct (N.eqb_spec (out - x) 0) as [E|E].
  - cbn. split; [lia|]. apply prefix_cons, prefix_nil.
  - destruct (withdraw_from c target l (out - x)) as [q o]. cbn in *. destruct IH as [I1 I2]. split; [lia|]. by apply prefix_cons.
Qed.
Definition due (s : st) : N := N.min U32_MAX (s_era s + s_delay s).
(** [w] asked for [x] less on [k]; a candidate that has as many requests as it may have gets no more. *)
Definition asked (c : config) (w : N) (s s' : st) (k x : N) : Prop :=
  reqs_of s' k = if N.of_nat (length (reqs_of s k)) <? c_max_per_nominator c then reqs_of s k ++ [mkReq w (due s) (Decrease x)] else reqs_of s k.
Lemma schedule_decrease_asks c w k x s : post (schedule_decrease c w k x) (fun _ s' => asked c w s s' k x /\
  (forall k', k' <> k -> reqs_of s' k' = reqs_of s k') /\ due s' = due s /\ same_noms s s' /\ exists a, nomination s w k = Some a /\ x < a) s.
Proof.
  assert (P : post (schedule_decrease c w k x) (fun _ s' => asked c w s s' k x /\
  (forall k', k' <> k -> reqs_of s' k' = reqs_of s k') /\ due s' = due s /\ exists a, nomination s w k = Some a /\ x < a) s).
  { unfold schedule_decrease, asked, can_push, set_reqs, set_nominator.
    ps. assert (Hn : exists b, nomination s w k = Some b /\ x < b). { exists a0. unfold nomination. rewrite Hsome. split; [done|by apply N.ltb_lt]. }
    destruct (_ <? c_max_per_nominator c) eqn:E; ps; [|done].
    split; [unfold reqs_of, mget; cbn; by rewrite lookup_insert|]. split; [intros k' Hk'; unfold reqs_of, mget; cbn; by rewrite lookup_insert_ne|]. done. }
  eapply post_mono; [apply (post_and _ _ _ _ P (schedule_decrease_moves c s w k x))|]. intros ? s1. cbv beta. tauto.
Qed.
Lemma decrease_each_asks c w l : forall out s, NoDup (map (fun y => y.1.1) l) ->
  post (decrease_each c w l out) (fun _ s' => exists xs, length xs = length l /\ nsum xs = nsum (map snd l) + out /\
    Forall2 (fun k x => asked c w s s' k x /\ exists a, nomination s w k = Some a /\ x < a) (map (fun y => y.1.1) l) xs /\
    (forall k, k ∉ map (fun y => y.1.1) l -> reqs_of s' k = reqs_of s k)) s.
Proof.
  induction l as [|[[k sp] x] l IH]; intros out s Hnd; cbn [decrease_each].
  { ps. apply N.eqb_eq in Hens. exists []. cbn. split; [done|]. split; [lia|]. split; [constructor|done]. }
  cbn [map fst snd] in Hnd. apply NoDup_cons in Hnd as [Hk Hnd]. apply post_bind. eapply post_mono; [apply schedule_decrease_asks|].
  intros ? s1 (A1 & A2 & A3 & A4 & A5). cbv beta. eapply post_mono; [by apply IH|]. intros ? s2 (xs & X1 & X2 & X3 & X4).
  exists ((x + N.min sp out) :: xs). cbn [length map nsum fst snd]. split; [by rewrite X1|]. split; [rewrite X2; lia|]. split.
  - constructor.
    + split; [|exact A5]. unfold asked in *. rewrite (X4 k Hk). exact A1.
    + clear -X3 A2 A3 A4 Hk. revert X3 Hk. generalize (map (fun y : N * N * N => y.1.1) l). intros ks X3. induction X3 as [|j y ks ys [E1 E2] X3 IH]; intros Hk; [constructor|].
      apply not_elem_of_cons in Hk as [Hk1 Hk2]. constructor; [|by apply IH]. split; [|by rewrite <- A4].
      unfold asked in *. rewrite A3, A2 in E1 by done. exact E1.
  - intros j Hj. apply not_elem_of_cons in Hj as [Hj1 Hj2]. rewrite X4 by done. by apply A2.
Qed.
Lemma prefix_nodup {A} (l l' : list A) : l `prefix_of` l' -> NoDup l' -> NoDup l.
Proof. intros [k ->] H. apply NoDup_app in H. tauto. Qed.

(** The amount is spread over different nominations of the signer, each gets a request for its part, due after the
    delay, and no nomination changes before. *)
Theorem C43_unbond_exact c cr s w p x : reachable c cr s -> accepted c cr s (Signed w p (SNominatorUnbond x)) ->
  let s' := step c cr s (Signed w p (SNominatorUnbond x)) in
  exists ks xs, NoDup ks /\ length xs = length ks /\ nsum xs = x /\
    Forall2 (fun k y => asked c w s s' k y /\ exists a, nomination s w k = Some a /\ y < a) ks xs /\
    (forall k, k ∉ ks -> reqs_of s' k = reqs_of s k) /\ (forall v k, nomination s' v k = nomination s v k).
Proof.
  intros Hr. pose proof (proj1 Hr) as Hc. apply reachable_inv in Hr. cbv zeta. intros Ha. sp Ha. cbn [call_body]. unfold unbond_spread. ps.
  match goal with |- context[withdraw_from c ?t (nom_list a) x] => pose proof (withdraw_sum c t (nom_list a) x) as Hw; cbv zeta in Hw; destruct (withdraw_from c t (nom_list a) x) as [q o] end.
  cbn [fst snd] in Hw. destruct Hw as [W1 W2]. rewrite nom_list_fst in W2. pose proof (prefix_nodup _ _ W2 (keys_nodup _)) as Hnd.
  eapply post_mono; [apply (post_and _ _ _ _ (decrease_each_asks c w q o s Hnd) (decrease_each_moves c w q o s))|].
  intros ? s1 ((xs & X1 & X2 & X3 & X4) & X5). cbv beta in *. exists (map (fun y => y.1.1) q), xs. split; [done|]. split; [by rewrite map_length|]. split; [lia|].
  split; [exact X3|]. split; [exact X4|]. exact X5.
Qed.

(** ** Examples *)
Definition ex_p (w : N) : proof := mkProof w 77 (SigSr25519 0).
Definition ex_split : op := Signed 16 (ex_p 16) (SNominate [2; 1] 21).
Definition ex_s1 : st := step ex_c ex_cr ex_s ex_split.
Definition ex_more : op := Signed 16 (ex_p 16) (SBondExtra 5).
Definition ex_s2 : st := step ex_c ex_cr ex_s1 ex_more.
Definition ex_less : op := Signed 16 (ex_p 16) (SNominatorUnbond 7).
(** It meets the hypotheses of C42 and C43: three relayed calls of a new nominator, the second and third over nonces 1, 2;
    nominating candidate 1 it displaces nominator 12, whose request goes too. *)
Example C43_example :
  reachable ex_c ex_cr ex_s /\ accepted ex_c ex_cr ex_s ex_split /\ nomination ex_s1 16 2 = Some 11 /\ nomination ex_s1 16 1 = Some 10 /\ nonce_of ex_s1 16 = 1 /\
  accepted ex_c ex_cr ex_s1 ex_more /\ nomination ex_s2 16 2 = Some 13 /\ nomination ex_s2 16 1 = Some 13 /\
  accepted ex_c ex_cr ex_s2 ex_less /\ reqs_of (step ex_c ex_cr ex_s2 ex_less) 2 = [mkReq 11 3 (Decrease 3); mkReq 16 4 (Decrease 3)] /\
  reqs_of (step ex_c ex_cr ex_s2 ex_less) 1 = [mkReq 11 3 (Decrease 2); mkReq 16 4 (Decrease 4)] /\ nonce_of (step ex_c ex_cr ex_s2 ex_less) 16 = 3.
Proof. split; [apply ex_reachable|]. by vm_compute. Qed.
(** C40: a request is refused in the era it was made and executed, by anybody, two eras later. *)
Definition ex_later : st := run ex_c ex_cr ex_s [NewBlock; NewBlock; NewBlock].
Example C40_example : ~ accepted ex_c ex_cr ex_s (ExecuteRequest 99 12 1) /\ s_era ex_later = 3 /\ nomination ex_later 12 1 = Some 8 /\
  accepted ex_c ex_cr ex_later (ExecuteRequest 99 12 1) /\ nomination (step ex_c ex_cr ex_later (ExecuteRequest 99 12 1)) 12 1 = None.
Proof. by vm_compute. Qed.
