(** Blocks and histories of payouts. *)
From Verif Require Import Base BaseLemmas RewardModel RewardProofs.

Lemma mget_eq {V} (d : V) (k : N) (m m' : gmap N V) : m !! k = m' !! k -> mget d k m = mget d k m'.
Proof. unfold mget. by intros ->. Qed.
Lemma snap_eq s s' e : s_snaps s' !! e = s_snaps s !! e -> forall k, snap_of s' e k = snap_of s e k.
Proof. intros H k. unfold snap_of. f_equal. by apply mget_eq. Qed.

(** ** One step *)
Definition opened (c : config) (start : option (gmap N snapshot * list N * N)) (s : st) : st :=
  match start with None => s | Some x => fst (start_era c x s) end.
Lemma start_ok c x s : exists s1, start_era c x s = (s1, Ok tt) /\ s_processed s1 = s_processed s /\ s_era s1 = sat32 (s_era s) 1 /\ s_points s1 = s_points s /\ s_awarded s1 = s_awarded s /\
  s_snaps s1 = <[s_era s1 := x.1.1]> (s_snaps s) /\ s_free s1 = s_free s /\ s_issuance s1 = s_issuance s /\
  ((s_delayed s1 = s_delayed s /\ s_locked s1 = s_locked s /\ s_events s1 = s_events s /\ (c_enabled c = false \/ s_era s1 <= c_delay c \/ points_of s (paid_era c s1) = 0)) \/
   (c_enabled c = true /\ c_delay c < s_era s1 /\ points_of s (paid_era c s1) <> 0 /\ exists reward, s_delayed s1 = <[paid_era c s1 := reward]> (s_delayed s) /\
    (s_locked s <= free_of s (c_pot c) -> s_events s1 = s_events s /\ (free_of s (c_pot c) <= U128_MAX -> reward = free_of s (c_pot c) - s_locked s /\ s_locked s1 = free_of s (c_pot c)) /\ s_locked s1 <= free_of s (c_pot c)))).
Proof.
  unfold start_era. unfold mbind_ at 1, modify at 1. unfold mbind_ at 1. destruct (c_enabled c) eqn:Ee.
  2:{ unfold mret_, modify. eexists. split; [reflexivity|]. split_and!; try done. left. split_and!; try done. by left. }
  destruct (prepare_ok c (s <| s_era := sat32 (s_era s) 1 |>)) as (s' & -> & P1 & P2 & P3 & P4 & P5 & P6 & P7 & P8). unfold modify. eexists. split; [reflexivity|].
  split; [exact P1|]. split; [exact P2|]. split; [exact P3|]. split; [exact P4|]. split; [cbn; by rewrite P5|]. split; [exact P6|]. split; [exact P7|].
  unfold paid_era in *. cbn [s_era] in *. destruct P8 as [(A1 & A2 & A3 & A4)|(A1 & A2 & r & A3 & A4)].
  - left. split; [exact A1|]. split; [exact A2|]. split; [exact A3|]. right. cbn. rewrite P2. exact A4.
  - right. split; [done|]. cbn. rewrite P2. split; [exact A1|]. split; [exact A2|]. exists r. split; [exact A3|exact A4].
Qed.
Lemma block_step c s start order : c_enabled c = true -> step c s (NewBlock start order) = fst (handle_delayed_payouts c order (opened c start s)).
Proof.
  intros He. unfold step. cbn [body]. unfold mbind_. unfold opened. destruct start as [x|].
  - destruct (start_ok c x s) as (s1 & -> & _). by rewrite He.
  - cbn. by rewrite He.
Qed.
Lemma opened_awarded c start s : s_awarded (opened c start s) = s_awarded s /\ s_points (opened c start s) = s_points s /\ s_free (opened c start s) = s_free s /\ s_issuance (opened c start s) = s_issuance s /\
  s_era (opened c start s) = (match start with Some _ => sat32 (s_era s) 1 | None => s_era s end) /\ (forall e, e <> s_era (opened c start s) -> s_snaps (opened c start s) !! e = s_snaps s !! e).
Proof.
  unfold opened. destruct start as [x|]; [|done]. destruct (start_ok c x s) as (s1 & E & A1 & A2 & A3 & A4 & A5 & A6 & A7 & _). rewrite E. cbn [fst]. split_and!; try done. intros e He. rewrite A5. by apply lookup_insert_ne.
Qed.
Lemma opened_events c start s : s_locked s <= free_of s (c_pot c) -> s_events (opened c start s) = s_events s.
Proof. intros L. unfold opened. destruct start as [x|]; [|done]. destruct (start_ok c x s) as (s1 & E & _ & _ & _ & _ & _ & _ & _ & [(_ & _ & H & _)|(_ & _ & _ & r & _ & H)]); rewrite E; cbn [fst]; [done|by apply H]. Qed.
Lemma opened_delayed c start s e : e + c_delay c <= s_era s -> s_era (opened c start s) < U32_MAX -> s_delayed (opened c start s) !! e = s_delayed s !! e.
Proof.
  intros He. unfold opened. destruct start as [x|]; [|done]. destruct (start_ok c x s) as (s2 & E & _ & A2 & _ & _ & _ & _ & _ & A). rewrite E. cbn [fst]. intros Hlt.
  destruct A as [(-> & _)|(_ & A3 & _ & r0 & -> & _)]; [done|]. apply lookup_insert_ne. unfold paid_era. rewrite A2 in *. unfold sat32, saturating_add in *. lia.
Qed.
Lemma disabled_step c s start order : c_enabled c = false -> step c s (NewBlock start order) = opened c start s.
Proof.
  intros He. unfold step. cbn [body]. unfold mbind_, opened. destruct start as [x|].
  - destruct (start_ok c x s) as (s1 & -> & _). by rewrite He.
  - cbn. by rewrite He.
Qed.

(** ** Histories *)
Lemma inv_run c s l : 1 <= c_delay c -> Inv c s -> Inv c (run c s l).
Proof. intros Hd. revert s. induction l as [|o l IH]; intros s I; [done|]. cbn. apply IH. by apply inv_step. Qed.
Lemma run_app c s l1 l2 : run c s (l1 ++ l2) = run c (run c s l1) l2.
Proof. apply fold_left_app. Qed.
Lemma run_cons c s o l : run c s (o :: l) = run c (step c s o) l.
Proof. done. Qed.

(** New events. *)
Definition news (s s' : st) : list event := take (length (s_events s') - length (s_events s)) (s_events s').
Lemma news_app s s' evs : s_events s' = evs ++ s_events s -> news s s' = evs.
Proof. intros E. unfold news. rewrite E, app_length. replace (length evs + length (s_events s) - length (s_events s))%nat with (length evs) by lia. apply take_app. Qed.

(** What a step does to the books of past eras. *)
Definition other_op (o : op) : Prop := match o with NewBlock _ _ => False | _ => True end.
Lemma other_step c s o : other_op o -> s_era (step c s o) = s_era s /\ s_delayed (step c s o) = s_delayed s /\ s_snaps (step c s o) = s_snaps s /\ s_locked (step c s o) = s_locked s /\
  (forall e, e <> s_era s -> awarded_in (step c s o) e = awarded_in s e /\ points_of (step c s o) e = points_of s e) /\ (exists evs, s_events (step c s o) = evs ++ s_events s /\ attempts evs = [] /\ rewards evs = []) /\
  (forall e k, is_Some (awarded_in s e !! k) -> is_Some (awarded_in (step c s o) e !! k)).
Proof.
  intros Ho. unfold step. destruct o as [|who|amount period|tx ok|free i ok tx]; [done| | | |]; cbn [body].
  - unfold note_author, modify. cbn [fst]. split_and!; try done.
    + intros e He. unfold awarded_in, points_of. cbn. rewrite !mget_insert. by rewrite !bool_decide_false by done.
    + by exists [].
    + intros e k Hk. unfold awarded_in in *. cbn. rewrite mget_insert. case_bool_decide; [|done]. subst e. destruct (decide (who = k)) as [->|]; [rewrite lookup_insert; by eexists|by rewrite lookup_insert_ne].
  - pose proof (payout_side c amount period s) as P. cbv zeta in P. destruct (payout_collators c amount period s) as [s1 r]. cbn [fst] in *. destruct P as (B & F & evs & E1 & E2). unfold book_side in B. injection B as B1 B2 B3 B4 B5 B6 B7 B8.
    unfold awarded_in, points_of. rewrite B1, B2, B3, B4, B6, B7. split_and!; try done. exists evs. split; [done|]. clear -E2. induction E2 as [|e l He _ [I1 I2]]; [done|]. by destruct e.
  - unfold process_result, modify. cbn [fst]. destruct (s_published s !! tx); split_and!; try done; by exists [].
  - unfold modify. cbn [fst]. destruct (_ && _); split_and!; try done; by exists [].
Qed.
Lemma pays_books c evs s s' : pays c evs s s' -> s_era s' = s_era s /\ s_delayed s' = s_delayed s /\ s_snaps s' = s_snaps s /\ s_awarded s' = s_awarded s /\ s_points s' = s_points s /\ s_events s' = evs ++ s_events s.
Proof. intros (A1 & A2 & _). assert (R : reward_side (rest s') = reward_side (rest s)) by by rewrite A1. unfold reward_side in R. cbn in R. injection R as R1 R2 R3 R4 R5 R6 R7 R8. done. Qed.
Lemma era_step c s o : s_era s <= U32_MAX -> s_era s <= s_era (step c s o) <= U32_MAX.
Proof.
  intros Hle. destruct o as [start order| | | |]; try (match goal with |- context [step c s ?o] => destruct (other_step c s o I) as (-> & _) end; lia).
  assert (G : s_era (step c s (NewBlock start order)) = s_era (opened c start s)).
  { destruct (c_enabled c) eqn:He; [|by rewrite disabled_step]. rewrite block_step by done. destruct (handle_ok c order (opened c start s)) as (s2 & -> & H). cbn [fst].
    destruct H as [[-> _]|(_ & r & _ & [(k & evs & _ & _ & P & _)|(_ & ->)])]; [done| |done]. by apply pays_books in P as (-> & _). }
  rewrite G. destruct (opened_awarded c start s) as (_ & _ & _ & _ & -> & _). destruct start; unfold sat32, saturating_add; lia.
Qed.
Lemma era_run c s l : s_era s <= U32_MAX -> s_era s <= s_era (run c s l) <= U32_MAX.
Proof. revert s. induction l as [|o l IH]; intros s H; [cbn; lia|]. rewrite run_cons. pose proof (era_step c s o H). specialize (IH (step c s o)). lia. Qed.

(** ** Settling a collator *)
Lemma block_cases c s start order : 1 <= c_delay c -> Inv c s -> c_enabled c = true ->
  let s1 := opened c start s in let s' := step c s (NewBlock start order) in
  (s' = s1 /\ (s_era s1 < c_delay c \/ s_delayed s1 !! paid_era c s1 = None)) \/
  (c_delay c <= s_era s1 /\ exists reward, s_delayed s1 !! paid_era c s1 = Some reward /\
   ((exists k evs, is_Some (awarded_in s (paid_era c s1) !! k) /\ points_of s (paid_era c s1) <> 0 /\ pays c evs (taken s1 (paid_era c s1) k) s' /\ attempts evs = rev (dues s (paid_era c s1) reward k) /\
      (psum (dues s (paid_era c s1) reward k) <= free_of s (c_pot c) -> (forall a, free_of s a + psum (dues s (paid_era c s1) reward k) <= U128_MAX) -> rewards evs = attempts evs)) \/
    ((awarded_in s (paid_era c s1) = ∅ \/ points_of s (paid_era c s1) = 0) /\ s' = s1 <| s_delayed := delete (paid_era c s1) (s_delayed s1) |> <| s_points := delete (paid_era c s1) (s_points s1) |>))).
Proof.
  intros Hd I He s1 s'. unfold s'. rewrite block_step by done. fold s1. destruct (handle_ok c order s1) as (s2 & E & H). rewrite E. cbn [fst]. destruct H as [H|(H1 & r & H2 & H3)]; [by left|]. right. split; [done|]. exists r. split; [done|].
  destruct (opened_awarded c start s) as (O1 & O2 & O3 & O4 & O5 & O6). fold s1 in O1, O2, O3, O4, O5, O6.
  assert (E1 : awarded_in s1 (paid_era c s1) = awarded_in s (paid_era c s1)) by (unfold awarded_in; by rewrite O1). assert (E2 : points_of s1 (paid_era c s1) = points_of s (paid_era c s1)) by (unfold points_of; by rewrite O2).
  assert (E4 : s_snaps s1 !! paid_era c s1 = s_snaps s !! paid_era c s1). { apply O6. unfold paid_era. lia. }
  assert (E3 : forall k, dues s1 (paid_era c s1) r k = dues s (paid_era c s1) r k). { intros k. unfold dues, due. by rewrite E1, E2, (snap_eq _ _ _ E4). }
  rewrite E1, E2 in H3. destruct H3 as [(k & evs & A1 & A2 & A3 & A4 & A5)|H3]; [left|by right]. exists k, evs. rewrite E3 in *. unfold free_of in *. rewrite O3 in A5. done.
Qed.
Lemma mget_delete {V} (d : V) (k k' : N) (m : gmap N V) : mget d k (delete k' m) = if bool_decide (k = k') then d else mget d k m.
Proof. unfold mget. case_bool_decide as E; [subst; by rewrite lookup_delete|by rewrite lookup_delete_ne]. Qed.
(** A collator's points of an era are used up only by the payout of that era. *)
Lemma settle_cases c s o e k : 1 <= c_delay c -> Inv c s -> is_Some (awarded_in s e !! k) -> awarded_in (step c s o) e !! k = None ->
  c_enabled c = true /\ (exists start order, o = NewBlock start order) /\ e + c_delay c = s_era (step c s o) /\ points_of s e <> 0 /\
  exists reward evs, s_delayed (step c s o) !! e = Some reward /\ (forall k', k' <> k -> awarded_in (step c s o) e !! k' = awarded_in s e !! k') /\ s_events (step c s o) = evs ++ s_events s /\ attempts evs = rev (dues s e reward k).
Proof.
  intros Hd I Hk Hk'. destruct o as [start order| | | |]; try (match type of Hk' with awarded_in (step c s ?o) _ !! _ = _ => destruct (other_step c s o Logic.I) as (_ & _ & _ & _ & _ & _ & H) end; specialize (H e k Hk); rewrite Hk' in H; by destruct H).
  destruct (opened_awarded c start s) as (O1 & O2 & O3 & O4 & O5 & O6).
  destruct (c_enabled c) eqn:He. 2:{ rewrite disabled_step in Hk' by done. unfold awarded_in in *. rewrite O1 in Hk'. rewrite Hk' in Hk. by destruct Hk. }
  split; [done|]. split; [by eexists _, _|]. destruct (block_cases c s start order Hd I He) as [[E _]|(H1 & r & H2 & [(k0 & evs & A1 & A2 & A3 & A4 & _)|(_ & E)])]; [rewrite E in Hk'; unfold awarded_in in *; rewrite O1 in Hk'; rewrite Hk' in Hk; by destruct Hk| |rewrite E in Hk'; unfold awarded_in in *; cbn in Hk'; rewrite O1 in Hk'; rewrite Hk' in Hk; by destruct Hk].
  apply pays_books in A3 as (B1 & B2 & B3 & B4 & B5 & B6). set (s' := step c s (NewBlock start order)) in *. set (s1 := opened c start s) in *.
  assert (Ea : forall e', awarded_in s' e' = if bool_decide (e' = paid_era c s1) then delete k0 (awarded_in s e') else awarded_in s e').
  { intros e'. unfold awarded_in. rewrite B4. unfold taken. cbn. rewrite mget_insert. case_bool_decide; subst; unfold awarded_in; by rewrite O1. }
  rewrite Ea in Hk'. case_bool_decide as Hee; [|rewrite Hk' in Hk; by destruct Hk]. subst e. destruct (decide (k0 = k)) as [->|Hne]; [|rewrite lookup_delete_ne in Hk' by done; rewrite Hk' in Hk; by destruct Hk].
  split; [rewrite B1; unfold taken, paid_era in *; cbn; lia|]. split; [done|]. exists r, evs. split; [rewrite B2; exact H2|]. split; [|split; [rewrite B6; unfold taken; cbn; f_equal; apply opened_events; by destruct I|done]].
  intros k' Hk2. rewrite Ea, bool_decide_true by done. by apply lookup_delete_ne.
Qed.
(** Past eras earn no more points. *)
Lemma past_step c s o e : 1 <= c_delay c -> Inv c s -> e < s_era s -> awarded_in (step c s o) e ⊆ awarded_in s e.
Proof.
  intros Hd I He. destruct o as [start order| | | |]; try (match goal with |- awarded_in (step c s ?o) _ ⊆ _ => destruct (other_step c s o Logic.I) as (_ & _ & _ & _ & H & _) end; destruct (H e ltac:(lia)) as [-> _]; done).
  destruct (opened_awarded c start s) as (O1 & _). destruct (c_enabled c) eqn:Hen. 2:{ rewrite disabled_step by done. unfold awarded_in. by rewrite O1. }
  destruct (block_cases c s start order Hd I Hen) as [[E _]|(H1 & r & H2 & [(k0 & evs & A1 & A2 & A3 & A4 & _)|(_ & E)])]; [rewrite E; unfold awarded_in; by rewrite O1| |rewrite E; unfold awarded_in; cbn; by rewrite O1].
  apply pays_books in A3 as (_ & _ & _ & B4 & _). unfold awarded_in. rewrite B4. unfold taken. cbn. rewrite mget_insert. case_bool_decide; [subst; unfold awarded_in; rewrite O1; apply delete_subseteq|by rewrite O1].
Qed.
Lemma past_run c s l e : 1 <= c_delay c -> Inv c s -> e < s_era s -> awarded_in (run c s l) e ⊆ awarded_in s e.
Proof.
  intros Hd. revert s. induction l as [|o l IH]; intros s I He; [done|]. rewrite run_cons. etransitivity; [apply IH|by apply past_step]; [by apply inv_step|]. pose proof (era_step c s o) as H. destruct I. lia.
Qed.

(** ** All that is paid for an era *)
Definition outstanding (s : st) (e reward : N) : N := nsum (map (fun k => psum (dues s e reward k)) (keys (awarded_in s e))).
Fixpoint spent (c : config) (e : N) (s : st) (l : list op) : N :=
  match l with
  | [] => 0
  | o :: r => (if e + c_delay c =? s_era (step c s o) then psum (attempts (news s (step c s o))) else 0) + spent c e (step c s o) r
  end.
Lemma keys_delete (m : gmap N N) k : is_Some (m !! k) -> keys m ≡ₚ k :: keys (delete k m).
Proof.
  intros [v Hk]. unfold keys. rewrite !merge_sort_Permutation. rewrite <- (fmap_Permutation fst _ _ (map_to_list_delete m k v Hk)). done.
Qed.
Lemma psum_rev l : psum (rev l) = psum l.
Proof. unfold psum. apply nsum_perm. apply fmap_Permutation. symmetry. apply Permutation_rev. Qed.
Lemma outstanding_eq s s' e r : awarded_in s' e = awarded_in s e -> points_of s' e = points_of s e -> s_snaps s' !! e = s_snaps s !! e -> outstanding s' e r = outstanding s e r.
Proof. intros E1 E2 E3. unfold outstanding. rewrite E1. f_equal. apply map_ext. intros k. unfold dues, due. by rewrite E1, E2, (snap_eq _ _ _ E3). Qed.
Lemma outstanding_taken s s' e r k : is_Some (awarded_in s e !! k) -> awarded_in s' e = delete k (awarded_in s e) -> points_of s' e = points_of s e -> (forall k', k' <> k -> snap_of s' e k' = snap_of s e k') ->
  outstanding s e r = psum (dues s e r k) + outstanding s' e r.
Proof.
  intros Hk E1 E2 E3. unfold outstanding. rewrite (nsum_perm _ _ (fmap_Permutation _ _ _ (keys_delete _ k Hk))). cbn [fmap list_fmap nsum foldr]. rewrite E1. f_equal. f_equal. apply map_ext_in. intros k' Hin.
  assert (Hne : k' <> k). { intros ->. apply elem_of_list_In, keys_elem in Hin. rewrite lookup_delete in Hin. by destruct Hin. }
  unfold dues, due. rewrite E1, E2, E3 by done. unfold mget. by rewrite lookup_delete_ne.
Qed.
Lemma nsum_rev_cons_zero : psum (attempts []) = 0. Proof. done. Qed.
Lemma news_same s s' : s_events s' = s_events s -> news s s' = [].
Proof. intros E. by apply news_app. Qed.
Lemma spent_outstanding c e r l : forall s, 1 <= c_delay c -> Inv c s -> e + c_delay c <= s_era s -> s_era (run c s l) < U32_MAX -> (forall r', s_delayed s !! e = Some r' -> r' = r) -> spent c e s l <= outstanding s e r.
Proof.
  induction l as [|o l IH]; intros s Hd I He Hmax Hr; [cbn; lia|]. rewrite run_cons in Hmax. cbn [spent]. set (s' := step c s o) in *. assert (I' : Inv c s') by by apply inv_step.
  pose proof (era_step c s o ltac:(destruct I; lia)) as Hera. fold s' in Hera. pose proof (era_run c s' l ltac:(lia)) as Hrun.
  assert (G : other_op o -> (if e + c_delay c =? s_era s' then psum (attempts (news s s')) else 0) + spent c e s' l <= outstanding s e r).
  { intros Hop. destruct (other_step c s o Hop) as (B1 & B2 & B3 & _ & B5 & (evs & B6 & B7 & _) & _). fold s' in B1, B2, B3, B5, B6. rewrite (news_app _ _ _ B6), B7. destruct (B5 e ltac:(lia)) as [B8 B9].
    specialize (IH s' Hd I' ltac:(lia) Hmax). rewrite B2 in IH. specialize (IH Hr). rewrite (outstanding_eq s s') in IH by (try done; by rewrite B3). destruct (_ =? _); unfold psum; cbn; lia. }
  destruct o as [start order| | | |]; [|by apply G..]. clear G.
  destruct (opened_awarded c start s) as (O1 & O2 & O3 & O4 & O5 & O6). assert (Hev : s_events (opened c start s) = s_events s) by (apply opened_events; by destruct I). set (s1 := opened c start s) in *.
  assert (Ho : awarded_in s1 e = awarded_in s e) by (unfold awarded_in; by rewrite O1). assert (Ho2 : points_of s1 e = points_of s e) by (unfold points_of; by rewrite O2).
  assert (Hge : s_era s <= s_era s1). { rewrite O5. destruct start; [|lia]. unfold sat32, saturating_add. destruct I. lia. }
  assert (Ho3 : s_snaps s1 !! e = s_snaps s !! e) by (apply O6; lia). assert (Hout : outstanding s1 e r = outstanding s e r) by by apply outstanding_eq.
  destruct (c_enabled c) eqn:Hen.
  2:{ assert (E : s' = s1) by (unfold s'; by rewrite disabled_step). rewrite E in *. rewrite (news_same _ _ Hev). specialize (IH s1 Hd I' ltac:(lia) Hmax). rewrite Hout in IH.
      assert (IH' : spent c e s1 l <= outstanding s e r). { apply IH. intros r' Hr'. apply Hr. rewrite <- Hr'. unfold s1, opened. destruct start as [x|]; [|done]. destruct (start_ok c x s) as (s2 & -> & _ & _ & _ & _ & _ & _ & _ & [(A & _)|(Hc & _)]); cbn [fst]; [by rewrite A|congruence]. }
      destruct (_ =? _); cbn; lia. }
  assert (Hdel : s_era s1 < U32_MAX -> s_delayed s1 !! e = s_delayed s !! e).
  { intros Hlt. by apply opened_delayed. }
  pose proof (block_cases c s start order Hd I Hen) as BC. cbv zeta in BC. fold s' s1 in BC. destruct BC as [[E _]|(H1 & r0 & H2 & [(k & evs & A1 & A2 & A3 & A4 & _)|(Hz & E)])].
  - rewrite E in *. rewrite (news_same _ _ Hev). specialize (IH s1 Hd I' ltac:(lia) Hmax). rewrite Hout in IH. rewrite Hdel in IH by lia. specialize (IH Hr). destruct (_ =? _); cbn; lia.
  - apply pays_books in A3 as (B1 & B2 & B3 & B4 & B5 & B6). unfold taken in B1, B2, B3, B4, B5, B6. cbn in B1, B2, B3, B4, B5, B6. rewrite Hev in B6. rewrite (news_app _ _ _ B6), A4, psum_rev.
    specialize (IH s' Hd I' ltac:(lia) Hmax). rewrite B2, Hdel in IH by lia. specialize (IH Hr). destruct (N.eqb_spec (e + c_delay c) (s_era s')) as [Ee|Ee].
    + assert (Ep : paid_era c s1 = e) by (unfold paid_era; lia). rewrite Ep in *. rewrite Hdel in H2 by lia. apply Hr in H2 as ->. rewrite (outstanding_taken s s' e r k); [lia|done| | |].
      * unfold awarded_in in *. rewrite B4, mget_insert, bool_decide_true by done. by rewrite O1.
      * unfold points_of. by rewrite B5, O2.
      * intros k' Hne. unfold snap_of. rewrite B3, mget_insert, bool_decide_true by done. rewrite (mget_eq _ _ _ (mget ∅ e (s_snaps s1))) by by apply lookup_delete_ne. f_equal. by apply mget_eq.
    + assert (Ep : paid_era c s1 <> e) by (unfold paid_era; lia). rewrite (outstanding_eq s s') in IH; [lia| | |].
      * unfold awarded_in. rewrite B4, mget_insert, bool_decide_false by done. by rewrite O1.
      * unfold points_of. by rewrite B5, O2.
      * rewrite B3, lookup_insert_ne by done. done.
  - assert (Hev' : s_events s' = s_events s) by (rewrite E; exact Hev). rewrite (news_same _ _ Hev'). specialize (IH s' Hd I' ltac:(lia) Hmax).
    assert (Hd' : forall r', s_delayed s' !! e = Some r' -> r' = r). { rewrite E. cbn. intros r' [_ Hr']%lookup_delete_Some. apply Hr. rewrite <- Hdel; [done|]. assert (Hx : s_era s' = s_era s1) by (rewrite E; done). clear -Hx Hrun Hmax. lia. }
    specialize (IH Hd'). assert (Hs' : outstanding s' e r = outstanding s e r).
    { destruct (decide (e = paid_era c s1)) as [Ee|Ee].
      - subst e. destruct Hz as [Hz|Hz].
        + unfold outstanding. assert (Ez : awarded_in s' (paid_era c s1) = ∅) by (rewrite E; unfold awarded_in in *; cbn; by rewrite O1). by rewrite Ez, Hz.
        + apply outstanding_eq; [rewrite E; exact Ho| |rewrite E; exact Ho3]. rewrite Hz. rewrite E. unfold points_of. cbn. by rewrite mget_delete, bool_decide_true.
      - apply outstanding_eq; [rewrite E; exact Ho| |rewrite E; exact Ho3]. rewrite E. unfold points_of. cbn. rewrite mget_delete, bool_decide_false by done. exact Ho2. }
    rewrite Hs' in IH. destruct (_ =? _); cbn; lia.
Qed.
Lemma open_then c s x order : c_enabled c = true -> step c s (NewBlock (Some x) order) = step c (opened c (Some x) s) (NewBlock None order).
Proof. intros He. rewrite !block_step by done. done. Qed.
Lemma inv_opened c s start : 1 <= c_delay c -> Inv c s -> Inv c (opened c start s).
Proof. intros Hd I. destruct start as [x|]; [|done]. destruct (inv_start c s x Hd I) as (s' & E & I'). cbn [opened]. by rewrite E. Qed.
Lemma spent_era c s x order e l : 1 <= c_delay c -> c_enabled c = true -> Inv c s -> e + c_delay c = s_era s + 1 -> 1 <= e -> points_of s e <> 0 -> free_of s (c_pot c) <= U128_MAX ->
  s_era (run c s (NewBlock (Some x) order :: l)) < U32_MAX ->
  spent c e s (NewBlock (Some x) order :: l) <= outstanding s e (free_of s (c_pot c) - s_locked s).
Proof.
  intros Hd Hen I He He1 Hp Hpot Hmax. pose proof (opened_events c (Some x) s ltac:(by destruct I)) as Hev. pose proof (inv_opened c s (Some x) Hd I) as I1.
  assert (E : spent c e s (NewBlock (Some x) order :: l) = spent c e (opened c (Some x) s) (NewBlock None order :: l)). { cbn [spent]. rewrite <- open_then by done. unfold news. by rewrite Hev. }
  rewrite E. assert (Hera : s_era s + 1 <= U32_MAX). { rewrite run_cons in Hmax. pose proof (era_step c s (NewBlock (Some x) order)) as H1. pose proof (era_run c (step c s (NewBlock (Some x) order)) l) as H2. destruct I. lia. }
  pose proof (opened_awarded c (Some x) s) as (O1 & O2 & O3 & O4 & O5 & O6). unfold sat32, saturating_add in O5.
  assert (Ho : outstanding (opened c (Some x) s) e (free_of s (c_pot c) - s_locked s) = outstanding s e (free_of s (c_pot c) - s_locked s)).
  { apply outstanding_eq; [unfold awarded_in; by rewrite O1|unfold points_of; by rewrite O2|]. apply O6. lia. }
  rewrite <- Ho. apply spent_outstanding; [done|done|lia| |].
  - rewrite run_cons, <- open_then by done. exact Hmax.
  - intros r' Hr'. unfold opened in Hr'. destruct (start_ok c x s) as (s2 & E2 & _ & A2 & _ & _ & _ & _ & _ & A). rewrite E2 in Hr'. cbn [fst] in Hr'. unfold sat32, saturating_add in A2.
    assert (Epe : paid_era c s2 = e) by (unfold paid_era; lia). rewrite Epe in A. destruct A as [(_ & _ & _ & [A|[A|A]])|(_ & _ & _ & r & A & B)]; [congruence|lia|done|].
    rewrite A, lookup_insert in Hr'. injection Hr' as <-. destruct (B ltac:(by destruct I)) as (_ & B2 & _). by apply B2.
Qed.

(** Snapshots record at least what they add up to. *)
Definition good_snap (v : snapshot) : Prop := sn_bond v + nsum (map snd (sn_noms v)) <= sn_total v /\ (sn_total v = 0 -> sn_noms v = []).
Definition good_snaps (m : gmap N snapshot) : Prop := forall k v, m !! k = Some v -> good_snap v.
Definition good_op (o : op) : Prop := match o with NewBlock (Some x) _ => good_snaps x.1.1 | _ => True end.
Lemma good_step c s o : 1 <= c_delay c -> Inv c s -> good_op o -> (forall e, good_snaps (mget ∅ e (s_snaps s))) -> forall e, good_snaps (mget ∅ e (s_snaps (step c s o))).
Proof.
  intros Hd I Ho Hg e. destruct o as [start order| | | |]; try (match goal with |- context [step c s ?o] => destruct (other_step c s o Logic.I) as (_ & _ & -> & _) end; apply Hg).
  assert (G : forall e, good_snaps (mget ∅ e (s_snaps (opened c start s)))).
  { intros e'. unfold opened. destruct start as [x|]; [|apply Hg]. destruct (start_ok c x s) as (s2 & E2 & _ & _ & _ & _ & A5 & _). rewrite E2. cbn [fst]. rewrite A5, mget_insert. case_bool_decide; [exact Ho|apply Hg]. }
  destruct (c_enabled c) eqn:He; [|by rewrite disabled_step]. destruct (block_cases c s start order Hd I He) as [[-> _]|(_ & r & _ & [(k & evs & _ & _ & P & _)|(_ & ->)])]; [apply G| |apply G].
  apply pays_books in P as (_ & _ & -> & _). unfold taken. cbn. rewrite mget_insert. case_bool_decide; [|apply G]. intros k' v [_ Hv]%lookup_delete_Some. by eapply G.
Qed.
Lemma good_run c s l : 1 <= c_delay c -> Inv c s -> Forall good_op l -> (forall e, good_snaps (mget ∅ e (s_snaps s))) -> forall e, good_snaps (mget ∅ e (s_snaps (run c s l))).
Proof. intros Hd. revert s. induction l as [|o l IH]; intros s I Hl Hg; [done|]. apply Forall_cons in Hl as [Ho Hl]. rewrite run_cons. apply IH; [by apply inv_step|done|by apply good_step]. Qed.
Lemma snap_good s e k : (forall e, good_snaps (mget ∅ e (s_snaps s))) -> good_snap (snap_of s e k).
Proof. intros Hg. unfold snap_of. unfold mget at 1. destruct (mget ∅ e (s_snaps s) !! k) eqn:E; [by eapply Hg|]. by split. Qed.
Lemma nsum_filter l : psum (filter (fun x => x.2 <> 0) l) = psum l.
Proof. unfold psum. induction l as [|x l IH]; [done|]. rewrite filter_cons. destruct (decide (x.2 <> 0)) as [H|H]; cbn [map nsum foldr] in *; unfold nsum in *; [by rewrite IH|]. rewrite IH. assert (x.2 = 0) by (destruct (N.eq_dec x.2 0); [done|]; by destruct H). lia. Qed.
Lemma dues_sum s e r k : good_snap (snap_of s e k) -> 2 * psum (dues s e r k) <= 2 * due s e r k + 1 + N.of_nat (length (sn_noms (snap_of s e k))).
Proof.
  intros [G1 G2]. unfold dues. cbv zeta. set (v := snap_of s e k) in *. set (d := due s e r k). unfold nominator_dues.
  match goal with |- context [psum (?x :: ?y)] => change (psum (x :: y)) with (x.2 + psum y) end. rewrite nsum_filter. cbn [snd].
  destruct (N.eq_dec (sn_total v) 0) as [Ez|Ez].
  - rewrite (G2 Ez). cbn. unfold psum. cbn. pose proof (mul_le (perbill_ratio (sn_bond v) (sn_total v)) d (ratio_le _ _)). lia.
  - pose proof (shares_sum d (map (fun p => perbill_ratio p (sn_total v)) (sn_bond v :: map snd (sn_noms v)))) as S. cbn [map nsum foldr length] in S.
    pose proof (ratios_sum (sn_total v) (sn_bond v :: map snd (sn_noms v)) Ez) as R. cbn [map nsum foldr] in R. unfold psum. rewrite !map_map in *. rewrite map_length in S. unfold nsum in *. specialize (R G1). specialize (S R). cbn [snd]. lia.
Qed.
Definition recipients (s : st) (e : N) : N := nsum (map (fun k => 2 + N.of_nat (length (sn_noms (snap_of s e k)))) (keys (awarded_in s e))).
Lemma keys_sum (m : gmap N N) : nsum (map (fun k => mget 0 k m) (keys m)) = msum m.
Proof.
  unfold keys, msum. assert (P : merge_sort N.le (map fst (map_to_list m)) ≡ₚ map fst (map_to_list m)) by apply merge_sort_Permutation.
  etransitivity; [exact (nsum_perm _ _ (fmap_Permutation (fun k => mget 0 k m) _ _ P))|]. change (nsum (map (fun k => mget 0 k m) (map fst (map_to_list m))) = nsum (map snd (map_to_list m))). rewrite map_map. f_equal. apply map_ext_in. intros [k v] H. apply elem_of_list_In, elem_of_map_to_list in H. cbn. unfold mget. by rewrite H.
Qed.
Lemma outstanding_bound s e r : (forall e, good_snaps (mget ∅ e (s_snaps s))) -> msum (awarded_in s e) <= points_of s e -> points_of s e <> 0 -> 2 * outstanding s e r <= 2 * r + recipients s e.
Proof.
  intros Hg Hm Hp. unfold outstanding, recipients. assert (A : 2 * nsum (map (fun k => psum (dues s e r k)) (keys (awarded_in s e))) <= 2 * nsum (map (due s e r) (keys (awarded_in s e))) + nsum (map (fun k => 1 + N.of_nat (length (sn_noms (snap_of s e k)))) (keys (awarded_in s e)))).
  { induction (keys (awarded_in s e)) as [|k l IH]; [done|]. cbn [map nsum foldr]. pose proof (dues_sum s e r k (snap_good s e k Hg)). unfold nsum in *. lia. }
  assert (B : 2 * nsum (map (due s e r) (keys (awarded_in s e))) <= 2 * r + N.of_nat (length (keys (awarded_in s e)))).
  { pose proof (shares_sum r (map (fun p => perbill_ratio p (points_of s e)) (map (fun k => mget 0 k (awarded_in s e)) (keys (awarded_in s e))))) as S.
    pose proof (ratios_sum (points_of s e) (map (fun k => mget 0 k (awarded_in s e)) (keys (awarded_in s e))) Hp) as R. rewrite keys_sum in R. specialize (S (R Hm)). rewrite !map_map, !map_length in S. exact S. }
  assert (C : nsum (map (fun k => 2 + N.of_nat (length (sn_noms (snap_of s e k)))) (keys (awarded_in s e))) = N.of_nat (length (keys (awarded_in s e))) + nsum (map (fun k => 1 + N.of_nat (length (sn_noms (snap_of s e k)))) (keys (awarded_in s e)))).
  { clear. induction (keys (awarded_in s e)) as [|k l IH]; [done|]. cbn [map nsum foldr length]. unfold nsum in *. lia. }
  lia.
Qed.

(** ** Every collator gets its turn *)
Definition quiet (o : op) : Prop := match o with NewBlock (Some _) _ => False | _ => True end.
Fixpoint blocks (l : list op) : nat := match l with [] => 0 | NewBlock _ _ :: r => S (blocks r) | _ :: r => blocks r end.
Lemma pick_nonempty order m : m <> ∅ -> exists k, pick order m = Some k.
Proof. intros H. destruct (pick order m) eqn:E; [by eexists|]. by apply pick_none in E. Qed.
Lemma quiet_progress c l : forall s e r, 1 <= c_delay c -> c_enabled c = true -> Inv c s -> Forall quiet l -> e + c_delay c = s_era s -> s_delayed s !! e = Some r -> points_of s e <> 0 ->
  (size (awarded_in s e) <= blocks l)%nat -> awarded_in (run c s l) e = ∅.
Proof.
  induction l as [|o l IH]; intros s e r Hd Hen I Hq He Hr Hp Hs.
  - cbn in *. apply map_size_empty_inv. lia.
  - apply Forall_cons in Hq as [Ho Hq]. rewrite run_cons. assert (I' : Inv c (step c s o)) by by apply inv_step.
    assert (G : other_op o -> awarded_in (run c (step c s o) l) e = ∅).
    { intros Hop. destruct (other_step c s o Hop) as (B1 & B2 & B3 & _ & B5 & _). destruct (B5 e ltac:(lia)) as [B8 B9]. apply (IH _ e r); try done; [by rewrite B1|by rewrite B2|by rewrite B9|]. rewrite B8. destruct o; [done|exact Hs..]. }
    destruct o as [[x|] order| | | |]; [done| |by apply G..]. clear G.
    assert (Hs' : (size (awarded_in s e) <= S (blocks l))%nat) by exact Hs.
    destruct (decide (awarded_in s e = ∅)) as [Ee|Ee].
    { apply map_empty. intros k. pose proof (past_run c (step c s (NewBlock None order)) l e Hd I') as P1. pose proof (past_step c s (NewBlock None order) e Hd I ltac:(lia)) as P2.
      pose proof (era_step c s (NewBlock None order) ltac:(destruct I; lia)) as P3. specialize (P1 ltac:(lia)). assert (P : awarded_in (run c (step c s (NewBlock None order)) l) e ⊆ ∅) by (rewrite <- Ee; by etransitivity).
      destruct (awarded_in (run c (step c s (NewBlock None order)) l) e !! k) eqn:Ek; [|done]. eapply lookup_weaken in Ek; [|exact P]. by rewrite lookup_empty in Ek. }
    rewrite block_step in * by done. cbn [opened] in *.
    destruct (handle_ok c order s) as (s2 & E2 & H). rewrite E2 in *. cbn [fst] in *. assert (Hpe : paid_era c s = e) by (unfold paid_era; lia). rewrite Hpe in H.
    destruct H as [[-> Hi]|(_ & r' & Hr' & [(k & evs & A1 & A2 & A3 & _)|(Hz & ->)])].
    + exfalso. destruct Hi as [Hi|Hi]; [lia|congruence].
    + pose proof (pays_books _ _ _ _ A3) as (B1 & B2 & B3 & B4 & B5 & B6). unfold taken in B1, B2, B4, B5. cbn in B1, B2, B4, B5. assert (Ea : awarded_in s2 e = delete k (awarded_in s e)) by (unfold awarded_in; rewrite B4, mget_insert, bool_decide_true by done; done).
      apply (IH s2 e r); try done; [by rewrite B1|by rewrite B2|unfold points_of in *; by rewrite B5|]. rewrite Ea. destruct A1 as [p A1]. rewrite (map_size_delete_Some _ _ (mk_is_Some _ _ A1)). lia.
    + destruct Hz; done.
Qed.
