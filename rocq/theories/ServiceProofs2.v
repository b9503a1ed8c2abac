(** Invariants of the service: one transaction and one response per request; nonces. *)
From Verif Require Import Base BaseLemmas CodecModel CodecProofs HttpModel HttpProofs ServiceModel ServiceProofs.

(** * Specification *)
Definition arrivals (es : list event) : list N := omap (fun e => match e with Arrive id _ => Some id | _ => None end) es.
(** What Ethereum may say in state [s]: counts fit into 64 bits; a nonce refused as too low is below the count then reported; a
    nonce of 2^64-1 is never accepted (EIP-2681).  No answer is lost, and the process does not restart. *)
Definition honest_event (s : st) (e : event) : Prop :=
  match e with
  | EthSays (Count c) => c < 2 ^ 64 /\
      match sv_lock s, sv_nonce s with Some (Sending _ _ _ _ Refreshing), Some n => n < c | _, _ => True end
  | EthSays (Accept _) => match sv_nonce s with Some n => n < 2 ^ 64 - 1 | None => True end
  | EthSays AcceptLost | Restart => False
  | _ => True
  end.
Fixpoint honest (cr : crypto) (k : keystore) (s : st) (es : list event) : Prop :=
  match es with [] => True | e :: es => honest_event s e /\ honest cr k (step cr k s e) es end.

(** * Ids *)
Definition job_id (j : job) : N := match j with Sending id _ _ _ _ | Viewing id _ | QueryBlock id _ _ | QueryData id _ _ _ => id end.
Definition job_of (es : list event) (j : job) : Prop :=
  match j with
  | Sending id _ _ _ _ => exists b h, In (Arrive id (Send b h)) es
  | Viewing id _ => exists b, In (Arrive id (View b)) es
  | QueryBlock id _ _ | QueryData id _ _ _ => exists b, In (Arrive id (Query b)) es
  end.
Definition is_send (r : request) : bool := match r with Send _ _ => true | _ => false end.
Record once (es : list event) (s : st) : Prop := mkOnce {
  o_resp : NoDup (sv_responses s).*1;
  o_pool : NoDup (map su_id (sv_pool s));
  o_resp_in : forall id, In id (sv_responses s).*1 -> In id (arrivals es);
  o_pool_in : forall id, In id (map su_id (sv_pool s)) -> In id (arrivals es);
  o_job : forall j, sv_lock s = Some j -> job_of es j /\ ~ In (job_id j) (sv_responses s).*1 /\ ~ In (job_id j) (map su_id (sv_pool s));
  o_answer : forall id text b h, In (id, Answer text) (sv_responses s) -> In (Arrive id (Send b h)) es ->
    exists u hash, In u (sv_pool s) /\ su_id u = id /\ text = hex_encode (be_bytes 32 hash) /\ In (EthSays (Accept hash)) es;
  o_error : ~ In (EthSays AcceptLost) es -> forall id e, In (id, Error e) (sv_responses s) -> ~ In id (map su_id (sv_pool s)) }.
Lemma arrivals_snoc es e : arrivals (es ++ [e]) = arrivals es ++ match e with Arrive id _ => [id] | _ => [] end.
Proof. unfold arrivals. rewrite omap_app. f_equal. by destruct e. Qed.
Lemma arrivals_in es id r : In (Arrive id r) es -> In id (arrivals es).
Proof. intros I. apply elem_of_list_In, elem_of_list_omap. exists (Arrive id r). split; [by apply elem_of_list_In|done]. Qed.
Lemma job_of_arrivals es j : job_of es j -> In (job_id j) (arrivals es).
Proof. destruct j; cbn; intros; destruct_and?; repeat match goal with H : exists _, _ |- _ => destruct H end; by eapply arrivals_in. Qed.
Lemma job_of_mono es e j : job_of es j -> job_of (es ++ [e]) j.
Proof. destruct j; cbn; intros; repeat match goal with H : exists _, _ |- _ => destruct H end; repeat eexists; apply in_or_app; eauto. Qed.

(** An event that is not an arrival. *)
Lemma once_mono es e s : match e with Arrive id _ => ~ In id (arrivals es) | _ => True end -> once es s -> once (es ++ [e]) s.
Proof.
  intros F [O1 O2 O3 O4 O5 O6 O7]. split; try done.
  - intros id I. rewrite arrivals_snoc. apply in_or_app. left. by apply O3.
  - intros id I. rewrite arrivals_snoc. apply in_or_app. left. by apply O4.
  - intros j J. destruct (O5 j J) as (A & B & C). split; [by apply job_of_mono|done].
  - intros id text b h I A. apply in_app_or in A as [A|[->|[]]].
    + destruct (O6 _ _ _ _ I A) as (u & hash & H1 & H2 & H3 & H4). exists u, hash. split_and!; [done..|]. apply in_or_app. by left.
    + destruct F. apply O3. apply elem_of_list_In, elem_of_list_fmap. exists (id, Answer text). split; [done|]. by apply elem_of_list_In.
  - intros NL. apply O7. intros I. apply NL, in_or_app. by left.
Qed.
(** A response to [id], which has none so far. *)
Lemma once_reply es s id r :
  once es s -> In id (arrivals es) -> ~ In id (sv_responses s).*1 -> (forall j, sv_lock s = Some j -> job_id j <> id) ->
  match r with
  | Answer text => forall b h, In (Arrive id (Send b h)) es -> exists u hash, In u (sv_pool s) /\ su_id u = id /\ text = hex_encode (be_bytes 32 hash) /\ In (EthSays (Accept hash)) es
  | Error _ => ~ In (EthSays AcceptLost) es -> ~ In id (map su_id (sv_pool s))
  end -> once es (reply id r s).
Proof.
  intros [O1 O2 O3 O4 O5 O6 O7] A F J R. split; cbn; try done.
  - apply NoDup_cons. split; [by rewrite elem_of_list_In|done].
  - intros i [<-|I]; [done|by apply O3].
  - intros j L. destruct (O5 j L) as (P & Q & T). split; [done|]. split; [|done]. intros [E|I]; [|done]. by apply (J j L).
  - intros i text b h [E|I] I'; [|by eapply O6]. injection E as -> ->. by eapply R.
  - intros NL i e [E|I]; [|by eapply O7]. injection E as -> ->. by apply R.
Qed.
Lemma once_lock es s j :
  once es s -> match j with Some j => job_of es j /\ ~ In (job_id j) (sv_responses s).*1 /\ ~ In (job_id j) (map su_id (sv_pool s)) | None => True end ->
  once es (s <| sv_lock := j |>).
Proof. intros [O1 O2 O3 O4 O5 O6 O7] J. split; try done. cbn. intros j' ->. exact J. Qed.
Lemma once_frame es s s' : once es s -> sv_responses s' = sv_responses s -> sv_pool s' = sv_pool s -> sv_lock s' = sv_lock s -> once es s'.
Proof. intros [O1 O2 O3 O4 O5 O6 O7] E1 E2 E3. split; rewrite ?E1, ?E2, ?E3; done. Qed.
Lemma once_release es s id r :
  once es s -> In id (arrivals es) -> ~ In id (sv_responses s).*1 ->
  match r with
  | Answer text => forall b h, In (Arrive id (Send b h)) es -> exists u hash, In u (sv_pool s) /\ su_id u = id /\ text = hex_encode (be_bytes 32 hash) /\ In (EthSays (Accept hash)) es
  | Error _ => ~ In (EthSays AcceptLost) es -> ~ In id (map su_id (sv_pool s))
  end -> once es (release id r s).
Proof.
  intros O A F R. unfold release. change (once es (reply id r (s <| sv_lock := None |>))). apply once_reply; try done. by apply once_lock.
Qed.
Lemma once_failed es s id t addr key again e p : once es s -> sv_lock s = Some (Sending id t addr key p) -> once es (send_failed id t addr key again e s).
Proof.
  intros O L. destruct (o_job _ _ O _ L) as (P & Q & T). cbn in Q, T.
  assert (once es (release id (Error "Error sending transaction to ethereum") s)).
  { apply once_release; try done. by apply (job_of_arrivals es _ P). }
  unfold send_failed. destruct e, again; try done. by apply once_lock.
Qed.
Lemma same_arrival es id r r' : NoDup (arrivals es) -> In (Arrive id r) es -> In (Arrive id r') es -> r = r'.
Proof.
  induction es as [|e es IH] using rev_ind; [done|]. rewrite arrivals_snoc. intros [ND [D _]]%NoDup_app I I'.
  apply in_app_or in I as [I|[->|[]]]; apply in_app_or in I' as [I'|[E|[]]].
  - by apply IH.
  - subst e. exfalso. apply (D id); [by eapply elem_of_list_In, arrivals_in|by left].
  - exfalso. apply (D id); [by eapply elem_of_list_In, arrivals_in|by left].
  - congruence.
Qed.
Lemma once_step cr k es s e : NoDup (arrivals (es ++ [e])) -> once es s -> once (es ++ [e]) (step cr k s e).
Proof.
  intros ND O0.
  assert (F : match e with Arrive id _ => ~ In id (arrivals es) | _ => True end).
  { destruct e as [id r| |]; try done. rewrite arrivals_snoc in ND. apply NoDup_app in ND as (_ & D & _). intros I. apply (D id); [by apply elem_of_list_In|by left]. }
  pose proof (once_mono es e s F O0) as O.
  destruct e as [id r|a|]; cbn [step].
  - destruct (sv_crashed s); [done|].
    assert (A : In id (arrivals (es ++ [Arrive id r]))). { rewrite arrivals_snoc. apply in_or_app. right. by left. }
    assert (R : ~ In id (sv_responses s).*1) by (intros I; by apply F, (o_resp_in _ _ O0)).
    assert (P : ~ In id (map su_id (sv_pool s))) by (intros I; by apply F, (o_pool_in _ _ O0)).
    assert (J : forall j, sv_lock s = Some j -> job_id j <> id).
    { intros j L <-. apply F. apply (job_of_arrivals es). by apply (o_job _ _ O0). }
    assert (E : forall x, once (es ++ [Arrive id r]) (reply id (Error x) s)) by (intros x; by apply once_reply).
    assert (C : once (es ++ [Arrive id r]) (s <| sv_crashed := true |>)) by (by eapply once_frame).
    assert (I : In (Arrive id r) (es ++ [Arrive id r])) by (apply in_or_app; right; by left).
    destruct r as [body header|body header|body|body]; cbn [arrive].
    + destruct (sign_request _ _ _ _); cbn [settle]; [|apply E|apply C]. apply once_reply; try done.
      intros b h I'. exfalso. pose proof (same_arrival _ _ _ _ ND I I'). discriminate.
    + destruct (admit_send _ _ _ _); cbn [settle]; [|apply E|apply C]. destruct (sv_lock s) eqn:L; [apply E|].
      destruct (try! a := eth_address k in _) as [[x y]| |]; cbn [settle fst snd]; [|apply E|apply C].
      unfold begin_send. destruct (sv_nonce s).
      * apply once_lock; [done|]. split_and!; try done. cbn. eauto.
      * destruct (Nat.eqb _ _); [|apply E]. apply once_lock; [done|]. split_and!; try done. cbn. eauto.
    + destruct (admit_view _); cbn [settle]; [|apply E|apply C]. destruct (sv_lock s) eqn:L; [apply E|].
      eapply once_frame; [apply (once_lock _ s (Some (Viewing id a)) O)|done..]. split_and!; try done. cbn. eauto.
    + destruct (admit_query _); cbn [settle]; [|apply E|apply C]. destruct (sv_lock s) eqn:L; [apply E|].
      apply once_lock; [done|]. split_and!; try done. cbn. eauto.
  - destruct (sv_crashed s); [done|]. unfold on_answer. destruct (sv_lock s) as [j|] eqn:L; [|done].
    destruct (o_job _ _ O _ L) as (P & Q & T). pose proof (job_of_arrivals _ _ P) as A.
    destruct j as [id t addr key p|id t|id h kd|id h kd n]; cbn in A, Q, T.
    + assert (E : forall x, once (es ++ [EthSays a]) (release id (Error x) s)) by (intros x; by apply once_release).
      destruct p, a; cbn [on_send]; try done; try apply E; try (by eapply once_failed).
      * eapply once_frame; [apply (once_lock _ s (Some (Sending id t addr key (Preparing false))) O)|done..]. done.
      * destruct (cr_valid_key cr key); [|apply E].
        eapply once_frame; [apply (once_lock _ s (Some (Sending id t addr key (Submitting again))) O)|done..]. done.
      * assert (once (es ++ [EthSays (Accept hash)]) (s <| sv_lock := None |> <| sv_nonce := Some ((nonce_now s + 1) mod U64) |> <| sv_pool := submission_of id t addr s :: sv_pool s |>)) as O'.
        { destruct O as [O1 O2 O3 O4 O5 O6 O7]. split; cbn; try done.
          - apply NoDup_cons. split; [by rewrite elem_of_list_In|done].
          - intros i [<-|I]; [done|by apply O4].
          - intros i x b h I I'. destruct (O6 _ _ _ _ I I') as (u & hh & H1 & H2). exists u, hh. split; [by right|done].
          - intros NL i x I [<-|I']; [|by eapply O7]. apply Q. apply elem_of_list_In, elem_of_list_fmap. exists (id, Error x). split; [done|by apply elem_of_list_In]. }
        change (once (es ++ [EthSays (Accept hash)]) (reply id (Answer (hex_encode (be_bytes 32 hash))) (s <| sv_lock := None |> <| sv_nonce := Some ((nonce_now s + 1) mod U64) |> <| sv_pool := submission_of id t addr s :: sv_pool s |>))).
        apply once_reply; try done. intros b h _. exists (submission_of id t addr s), hash. cbn. split_and!; [by left|done|done|].
        apply in_or_app. right. by left.
      * set (s1 := s <| sv_pool := submission_of id t addr s :: sv_pool s |> <| sv_lock := None |>).
        assert (NLn : ~ ~ In (EthSays AcceptLost) (es ++ [EthSays AcceptLost])) by (intros X; apply X, in_or_app; right; by left).
        assert (once (es ++ [EthSays AcceptLost]) s1) as O'.
        { destruct O as [O1 O2 O3 O4 O5 O6 O7]. split; cbn; try done.
          - apply NoDup_cons. split; [by rewrite elem_of_list_In|done].
          - intros i [<-|I]; [done|by apply O4].
          - intros i x b h I I'. destruct (O6 _ _ _ _ I I') as (u & hh & H1 & H2). exists u, hh. split; [by right|done]. }
        destruct again; cbn [send_failed]; change (once (es ++ [EthSays AcceptLost]) (reply id (Error "Error sending transaction to ethereum") s1)); by apply once_reply.
      * eapply once_frame; [apply (once_lock _ s (Some (Sending id t addr key (Preparing true))) O)|done..]. done.
    + assert (E : forall x, once (es ++ [EthSays a]) (release id (Error x) s)) by (intros x; by apply once_release).
      destruct a; try done; try (exact (E _)). apply once_release; try done. intros b h' I. destruct P as (b' & I').
      pose proof (same_arrival _ _ _ _ ND I I'). discriminate.
    + assert (E : forall x, once (es ++ [EthSays a]) (release id (Error x) s)) by (intros x; by apply once_release).
      destruct a; try done; try (exact (E _)). by apply once_lock.
    + assert (E : forall x, once (es ++ [EthSays a]) (release id (Error x) s)) by (intros x; by apply once_release).
      destruct a; try done; try (exact (E _)). apply once_release; try done. intros b h' I. destruct P as (b' & I').
      pose proof (same_arrival _ _ _ _ ND I I'). discriminate.
  - eapply once_frame; [apply (once_lock _ s None O)|done..]. done.
Qed.
Lemma once_run cr k es : NoDup (arrivals es) -> once es (run cr k start es).
Proof.
  induction es as [|e es IH] using rev_ind; intros ND.
  - split; try done; cbn; constructor.
  - rewrite run_snoc. apply once_step; [done|]. apply IH. rewrite arrivals_snoc in ND. by apply NoDup_app in ND as [ND _].
Qed.

(** * Nonces *)
Definition newer (u v : submission) : Prop := su_nonce v < su_nonce u.
Record fresh (s : st) : Prop := mkFresh {
  f_sorted : StronglySorted newer (sv_pool s);
  f_below : forall u, In u (sv_pool s) -> exists n, sv_nonce s = Some n /\ su_nonce u < n;
  f_range : forall n, sv_nonce s = Some n -> n < U64;
  f_phase : forall id t a key p, sv_lock s = Some (Sending id t a key p) ->
    match p with AskingNonce => sv_nonce s = None | Preparing _ | Submitting _ => sv_nonce s <> None | Refreshing => True end }.
Lemma fresh_frame s s' : fresh s -> sv_pool s' = sv_pool s -> sv_nonce s' = sv_nonce s ->
  (forall id t a key p, sv_lock s' = Some (Sending id t a key p) ->
    match p with AskingNonce => sv_nonce s = None | Preparing _ | Submitting _ => sv_nonce s <> None | Refreshing => True end) -> fresh s'.
Proof. intros [F1 F2 F3 F4] E1 E2 E3. split; rewrite ?E1, ?E2; done. Qed.
Lemma fresh_set s c j : fresh s -> match sv_nonce s with Some n => n < c | None => True end -> c < U64 ->
  match j with Some (Sending _ _ _ _ AskingNonce) => False | _ => True end ->
  fresh (s <| sv_nonce := Some (c mod U64) |> <| sv_lock := j |>).
Proof.
  intros [F1 F2 F3 F4] Hn Hc Hj. rewrite N.mod_small by done. split; cbn; try done.
  - intros u I. destruct (F2 u I) as (n & E & L). rewrite E in Hn. exists c. split; [done|lia].
  - by intros n [= <-].
  - intros id t a key p ->. by destruct p.
Qed.
Lemma fresh_step cr k s e : fresh s -> honest_event s e -> fresh (step cr k s e).
Proof.
  intros F H. destruct e as [id r|a|]; cbn [step]; [| |done].
  - destruct (sv_crashed s); [done|].
    assert (E : forall x, fresh (reply id x s)) by (intros x; eapply fresh_frame; [done..|apply F]).
    assert (C : fresh (s <| sv_crashed := true |>)) by (eapply fresh_frame; [done..|apply F]).
    destruct r as [body header|body header|body|body]; cbn [arrive].
    + destruct (sign_request _ _ _ _); cbn [settle]; [apply E..|apply C].
    + destruct (admit_send _ _ _ _); cbn [settle]; [|apply E|apply C]. destruct (sv_lock s) eqn:L; [apply E|].
      destruct (try! a := eth_address k in _) as [[x y]| |]; cbn [settle fst snd]; [|apply E|apply C].
      unfold begin_send. destruct (sv_nonce s) eqn:Nn.
      * eapply fresh_frame; [done..|]. cbn. intros ????? [= <- <- <- <- <-]. congruence.
      * destruct (Nat.eqb _ _); [|apply E]. eapply fresh_frame; [done..|]. cbn. intros ????? [= <- <- <- <- <-]. done.
    + destruct (admit_view _); cbn [settle]; [|apply E|apply C]. destruct (sv_lock s) eqn:L; [apply E|].
      eapply fresh_frame; [done..|]. cbn. discriminate.
    + destruct (admit_query _); cbn [settle]; [|apply E|apply C]. destruct (sv_lock s) eqn:L; [apply E|].
      eapply fresh_frame; [done..|]. cbn. discriminate.
  - destruct (sv_crashed s); [done|]. unfold on_answer. destruct (sv_lock s) as [j|] eqn:L; [|done].
    assert (E : forall i x, fresh (release i x s)) by (intros i x; eapply fresh_frame; [done..|]; done).
    destruct j as [id t addr key p|id t|id h kd|id h kd n].
    + pose proof (f_phase _ F _ _ _ _ _ L) as P.
      assert (X : forall again e, fresh (send_failed id t addr key again e s)).
      { intros again e. unfold send_failed. destruct e, again; try apply E. eapply fresh_frame; [done..|]. cbn. intros ????? [= <- <- <- <- <-]. done. }
      destruct p, a; cbn [on_send]; try done; try apply E; try apply X.
      * destruct H as [H1 H2]. apply fresh_set; try done. by rewrite P.
      * destruct (cr_valid_key cr key); [|apply E]. eapply fresh_frame; [done..|]. cbn. intros ????? [= <- <- <- <- <-]. done.
      * cbn in H. destruct (sv_nonce s) as [n|] eqn:Nn; [|done]. destruct F as [F1 F2 F3 F4].
        unfold nonce_now, submission_of, nonce_now. rewrite Nn. pose proof (F3 n Nn) as R.
        assert (U64 = 2 ^ 64) as EU by reflexivity. rewrite N.mod_small by lia.
        split; cbn; try done.
        -- constructor; [done|]. apply Forall_forall. intros u I. unfold newer. cbn. destruct (F2 u) as (m & Em & Lm); [by apply elem_of_list_In|].
           rewrite Nn in Em. injection Em as <-. done.
        -- intros u [<-|I]; [exists (n + 1); split; [done|cbn; lia]|]. destruct (F2 u I) as (m & Em & Lm). rewrite Nn in Em. injection Em as <-.
           exists (n + 1). split; [done|lia].
        -- intros m [= <-]. lia.
      * destruct H as [H1 H2]. cbn in H2. rewrite L in H2. apply fresh_set; try done.
    + destruct a; try done; apply E.
    + destruct a; try done; try apply E. eapply fresh_frame; [done..|]. cbn. discriminate.
    + destruct a; try done; apply E.
Qed.
Lemma fresh_run cr k es : forall s, fresh s -> honest cr k s es -> fresh (run cr k s es).
Proof.
  induction es as [|e es IH]; intros s F H; [done|]. destruct H as [H1 H2]. cbn. apply IH; [|done]. by apply fresh_step.
Qed.
Lemma fresh_start : fresh start.
Proof. split; try done; cbn; constructor. Qed.

(** The stored nonce never falls, and everything signed later has at least that nonce. *)
Lemma nonce_step cr k s e n : fresh s -> honest_event s e -> sv_nonce s = Some n ->
  (exists m, sv_nonce (step cr k s e) = Some m /\ n <= m) /\
  forall u, In u (sv_signed (step cr k s e)) -> In u (sv_signed s) \/ n <= su_nonce u.
Proof.
  intros F H E. assert (R : forall s', sv_nonce s' = sv_nonce s -> sv_signed s' = sv_signed s ->
    (exists m, sv_nonce s' = Some m /\ n <= m) /\ forall u, In u (sv_signed s') -> In u (sv_signed s) \/ n <= su_nonce u).
  { intros s' E1 E2. rewrite E1, E2. split; [exists n; split; [done|lia]|]. by left. }
  destruct e as [id r|a|]; cbn [step]; [| |done].
  - destruct (sv_crashed s); [by apply R|].
    destruct r as [body header|body header|body|body]; cbn [arrive].
    + destruct (sign_request _ _ _ _); cbn [settle]; by apply R.
    + destruct (admit_send _ _ _ _); cbn [settle]; [|by apply R..]. destruct (sv_lock s) eqn:L; [by apply R|].
      destruct (try! a := eth_address k in _) as [[x y]| |]; cbn [settle fst snd]; [|by apply R..].
      unfold begin_send. rewrite E. by apply R.
    + destruct (admit_view _); cbn [settle]; [|by apply R..]. destruct (sv_lock s) eqn:L; by apply R.
    + destruct (admit_query _); cbn [settle]; [|by apply R..]. destruct (sv_lock s) eqn:L; by apply R.
  - destruct (sv_crashed s); [by apply R|]. unfold on_answer. destruct (sv_lock s) as [j|] eqn:L; [|by apply R].
    destruct j as [id t addr key p|id t|id h kd|id h kd m]; try (destruct a; by apply R).
    pose proof (f_phase _ F _ _ _ _ _ L) as P. pose proof (f_range _ F _ E) as Rn.
    destruct p, a as [c| | | |[]| | |]; cbn [on_send send_failed]; try (by apply R); try congruence.
    + destruct (cr_valid_key cr key); [|by apply R]. cbn. split; [exists n; split; [done|lia]|]. intros u [<-|I]; [|by left].
      right. cbn. unfold nonce_now. rewrite E. lia.
    + destruct again; by apply R.
    + cbn in H. rewrite E in H. cbn. unfold nonce_now. rewrite E. assert (U64 = 2 ^ 64) as EU by reflexivity. rewrite N.mod_small by lia.
      split; [exists (n + 1); split; [done|lia]|by left].
    + destruct again; by apply R.
    + cbn in H. rewrite L, E in H. destruct H as [H1 H2]. cbn. rewrite N.mod_small by done. split; [exists c; split; [done|lia]|by left].
Qed.
Lemma nonce_run cr k es : forall s n, fresh s -> honest cr k s es -> sv_nonce s = Some n ->
  (exists m, sv_nonce (run cr k s es) = Some m /\ n <= m) /\
  forall u, In u (sv_signed (run cr k s es)) -> In u (sv_signed s) \/ n <= su_nonce u.
Proof.
  induction es as [|e es IH]; intros s n F H E; [split; [exists n; split; [done|lia]|by left]|]. destruct H as [H1 H2].
  destruct (nonce_step cr k s e n F H1 E) as [(m & E' & L) S].
  destruct (IH (step cr k s e) m (fresh_step _ _ _ _ F H1) H2 E') as [(m' & E'' & L') S']. cbn.
  split; [exists m'; split; [done|lia]|]. intros u I. destruct (S' u I) as [I'|I']; [|right; lia]. by apply S.
Qed.

(** Without refusals for a low nonce the accepted nonces are consecutive. *)
Record dense (s : st) : Prop := mkDense {
  d_pool : forall i u v, nth_error (sv_pool s) i = Some u -> nth_error (sv_pool s) (S i) = Some v -> su_nonce u = su_nonce v + 1;
  d_head : forall u r, sv_pool s = u :: r -> sv_nonce s = Some (su_nonce u + 1);
  d_lock : forall id t a key, sv_lock s <> Some (Sending id t a key Refreshing) }.
Definition no_low (e : event) : Prop := e <> EthSays (Fail NonceTooLow).
Lemma dense_frame s s' : dense s -> sv_pool s' = sv_pool s -> sv_nonce s' = sv_nonce s ->
  (forall id t a key, sv_lock s' <> Some (Sending id t a key Refreshing)) -> dense s'.
Proof. intros [D1 D2 D3] E1 E2 E3. split; rewrite ?E1, ?E2; done. Qed.
Lemma dense_step cr k s e : fresh s -> dense s -> honest_event s e -> no_low e -> dense (step cr k s e).
Proof.
  intros F D H NL. destruct e as [id r|a|]; cbn [step]; [| |done].
  - destruct (sv_crashed s); [done|].
    assert (E : forall x, dense (reply id x s)) by (intros x; eapply dense_frame; [done..|apply D]).
    assert (C : dense (s <| sv_crashed := true |>)) by (eapply dense_frame; [done..|apply D]).
    destruct r as [body header|body header|body|body]; cbn [arrive].
    + destruct (sign_request _ _ _ _); cbn [settle]; [apply E..|apply C].
    + destruct (admit_send _ _ _ _); cbn [settle]; [|apply E|apply C]. destruct (sv_lock s) eqn:L; [apply E|].
      destruct (try! a := eth_address k in _) as [[x y]| |]; cbn [settle fst snd]; [|apply E|apply C].
      unfold begin_send. destruct (sv_nonce s) eqn:Nn; [|destruct (Nat.eqb _ _); [|apply E]]; (eapply dense_frame; [done..|]; cbn; discriminate).
    + destruct (admit_view _); cbn [settle]; [|apply E|apply C]. destruct (sv_lock s) eqn:L; [apply E|].
      eapply dense_frame; [done..|]. cbn. discriminate.
    + destruct (admit_query _); cbn [settle]; [|apply E|apply C]. destruct (sv_lock s) eqn:L; [apply E|].
      eapply dense_frame; [done..|]. cbn. discriminate.
  - destruct (sv_crashed s); [done|]. unfold on_answer. destruct (sv_lock s) as [j|] eqn:L; [|done].
    assert (E : forall i x, dense (release i x s)) by (intros i x; eapply dense_frame; [done..|]; done).
    destruct j as [id t addr key p|id t|id h kd|id h kd n].
    + pose proof (f_phase _ F _ _ _ _ _ L) as P.
      destruct p, a as [c| | | |[]| | |]; cbn [on_send]; try done; try (by apply E).
      * (* first nonce *) destruct D as [D1 D2 D3]. split; cbn; try done; intros u r Ep; apply D2 in Ep; congruence.
      * destruct (cr_valid_key cr key); [|apply E]. eapply dense_frame; [done..|]. cbn. discriminate.
      * cbn in H. destruct (sv_nonce s) as [n|] eqn:Nn; [|done]. destruct D as [D1 D2 D3].
        unfold nonce_now, submission_of, nonce_now. rewrite Nn. pose proof (f_range _ F n Nn) as R.
        assert (U64 = 2 ^ 64) as EU by reflexivity. rewrite N.mod_small by lia.
        split; cbn; try done.
        -- intros [|i] u v Hu Hv; [|by apply (D1 i)]. cbn in Hu, Hv. injection Hu as <-. destruct (sv_pool s) as [|w q] eqn:Ep; [discriminate|].
           injection Hv as <-. specialize (D2 w q eq_refl). rewrite Nn in D2. injection D2 as ->. done.
        -- by intros u r [= <- _].
      * exfalso. by apply (d_lock _ D id t addr key).
    + destruct a; try done; apply E.
    + destruct a; try done; try apply E. eapply dense_frame; [done..|]. cbn. discriminate.
    + destruct a; try done; apply E.
Qed.
Lemma dense_run cr k es : forall s, fresh s -> dense s -> honest cr k s es -> Forall no_low es -> dense (run cr k s es).
Proof.
  induction es as [|e es IH]; intros s F D H NL; [done|]. destruct H as [H1 H2]. apply Forall_cons in NL as [N1 N2]. cbn.
  apply IH; [by apply fresh_step|by apply dense_step|done|done].
Qed.
