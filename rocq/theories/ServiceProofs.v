(** Invariants of the service. *)
From Verif Require Import Base BaseLemmas CodecModel CodecProofs HttpModel HttpProofs ServiceModel.

(** * Specification *)
(** The header carries a token that one of the node's own keys signed over [msg]. *)
Definition holds_token (cr : crypto) (k : keystore) (header msg : list N) : Prop :=
  exists token key, token_of header = Some token /\ In key (ks_avn k) /\ cr_verify cr key msg token = true.
(** The node's Ethereum key: exactly one file of the keystore is named by the hexadecimal of "ethk" and an address, and that file
    holds the 32 bytes of the secret key (and perhaps more) in hexadecimal. *)
Definition eth_key (k : keystore) (addr key : list N) : Prop :=
  eth_addresses k = [addr] /\
  exists phrase rest, In (hex_encode (ETHK ++ addr), Some phrase) (ks_files k) /\ hex_decode phrase = Some (key ++ rest) /\ length key = 32%nat.
(** Request [id] asked, with a valid token, for a transaction with the contents of [t]. *)
Definition ordered (cr : crypto) (k : keystore) (es : list event) (id : N) (t : eth_tx) : Prop :=
  exists body header, In (Arrive id (Send body (Some header))) es /\ N.of_nat (length body) <= 100000 /\ decode_tx body = Some t /\
    holds_token cr k header (proof_data (tx_from t) (tx_to t) (tx_data t)).

(** * Admission *)
Lemma run_snoc cr k s es e : run cr k s (es ++ [e]) = step cr k (run cr k s es) e.
Proof. unfold run. by rewrite fold_left_app. Qed.
Lemma validate_gives cr k header msg : validate_token cr k header msg = Gives tt <-> exists h, header = Some h /\ holds_token cr k h msg.
Proof.
  unfold validate_token, or_refuse, obind, holds_token. destruct header as [h|]; [|split; [discriminate|intros (? & ? & _); discriminate]].
  destruct (token_of h) as [t|] eqn:T.
  - unfold authenticated. destruct (existsb _ _) eqn:E; split; try discriminate; try done.
    + intros _. apply existsb_exists in E as (key & I & V). exists h. split; [done|]. exists t, key. done.
    + intros (h' & [= <-] & t' & key & T' & I & V). rewrite T in T'. injection T' as <-.
      rewrite <- not_true_iff_false in E. destruct E. apply existsb_exists. exists key. done.
  - split; [discriminate|]. intros (h' & [= <-] & t' & key & T' & _). congruence.
Qed.
Lemma admit_send_gives cr k body header t :
  admit_send cr k body header = Gives t <->
  N.of_nat (length body) <= 100000 /\ decode_tx body = Some t /\ exists h, header = Some h /\ holds_token cr k h (proof_data (tx_from t) (tx_to t) (tx_data t)).
Proof.
  unfold admit_send, MAX_BODY_SIZE. destruct (N.ltb_spec 100000 (N.of_nat (length body))) as [L|L]; [split; [discriminate|intros [? _]; lia]|].
  destruct (decode_tx body) as [x|]; cbn [or_refuse obind]; [|split; [discriminate|intros (_ & ? & _); discriminate]].
  pose proof (validate_gives cr k header (proof_data (tx_from x) (tx_to x) (tx_data x))) as V.
  destruct (validate_token _ _ _ _) as [[]| |]; cbn [obind].
  - split; [intros [= <-]; split; [done|]; split; [done|]; by apply V|intros (_ & [= <-] & _); done].
  - split; [discriminate|]. intros (_ & [= <-] & Q). apply V in Q. discriminate.
  - split; [discriminate|]. intros (_ & [= <-] & Q). apply V in Q. discriminate.
Qed.
Lemma eth_address_gives k a : eth_address k = Gives a <-> eth_addresses k = [a].
Proof. unfold eth_address. destruct (eth_addresses k) as [|x [|y l]]; split; try discriminate; intros [= <-]; done. Qed.
Lemma priv_key_gives k a key : NoDup (ks_files k).*1 ->
  priv_key k a = Gives key <->
  exists phrase rest, In (hex_encode (ETHK ++ a), Some phrase) (ks_files k) /\ hex_decode phrase = Some (key ++ rest) /\ length key = 32%nat.
Proof.
  intros ND. unfold priv_key, key_phrase.
  assert (forall ph, match List.find (fun f => bool_decide (f.1 = hex_encode (ETHK ++ a))) (ks_files k) with Some f => f.2 | None => None end = Some ph <->
            In (hex_encode (ETHK ++ a), Some ph) (ks_files k)) as F.
  { intros ph. split.
    - destruct (List.find _ _) as [[n c]|] eqn:E; [|discriminate]. apply find_some in E as [E1 E2]. apply bool_decide_eq_true in E2.
      cbn in E2 |- *. intros ->. rewrite <- E2. exact E1.
    - intros I. destruct (List.find _ _) as [[n c]|] eqn:E.
      + apply find_some in E as [E1 E2]. apply bool_decide_eq_true in E2. cbn in E2 |- *.
        assert ((n, c) = (hex_encode (ETHK ++ a), Some ph)) as Q; [|congruence].
        clear - ND I E1 E2. subst n. revert ND I E1. induction (ks_files k) as [|[n c'] l IH]; [done|].
        cbn [fmap list_fmap fst]. intros [N1 N2]%NoDup_cons [I|I] [E|E].
        * congruence.
        * injection I as -> ->. destruct N1. apply elem_of_list_fmap. exists (hex_encode (ETHK ++ a), c). split; [done|]. by apply elem_of_list_In.
        * injection E as -> ->. destruct N1. apply elem_of_list_fmap. exists (hex_encode (ETHK ++ a), Some ph). split; [done|]. by apply elem_of_list_In.
        * by apply IH.
      + exfalso. pose proof (find_none _ _ E _ I) as Q. cbn in Q. by rewrite bool_decide_eq_true_2 in Q. }
  destruct (match List.find _ _ with Some f => f.2 | None => None end) as [ph|].
  - cbn [or_refuse obind]. pose proof (proj1 (F ph) eq_refl) as I. destruct (hex_decode ph) as [b|] eqn:D; cbn [or_refuse obind].
    + destruct (Nat.leb_spec 32 (length b)) as [L|L].
      * split.
        -- intros [= <-]. exists ph, (drop 32 b). rewrite take_drop. split; [done|]. split; [done|]. rewrite take_length. lia.
        -- intros (ph' & rest & I' & D' & L'). apply F in I'. injection I' as <-. rewrite D in D'. injection D' as ->.
           f_equal. rewrite <- L'. by rewrite take_app.
      * split; [discriminate|]. intros (ph' & rest & I' & D' & L'). apply F in I'. injection I' as <-. rewrite D in D'. injection D' as ->.
        rewrite app_length in L. lia.
    + split; [discriminate|]. intros (ph' & rest & I' & D' & L'). apply F in I'. injection I' as <-. congruence.
  - cbn [or_refuse obind]. split; [discriminate|]. intros (ph' & rest & I' & _). apply F in I'. discriminate.
Qed.
Lemma key_gives k a p : NoDup (ks_files k).*1 ->
  (try! a := eth_address k in try! p := priv_key k a in Gives (a, p)) = Gives (a, p) <-> eth_key k a p.
Proof.
  intros ND. unfold eth_key. rewrite <- eth_address_gives, <- (priv_key_gives k a p ND).
  destruct (eth_address k) as [x| |]; cbn [obind]; [|split; [discriminate|intros [? _]; discriminate]..].
  destruct (priv_key k x) as [y| |] eqn:P; cbn [obind].
  - split; [intros [= <- <-]; done|]. intros [[= <-] Q]. rewrite P in Q. by injection Q as <-.
  - split; [discriminate|]. intros [[= <-] Q]. congruence.
  - split; [discriminate|]. intros [[= <-] Q]. congruence.
Qed.

(** * The invariant: who ordered what *)
Definition sub_ok (cr : crypto) (k : keystore) (es : list event) (u : submission) : Prop :=
  exists t key, ordered cr k es (su_id u) t /\ su_to u = tx_to t /\ su_data u = tx_data t /\ eth_key k (su_from u) key.
Definition job_ok (cr : crypto) (k : keystore) (es : list event) (s : st) (j : job) : Prop :=
  match j with
  | Sending id t addr key p =>
    ordered cr k es id t /\ eth_key k addr key /\
    match p with Submitting _ => In (submission_of id t addr s) (sv_signed s) /\ sv_nonce s <> None | Preparing _ => sv_nonce s <> None | _ => True end
  | _ => True
  end.
Record good (cr : crypto) (k : keystore) (es : list event) (s : st) : Prop := mkGood {
  g_job : forall j, sv_lock s = Some j -> job_ok cr k es s j;
  g_signed : forall u, In u (sv_signed s) -> sub_ok cr k es u;
  g_pool : forall u, In u (sv_pool s) -> In u (sv_signed s) }.
Lemma ordered_mono cr k es e id t : ordered cr k es id t -> ordered cr k (es ++ [e]) id t.
Proof. intros (b & h & I & R). exists b, h. split; [|exact R]. apply in_or_app. by left. Qed.
Lemma sub_ok_mono cr k es e u : sub_ok cr k es u -> sub_ok cr k (es ++ [e]) u.
Proof. intros (t & key & H & R). exists t, key. split; [|exact R]. by apply ordered_mono. Qed.
Lemma job_ok_mono cr k es e s j : job_ok cr k es s j -> job_ok cr k (es ++ [e]) s j.
Proof. destruct j; try done. intros (H & R). split; [|exact R]. by apply ordered_mono. Qed.
Lemma good_mono cr k es e s : good cr k es s -> good cr k (es ++ [e]) s.
Proof.
  intros [G1 G2 G3]. split; [intros; by apply job_ok_mono, G1|intros; by apply sub_ok_mono, G2|done].
Qed.
Lemma good_reply cr k es s id r : good cr k es s -> good cr k es (reply id r s).
Proof. intros [G1 G2 G3]. split; done. Qed.
Lemma good_crash cr k es s : good cr k es s -> good cr k es (s <| sv_crashed := true |>).
Proof. intros [G1 G2 G3]. split; done. Qed.
Lemma good_release cr k es s id r : good cr k es s -> good cr k es (release id r s).
Proof. intros [G1 G2 G3]. split; done. Qed.
Lemma good_failed cr k es s id t addr key again e : good cr k es s -> ordered cr k es id t -> eth_key k addr key ->
  good cr k es (send_failed id t addr key again e s).
Proof.
  intros G O E. unfold send_failed. destruct e, again; try (by apply good_release).
  destruct G as [G1 G2 G3]. split; try done. cbn. by intros j [= <-].
Qed.
Lemma good_step cr k es s e : NoDup (ks_files k).*1 -> good cr k es s -> good cr k (es ++ [e]) (step cr k s e).
Proof.
  intros ND G. apply (good_mono _ _ _ e) in G. destruct e as [id r|a|]; cbn [step].
  - destruct (sv_crashed s); [done|]. destruct r as [body header|body header|body|body]; cbn [arrive].
    + destruct (sign_request _ _ _ _); cbn [settle]; [by apply good_reply..|by apply good_crash].
    + destruct (admit_send cr k body header) as [t| |] eqn:A; cbn [settle]; [|by apply good_reply|by apply good_crash].
      destruct (sv_lock s) eqn:L; [by apply good_reply|].
      destruct (try! a := eth_address k in _) as [[a p]| |] eqn:K; cbn [settle fst snd]; [|by apply good_reply|by apply good_crash].
      apply (key_gives k a p ND) in K. apply admit_send_gives in A as (A1 & A2 & h & -> & A3).
      assert (ordered cr k (es ++ [Arrive id (Send body (Some h))]) id t) as O.
      { exists body, h. split; [apply in_or_app; right; by left|]. done. }
      destruct G as [G1 G2 G3]. unfold begin_send. destruct (sv_nonce s) eqn:N.
      * split; [|done..]. cbn. intros j [= <-]. split; [done|]. split; [done|]. cbn. congruence.
      * destruct (Nat.eqb _ _); [|by split]. split; [|done..]. cbn. intros j [= <-]. done.
    + destruct (admit_view body) as [t| |]; cbn [settle]; [|by apply good_reply|by apply good_crash].
      destruct (sv_lock s); [by apply good_reply|]. destruct G as [G1 G2 G3]. split; [|done..]. cbn. by intros j [= <-].
    + destruct (admit_query body) as [q| |]; cbn [settle]; [|by apply good_reply|by apply good_crash].
      destruct (sv_lock s); [by apply good_reply|]. destruct G as [G1 G2 G3]. split; [|done..]. cbn. by intros j [= <-].
  - destruct (sv_crashed s); [done|]. unfold on_answer. destruct (sv_lock s) as [[id t addr key p|id t|id h kd|id h kd n]|] eqn:L; [| | | |done].
    + pose proof (g_job _ _ _ _ G _ L) as (O & E & P).
      assert (S : forall a', In a' (sv_signed s) -> sub_ok cr k (es ++ [EthSays a]) a') by apply G.
      assert (Su : sub_ok cr k (es ++ [EthSays a]) (submission_of id t addr s)). { exists t, key. done. }
      destruct p, a; cbn [on_send]; try done; try (by apply good_release); try (by apply good_failed).
      * destruct G as [G1 G2 G3]. split; [|done..]. cbn. intros j [= <-]. done.
      * destruct (cr_valid_key cr key); [|by apply good_release]. destruct G as [G1 G2 G3].
        split; cbn.
        -- intros j [= <-]. split; [done|]. split; [done|]. split; [by left|done].
        -- intros u [<-|I]; [done|by apply S].
        -- intros u I. right. by apply G3.
      * destruct G as [G1 G2 G3]. destruct P as [P1 P2]. split; cbn; [done|done|]. intros u [<-|I]; [done|by apply G3].
      * destruct G as [G1 G2 G3]. destruct P as [P1 P2]. destruct again; cbn; (split; cbn; [done|done|]; intros u [<-|I]; [done|by apply G3]).
      * destruct G as [G1 G2 G3]. split; [|done..]. cbn. intros j [= <-]. done.
    + destruct a; try done; by apply good_release.
    + destruct a; try done; try (by apply good_release). destruct G as [G1 G2 G3]. split; [|done..]. cbn. by intros j [= <-].
    + destruct a; try done; by apply good_release.
  - destruct G as [G1 G2 G3]. split; done.
Qed.
Lemma good_run cr k es : NoDup (ks_files k).*1 -> good cr k es (run cr k start es).
Proof.
  intros ND. induction es as [|e es IH] using rev_ind; [by split|]. rewrite run_snoc. by apply good_step.
Qed.
