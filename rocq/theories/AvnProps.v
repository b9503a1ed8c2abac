(** Property theorems about pallets/avn: C01, C18, C23. *)
From Verif Require Import Base BaseLemmas AvnModel AvnProofs.

(** * C01 *)

(** The quorum is a positive number of votes that unanimity always reaches. *)
Theorem C01_quorum_bounds : forall n, 1 <= n -> 1 <= quorum_for n <= n.
Proof. exact quorum_bounds. Qed.
Print Assumptions C01_quorum_bounds.

(** Quorum is exactly one more than the largest tolerated number of faulty validators. *)
Theorem C01_quorum_is_max_faults_plus_one : forall n, 1 <= n -> quorum_for n = (n - 1) / 3 + 1.
Proof. exact quorum_alt. Qed.
Print Assumptions C01_quorum_is_max_faults_plus_one.

(** Any quorum of distinct voters contains a non-faulty one when fewer than a third are faulty. *)
Theorem C01_quorum_contains_honest : forall (n : N) (voters faulty : list N),
  1 <= n -> NoDup voters -> quorum_for n <= N.of_nat (length voters) ->
  3 * N.of_nat (length faulty) < n ->
  exists v, In v voters /\ ~ In v faulty.
Proof. exact quorum_has_honest. Qed.
Print Assumptions C01_quorum_contains_honest.
Example C01_quorum_contains_honest_ex :
  NoDup [1; 2] /\ quorum_for 4 <= N.of_nat (length [1; 2]) /\ 3 * N.of_nat (length [2]) < 4.
Proof. split; [|split]; [|vm_compute; congruence|vm_compute; reflexivity].
  apply NoDup_ListNoDup. repeat constructor; cbn; intuition lia. Qed.

Theorem C01_thresholds_partition : forall n, quorum_for n + supermajority_for n = n.
Proof. exact quorum_supermajority_sum. Qed.
Print Assumptions C01_thresholds_partition.

Theorem C01_thresholds_monotone : forall n m, n <= m ->
  quorum_for n <= quorum_for m /\ supermajority_for n <= supermajority_for m.
Proof. exact quorum_mono. Qed.
Print Assumptions C01_thresholds_monotone.

(** More than a supermajority and a quorum always share a validator. *)
Theorem C01_supermajority_meets_quorum : forall (all A B : list N),
  let n := N.of_nat (length all) in
  NoDup A -> NoDup B -> incl A all -> incl B all ->
  supermajority_for n < N.of_nat (length A) -> quorum_for n <= N.of_nat (length B) ->
  exists v, In v A /\ In v B.
Proof. exact super_meets_quorum. Qed.
Print Assumptions C01_supermajority_meets_quorum.

(** Two supermajorities share a validator, except for 0, 1, 2 or 4 validators ... *)
Theorem C01_supermajorities_intersect : forall (all A B : list N),
  let n := N.of_nat (length all) in
  NoDup A -> NoDup B -> incl A all -> incl B all ->
  n <> 0 -> n <> 1 -> n <> 2 -> n <> 4 ->
  supermajority_for n <= N.of_nat (length A) -> supermajority_for n <= N.of_nat (length B) ->
  exists v, In v A /\ In v B.
Proof. exact supermajorities_intersect. Qed.
Print Assumptions C01_supermajorities_intersect.

(** ... where it is false: with four validators, two disjoint pairs are both supermajorities. *)
Theorem C01_supermajorities_intersect_refuted : exists (all A B : list N),
  length all = 4%nat /\ NoDup A /\ NoDup B /\ incl A all /\ incl B all /\
  supermajority_for 4 <= N.of_nat (length A) /\ supermajority_for 4 <= N.of_nat (length B) /\
  ~ exists v, In v A /\ In v B.
Proof.
  exists [1;2;3;4], [1;2], [3;4]. repeat split; try (vm_compute; congruence).
  - apply NoDup_ListNoDup. repeat constructor; cbn; intuition lia.
  - apply NoDup_ListNoDup. repeat constructor; cbn; intuition lia.
  - intros x Hx. cbn in *. intuition.
  - intros x Hx. cbn in *. intuition.
  - intros (v & Ha & Hb). cbn in *. intuition lia.
Qed.
Print Assumptions C01_supermajorities_intersect_refuted.

(** A supermajority of a single validator is the empty set; from two on it is not. *)
Theorem C01_supermajority_positive_iff : forall n, 1 <= supermajority_for n <-> 2 <= n.
Proof. intros n. unfold supermajority_for. lia. Qed.
Print Assumptions C01_supermajority_positive_iff.

(** * C18 *)

(** The validator selected for sending is always a current validator and the stored index stays in
    range, whatever the stored index was before. *)
Theorem C18_sender_is_validator : forall vs i j a,
  advance_primary vs i = Ok (j, a) ->
  In a (map v_account vs) /\ j < N.of_nat (length vs) /\ j <= U8_MAX.
Proof. exact advance_primary_index. Qed.
Print Assumptions C18_sender_is_validator.

(** With 1 to 255 validators a turn of n selections visits every validator exactly once (with
    multiplicity), in list order starting after the current one, and returns to the same index. *)
Theorem C18_round_robin : forall vs i,
  (0 < length vs < 256)%nat -> i < N.of_nat (length vs) ->
  advance_n (length vs) vs i =
  Ok (i, drop (N.to_nat i + 1) (map v_account vs) ++ take (N.to_nat i + 1) (map v_account vs)).
Proof. exact advance_full_turn. Qed.
Print Assumptions C18_round_robin.

Theorem C18_fair : forall vs i,
  (0 < length vs < 256)%nat -> i < N.of_nat (length vs) ->
  exists l, advance_n (length vs) vs i = Ok (i, l) /\ Permutation l (map v_account vs).
Proof. exact advance_fair. Qed.
Print Assumptions C18_fair.
Example C18_fair_ex :
  advance_n 3 [mkValidator 10 1; mkValidator 20 2; mkValidator 30 3] 1 = Ok (1, [30; 10; 20]).
Proof. vm_compute. reflexivity. Qed.

(** With 256 validators, which the declared bound allows, no sender can be selected: the u8 cast of
    the length is zero and the remainder panics. *)
Theorem C18_selection_total_refuted : exists vs i,
  length vs = 256%nat /\ i <= U8_MAX /\
  advance_primary vs i = Err "panic: attempt to calculate the remainder with a divisor of zero".
Proof.
  exists (repeat (mkValidator 7 7) 256), 0. split; [reflexivity|]. split; [vm_compute; congruence|].
  vm_compute. reflexivity.
Qed.
Print Assumptions C18_selection_total_refuted.

(** The primary for a block or slot is the validator at position (number mod n), and so is periodic. *)
Theorem C18_primary_for_block : forall vs b, vs <> [] ->
  exists v, nth_error vs (N.to_nat (b mod N.of_nat (length vs))) = Some v /\
            primary_for_block vs b = Ok (v_account v).
Proof. exact primary_for_block_total. Qed.
Print Assumptions C18_primary_for_block.
Theorem C18_primary_for_block_periodic : forall vs b, vs <> [] ->
  primary_for_block vs (b + N.of_nat (length vs)) = primary_for_block vs b.
Proof. exact primary_for_block_periodic. Qed.
Print Assumptions C18_primary_for_block_periodic.

(** Session changes: afterwards exactly the incoming validators that are not disabled. *)
Theorem C18_new_session_exact : forall disabled incoming current v,
  In v (on_new_session disabled true incoming current) <->
  In v incoming /\ disabled (v_account v) = false.
Proof. exact new_session_no_disabled. Qed.
Print Assumptions C18_new_session_exact.

Theorem C18_removed_validator_is_gone : forall vs a, NoDup (map v_account vs) ->
  is_validator (remove_validator vs a) a = false /\
  (forall b, b <> a -> is_validator (remove_validator vs a) b = is_validator vs b).
Proof. exact remove_validator_gone. Qed.
Print Assumptions C18_removed_validator_is_gone.

(** * C23 *)

(** What the check establishes: the account is a validator and the signature verifies under the key
    *supplied with the transaction*. *)
Theorem C23_signature_check_partial : forall verify vs d v sg,
  signature_is_valid verify vs d v sg = true <->
  In (v_account v) (map v_account vs) /\ verify (v_key v) d sg = true.
Proof. exact signature_valid_iff. Qed.
Print Assumptions C23_signature_check_partial.

(** The property itself is false: for every signature scheme, whoever holds any key can sign as any
    validator, since the key is never compared with the registered one. *)
Theorem C23_signature_binds_account_refuted : forall (verify : N -> N -> N -> bool) attacker_key d sg,
  verify attacker_key d sg = true ->
  forall vs victim, In victim vs -> v_key victim <> attacker_key ->
  (forall w, In w vs -> v_key w <> attacker_key) ->
  signature_is_valid verify vs d (mkValidator (v_account victim) attacker_key) sg = true.
Proof.
  intros verify k d sg Hv vs victim Hin _ _. apply signature_valid_iff. cbn. split; [|exact Hv].
  now apply in_map.
Qed.
Print Assumptions C23_signature_binds_account_refuted.
Example C23_refuted_ex :
  let verify := fun k d s => s =? k * 1000 + d in
  signature_is_valid verify [mkValidator 10 1; mkValidator 20 2] 5 (mkValidator 10 99) 99005 = true.
Proof. vm_compute. reflexivity. Qed.
