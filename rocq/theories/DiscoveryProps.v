(** C64, C65: what an author's node reports of Ethereum.

    The specification is a [chain]: the logs of Ethereum in order.  A node is honest up to a block if the logs it returns for a
    filter ending at or before that block are those of the chain that match the filter (it may also fail to answer). *)
From Verif Require Import Base CodecModel CodecProofs AvnModel IncomingModel IncomingProofs3 IncomingProps ParseModel ParseProofs ParseCases ParseProps DiscoveryModel DiscoveryProofs.

Definition honest (final : N) (chain : list log) (nd : eth_node) : Prop :=
  forall q logs, nd_logs nd q = Some logs -> q_to q <= final -> logs = List.filter (matches q) chain.
Definition answers (nd : eth_node) : Prop := forall q, nd_logs nd q <> None.

Definition in_blocks (from to : N) (l : log) : Prop := exists b, lg_block l = Some b /\ from <= b <= to.
(** An event of one of the bridge's contracts, of any kind known. *)
Definition bridge_log (from to : N) (contracts : list N) (l : log) : Prop :=
  in_blocks from to l /\ In (lg_address l) contracts /\ exists k ts, is_primary k = true /\ lg_topics l = signature k :: ts.
(** A transfer of a token, by any contract, to one of the bridge's contracts. *)
Definition transfer_log (from to : N) (contracts : list N) (l : log) : Prop :=
  in_blocks from to l /\ exists sender to ts, In to contracts /\ lg_topics l = signature Erc20DirectTransfer :: sender :: to :: ts.
(** The log that speaks for a transaction: its first event of the bridge; if it has none and transfers are wanted, its first transfer
    to the bridge. *)
Definition first_such (P : log -> Prop) (chain : list log) (t : N) (l : log) : Prop :=
  exists before after, chain = before ++ l :: after /\ P l /\ lg_tx l = Some t /\ forall l', In l' before -> P l' -> lg_tx l' <> Some t.
Definition speaks_for (chain : list log) (from to : N) (contracts wanted : list N) (t : N) (l : log) : Prop :=
  first_such (bridge_log from to contracts) chain t l \/
  (In (signature Erc20DirectTransfer) wanted /\ first_such (transfer_log from to contracts) chain t l /\
   forall l', In l' chain -> bridge_log from to contracts l' -> lg_tx l' <> Some t).

Lemma matches_primary from to contracts l : matches (primary_query from to contracts) l = true <-> bridge_log from to contracts l.
Proof.
  unfold matches, primary_query, bridge_log, in_blocks. cbn [q_from q_to q_addresses q_topic0 q_topic2]. rewrite !andb_true_iff, mem_in. split.
  - intros [[[B A] T] _]. split; [|split; [done|]].
    + destruct (lg_block l) as [b|]; [|done]. exists b. rewrite andb_true_iff, !N.leb_le in B. done.
    + destruct (lg_topics l) as [|s ts]; [done|]. apply mem_in in T. apply in_map_iff in T as (k & <- & K). apply filter_In in K as [_ K]. eauto.
  - intros ((b & B & H) & A & k & ts & K & T). rewrite B, T. repeat split; try done.
    + rewrite andb_true_iff, !N.leb_le. done.
    + apply mem_in, in_map, filter_In. split; [by destruct k; cbn; tauto|done].
Qed.
Lemma matches_secondary from to contracts l : matches (secondary_query from to contracts) l = true <-> transfer_log from to contracts l.
Proof.
  unfold matches, secondary_query, transfer_log, in_blocks. cbn [q_from q_to q_addresses q_topic0 q_topic2]. rewrite !andb_true_iff. split.
  - intros [[[B _] T] T2]. split.
    + destruct (lg_block l) as [b|]; [|done]. exists b. rewrite andb_true_iff, !N.leb_le in B. done.
    + destruct (lg_topics l) as [|s [|a [|c ts]]]; cbn [nth_error] in T2; try done. apply mem_in in T2. apply mem_in in T. cbn [map List.filter kinds is_primary negb In] in T. destruct T as [<-|[]]. eauto.
  - intros ((b & B & H) & a & c & ts & C & T). rewrite B, T. cbn [nth_error]. repeat split; try done.
    + rewrite andb_true_iff, !N.leb_le. done.
    + by apply mem_in.
Qed.
Lemma wants_secondary_spec wanted : wants_secondary wanted = true <-> In (signature Erc20DirectTransfer) wanted.
Proof.
  unfold wants_secondary. rewrite existsb_exists. split.
  - intros (s & I & H). destruct (kind_of s) as [k|] eqn:K; [|done]. apply C63_kind_of_signature in K as ->. by destruct k.
  - intros I. exists (signature Erc20DirectTransfer). split; [done|]. assert (kind_of (signature Erc20DirectTransfer) = Some Erc20DirectTransfer) as -> by (by apply C63_kind_of_signature). done.
Qed.
Lemma first_such_filter (b : log -> bool) (P : log -> Prop) chain t l : (forall l, b l = true <-> P l) -> first_of t (List.filter b chain) l <-> first_such P chain t l.
Proof.
  intros E. rewrite first_filter. unfold first_such. split; intros (c1 & c2 & H1 & H2 & H3 & H4); exists c1, c2; (repeat split; try done); try (by apply E); intros l' I Hl; apply H4; try done; by apply E.
Qed.
(** The logs that discovery goes through. *)
Definition candidates (chain : list log) (from to : N) (contracts wanted : list N) : list log :=
  List.filter (matches (primary_query from to contracts)) chain ++
  (if wants_secondary wanted then List.filter (matches (secondary_query from to contracts)) chain else []).
Lemma first_candidates chain from to contracts wanted t l : first_of t (candidates chain from to contracts wanted) l <-> speaks_for chain from to contracts wanted t l.
Proof.
  unfold candidates, speaks_for. rewrite first_app, (first_such_filter _ _ chain t l (matches_primary from to contracts)).
  assert (N : (forall l', In l' (List.filter (matches (primary_query from to contracts)) chain) -> lg_tx l' <> Some t) <-> (forall l', In l' chain -> bridge_log from to contracts l' -> lg_tx l' <> Some t)).
  { split; intros H l' I; [intros P; apply H, filter_In; split; [done|by apply matches_primary]|]. apply filter_In in I as [I M]. apply H; [done|by apply matches_primary]. }
  rewrite N. destruct (wants_secondary wanted) eqn:W.
  - rewrite (first_such_filter _ _ chain t l (matches_secondary from to contracts)). apply wants_secondary_spec in W. tauto.
  - assert (~ In (signature Erc20DirectTransfer) wanted) by (rewrite <- wants_secondary_spec; congruence). split; [|tauto]. intros [H1|[_ F]]; [tauto|by apply first_nil in F].
Qed.
Lemma identify_parsed final chain nd from to contracts wanted fs : honest final chain nd -> to <= final -> identify_events nd from to contracts wanted = Parsed fs ->
  exists gs, collect [] (candidates chain from to contracts wanted) = Parsed gs /\ fs = List.filter (fun f => mem (fo_sig f) wanted) gs.
Proof.
  intros H F. unfold identify_events, ask. destruct (nd_logs nd (primary_query from to contracts)) as [l1|] eqn:Q1; cbn [pbind]; [|done]. pose proof (H _ _ Q1 F) as ->. unfold candidates. destruct (wants_secondary wanted).
  - destruct (nd_logs nd (secondary_query from to contracts)) as [l2|] eqn:Q2; cbn [pbind]; [|done]. pose proof (H _ _ Q2 F) as ->. destruct (collect [] _) as [gs| |]; cbn [pbind]; try done. intros [= <-]. eauto.
  - cbn [pbind]. destruct (collect [] _) as [gs| |]; cbn [pbind]; try done. intros [= <-]. eauto.
Qed.
Lemma identify_answered final chain nd from to contracts wanted : honest final chain nd -> to <= final -> answers nd ->
  identify_events nd from to contracts wanted = let! gs := collect [] (candidates chain from to contracts wanted) in Parsed (List.filter (fun f => mem (fo_sig f) wanted) gs).
Proof.
  intros H F A. unfold identify_events, ask, candidates. destruct (nd_logs nd (primary_query from to contracts)) as [l1|] eqn:Q1; [|by apply A in Q1]. pose proof (H _ _ Q1 F) as ->. cbn [pbind]. destruct (wants_secondary wanted); [|done].
  destruct (nd_logs nd (secondary_query from to contracts)) as [l2|] eqn:Q2; [|by apply A in Q2]. by rewrite (H _ _ Q2 F).
Qed.

(** ** C64 *)

(** What is reported: for each transaction the one log that speaks for it, if of a wanted kind. *)
Theorem C64_reported_exactly final chain nd from to contracts wanted fs : honest final chain nd -> to <= final ->
  identify_events nd from to contracts wanted = Parsed fs ->
  forall f, In f fs <-> In (fo_sig f) wanted /\ exists l, speaks_for chain from to contracts wanted (fo_tx f) l /\ parse_log l = Parsed f.
Proof.
  intros H F I f. destruct (identify_parsed _ _ _ _ _ _ _ _ H F I) as (gs & C & ->). rewrite filter_In, mem_in, (collect_in _ _ _ C f). split.
  - intros [(_ & l & Fl & P) W]. split; [done|]. exists l. split; [by apply first_candidates|done].
  - intros [W (l & S & P)]. split; [|done]. split; [by intros []|]. exists l. split; [by apply first_candidates|done].
Qed.
Theorem C64_once_per_transaction final chain nd from to contracts wanted fs : honest final chain nd -> to <= final ->
  identify_events nd from to contracts wanted = Parsed fs -> NoDup (map fo_tx fs).
Proof.
  intros H F I. destruct (identify_parsed _ _ _ _ _ _ _ _ H F I) as (gs & C & ->). apply collect_nodup in C. clear -C.
  induction gs as [|g gs IH]; [done|]. cbn [map] in C. apply NoDup_cons in C as [C1 C2]. cbn [List.filter]. destruct (mem (fo_sig g) wanted); [|by apply IH]. cbn [map]. apply NoDup_cons. split; [|by apply IH].
  rewrite elem_of_list_In in *. intros X. apply C1. apply in_map_iff in X as (h & E & X). apply filter_In in X as [X _]. rewrite <- E. by apply in_map.
Qed.
(** A reported event has the transaction, block and signature of its log, and the contents that the decoder of its kind (C63) gives; the
    token of a transfer is the contract that emitted it. *)
Definition contents (l : log) (e : event_data) : event_data :=
  match e with LogErc20Transfer d => LogErc20Transfer (mkLiftedData (lg_address l) (li_sender d) (li_receiver d) (li_amount d)) | e => e end.
Definition data_bytes (l : log) : option (list N) := match lg_data l with [] => None | d => Some d end.
Theorem C64_contents l f : bytes (lg_data l) -> parse_log l = Parsed f <->
  lg_tx l = Some (fo_tx f) /\ lg_block l = Some (fo_block f) /\
  exists k ts e, lg_topics l = signature k :: ts /\ fo_sig f = signature k /\ parse_event k (data_bytes l) (map word (lg_topics l)) = Parsed e /\ fo_data f = contents l e.
Proof.
  intros B. assert (O : octets (data_bytes l) (map word (lg_topics l))).
  { split; [unfold data_bytes; by destruct (lg_data l)|]. apply Forall_forall. intros x Hx. apply elem_of_list_fmap in Hx as (w & -> & _). apply word_bytes. }
  assert (Z : forall k e, parse_event k (data_bytes l) (map word (lg_topics l)) = Parsed e -> with_token (lg_address l) e = contents l e).
  { intros k e P. destruct e as [| | | | | | | | | | |d]; try done. cbn [with_token contents].
    destruct (decide (k = NftMint)) as [->|K1]; [by apply C63_mint_decoded in P as (? & ? & ? & ? & ? & ? & ? & ? & ? & ? & ? & ?)|].
    destruct (decide (k = NftCancelListing)) as [->|K2]; [by apply C63_cancel_decoded in P as (? & ? & ? & ? & ? & ? & ? & ? & ? & ? & ?)|].
    apply C63_nothing_else_decoded in P as (s & e & _ & _ & _ & _ & _ & E); try done. destruct e; try done. cbn [trim meaning] in E. injection E as ->. done. }
  unfold parse_log. change (map (be_bytes 32) (lg_topics l)) with (map word (lg_topics l)). change (match lg_data l with [] => None | _ :: _ => Some (lg_data l) end) with (data_bytes l).
  replace (match lg_data l with [] => None | d => Some d end) with (data_bytes l) by done.
  destruct (lg_topics l) as [|s ts] eqn:T; [split; [done|intros (_ & _ & k & ts & e & X & _); done]|].
  destruct (lg_tx l) as [tx|]; [|split; [done|by intros [X _]]]. unfold parse_by_registry. destruct (kind_of s) as [k|] eqn:K.
  - apply C63_kind_of_signature in K as ->. destruct (parse_event k (data_bytes l) _) as [e|e|] eqn:P; cbn [pbind].
    + destruct (lg_block l) as [b|]; [|split; [done|by intros (_ & X & _)]]. rewrite (Z k e P). split.
      * intros [= <-]. cbn. split; [done|]. split; [done|]. exists k, ts, e. done.
      * intros ([= E1] & [= E2] & k' & ts' & e' & X & E3 & P' & E4). injection X as X _. apply C63_signatures_distinct in X as <-. rewrite P in P'. injection P' as <-. destruct f; cbn in *. by subst.
    + split; [done|]. intros (_ & _ & k' & ts' & e' & X & _ & P' & _). injection X as X _. apply C63_signatures_distinct in X as <-. congruence.
    + split; [done|]. intros (_ & _ & k' & ts' & e' & X & _ & P' & _). injection X as X _. apply C63_signatures_distinct in X as <-. congruence.
  - cbn [pbind]. split; [done|]. intros (_ & _ & k' & ts' & e' & X & _). injection X as -> _. assert (kind_of (signature k') = Some k') by (by apply C63_kind_of_signature). congruence.
Qed.
(** So an event of the bridge that is alone in its transaction is reported with exactly the arguments it was emitted with. *)
Theorem C64_lone_event_reported final chain nd from to contracts wanted fs l t b e : honest final chain nd -> to <= final ->
  identify_events nd from to contracts wanted = Parsed fs ->
  In l chain -> In (lg_address l) contracts -> lg_tx l = Some t -> lg_block l = Some b -> from <= b <= to ->
  (forall l', In l' chain -> bridge_log from to contracts l' -> lg_tx l' = Some t -> l' = l) ->
  is_primary (kind_for e) = true -> In (signature (kind_for e)) wanted ->
  in_range e -> amount_of e < 2 ^ 128 -> reference_fits e -> map word (lg_topics l) = topics_of e -> data_bytes l = data_of e -> Forall (fun n => n < U256) (lg_topics l) ->
  In (mkFound t (signature (kind_for e)) (meaning e) b) fs.
Proof.
  intros H F I Il A T B Hb Only Pr W R Am Rf Tp Dt Tb.
  assert (By : bytes (lg_data l)).
  { pose proof (sol_octets e R) as [O _]. rewrite <- Dt in O. unfold data_bytes in O. destruct (lg_data l); [constructor|done]. }
  assert (Tl : exists ts, lg_topics l = signature (kind_for e) :: ts).
  { unfold topics_of in Tp. destruct (lg_topics l) as [|s ts]; [done|]. cbn [map] in Tp. apply (f_equal (hd [])) in Tp. cbn [hd] in Tp. exists ts. f_equal. apply Forall_cons in Tb as [Tb _]. apply word_inj; [done|by destruct e|done]. }
  destruct Tl as [ts Tl].
  apply (C64_reported_exactly _ _ _ _ _ _ _ _ H F I). split; [done|]. exists l. split.
  - left. assert (Bl : bridge_log from to contracts l) by (split; [by exists b|split; [done|by exists (kind_for e), ts]]).
    apply first_such_filter with (b := matches (primary_query from to contracts)); [apply matches_primary|].
    destruct (first_exists t (List.filter (matches (primary_query from to contracts)) chain)) as [l' Fl].
    { exists l. split; [apply filter_In; split; [done|by apply matches_primary]|done]. }
    assert (l' = l) as <-; [|done]. destruct Fl as (l1 & l2 & E & T' & _). assert (I' : In l' (List.filter (matches (primary_query from to contracts)) chain)) by (rewrite E; apply in_app_iff; right; by left).
    apply filter_In in I' as [I' M]. apply matches_primary in M. by apply Only.
  - apply C64_contents; [done|]. cbn [fo_tx fo_block fo_sig fo_data]. split; [done|]. split; [done|]. exists (kind_for e), ts, (meaning e). split; [done|]. split; [done|]. rewrite Tp, Dt. split; [by apply C63_events_decoded_exactly|]. by destruct e.
Qed.
(** Discovery succeeds exactly if every log that speaks for a transaction, wanted or not, can be decoded. *)
Theorem C64_success final chain nd from to contracts wanted : honest final chain nd -> to <= final -> answers nd ->
  (exists fs, identify_events nd from to contracts wanted = Parsed fs) <->
  forall t l, speaks_for chain from to contracts wanted t l -> exists f, parse_log l = Parsed f.
Proof.
  intros H F A. rewrite (identify_answered _ _ _ _ _ _ _ H F A). split.
  - intros [fs C] t l S. destruct (collect [] _) as [gs| |] eqn:E; cbn [pbind] in C; try done. eapply (collect_parses _ _ _ E t l); [by intros []|by apply first_candidates].
  - intros P. destruct (collect_total [] (candidates chain from to contracts wanted)) as [gs ->]; [|cbn; eauto]. intros t l _ Fl. apply (P t l). by apply first_candidates.
Qed.
(** Logs of other contracts have no influence unless transfers are wanted. *)
Theorem C64_others_harmless final chain chain' nd nd' from to contracts wanted : honest final chain nd -> honest final chain' nd' -> to <= final -> answers nd -> answers nd' ->
  ~ In (signature Erc20DirectTransfer) wanted ->
  List.filter (fun l => mem (lg_address l) contracts) chain = List.filter (fun l => mem (lg_address l) contracts) chain' ->
  identify_events nd from to contracts wanted = identify_events nd' from to contracts wanted.
Proof.
  intros H H' F A A' W E. rewrite (identify_answered _ _ _ _ _ _ _ H F A), (identify_answered _ _ _ _ _ _ _ H' F A'). f_equal. f_equal. unfold candidates.
  destruct (wants_secondary wanted) eqn:X; [by apply wants_secondary_spec in X|]. f_equal.
  assert (G : forall c, List.filter (matches (primary_query from to contracts)) c = List.filter (matches (primary_query from to contracts)) (List.filter (fun l => mem (lg_address l) contracts) c)).
  { clear. intros c. induction c as [|l c IH]; [done|]. cbn [List.filter]. destruct (mem (lg_address l) contracts) eqn:M; cbn [List.filter]; rewrite IH; [done|].
    replace (matches (primary_query from to contracts) l) with false; [done|]. symmetry. apply not_true_iff_false. rewrite matches_primary. intros (_ & B & _). apply mem_in in B. congruence. }
  by rewrite (G chain), E, <- G.
Qed.
Theorem C64_no_panic final chain nd from to contracts wanted : honest final chain nd -> to <= final -> Forall (fun l => bytes (lg_data l)) chain ->
  identify_events nd from to contracts wanted <> Panics.
Proof.
  intros H F B. unfold identify_events, ask. rewrite Forall_forall in B. setoid_rewrite elem_of_list_In in B.
  destruct (nd_logs nd (primary_query from to contracts)) as [l1|] eqn:Q1; cbn [pbind]; [|done]. pose proof (H _ _ Q1 F) as ->.
  assert (G : forall logs, (forall l, In l logs -> In l chain) -> collect [] logs <> Panics).
  { intros logs L C. apply collect_panics in C as (l & Il & P). destruct (parse_log_no_panic l) as [X|X]; [done|]. apply X, B, L, Il. }
  destruct (wants_secondary wanted).
  - destruct (nd_logs nd (secondary_query from to contracts)) as [l2|] eqn:Q2; cbn [pbind]; [|done]. pose proof (H _ _ Q2 F) as ->.
    destruct (collect [] _) eqn:C; cbn [pbind]; try done. exfalso. revert C. apply G. intros l. rewrite in_app_iff, !filter_In. tauto.
  - cbn [pbind]. destruct (collect [] _) eqn:C; cbn [pbind]; try done. exfalso. revert C. apply G. intros l. rewrite in_app_iff, !filter_In. cbn. tauto.
Qed.

(** *** What is lost *)
Definition node_of (latest : N) (chain : list log) (receipts : N -> option N) : eth_node :=
  mkNode (Some latest) (fun q => Some (List.filter (matches q) chain)) (fun t => Some (option_map Some (receipts t))).
Lemma node_of_honest latest chain receipts final : honest final chain (node_of latest chain receipts) /\ answers (node_of latest chain receipts).
Proof. split; [by intros q logs [= <-]|done]. Qed.
Definition log_of (address block tx : N) (e : solidity) : log :=
  mkLog address (map be_value (topics_of e)) (default [] (data_of e)) (Some block) (Some tx).
(** A bridge at 500; transaction 1 lifts twice. *)
Definition two_lifts : list log := [log_of 500 10 1 (SolLifted 7 8 100); log_of 500 10 1 (SolLifted 7 9 200)].
Theorem C64_every_event_reported_refuted :
  ~ forall final chain nd from to contracts wanted fs, honest final chain nd -> to <= final -> identify_events nd from to contracts wanted = Parsed fs ->
      forall l f, In l chain -> bridge_log from to contracts l -> parse_log l = Parsed f -> In (fo_sig f) wanted -> In f fs.
Proof.
  intros H. set (nd := node_of 100 two_lifts (fun _ => None)). set (f := mkFound 1 (signature Lifted) (LogLifted (mkLiftedData 7 0 9 200)) 10).
  assert (I : identify_events nd 0 50 [500] [signature Lifted] = Parsed [mkFound 1 (signature Lifted) (LogLifted (mkLiftedData 7 0 8 100)) 10]) by (vm_compute; reflexivity).
  specialize (H 50 two_lifts nd 0 50 [500] [signature Lifted] _ (proj1 (node_of_honest _ _ _ _)) ltac:(lia) I (log_of 500 10 1 (SolLifted 7 9 200)) f).
  destruct H as [H|[]]; [by right; left| |by vm_compute|by left|discriminate H].
  apply matches_primary. by vm_compute.
Qed.
(** A wanted event in the same transaction as an earlier unwanted one is lost: a claimed lower hides the lift after it. *)
Example C64_unwanted_hides_wanted :
  identify_events (node_of 100 [log_of 500 10 1 (SolLowerClaimed 3); log_of 500 10 1 (SolLifted 7 9 200)] (fun _ => None)) 0 50 [500] [signature Lifted] = Parsed [].
Proof. by vm_compute. Qed.
(** If transfers are wanted, anybody can stop discovery: a token whose Transfer event has four topics (ERC-721), sent to the bridge. *)
Theorem C64_unaffected_by_others_refuted :
  ~ forall chain chain' from to contracts wanted final nd nd', honest final chain nd -> honest final chain' nd' -> to <= final -> answers nd -> answers nd' ->
      List.filter (fun l => mem (lg_address l) contracts) chain = List.filter (fun l => mem (lg_address l) contracts) chain' ->
      forall fs, identify_events nd from to contracts wanted = Parsed fs -> exists fs', identify_events nd' from to contracts wanted = Parsed fs'.
Proof.
  intros H. set (good := [log_of 500 10 1 (SolLifted 7 8 100)]). set (token := mkLog 666 [signature Erc20DirectTransfer; 5; 500; 1] [] (Some 11) (Some 2)).
  assert (P : identify_events (node_of 100 good (fun _ => None)) 0 50 [500] [signature Lifted; signature Erc20DirectTransfer] =
    Parsed [mkFound 1 (signature Lifted) (LogLifted (mkLiftedData 7 0 8 100)) 10]) by (vm_compute; reflexivity).
  assert (A1 : answers (node_of 100 good (fun _ => None))) by exact (proj2 (node_of_honest _ _ _ 50)).
  assert (A2 : answers (node_of 100 (good ++ [token]) (fun _ => None))) by exact (proj2 (node_of_honest _ _ _ 50)).
  assert (F : List.filter (fun l => mem (lg_address l) [500]) good = List.filter (fun l => mem (lg_address l) [500]) (good ++ [token])) by (vm_compute; reflexivity).
  assert (L : 50 <= 50) by lia.
  destruct (H good (good ++ [token]) 0 50 [500] [signature Lifted; signature Erc20DirectTransfer] 50 _ _
    (proj1 (node_of_honest _ _ _ _)) (proj1 (node_of_honest _ _ _ _)) L A1 A2 F _ P) as [fs X].
  clear - X. vm_compute in X. discriminate X.
Qed.
(** Even among the bridge's own events one that cannot be decoded stops the discovery of all: a lift of 2^128 or more. *)
Example C64_undecodable_stops :
  identify_events (node_of 100 [log_of 500 10 1 (SolLifted 7 8 100); log_of 500 11 2 (SolLifted 9 8 (2 ^ 128))] (fun _ => None)) 0 50 [500] [signature Lifted] = Refused "LiftedEventDataOverflow".
Proof. by vm_compute. Qed.
Example C64_example :
  let chain := [log_of 500 10 1 (SolLifted 7 8 100); log_of 600 10 1 (SolErc20Transfer 3 500 100); log_of 600 12 2 (SolErc20Transfer 4 500 50); log_of 500 99 3 (SolGrowth 5 6)] in
  identify_events (node_of 100 chain (fun _ => None)) 0 50 [500] [signature Lifted; signature Erc20DirectTransfer; signature AvtGrowthLifted] =
  Parsed [mkFound 1 (signature Lifted) (LogLifted (mkLiftedData 7 0 8 100)) 10; mkFound 2 (signature Erc20DirectTransfer) (LogErc20Transfer (mkLiftedData 600 4 500 50)) 12].
Proof. by vm_compute. Qed.
