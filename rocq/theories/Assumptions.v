(** Generated by tools/assumptions.py: the assumptions of all the theorems named in MANIFEST.json, asked for together. *)
From Verif Require AbiProps AnchorProps AuthProps AuthorsProps AvnProps BridgeOcwProps BridgeOcwProps2 BridgeOcwProps3 BridgeProps CodecProps CorroborateProps DiscoveryProps DiscoveryProps2 EthKeyProps EventsOcwProps EventsOcwProps2 FeeProps IncomingProps LogProps MerkleProps MigrationProps NftProps OcwProps OffenceProps ParseProps ProxyProps RewardProps ServiceProps SessionProps SignedProps StakeProps StakeProps2 StakeProps3 StakeProps4 StakeProps5 StakeProps6 StakeProps7 StakeProps8 SummaryOcwProps SummaryOcwProps2 SummaryProps TokenProps TokenProps2 TxFeeProps ValProps WireProps.

Definition theorems_of_AbiProps :=
  (@AbiProps.C69_sent_is_signed,
   @AbiProps.C69_history,
   @AbiProps.C69_corroborate_asks,
   @AbiProps.C69_calldata_fixed_when_sent_refuted,
   @AbiProps.C69_malformed_panics_refuted,
   @AbiProps.C70_one_order_one_contract,
   @AbiProps.C70_one_lower_one_contract,
   @AbiProps.C70_call_is_no_claim,
   @AbiProps.C70_instance_refuted,
   @AbiProps.C70_chain_numbers,
   @AbiProps.C71_proof_is_claim,
   @AbiProps.C71_history,
   @AbiProps.C71_current_instance_refuted).
Definition theorems_of_AnchorProps :=
  (@AnchorProps.C44_only_new_checkpoints,
   @AnchorProps.C44_permanent,
   @AnchorProps.C44_numbered,
   @AnchorProps.C44_origin_unique,
   @AnchorProps.C44_recorded,
   @AnchorProps.C44_can_anchor,
   @AnchorProps.C45_one_handler,
   @AnchorProps.C45_changes,
   @AnchorProps.C45_names_permanent,
   @AnchorProps.C46_needs_signature,
   @AnchorProps.C46_signature_binds,
   @AnchorProps.C46_no_replay,
   @AnchorProps.C46_registration_replay_refuted,
   @AnchorProps.C47_submission_pays,
   @AnchorProps.C47_nothing_else_moves_money,
   @AnchorProps.C47_fee_is_roots).
Definition theorems_of_AuthProps :=
  (@AuthProps.C104_one_kind_of_call,
   @AuthProps.C104_other_kind_other_bytes).
Definition theorems_of_AuthorsProps :=
  (@AuthorsProps.C89_authors_follow_requests,
   @AuthorsProps.C89_bounded_and_distinct,
   @AuthorsProps.C89_add_request,
   @AuthorsProps.C89_remove_request,
   @AuthorsProps.C89_request_becomes_pending,
   @AuthorsProps.C89_changed_by_confirmation,
   @AuthorsProps.C89_result_accepted,
   @AuthorsProps.C89_confirmation_applied,
   @AuthorsProps.C89_request_ends,
   @AuthorsProps.C89_session_authors,
   @AuthorsProps.C90_keys_follow_requests_partial,
   @AuthorsProps.C90_holders_partial,
   @AuthorsProps.C90_one_key_partial,
   @AuthorsProps.C90_rotation,
   @AuthorsProps.C90_rotation_effect,
   @AuthorsProps.C91_published,
   @AuthorsProps.C91_current_key_partial,
   @AuthorsProps.C92_refused_request_undone,
   @AuthorsProps.C90_holders_refuted,
   @AuthorsProps.C90_one_key_refuted,
   @AuthorsProps.C90_author_loses_key_refuted,
   @AuthorsProps.C90_session_takes_key_refuted,
   @AuthorsProps.C91_current_key_refuted,
   @AuthorsProps.C93_table_built,
   @AuthorsProps.C93_inverse,
   @AuthorsProps.C93_check_passes,
   @AuthorsProps.C93_nothing_else).
Definition theorems_of_AvnProps :=
  (@AvnProps.C01_quorum_bounds,
   @AvnProps.C01_quorum_is_max_faults_plus_one,
   @AvnProps.C01_quorum_contains_honest,
   @AvnProps.C01_thresholds_partition,
   @AvnProps.C01_thresholds_monotone,
   @AvnProps.C01_supermajority_meets_quorum,
   @AvnProps.C01_supermajorities_intersect,
   @AvnProps.C01_supermajorities_intersect_refuted,
   @AvnProps.C01_supermajority_positive_iff,
   @AvnProps.C18_sender_is_validator,
   @AvnProps.C18_round_robin,
   @AvnProps.C18_fair,
   @AvnProps.C18_selection_total_refuted,
   @AvnProps.C18_primary_for_block,
   @AvnProps.C18_primary_for_block_periodic,
   @AvnProps.C18_new_session_exact,
   @AvnProps.C18_removed_validator_is_gone,
   @AvnProps.C23_signature_check_partial,
   @AvnProps.C23_signature_binds_account_refuted).
Definition theorems_of_BridgeOcwProps :=
  (@BridgeOcwProps.C85_success_is_signed,
   @BridgeOcwProps.C85_outcomes_are_true,
   @BridgeOcwProps.C85_honest_never_reported,
   @BridgeOcwProps.C85_failure_is_final,
   @BridgeOcwProps.C85_outcomes_are_true_refuted).
Definition theorems_of_BridgeOcwProps2 :=
  (@BridgeOcwProps2.C85_confirming_or_sending_consents,
   @BridgeOcwProps2.C86_messages_distinct,
   @BridgeOcwProps2.C86_tokens_distinct,
   @BridgeOcwProps2.C86_token_is_no_message,
   @BridgeOcwProps2.C86_not_a_summary_message,
   @BridgeOcwProps2.C86_hash_is_signed,
   @BridgeOcwProps2.C86_hash_is_of_the_attempt_refuted).
Definition theorems_of_BridgeOcwProps3 :=
  (@BridgeOcwProps3.C87_valid,
   @BridgeOcwProps3.C87_confirmation,
   @BridgeOcwProps3.C87_hash,
   @BridgeOcwProps3.C87_report,
   @BridgeOcwProps3.C87_report_counts_refuted,
   @BridgeOcwProps3.C88_confirmations_come,
   @BridgeOcwProps3.C88_sender_sends,
   @BridgeOcwProps3.C88_reports_come,
   @BridgeOcwProps3.C88_can_settle_refuted).
Definition theorems_of_BridgeProps :=
  (@BridgeProps.C09_publish_returns_counter,
   @BridgeProps.C09_ids_increase,
   @BridgeProps.C09_outstanding_not_settled,
   @BridgeProps.C09_reset_reuses_id_refuted,
   @BridgeProps.C10_queue,
   @BridgeProps.C10_fifo,
   @BridgeProps.C10_history,
   @BridgeProps.C10_queued_behind,
   @BridgeProps.C11_notified_exactly_once,
   @BridgeProps.C11_only_when_leaving,
   @BridgeProps.C12_settled_needs_quorum,
   @BridgeProps.C12_counted_once,
   @BridgeProps.C12_success_told_iff_recorded,
   @BridgeProps.C13_confirmations_partial,
   @BridgeProps.C13_proof_needs_supermajority,
   @BridgeProps.C13_distinct_keys_if_signatures_unique,
   @BridgeProps.C13_distinct_validators_refuted,
   @BridgeProps.C14_hash_set_once_by_sender_partial,
   @BridgeProps.C14_confirmations_first_refuted,
   @BridgeProps.C14_honest_worker_sends_confirmed,
   @BridgeProps.C35_enough_confirmations_complete_partial,
   @BridgeProps.C35_completion_refuted).
Definition theorems_of_CodecProps :=
  (@CodecProps.C07_roundtrip,
   @CodecProps.C07_length,
   @CodecProps.C07_injective,
   @CodecProps.C07_decode_total,
   @CodecProps.C07_canonical_iff_zero_padding,
   @CodecProps.C07_padding_ignored_refuted).
Definition theorems_of_CorroborateProps :=
  (@CorroborateProps.C68_service_answers,
   @CorroborateProps.C68_service_answers_query,
   @CorroborateProps.C68_confirmations,
   @CorroborateProps.C68_depth,
   @CorroborateProps.C68_depth_refuted,
   @CorroborateProps.C68_pending_refuted,
   @CorroborateProps.C68_pending,
   @CorroborateProps.C68_status_read,
   @CorroborateProps.C68_status_only,
   @CorroborateProps.C68_no_status_no_report,
   @CorroborateProps.C68_query_read,
   @CorroborateProps.C68_report_iff,
   @CorroborateProps.C68_unknown_transaction,
   @CorroborateProps.C68_settled_only_refuted,
   @CorroborateProps.C68_settled_only_partial,
   @CorroborateProps.C68_no_answer,
   @CorroborateProps.C68_event_depth,
   @CorroborateProps.C68_worker,
   @CorroborateProps.C68_view_ignores_block).
Definition theorems_of_DiscoveryProps :=
  (@DiscoveryProps.C64_reported_exactly,
   @DiscoveryProps.C64_once_per_transaction,
   @DiscoveryProps.C64_contents,
   @DiscoveryProps.C64_lone_event_reported,
   @DiscoveryProps.C64_success,
   @DiscoveryProps.C64_others_harmless,
   @DiscoveryProps.C64_no_panic,
   @DiscoveryProps.C64_every_event_reported_refuted,
   @DiscoveryProps.C64_unaffected_by_others_refuted).
Definition theorems_of_DiscoveryProps2 :=
  (@DiscoveryProps2.C65_votes_only_final,
   @DiscoveryProps2.C65_latest_block,
   @DiscoveryProps2.C65_votes_truthful,
   @DiscoveryProps2.C65_honest_nodes_agree,
   @DiscoveryProps2.C65_no_event_left_out,
   @DiscoveryProps2.C65_no_crash,
   @DiscoveryProps2.C65_confirmed_refuted,
   @DiscoveryProps2.C65_author).
Definition theorems_of_EthKeyProps :=
  (@EthKeyProps.C102_the_point_of_the_key,
   @EthKeyProps.C102_refused,
   @EthKeyProps.C102_round_trip,
   @EthKeyProps.C102_keys_are_told_apart,
   @EthKeyProps.C102_published_parameters,
   @EthKeyProps.C102_both_roots,
   @EthKeyProps.C102_compress_unchecked).
Definition theorems_of_EventsOcwProps :=
  (@EventsOcwProps.C95_honest_checks_true,
   @EventsOcwProps.C95_honest_challenges_just,
   @EventsOcwProps.C95_honest_challengers_just,
   @EventsOcwProps.C96_true_check_stands,
   @EventsOcwProps.C97_outvoted,
   @EventsOcwProps.C97_worker_challenges,
   @EventsOcwProps.C97_challenge_stays,
   @EventsOcwProps.C97_looks_once,
   @EventsOcwProps.C96_honest_author_reported_refuted,
   @EventsOcwProps.C97_all_look_refuted).
Definition theorems_of_EventsOcwProps2 :=
  (@EventsOcwProps2.C98_worker_checks,
   @EventsOcwProps2.C98_worker_processes).
Definition theorems_of_FeeProps :=
  (@FeeProps.C30_not_included,
   @FeeProps.C30_charge,
   @FeeProps.C30_pays_price,
   @FeeProps.C30_no_adjustment_no_difference,
   @FeeProps.C30_never_more_than_ordinary_partial,
   @FeeProps.C30_tip_in_full,
   @FeeProps.C30_count_exact,
   @FeeProps.C30_count_total,
   @FeeProps.C30_time_exact,
   @FeeProps.C30_unlimited,
   @FeeProps.C30_removed,
   @FeeProps.C30_only_root,
   @FeeProps.C30_stored_terms,
   @FeeProps.C30_fixed_fee_may_cost_more_refuted,
   @FeeProps.C30_no_refund_when_emptied_refuted).
Definition theorems_of_IncomingProps :=
  (@IncomingProps.C08_handled_at_most_once,
   @IncomingProps.C08_handled_is_recorded,
   @IncomingProps.C08_only_by_quorum,
   @IncomingProps.C08_wanted_events_recorded,
   @IncomingProps.C08_handed_over_records_refuted,
   @IncomingProps.C15_moves_only_by_quorum,
   @IncomingProps.C15_walks_accepted_partitions,
   @IncomingProps.C15_no_gaps,
   @IncomingProps.C15_quorum_moves_on,
   @IncomingProps.C16_first_range_backed_by_votes,
   @IncomingProps.C16_minority_cannot_choose,
   @IncomingProps.C16_first_range_aligned,
   @IncomingProps.C17_nothing_lost_or_duplicated,
   @IncomingProps.C17_shape,
   @IncomingProps.C17_all_but_last_full,
   @IncomingProps.C17_empty,
   @IncomingProps.C17_transactions_represented,
   @IncomingProps.C17_acceptable_to_the_chain,
   @IncomingProps.C17_same_transaction_refuted,
   @IncomingProps.C36_reports_exactly_the_other_votes,
   @IncomingProps.C36_one_standing_vote,
   @IncomingProps.C36_all_other_votes_reported).
Definition theorems_of_LogProps :=
  (@LogProps.C57_delivered_once,
   @LogProps.C57_delivered_as_checked,
   @LogProps.C57_processed_for_ever,
   @LogProps.C58_one_place,
   @LogProps.C58_add_accepted,
   @LogProps.C58_waits,
   @LogProps.C58_checked_kept_partial,
   @LogProps.C58_processable,
   @LogProps.C58_checked_lost_refuted,
   @LogProps.C59_challenge_accepted,
   @LogProps.C59_challengers_distinct,
   @LogProps.C59_decision,
   @LogProps.C59_challenges_fit_partial,
   @LogProps.C59_stale_challenges_refuted,
   @LogProps.C59_too_many_validators_refuted,
   @LogProps.C60_needs_signature,
   @LogProps.C60_signature_binds,
   @LogProps.C60_no_replay,
   @LogProps.C62_honest_check,
   @LogProps.C62_honest_agree,
   @LogProps.C62_false_check_challenged,
   @LogProps.C62_suppression_refuted,
   @LogProps.C62_next_to_check,
   @LogProps.C62_next_to_check_found,
   @LogProps.C62_next_to_validate,
   @LogProps.C62_next_to_process,
   @LogProps.C62_settings).
Definition theorems_of_MerkleProps :=
  (@MerkleProps.C33_root_defined,
   @MerkleProps.C33_path_verifies,
   @MerkleProps.C33_root_commits,
   @MerkleProps.C33_only_leaves_verify,
   @MerkleProps.C33_inner_nodes_verify_refuted,
   @MerkleProps.C33_order_refuted,
   @MerkleProps.C33_nodes_agree,
   @MerkleProps.C33_only_final,
   @MerkleProps.C33_root_covers_range).
Definition theorems_of_MigrationProps :=
  (@MigrationProps.C78_once,
   @MigrationProps.C78_up_to_date,
   @MigrationProps.C78_period,
   @MigrationProps.C78_same_lowers,
   @MigrationProps.C78_undecodable_kept,
   @MigrationProps.C78_lowers_kept,
   @MigrationProps.C78_own_check_refuted,
   @MigrationProps.C79_once,
   @MigrationProps.C79_up_to_date,
   @MigrationProps.C79_version_and_size,
   @MigrationProps.C79_queue_kept,
   @MigrationProps.C79_active_kept,
   @MigrationProps.C79_active_kept_from_3,
   @MigrationProps.C79_range_kept,
   @MigrationProps.C79_agrees_with_lowers,
   @MigrationProps.C79_own_check,
   @MigrationProps.C79_from_3_refuted,
   @MigrationProps.C79_own_check_refuted,
   @MigrationProps.C80_inverse,
   @MigrationProps.C80_once,
   @MigrationProps.C80_own_check,
   @MigrationProps.C80_restores,
   @MigrationProps.C80_any_chain_refuted,
   @MigrationProps.C22_upgrade,
   @MigrationProps.C22_upgrade_punctual_refuted).
Definition theorems_of_NftProps :=
  (@NftProps.C24_permanent,
   @NftProps.C24_references_unique,
   @NftProps.C24_ids_minted_once,
   @NftProps.C24_taken_reference_rejected,
   @NftProps.C25_supply,
   @NftProps.C25_created_once,
   @NftProps.C25_mint_only_while_listed,
   @NftProps.C25_listed_by_creator,
   @NftProps.C25_failed_event_changes_nothing,
   @NftProps.C26_owner_change,
   @NftProps.C26_listed_exists,
   @NftProps.C26_listed_by_owner,
   @NftProps.C27_nonce_counts_changes,
   @NftProps.C27_needs_signature,
   @NftProps.C27_no_payload_twice,
   @NftProps.C27_payload_unambiguous,
   @NftProps.C27_no_signature_twice,
   @NftProps.C27_sale_event_once,
   @NftProps.C28_royalties_bounded,
   @NftProps.C28_every_nft_has_royalties,
   @NftProps.C28_royalties_as_given,
   @NftProps.C28_royalties_never_change).
Definition theorems_of_OcwProps :=
  (@OcwProps.C72_runs_strictly_increase,
   @OcwProps.C72_no_block_twice,
   @OcwProps.C72_already_run_has_a_reason,
   @OcwProps.C72_failure_has_a_reason,
   @OcwProps.C72_undisturbed_worker_runs,
   @OcwProps.C72_newest_block_runs_refuted,
   @OcwProps.C73_second_acquisition_is_after_the_deadline,
   @OcwProps.C73_one_holder,
   @OcwProps.C73_work_is_not_repeated_early,
   @OcwProps.C73_refusal_has_a_reason,
   @OcwProps.C73_lock_is_free_after_the_deadline,
   @OcwProps.C73_unused_lock_is_free,
   @OcwProps.C73_one_holder_refuted,
   @OcwProps.C73_failed_work_was_not_done_refuted,
   @OcwProps.C73_question_is_harmless_refuted,
   @OcwProps.C74_locks_of_different_work_differ,
   @OcwProps.C74_records_and_locks_are_apart,
   @OcwProps.C74_instances_are_apart_refuted).
Definition theorems_of_OffenceProps :=
  (@OffenceProps.C61_once_per_registration,
   @OffenceProps.C61_slash_only_if_on,
   @OffenceProps.C61_offenders_handled,
   @OffenceProps.C61_newly_handled,
   @OffenceProps.C61_setting,
   @OffenceProps.C61_record,
   @OffenceProps.C61_forgiven_refuted).
Definition theorems_of_ParseProps :=
  (@ParseProps.C63_events_decoded_exactly,
   @ParseProps.C63_large_amounts_refused,
   @ParseProps.C63_trim_of_typed_arguments,
   @ParseProps.C63_nothing_else_decoded,
   @ParseProps.C63_mint_decoded,
   @ParseProps.C63_cancel_decoded,
   @ParseProps.C63_no_panic,
   @ParseProps.C63_panic_only_short_cancel,
   @ParseProps.C63_short_topic_panics_refuted,
   @ParseProps.C63_mint_reference,
   @ParseProps.C63_reference_exact_refuted,
   @ParseProps.C63_signatures_distinct,
   @ParseProps.C63_kind_of_signature,
   @ParseProps.C63_legacy_lifts_unknown,
   @ParseProps.C63_two_decoders_agree,
   @ParseProps.C63_pallet_refuses_transfers,
   @ParseProps.C63_valid_events).
Definition theorems_of_ProxyProps :=
  (@ProxyProps.C29_rejected_changes_nothing,
   @ProxyProps.C29_charged_exactly_once,
   @ProxyProps.C29_without_payment,
   @ProxyProps.C29_accepted_when,
   @ProxyProps.C29_nonces_only_by_payment,
   @ProxyProps.C29_payment_binds,
   @ProxyProps.C29_no_payment_twice,
   @ProxyProps.C29_no_payment_signature_twice,
   @ProxyProps.C29_composes).
Definition theorems_of_RewardProps :=
  (@RewardProps.C48_budget_covered,
   @RewardProps.C48_era_budget,
   @RewardProps.C48_only_from_pot,
   @RewardProps.C49_settlement,
   @RewardProps.C49_once,
   @RewardProps.C49_points,
   @RewardProps.C49_era_total,
   @RewardProps.C49_all_paid,
   @RewardProps.C49_all_settled,
   @RewardProps.C50_reported,
   @RewardProps.C51_paid_once,
   @RewardProps.C51_marked_stays,
   @RewardProps.C51_payout,
   @RewardProps.C51_payout_total,
   @RewardProps.C51_exact_refuted,
   @RewardProps.C51_no_partial_payment_refuted).
Definition theorems_of_ServiceProps :=
  (@ServiceProps.C66_sign_iff,
   @ServiceProps.C66_key_named,
   @ServiceProps.C66_either_case,
   @ServiceProps.C66_transactions_ordered,
   @ServiceProps.C66_pool_signed,
   @ServiceProps.C66_once_per_request,
   @ServiceProps.C66_tokens_separate,
   @ServiceProps.C66_token_content,
   @ServiceProps.C66_request_read_back,
   @ServiceProps.C66_request_canonical,
   @ServiceProps.C66_token_read_back,
   @ServiceProps.C66_unauthorised_harmless_refuted,
   @ServiceProps.C66_unauthorised_partial,
   @ServiceProps.C66_token_used_once_refuted,
   @ServiceProps.C67_nonces_increase,
   @ServiceProps.C67_nonces_consecutive,
   @ServiceProps.C67_hash_means_taken,
   @ServiceProps.C67_error_means_not_taken_partial,
   @ServiceProps.C67_error_means_not_taken_refuted,
   @ServiceProps.C67_low_nonce_recovers,
   @ServiceProps.C67_ahead_is_permanent,
   @ServiceProps.C67_nonces_distinct_across_restart_refuted).
Definition theorems_of_SessionProps :=
  (@SessionProps.C75_one_session_per_era,
   @SessionProps.C75_fixed_within_an_era,
   @SessionProps.C75_authors_of_an_era,
   @SessionProps.C75_unselected_stop,
   @SessionProps.C75_avn_list_is_the_authors,
   @SessionProps.C75_keys_have_one_owner,
   @SessionProps.C75_selected_author_refuted,
   @SessionProps.C76_selection_never_empties,
   @SessionProps.C76_authors_never_run_out,
   @SessionProps.C76_blocks_go_on,
   @SessionProps.C76_guard_suffices_refuted,
   @SessionProps.C77_leaves_only_when_out,
   @SessionProps.C77_only_deregistration_begins_it,
   @SessionProps.C77_deregistration_begins_it,
   @SessionProps.C77_does_leave,
   @SessionProps.C77_without_candidates_refuted,
   @SessionProps.C77_author_without_record_keeps_all).
Definition theorems_of_SignedProps :=
  (@SignedProps.C94_event_messages_distinct,
   @SignedProps.C94_log_messages_distinct,
   @SignedProps.C94_partitions_distinct,
   @SignedProps.C94_signed_partition,
   @SignedProps.C94_events_are_not_summaries,
   @SignedProps.C94_events_are_not_bridge,
   @SignedProps.C94_sign_token_is_no_message,
   @SignedProps.C94_one_meaning,
   @SignedProps.C94_send_token,
   @SignedProps.C94_send_token_first_byte).
Definition theorems_of_StakeProps :=
  (@StakeProps.C31_lists,
   @StakeProps.C31_record_exact,
   @StakeProps.C31_no_candidate_no_lists,
   @StakeProps.C32_nominator_exact,
   @StakeProps.C32_nominations_are_listed,
   @StakeProps.C32_requests_fit,
   @StakeProps.C32_not_both,
   @StakeProps.C37_never_overstated,
   @StakeProps.C37_exact_refuted,
   @StakeProps.C38_nominator_lock,
   @StakeProps.C38_candidate_lock,
   @StakeProps.C38_locks_covered,
   @StakeProps.C39_pool,
   @StakeProps.C39_pool_limit,
   @StakeProps.C41_no_panic,
   @StakeProps.C41_failure_changes_nothing).
Definition theorems_of_StakeProps2 :=
  (@StakeProps2.C40_requests_were_scheduled,
   @StakeProps2.C40_leaving_was_scheduled,
   @StakeProps2.C40_unbond_was_scheduled,
   @StakeProps2.C40_nominations_change_only_so,
   @StakeProps2.C40_bonds_change_only_so,
   @StakeProps2.C40_no_early_release,
   @StakeProps2.C40_due_request_executes,
   @StakeProps2.C40_due_nominator_leaves,
   @StakeProps2.C40_due_candidate_unbonds,
   @StakeProps2.C40_due_candidate_leaves).
Definition theorems_of_StakeProps3 :=
  (@StakeProps3.C39_selection,
   @StakeProps3.C39_selection_stays,
   @StakeProps3.C39_only_blocks_select,
   @StakeProps3.C41_calls_touch_nothing_else).
Definition theorems_of_StakeProps4 :=
  (@StakeProps4.C42_needs_signature,
   @StakeProps4.C42_nonces_only_by_relayed,
   @StakeProps4.C42_signature_binds,
   @StakeProps4.C42_no_replay).
Definition theorems_of_StakeProps5 :=
  (@StakeProps5.C43_nominate_exact,
   @StakeProps5.C43_bond_extra_exact,
   @StakeProps5.C43_unbond_exact).
Definition theorems_of_StakeProps6 :=
  (@StakeProps6.C37_join_counted,
   @StakeProps6.C37_candidate_bond_extra_counted,
   @StakeProps6.C37_bond_extra_counted,
   @StakeProps6.C37_nominate_counted).
Definition theorems_of_StakeProps7 :=
  (@StakeProps7.C37_exact_kept,
   @StakeProps7.C37_exact_without_leaving).
Definition theorems_of_StakeProps8 :=
  (@StakeProps8.C101_candidate_unbond_request,
   @StakeProps8.C101_signed_candidate_unbond_request,
   @StakeProps8.C101_go_online,
   @StakeProps8.C101_schedule_unbond,
   @StakeProps8.C101_join_minimum,
   @StakeProps8.C101_nominate_minimum,
   @StakeProps8.C101_signed_nominate_minimum,
   @StakeProps8.C101_signed_bond_extra_minimum,
   @StakeProps8.C101_execute_request_minimum,
   @StakeProps8.C101_bond_minimum,
   @StakeProps8.C101_bond_minimum_from_genesis,
   @StakeProps8.C101_nominator_minimum_refuted,
   @StakeProps8.C101_nominator_minimum_after_eviction_refuted).
Definition theorems_of_SummaryOcwProps :=
  (@SummaryOcwProps.C81_honest_votes_are_true,
   @SummaryOcwProps.C81_false_root_needs_dishonest_quorum,
   @SummaryOcwProps.C81_offences_exact,
   @SummaryOcwProps.C81_honest_not_blamed_for_rejecting,
   @SummaryOcwProps.C81_honest_roots_are_true_partial,
   @SummaryOcwProps.C81_one_vote_per_run,
   @SummaryOcwProps.C81_honest_never_reported_refuted,
   @SummaryOcwProps.C81_votes_are_bound_to_the_hash_refuted,
   @SummaryOcwProps.C81_registered_keys_enforced_refuted,
   @SummaryOcwProps.C81_honest_roots_are_true_refuted,
   @SummaryOcwProps.C82_messages_distinct,
   @SummaryOcwProps.C82_signature_effective_once,
   @SummaryOcwProps.C82_votes_are_bound_to_the_instance_refuted,
   @SummaryOcwProps.C83_submissions_pass_validation,
   @SummaryOcwProps.C83_record_accepted,
   @SummaryOcwProps.C83_vote_accepted,
   @SummaryOcwProps.C83_end_accepted,
   @SummaryOcwProps.C83_end_never_approves,
   @SummaryOcwProps.C83_enough_votes_approve_refuted,
   @SummaryOcwProps.C83_advance_accepted_iff_in_grace,
   @SummaryOcwProps.C83_challenge_accepted_iff_other,
   @SummaryOcwProps.C84_overdue_slot_challenged,
   @SummaryOcwProps.C84_overdue_slot_ends_refuted,
   @SummaryOcwProps.C84_worker_votes,
   @SummaryOcwProps.C84_worker_ends,
   @SummaryOcwProps.C84_worker_records).
Definition theorems_of_SummaryOcwProps2 :=
  (@SummaryOcwProps2.C81_sent_once).
Definition theorems_of_SummaryProps :=
  (@SummaryProps.C19_one_ballot_per_validator,
   @SummaryProps.C19_tally_exact,
   @SummaryProps.C19_ballots_only_in_open_sessions,
   @SummaryProps.C19_threshold_fixed,
   @SummaryProps.C19_outcome_exact,
   @SummaryProps.C19_ended_session_frozen,
   @SummaryProps.C20_range_approved_once,
   @SummaryProps.C20_approved_ranges_tile_partial,
   @SummaryProps.C20_approved_ranges_tile_refuted,
   @SummaryProps.C21_published_once_after_approval,
   @SummaryProps.C21_external_validation_required,
   @SummaryProps.C21_failed_handover_not_recoverable_by_admin_refuted,
   @SummaryProps.C22_slot_advances_by_one,
   @SummaryProps.C22_void_slot_reported_exactly_once,
   @SummaryProps.C22_slot_zero_never_reported,
   @SummaryProps.C34_periods_valid).
Definition theorems_of_TokenProps :=
  (@TokenProps.C02_conservation,
   @TokenProps.C02_no_overflow,
   @TokenProps.C02_transfers_keep_total,
   @TokenProps.C02_transfer_moves_exactly,
   @TokenProps.C02_fee_moves_exactly,
   @TokenProps.C03_issuance,
   @TokenProps.C03_lower_debits_exactly,
   @TokenProps.C03_transfers_keep_supply,
   @TokenProps.C04_needs_signature_over_current_nonce,
   @TokenProps.C04_payload_binds,
   @TokenProps.C04_nonce_steps,
   @TokenProps.C04_failure_changes_nothing,
   @TokenProps.C04_no_payload_accepted_twice,
   @TokenProps.C04_no_signature_accepted_twice,
   @TokenProps.C05_one_stage_partial,
   @TokenProps.C05_gone_is_explained,
   @TokenProps.C05_debit_when_executed,
   @TokenProps.C05_root_execute_reuses_id_refuted,
   @TokenProps.C06_settled_once,
   @TokenProps.C06_refund_effect_partial,
   @TokenProps.C06_settled_only_when_ready,
   @TokenProps.C06_consumed_without_credit_refuted).
Definition theorems_of_TokenProps2 :=
  (@TokenProps2.C103_frozen_is_not_spent,
   @TokenProps2.C103_frozen_stays_covered).
Definition theorems_of_TxFeeProps :=
  (@TxFeeProps.C100_base_fee,
   @TxFeeProps.C100_price_list,
   @TxFeeProps.C100_free_of_charge,
   @TxFeeProps.C100_monotone,
   @TxFeeProps.C100_never_more_than_predicted,
   @TxFeeProps.C100_splitting_never_saves,
   @TxFeeProps.C100_ordinary_sender_pays,
   @TxFeeProps.C100_known_sender_pays,
   @TxFeeProps.C100_room_is_charged_refuted).
Definition theorems_of_ValProps :=
  (@ValProps.C52_validators_follow_requests,
   @ValProps.C52_bounded_and_distinct,
   @ValProps.C52_add_request,
   @ValProps.C52_remove_request,
   @ValProps.C52_request_waits,
   @ValProps.C52_changed_by_confirmation,
   @ValProps.C52_decided_once,
   @ValProps.C52_pending_id_used,
   @ValProps.C53_keys_follow_requests,
   @ValProps.C53_tables_inverse,
   @ValProps.C53_one_key_one_account,
   @ValProps.C53_holders,
   @ValProps.C53_changed_by,
   @ValProps.C53_published,
   @ValProps.C54_failure_accepted,
   @ValProps.C54_refused_request_undone,
   @ValProps.C55_joins_and_leaves_follow_requests,
   @ValProps.C55_completed_once,
   @ValProps.C55_completed_when_out,
   @ValProps.C56_confirmation_applied_partial,
   @ValProps.C56_confirmation_applied_refuted).
Definition theorems_of_WireProps :=
  (@WireProps.C99_stays_on_the_machine,
   @WireProps.C99_same_address,
   @WireProps.C99_port_numbers,
   @WireProps.C99_bad_port_refuted,
   @WireProps.C99_same_address_refuted,
   @WireProps.C99_reaches,
   @WireProps.C99_block_numbers,
   @WireProps.C99_ethereum_block_refuted,
   @WireProps.C99_finalised_block,
   @WireProps.C99_root,
   @WireProps.C99_signature,
   @WireProps.C99_orders_arrive,
   @WireProps.C99_views_arrive,
   @WireProps.C99_queries_arrive,
   @WireProps.C99_only_whole_signatures,
   @WireProps.C99_only_200).

Definition all_theorems :=
  (theorems_of_AbiProps,
   theorems_of_AnchorProps,
   theorems_of_AuthProps,
   theorems_of_AuthorsProps,
   theorems_of_AvnProps,
   theorems_of_BridgeOcwProps,
   theorems_of_BridgeOcwProps2,
   theorems_of_BridgeOcwProps3,
   theorems_of_BridgeProps,
   theorems_of_CodecProps,
   theorems_of_CorroborateProps,
   theorems_of_DiscoveryProps,
   theorems_of_DiscoveryProps2,
   theorems_of_EthKeyProps,
   theorems_of_EventsOcwProps,
   theorems_of_EventsOcwProps2,
   theorems_of_FeeProps,
   theorems_of_IncomingProps,
   theorems_of_LogProps,
   theorems_of_MerkleProps,
   theorems_of_MigrationProps,
   theorems_of_NftProps,
   theorems_of_OcwProps,
   theorems_of_OffenceProps,
   theorems_of_ParseProps,
   theorems_of_ProxyProps,
   theorems_of_RewardProps,
   theorems_of_ServiceProps,
   theorems_of_SessionProps,
   theorems_of_SignedProps,
   theorems_of_StakeProps,
   theorems_of_StakeProps2,
   theorems_of_StakeProps3,
   theorems_of_StakeProps4,
   theorems_of_StakeProps5,
   theorems_of_StakeProps6,
   theorems_of_StakeProps7,
   theorems_of_StakeProps8,
   theorems_of_SummaryOcwProps,
   theorems_of_SummaryOcwProps2,
   theorems_of_SummaryProps,
   theorems_of_TokenProps,
   theorems_of_TokenProps2,
   theorems_of_TxFeeProps,
   theorems_of_ValProps,
   theorems_of_WireProps).
Print Assumptions all_theorems.
