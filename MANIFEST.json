{
 "claims": [
  {
   "property": "C01",
   "status": "proved",
   "theorems": [
    "C01_signed_call_single_use",
    "C01_signature_single_use"
   ],
   "note": "For every registry capacity of at least two (the runtime uses 50000)."
  },
  {
   "property": "C02",
   "status": "partial",
   "theorems": [
    "C02_registry_is_a_fifo_memory_partial",
    "C02_registry_never_corrupted_partial",
    "C02_registry_bounded_partial",
    "C02_limit_error_only_when_full_partial",
    "C02_capacity_one_refuted"
   ],
   "note": "Proved for every capacity of at least two. As stated, for any capacity, it is false: C02_capacity_one_refuted."
  },
  {
   "property": "C03",
   "status": "proved",
   "theorems": [
    "C03_acceptance_window",
    "C03_window_errors_exact"
   ],
   "note": "As long as block + window fits in u32."
  },
  {
   "property": "C04",
   "status": "proved",
   "theorems": [
    "C04_msa_ids_never_reused",
    "C04_controlled_ids_were_issued"
   ],
   "note": ""
  },
  {
   "property": "C05",
   "status": "partial",
   "theorems": [
    "C05_key_count_exact_partial",
    "C05_listing_exists",
    "C05_wrapped_calls_refuted"
   ],
   "note": "Proved for histories of top-level transactions (C05_key_count_exact_partial). Refuted when calls are wrapped in other calls (C05_wrapped_calls_refuted): the deletion of another MSA's key lowers the wrong counter."
  },
  {
   "property": "C06",
   "status": "proved",
   "theorems": [
    "C06_key_attached_only_with_both_signatures"
   ],
   "note": ""
  },
  {
   "property": "C07",
   "status": "proved",
   "theorems": [
    "C07_key_detached_only_by_own_msa",
    "C07_detached_by_own_msa_in_any_state",
    "C07_wrapped_calls_refuted"
   ],
   "note": "The property is about top-level transactions. C07_detached_by_own_msa_in_any_state needs no assumption about the past; that a retiring key is the last one (C07_key_detached_only_by_own_msa) assumes that no call was wrapped before. C07_wrapped_calls_refuted shows that the property fails for calls wrapped in another call (see C15)."
  },
  {
   "property": "C08",
   "status": "proved",
   "theorems": [
    "C08_retirement_conditions",
    "C08_retirement_is_permanent"
   ],
   "note": ""
  },
  {
   "property": "C09",
   "status": "partial",
   "theorems": [
    "C09_providers_stay_registered",
    "C09_providers_are_controlled_partial",
    "C09_wrapped_calls_refuted"
   ],
   "note": "Registration and name are permanent in every history (C09_providers_stay_registered); the controlling key is proved for top-level transactions (C09_providers_are_controlled_partial) and refuted with wrapped calls (C09_wrapped_calls_refuted)."
  },
  {
   "property": "C10",
   "status": "partial",
   "theorems": [
    "C10_delegation_needs_delegator_signature",
    "C10_schema_needs_delegator_signature_partial",
    "C10_same_block_refuted",
    "C10_double_schema_revocation_refuted"
   ],
   "note": "The delegation itself: fully proved. A schema inside it: proved for the blocks after the call; the same-block statement is refuted in two ways."
  },
  {
   "property": "C11",
   "status": "proved",
   "theorems": [
    "C11_grant_installs_exactly_the_requested_schemas"
   ],
   "note": ""
  },
  {
   "property": "C12",
   "status": "proved",
   "theorems": [
    "C12_schema_revocation_effect",
    "C12_revocation_is_lasting"
   ],
   "note": ""
  },
  {
   "property": "C13",
   "status": "proved",
   "theorems": [
    "C13_delegation_bounds"
   ],
   "note": ""
  },
  {
   "property": "C14",
   "status": "partial",
   "theorems": [
    "C14_admitted_key_calls_succeed",
    "C14_admitted_free_calls_succeed_partial",
    "C14_double_revocation_refuted"
   ],
   "note": "Proved for key deletion and retirement, and for revocations when the delegation was not already revoked in the same block; the remaining case is refuted."
  },
  {
   "property": "C15",
   "status": "partial",
   "theorems": [
    "C15_detach_partial",
    "C15_anyone_detaches_refuted",
    "C15_stranger_refuted"
   ],
   "note": "False of the code. C15_anyone_detaches_refuted: in every state, whoever controls any MSA detaches any key of any other MSA through a utility batch, because the batch filter uses any() and the ownership check is a transaction extension that sees the outer call only. C15_stranger_refuted is the same as a transaction in a reachable state. What holds: C15_detach_partial, keys are detached only by transactions that contain such a call, and if it is not wrapped, by a key of the MSA."
  },
  {
   "property": "C16",
   "status": "partial",
   "theorems": [
    "C16_past_checks_tell_the_truth_partial",
    "C16_past_checks_refuted"
   ],
   "note": "Proved when no grant was made after the block asked about; refuted otherwise."
  },
  {
   "property": "C17",
   "status": "partial",
   "theorems": [
    "C17_index_exact_partial",
    "C17_index_exact_at_final_partial",
    "C17_wrapped_delete_refuted",
    "C17_fork_refuted"
   ],
   "note": "Proved for every history of a node that follows one chain, every worker schedule and every lag of finality, whether or not events are removed after processing; no bound on blocks or keys. Restrictions: key deletions are not wrapped in other calls, no forks, at most 65535 calls per block. The first two are shown necessary by the two _refuted theorems (faithful code violates the listed statement)."
  },
  {
   "property": "C18",
   "status": "partial",
   "theorems": [
    "C18_converges_partial",
    "C18_after_initial_no_gap",
    "C18_never_stale_partial",
    "C18_interrupted_refuted"
   ],
   "note": "Proved for runs stopped after any write, locks lost or held, any number of times, provided a repeated initial indexing does not skip blocks. Without that proviso the listed statement is false of the code: C18_interrupted_refuted. C18_after_initial_no_gap shows the proviso concerns only the initial indexing; C18_never_stale_partial holds in the middle of the work."
  },
  {
   "property": "C20",
   "status": "proved",
   "theorems": [
    "C20_frozen_is_stake_plus_unlocking"
   ],
   "note": ""
  },
  {
   "property": "C21",
   "status": "proved",
   "theorems": [
    "C21_no_early_withdrawal",
    "C21_withdrawal_releases_thawed_chunks"
   ],
   "note": "While epoch + thaw period fits in u32 (the addition saturates there)."
  },
  {
   "property": "C22",
   "status": "proved",
   "theorems": [
    "C22_staked_tokens_conserved"
   ],
   "note": ""
  },
  {
   "property": "C23",
   "status": "proved",
   "theorems": [
    "C23_unlocking_list_bounded",
    "C23_unstake_keeps_every_chunk",
    "C23_unstake_refused_when_full"
   ],
   "note": ""
  },
  {
   "property": "C24",
   "status": "proved",
   "theorems": [
    "C24_remaining_at_most_issued"
   ],
   "note": ""
  },
  {
   "property": "C25",
   "status": "proved",
   "theorems": [
    "C25_spending_per_epoch_bounded",
    "C25_payment_exact"
   ],
   "note": ""
  },
  {
   "property": "C26",
   "status": "proved",
   "theorems": [
    "C26_no_dust_stakes"
   ],
   "note": ""
  },
  {
   "property": "C27",
   "status": "proved",
   "theorems": [
    "C27_epoch_progress",
    "C27_consecutive_blocks"
   ],
   "note": "For every state with an epoch number that fits in u32."
  },
  {
   "property": "C28",
   "status": "partial",
   "theorems": [
    "C28_each_stake_backed_partial",
    "C28_stake_backed_refuted",
    "C28_unlimited_refuted"
   ],
   "note": "Each single stake is backed. The total is not: staking the same tokens repeatedly is accepted (C28_stake_backed_refuted), without limit and under every configuration (C28_unlimited_refuted)."
  },
  {
   "property": "C29",
   "status": "partial",
   "theorems": [
    "C29_totals_single_target_partial",
    "C29_totals_refuted"
   ],
   "note": "Proved when every staker uses one target; refuted in general."
  },
  {
   "property": "C30",
   "status": "proved",
   "theorems": [
    "C30_unstake_reduces_capacity",
    "C30_share_is_proportional"
   ],
   "note": "With explicit error bounds for the parts-per-billion rounding. The 'amount equals targeted amount' case subtracts with saturation."
  },
  {
   "property": "C31",
   "status": "partial",
   "theorems": [
    "C31_replenish_by_amount_refuted"
   ],
   "note": "Refuted: the call never changes anything. (The function has no caller in the runtime.)"
  },
  {
   "property": "C32",
   "status": "proved",
   "theorems": [
    "C32_freeze_covers_unreleased",
    "C32_equal_after_claim"
   ],
   "note": ""
  },
  {
   "property": "C33",
   "status": "proved",
   "theorems": [
    "C33_schedule_arithmetic",
    "C33_accepted_iff_valid"
   ],
   "note": ""
  },
  {
   "property": "C34",
   "status": "proved",
   "theorems": [
    "C34_transfer_effect",
    "C34_transfer_accepted_iff",
    "C34_refused_changes_nothing",
    "C34_schedules_bounded"
   ],
   "note": "The token pallet moves the amount and sweeps a rest below the existential deposit; its own refusal conditions are an arbitrary flag."
  },
  {
   "property": "C35",
   "status": "proved",
   "theorems": [
    "C35_claim_effect",
    "C35_claim_idempotent"
   ],
   "note": ""
  },
  {
   "property": "C36",
   "status": "proved",
   "theorems": [
    "C36_conservation",
    "C36_added_is_transfers"
   ],
   "note": "For accounts whose schedules are not replaced by root."
  },
  {
   "property": "C39",
   "status": "proved",
   "theorems": [
    "C39_no_panic"
   ],
   "note": ""
  },
  {
   "property": "C40",
   "status": "proved",
   "theorems": [
    "C40_parse_iff",
    "C40_encoding_unambiguous"
   ],
   "note": ""
  },
  {
   "property": "C41",
   "status": "proved",
   "theorems": [
    "C41_pages_within_limits",
    "C41_every_entry_is_a_page"
   ],
   "note": ""
  },
  {
   "property": "C42",
   "status": "proved",
   "theorems": [
    "C42_item_actions_exact",
    "C42_out_of_range_rejected"
   ],
   "note": ""
  },
  {
   "property": "C43",
   "status": "proved",
   "theorems": [
    "C43_accepted_iff",
    "C43_accepted_effect",
    "C43_stale_call_rejected"
   ],
   "note": ""
  },
  {
   "property": "C44",
   "status": "partial",
   "theorems": [
    "C44_replay_rejected_partial",
    "C44_replay_needs_same_content_partial",
    "C44_hash_covers_nonce_and_data_partial",
    "C44_replay_after_delete_refuted",
    "C44_delete_replay_refuted",
    "C44_empty_page_replay_refuted",
    "C44_payload_follows_key_refuted"
   ],
   "note": "Proved while the place does not become vacant (and for fewer than 65535 calls, without hash collisions). Refuted otherwise: after a deletion, for pages without data, and for version-2 payloads when the key moves to another MSA."
  },
  {
   "property": "C45",
   "status": "proved",
   "theorems": [
    "C45_writes_isolated",
    "C45_runtime_parameters"
   ],
   "note": "The theorems of C41-C49 assume sizes_ok and hashes_ok, which C45_runtime_parameters discharges for the runtime up to collisions of Blake2-128 on MSA ids. C49 also assumes key_hash_ok, which C49_schema_keys_differ proves for Twox128."
  },
  {
   "property": "C46",
   "status": "proved",
   "theorems": [
    "C46_append_only_items_permanent"
   ],
   "note": ""
  },
  {
   "property": "C47",
   "status": "proved",
   "theorems": [
    "C47_signature_required_needs_owner"
   ],
   "note": ""
  },
  {
   "property": "C48",
   "status": "proved",
   "theorems": [
    "C48_changes_are_authorised"
   ],
   "note": ""
  },
  {
   "property": "C50",
   "status": "proved",
   "theorems": [
    "C50_suffixes_enumerate_range",
    "C50_runtime_generator"
   ],
   "note": "For every generator that answers within the range asked for, which is proved of the runtime's, and every range below 65535; at maximum 65535 the u16 loop bound overflows."
  },
  {
   "property": "C51",
   "status": "partial",
   "theorems": [
    "C51_handle_is_latest_announced",
    "C51_lookup_sound",
    "C51_lookup_complete_partial",
    "C51_own_name_has_own_parts",
    "C51_unique_partial",
    "C51_others_untouched",
    "C51_claim_gives_handle",
    "C51_long_forms_refuted"
   ],
   "note": "At most one handle per MSA, events and sound lookup proved in full. Uniqueness and complete lookup proved for canonical forms of at most 32 bytes and refuted beyond: those all share the empty canonical base."
  },
  {
   "property": "C52",
   "status": "partial",
   "theorems": [
    "C52_claim_accepted_iff",
    "C52_change_accepted_iff",
    "C52_exhausted_partial",
    "C52_never_over_budget_partial",
    "C52_long_forms_refuted"
   ],
   "note": "Acceptance is characterised exactly, counting claims per stored canonical base. As stated it is false for canonical forms over 32 bytes, which share one stored base and hence one budget (C52_long_forms_refuted)."
  },
  {
   "property": "C53",
   "status": "proved",
   "theorems": [
    "C53_never_reissued",
    "C53_display_handles_distinct",
    "C53_suffixes_in_range"
   ],
   "note": ""
  },
  {
   "property": "C54",
   "status": "proved",
   "theorems": [
    "C54_no_early_retirement",
    "C54_inner_call_refuted"
   ],
   "note": "An exact characterisation for top-level transactions. Inside a batch or proxy call the check is not applied (C54_inner_call_refuted), and change_handle retires at any time."
  },
  {
   "property": "C55",
   "status": "partial",
   "theorems": [
    "C55_characters_partial",
    "C55_outside_ranges_refuted",
    "C55_reserved_word_refuted"
   ],
   "note": "Blocked characters, reserved words and lengths proved in full, ranges for characters below U+10000. Refuted above: only the low 16 bits are checked. Reserved words are compared before canonicalisation."
  },
  {
   "property": "C56",
   "status": "proved",
   "theorems": [
    "C56_split_back",
    "C56_build_total",
    "C56_display_injective",
    "C56_other_spellings_refuted"
   ],
   "note": "The converse does not hold: foo.+10 and foo.010 also resolve (C56_other_spellings_refuted)."
  },
  {
   "property": "C60",
   "status": "partial",
   "theorems": [
    "C60_messages_of_block_partial",
    "C60_overflow_refuted",
    "C60_at_most_65536"
   ],
   "note": "C60_messages_of_block_partial is for blocks with at most 65536 accepted messages; beyond that the index saturates and a message is lost (C60_overflow_refuted)."
  },
  {
   "property": "C61",
   "status": "proved",
   "theorems": [
    "C61_all_pages",
    "C61_growing_chain",
    "C61_terminates",
    "C61_page_sizes",
    "C61_answered_iff"
   ],
   "note": ""
  },
  {
   "property": "C62",
   "status": "partial",
   "theorems": [
    "C62_past_blocks",
    "C62_current_block_partial",
    "C62_overwritten_refuted"
   ],
   "note": "Past blocks unconditionally; the current block while it has at most 65536 messages; the 65537th replaces the 65536th (C62_overwritten_refuted)."
  },
  {
   "property": "C63",
   "status": "proved",
   "theorems": [
    "C63_attribution"
   ],
   "note": ""
  },
  {
   "property": "C70",
   "status": "proved",
   "theorems": [
    "C70_ids_dense",
    "C70_immutable",
    "C70_created_as_requested"
   ],
   "note": ""
  },
  {
   "property": "C71",
   "status": "proved",
   "theorems": [
    "C71_versions",
    "C71_ids_of_a_name",
    "C71_namespace",
    "C71_naming_accepted",
    "C71_naming_effect"
   ],
   "note": ""
  },
  {
   "property": "C72",
   "status": "partial",
   "theorems": [
    "C72_one_name_partial",
    "C72_second_name_refuted"
   ],
   "note": "Proved for schemas created with a name; refuted for schemas named through governance, which can get several names."
  },
  {
   "property": "C73",
   "status": "proved",
   "theorems": [
    "C73_accepted",
    "C73_queried",
    "C73_idempotent",
    "C73_text_determines_name"
   ],
   "note": ""
  },
  {
   "property": "C74",
   "status": "partial",
   "theorems": [
    "C74_every_schema",
    "C74_limit_announced",
    "C74_limit_bounded_partial",
    "C74_genesis_refuted"
   ],
   "note": "The size limit in force at creation is part of C100_creation_accepted. The governed maximum stays within the hard maximum if the genesis value does; genesis does not check it, so as stated that clause is false (C74_genesis_refuted)."
  },
  {
   "property": "C80",
   "status": "proved",
   "theorems": [
    "C80_accepted_exactly_when",
    "C80_charged_exactly"
   ],
   "note": "Exact condition for acceptance and exact effect on capacity and balances."
  },
  {
   "property": "C81",
   "status": "proved",
   "theorems": [
    "C81_too_long",
    "C81_atomic",
    "C81_all_ran"
   ],
   "note": "Too long batches and failing batches change nothing but fee and nonce; if the transaction succeeds all calls ran in order."
  },
  {
   "property": "C82",
   "status": "proved",
   "theorems": [
    "C82_monotone",
    "C82_never_zero",
    "C82_charge",
    "C82_batch_grows"
   ],
   "note": "For all lengths and weights, saturation included; C82_charge gives the exact fee of every transaction of u32 length."
  },
  {
   "property": "C83",
   "status": "partial",
   "theorems": [
    "C83_bare_call_partial",
    "C83_never_below_partial",
    "C83_estimate_refuted",
    "C83_empty_batch_refuted",
    "C83_ineligible_refuted"
   ],
   "note": "The statement is false: C83_estimate_refuted shows that for every wrapped transaction that fits into a block the estimate is too high, C83_empty_batch_refuted that an empty batch is estimated at zero, C83_ineligible_refuted that a rejected batch gets an estimate. Proved: equality for calls that are not wrapped, and that the estimate of a non-empty eligible batch is never below the charge."
  },
  {
   "property": "C84",
   "status": "partial",
   "theorems": [
    "C84_never_again_partial",
    "C84_passkey_never_again_partial",
    "C84_reset_partial",
    "C84_free_replay_refuted",
    "C84_reaped_replay_refuted"
   ],
   "note": "False of the code in two ways: C84_free_replay_refuted (a free transaction from an account without tokens stores no nonce) and C84_reaped_replay_refuted (removing the account resets the nonce). Proved: while the nonce is not reset to zero an included transaction or passkey payload is stale for ever, and what can reset it. Mortality of transactions (CheckEra) is not modelled."
  },
  {
   "property": "C85",
   "status": "partial",
   "theorems": [
    "C85_approved_partial",
    "C85_signature_ignored_refuted"
   ],
   "note": "C85_signature_ignored_refuted: the passkey signature is never checked. C85_approved_partial: the account must have signed the passkey's public key."
  },
  {
   "property": "C86",
   "status": "proved",
   "theorems": [
    "C86_only_transfers"
   ],
   "note": "Also: nothing but balances and nonces change and no other account loses tokens."
  },
  {
   "property": "C87",
   "status": "partial",
   "theorems": [
    "C87_some_allowed_partial",
    "C87_governance_only_partial",
    "C87_batch_refuted"
   ],
   "note": "C87_batch_refuted: one allowed call admits any blocked one. Proved: at least one call is not blocked, and on mainnet no transaction however nested registers a provider or schema."
  },
  {
   "property": "C88",
   "status": "partial",
   "theorems": [
    "C88_superset_partial",
    "C88_cancel_refuted"
   ],
   "note": "C88_cancel_refuted: NonTransfer is declared a superset of CancelProxy but does not allow reject_announcement. C88_superset_partial: this call is the only exception."
  },
  {
   "property": "C90",
   "status": "partial",
   "theorems": [
    "C90_freeze_replaces_lock_partial",
    "C90_same_tokens_protected",
    "C90_others_untouched",
    "C90_stakes_untouched",
    "C90_idempotent",
    "C90_unlock_only_refuted"
   ],
   "note": "Proved for every history of the pallet, with any other locks and freezes: accounts with active stake get exactly the locked amount frozen, nobody's protection changes, a second run is the identity. The listed statement fails for accounts that are only unstaking: C90_unlock_only_refuted. Pre-states are those of the present code with a lock in place of the freeze, since the older code is not in the repository; pallet_balances is modelled as maps from identifiers to amounts with the runtime's limit of two freezes."
  },
  {
   "property": "C91",
   "status": "proved",
   "theorems": [
    "C91_messages_kept",
    "C91_others_untouched",
    "C91_once"
   ],
   "note": ""
  },
  {
   "property": "C92",
   "status": "proved",
   "theorems": [
    "C92_frozen_amount",
    "C92_freeze_covers_unreleased",
    "C92_covers_for_ever",
    "C92_claim_releases_the_rest",
    "C92_idempotent"
   ],
   "note": "For every genesis and history, at the migration and for every later history. The migrated freeze counts the totals of the schedules, so it may exceed what is unreleased until the next claim (C92_claim_releases_the_rest)."
  },
  {
   "property": "C19",
   "status": "proved",
   "theorems": [
    "C19_delegations_target_registered_providers"
   ],
   "note": ""
  },
  {
   "property": "C94",
   "status": "proved",
   "theorems": [
    "C94_reported_grants_agree_with_check"
   ],
   "note": ""
  },
  {
   "property": "C95",
   "status": "proved",
   "theorems": [
    "C95_active_delegation_can_be_revoked"
   ],
   "note": ""
  },
  {
   "property": "C96",
   "status": "proved",
   "theorems": [
    "C96_create_available"
   ],
   "note": ""
  },
  {
   "property": "C97",
   "status": "proved",
   "theorems": [
    "C97_root_update_accepted_iff",
    "C97_root_update_effect"
   ],
   "note": ""
  },
  {
   "property": "C93",
   "status": "partial",
   "theorems": [
    "C93_handle_signature_binds_payload_partial",
    "C93_handle_as_page_delete_refuted",
    "C93_add_key_signature_binds_payload_partial",
    "C93_add_provider_signature_binds_payload_partial",
    "C93_msa_payload_kinds_differ_partial",
    "C93_storage_signature_binds_payload_partial",
    "C93_delegation_as_write_refuted"
   ],
   "note": "Signatures bind every field of a payload of a given kind (MSA, storage and handle payloads), and the two MSA kinds are disjoint. Refuted across pallets: a delegation payload can also be a storage write, and a handle claim a page deletion."
  },
  {
   "property": "C37",
   "status": "proved",
   "theorems": [
    "C37_thawed_tokens_withdrawable"
   ],
   "note": ""
  },
  {
   "property": "C38",
   "status": "proved",
   "theorems": [
    "C38_stake_recoverable"
   ],
   "note": ""
  },
  {
   "property": "C49",
   "status": "proved",
   "theorems": [
    "C49_schema_keys_differ",
    "C49_runtime_listing_exact",
    "C49_listing_exact",
    "C49_items_exact"
   ],
   "note": "C49 needs that Twox128 does not collide on schema ids: C49_schema_keys_differ proves it for the modelled XXH64 (65536 ids, by injectivity of its steps and one computation); C49_runtime_listing_exact is the listing for the runtime's parameters, assuming only that Blake2-128 does not collide on MSA ids."
  },
  {
   "property": "C98",
   "status": "proved",
   "theorems": [
    "C98_announced_hash_is_current",
    "C98_events_chain"
   ],
   "note": ""
  },
  {
   "property": "C57",
   "status": "proved",
   "theorems": [
    "C57_changes_are_authorised"
   ],
   "note": ""
  },
  {
   "property": "C58",
   "status": "partial",
   "theorems": [
    "C58_claim_not_replayed_partial",
    "C58_replay_as_change_refuted"
   ],
   "note": "Proved for replay as a claim among top-level claims and retirements. Refuted through change_handle, which accepts the same signed payload any number of times before it expires."
  },
  {
   "property": "C59",
   "status": "proved",
   "theorems": [
    "C59_next_suffixes",
    "C59_list_is_order_of_claims"
   ],
   "note": ""
  },
  {
   "property": "C99",
   "status": "partial",
   "theorems": [
    "C99_claimed_handles_validate_partial",
    "C99_validate_iff_partial",
    "C99_validate_refuted"
   ],
   "note": "Every claimable base validates, and validation is characterised exactly. Refuted in the other direction: the canonical length and the length in bytes are not checked."
  },
  {
   "property": "C100",
   "status": "partial",
   "theorems": [
    "C100_creation_accepted_partial",
    "C100_any_number_reached",
    "C100_registration_limit_refuted"
   ],
   "note": "Acceptance is characterised exactly; the configured registration maximum is not enforced by the code (refuted)."
  },
  {
   "property": "C101",
   "status": "proved",
   "theorems": [
    "C101_signed_accounts",
    "C101_proposals"
   ],
   "note": ""
  },
  {
   "property": "C103",
   "status": "partial",
   "theorems": [
    "C103_ids_valid_partial",
    "C103_id_zero_refuted"
   ],
   "note": "Exact for non-zero ids; the id 0 is accepted by the code (refuted)."
  },
  {
   "property": "C104",
   "status": "proved",
   "theorems": [
    "C104_known_schemas_named",
    "C104_rest_unchanged",
    "C104_idempotent"
   ],
   "note": ""
  },
  {
   "property": "C105",
   "status": "proved",
   "theorems": [
    "C105_accepted_iff",
    "C105_announced_once"
   ],
   "note": ""
  },
  {
   "property": "C106",
   "status": "proved",
   "theorems": [
    "C106_unchanged",
    "C106_other_base",
    "C106_ipfs_round_trip"
   ],
   "note": "C106_unchanged and C106_other_base are about the actual base32 coding; the other bases are a parameter."
  },
  {
   "property": "C107",
   "status": "partial",
   "theorems": [
    "C107_case_partial",
    "C107_no_capitals",
    "C107_blanks",
    "C107_letter_l_refuted"
   ],
   "note": "Holds for white space and for the case of every ASCII letter except L (the Unicode decomposition tables are a parameter, assumed to leave ASCII letters alone). Refuted for L: the confusables table sends small l to the digit 1 and leaves capital L, so Lena.30 and lena.30 can belong to different MSAs (C107_letter_l_refuted)."
  },
  {
   "property": "C108",
   "status": "proved",
   "theorems": [
    "C108_restricted_proxies"
   ],
   "note": "The multisig escape is shown in C108_example."
  },
  {
   "property": "C109",
   "status": "proved",
   "theorems": [
    "C109_projection"
   ],
   "note": "Histories without wrapped calls project to histories whose calls passed the transaction extensions of the msa and handles pallets."
  },
  {
   "property": "C110",
   "status": "proved",
   "theorems": [
    "C110_vesting_tokens_stay"
   ],
   "note": "Composes the vesting proof with the model of token transfers, fees and staking."
  },
  {
   "property": "C111",
   "status": "proved",
   "theorems": [
    "C111_narrow_proxies"
   ],
   "note": "The calls of the governance pallets themselves are outside the model (no effect on modelled state)."
  },
  {
   "property": "C112",
   "status": "proved",
   "theorems": [
    "C112_no_tokens_created",
    "C112_untouched"
   ],
   "note": "Vesting schedules are excluded from the second part: governance may replace them. Multisig only with threshold one (as_multi_threshold_1); deposits of the proxy and multisig pallets are not modelled."
  },
  {
   "property": "C113",
   "status": "proved",
   "theorems": [
    "C113_capacity_of_providers"
   ],
   "note": ""
  },
  {
   "property": "C114",
   "status": "partial",
   "theorems": [
    "C114_handles_have_owners_partial",
    "C114_batch_refuted"
   ],
   "note": "False for wrapped calls (C114_batch_refuted): retire_msa in a batch skips the check that the MSA has no handle. Proved for histories whose transactions are not wrapped."
  },
  {
   "property": "C115",
   "status": "proved",
   "theorems": [
    "C115_staked_tokens_stay"
   ],
   "note": ""
  },
  {
   "property": "C116",
   "status": "proved",
   "theorems": [
    "C116_pages",
    "C116_messages"
   ],
   "note": "Hypotheses on the configuration as in C41 and C60 (page sizes fit u32, hash lengths); the runtime meets them."
  },
  {
   "property": "C117",
   "status": "proved",
   "theorems": [
    "C117_pool_accepts",
    "C117_ready"
   ],
   "note": "The checks of frame_system (versions, genesis, era, weight) are left out on both sides. get_priority is a parameter."
  },
  {
   "property": "C118",
   "status": "proved",
   "theorems": [
    "C118_conflicts"
   ],
   "note": "Tags are modelled as bytes. retire_handle provides no tag of its own, so several of them by one account can wait together."
  },
  {
   "property": "C119",
   "status": "partial",
   "theorems": [
    "C119_listed_partial",
    "C119_missing_partial",
    "C119_duplicates_refuted"
   ],
   "note": "False when two waiting transactions have the same nonce (C119_duplicates_refuted). Proved: what is listed is missing (if nonces are not close to 2^32), and everything missing is listed if waiting nonces are distinct. The guarantees of sc-transaction-pool are the record pool_rules."
  },
  {
   "property": "C120",
   "status": "partial",
   "theorems": [
    "C120_next_is_ready_partial",
    "C120_no_tokens_refuted"
   ],
   "note": "False for free transactions of accounts without tokens (C120_no_tokens_refuted, for all of them). Proved for paying or funded senders, unless the call moves tokens and the account is removed."
  },
  {
   "property": "C121",
   "status": "proved",
   "theorems": [
    "C121_no_tip_with_capacity"
   ],
   "note": ""
  },
  {
   "property": "C122",
   "status": "proved",
   "theorems": [
    "C122_events"
   ],
   "note": "An event is its encoding; the two index bytes come first (FRAME)."
  },
  {
   "property": "C123",
   "status": "proved",
   "theorems": [
    "C123_hex",
    "C123_text"
   ],
   "note": "impl_serde is a dependency, modelled without the skipping of white space."
  },
  {
   "property": "C124",
   "status": "partial",
   "theorems": [
    "C124_version1_accepted",
    "C124_accepted_partial",
    "C124_version0_refuted",
    "C124_trailing_refuted"
   ],
   "note": "Refuted: CIDs of version 0 written in base32, and bytes after the CID, are accepted. Proved: every CID of version 1 in base32 is accepted, and what is accepted in base32 begins with a CID. The other bases are a parameter."
  },
  {
   "property": "C125",
   "status": "proved",
   "theorems": [
    "C125_accepted_exactly",
    "C125_registered",
    "C125_one_reading"
   ],
   "note": "Which floating point numbers are in range is a parameter. serde_json and the code derived by serde are dependencies, modelled after their sources."
  },
  {
   "property": "C126",
   "status": "partial",
   "theorems": [
    "C126_accepted_exactly_partial",
    "C126_registered_partial",
    "C126_zstd_refuted",
    "C126_other_codec_refuted",
    "C126_meaningless_types_refuted"
   ],
   "note": "Refuted: ZSTD is refused and Z_S_T_D accepted instead; integers of any width and decimals with scale above precision are accepted. Proved: an exact description of the accepted texts."
  },
  {
   "property": "C127",
   "status": "partial",
   "theorems": [
    "C127_object_partial",
    "C127_no_type_refuted"
   ],
   "note": "Refuted: any JSON object is accepted. Proved: every registered Avro model is the text of a JSON object. Avro itself is not modelled; the refutation uses only that an Avro schema in the form of an object has the key type."
  },
  {
   "property": "C128",
   "status": "partial",
   "theorems": [
    "C128_only_on_expected_content_partial",
    "C128_hash_chosen_refuted",
    "C128_item_hash_chosen_refuted",
    "C128_replay_forced_refuted"
   ],
   "note": "The listed statement is refuted: the content hash is the first 32 bits of XXH64, and C128_hash_chosen_refuted shows for every writer, page, text and number that eight chosen bytes give the page that hash; C128_replay_forced_refuted turns this into the replay of any page payload that has not expired. The partial theorem says what is left: acceptance only on the expected content unless the 32 bits coincide."
  },
  {
   "property": "C129",
   "status": "proved",
   "theorems": [
    "C129_configuration",
    "C129_identity",
    "C129_schemas",
    "C129_handles",
    "C129_storage",
    "C129_messages",
    "C129_capacity",
    "C129_vesting",
    "C129_accounts",
    "C129_wrapped_calls_exceed_key_limit"
   ],
   "note": "Theorems about `deployed`, the runtime with the constants of the repository. C129_configuration shows that the hypotheses about the configuration in other theorems (sizes, hash lengths, generator, limits) hold for it; the others give the limits in numbers. Key counts and the controlling key of providers are stated for histories without wrapped calls, as in C05 and C09. Blake2's injectivity on 64 bit ids is a hypothesis of C129_storage only. C129_reached and C129_observed run a concrete history on mainnet rules. C129_wrapped_calls_exceed_key_limit shows that the condition on wrapped calls is needed: with a wrapped deletion an MSA gets 26 keys."
  },
  {
   "property": "C130",
   "status": "proved",
   "theorems": [
    "C130_checks",
    "C130_listing",
    "C130_one_provider",
    "C130_listed_is_usable"
   ],
   "note": "The first three theorems hold in any state; C130_listed_is_usable for every reachable state of the deployed runtime (needs that ends are never in the future, proved over histories). C130_case is a reachable state with a delegation."
  },
  {
   "property": "C131",
   "status": "proved",
   "theorems": [
    "C131_reported_name_is_found",
    "C131_found_msa_has_the_name",
    "C131_next_suffix",
    "C131_suffix_list",
    "C131_invalid_is_refused",
    "C131_errors"
   ],
   "note": "For every reachable state of the deployed runtime. The exception for names without canonical form is C51's finding; that some validated handles cannot be claimed is C99's. C131_case computes the queries and a change in a reachable state."
  },
  {
   "property": "C132",
   "status": "proved",
   "theorems": [
    "C132_answered",
    "C132_page_write",
    "C132_page_written",
    "C132_page_delete",
    "C132_item_append",
    "C132_item_appended",
    "C132_versions_can_be_fetched"
   ],
   "note": "For every reachable state of the deployed runtime with Blake2 injective on 64 bit ids. C132_page_write, C132_page_delete and C132_item_append are equivalences for keys of the owner; delegated writers are C45-C48. C132_case and C132_items_case compute reachable states."
  },
  {
   "property": "C133",
   "status": "proved",
   "theorems": [
    "C133_keys_from_events",
    "C133_providers_from_events",
    "C133_delegations_from_events",
    "C133_nothing_silent"
   ],
   "note": "Every history, with failing and wrapped calls. For delegations the events decide from the next block on (in the block of a revocation it is still honoured, C10)."
  },
  {
   "property": "C134",
   "status": "partial",
   "theorems": [
    "C134_retired_means_retired_partial",
    "C134_announced_while_controlled_refuted",
    "C134_unannounced_without_keys_refuted"
   ],
   "note": "Proved for transactions of their own; refuted when calls are wrapped, in both directions."
  },
  {
   "property": "C135",
   "status": "partial",
   "theorems": [
    "C135_claimed_amount_partial",
    "C135_claimed_amount_refuted",
    "C135_claims_do_not_add_up",
    "C135_schedules_from_events_partial",
    "C135_update_not_told_refuted"
   ],
   "note": "The amount in Claimed is what stays frozen (proved), which refutes the listed statement; schedules follow from the events for accounts without a root update, and the update event does not carry the new schedules (refuted)."
  },
  {
   "property": "C136",
   "status": "proved",
   "theorems": [
    "C136_stakes_from_events",
    "C136_provider_from_events"
   ],
   "note": "Every history from the empty chain; a provider's account for histories in which capacity is replenished only by paying, as in the runtime."
  },
  {
   "property": "C137",
   "status": "partial",
   "theorems": [
    "C137_supply_limited_partial",
    "C137_billion_refuted"
   ],
   "note": "Never more than 999,990,000 tokens (proved); the billion is refuted by the sum of the amounts in the chain specification. Pallets of Substrate that could move tokens other than by transfers and fees are not modelled."
  },
  {
   "property": "C138",
   "status": "partial",
   "theorems": [
    "C138_instant_seals_all",
    "C138_nothing_lost",
    "C138_sealed_once",
    "C138_blocks_on_request",
    "C138_no_empty_blocks_partial",
    "C138_instant_empty_refuted",
    "C138_chain_grows",
    "C138_answers_partial",
    "C138_answered_refuted"
   ],
   "note": "All but two parts of the statement are proved for every schedule: instant sealing can leave empty blocks, and one kind of command is not answered (both refuted)."
  },
  {
   "property": "C139",
   "status": "proved",
   "theorems": [
    "C139_capacity_throughput"
   ],
   "note": "Fees are those of the stated charging formula (C85) of the calls and length; the log is that of C75. C139_instance computes a failed batch that is charged and a stranger's transaction that is not included."
  },
  {
   "property": "C140",
   "status": "partial",
   "theorems": [
    "C140_undo_partial",
    "C140_paid_in_advance_partial",
    "C140_paid_since_genesis_partial",
    "C140_free_noop_refuted"
   ],
   "note": "C140_undo_partial: a successful free transaction undoes exactly one thing. C140_paid_in_advance_partial and C140_paid_since_genesis_partial: the successful ones are at most twice the calls in paid transactions. Refuted for failing ones (C140_free_noop_refuted): in the block in which a delegation was revoked the same revocation by a key without tokens is included any number of times, at no cost and without effect. The model has no block weight limit, which bounds it in practice."
  },
  {
   "property": "C141",
   "status": "partial",
   "theorems": [
    "C141_leave_partial",
    "C141_locked_in",
    "C141_leave_refuted"
   ],
   "note": "Proved for histories without wrapped calls (C141_leave_partial). Refuted with them: a stranger's wrapped deletion of a key leaves the victim's key count too high, so that the MSA can never be retired by plain calls (C141_leave_refuted, from the general C141_locked_in)."
  },
  {
   "property": "C142",
   "status": "proved",
   "theorems": [
    "C142_council_decides",
    "C142_prime_alone"
   ],
   "note": "The prime member's rule is part of the statement; C142_prime_alone shows it at work. pallet_collective itself is not in the repository; it is modelled from its documentation (DESIGN.md, section 3)."
  },
  {
   "property": "C143",
   "status": "partial",
   "theorems": [
    "C143_provider_partial",
    "C143_schema_partial",
    "C143_closed_too_early_refuted",
    "C143_motions_bounded",
    "C143_crowded_out_refuted"
   ],
   "note": "Proved: a provider proposal with a member in favour, and a schema proposal with more than half in favour of a council as large as when it was made, are carried out when anyone closes them (C143_provider_partial, C143_schema_partial); at most 25 motions are open (C143_motions_bounded). Refuted: one key can take all places (C143_crowded_out_refuted), and after the council grew a motion can be closed before the five days are over although nobody is against (C143_closed_too_early_refuted)."
  },
  {
   "property": "C144",
   "status": "proved",
   "theorems": [
    "C144_messages",
    "C144_pages",
    "C144_deeds_accepted"
   ],
   "note": "Calls may be wrapped; the list of calls that took effect (all_deeds) is defined from the history. When a revocation ends a permission is C10 and C12."
  },
  {
   "property": "C145",
   "status": "partial",
   "theorems": [
    "C145_closed_for_ever_partial",
    "C145_retiring_closes_partial",
    "C145_wrapped_refuted"
   ],
   "note": "Proved when the call to retire is the own call of the transaction, and for every MSA without key, handle and delegation in force. Missing: calls to retire inside of other calls, for which the checks are not made; there the property is false (C145_wrapped_refuted)."
  },
  {
   "property": "C146",
   "status": "proved",
   "theorems": [
    "C146_owner_can_erase",
    "C146_any_parameters"
   ],
   "note": "The calls are dispatched for the account; that it can pay for them is not part of the statement."
  },
  {
   "property": "C147",
   "status": "proved",
   "theorems": [
    "C147_chain_of_trust",
    "C147_take_back",
    "C147_stays_mine"
   ],
   "note": "That the transactions exist and are accepted is shown for a holder who is not disturbed by other transactions in between. Signatures are uninterpreted: signed_by is what the chain checks."
  },
  {
   "property": "C148",
   "status": "proved",
   "theorems": [
    "C148_left",
    "C148_issued"
   ],
   "note": "By how much it falls is C80 (fees) and C30 (unstaking)."
  },
  {
   "property": "C149",
   "status": "partial",
   "theorems": [
    "C149_own_share_partial",
    "C149_wiped_out_refuted"
   ],
   "note": "Refuted in general (C149_wiped_out_refuted, for every configuration and state): as the same tokens can be staked repeatedly and unstaking from one provider is not limited to what was staked for it, an account with few tokens takes all capacity of any provider away in one batch; C149_deployed shows it on the deployed runtime. Proved for histories in which each staker has a single provider."
  },
  {
   "property": "C150",
   "status": "proved",
   "theorems": [
    "C150_set_by_root",
    "C150_vesting_has_a_source",
    "C150_vesting_stays"
   ],
   "note": "From any state, so for every reachable one. C150_vesting_stays needs the relay block numbers not to go back, which the relay chain ensures."
  },
  {
   "property": "C151",
   "status": "partial",
   "theorems": [
    "C151_unstake_partial",
    "C151_withdraw_partial",
    "C151_cut_off_refuted",
    "C151_stuck_refuted"
   ],
   "note": "Proved for accounts that can pay the fee from tokens that are not frozen. Refuted in full: by staking the same tokens twice an account freezes more than it has, and nothing it sends is accepted any more (C151_cut_off_refuted for all configurations and states, C151_stuck_refuted for a history of the deployed runtime)."
  },
  {
   "property": "C152",
   "status": "partial",
   "theorems": [
    "C152_undisturbed_partial",
    "C152_blocked_refuted"
   ],
   "note": "Proved: calls that neither send the account schedules nor, by root, replace them leave an acceptable transfer acceptable (C152_undisturbed_partial). Refuted where others do send it schedules: fifty schedules of one smallest unit close an account until the last block number (C152_blocked_refuted; C152_deployed for the limits of the deployed chain). When exactly a transfer is accepted is C34_transfer_accepted_iff."
  },
  {
   "property": "C153",
   "status": "partial",
   "theorems": [
    "C153_still_free_partial",
    "C153_taken_away_refuted"
   ],
   "note": "Proved: claims of and changes to names of other forms, and retirements, leave a name that can be claimed as it was, for every MSA without a handle (C153_still_free_partial). Refuted where others claim names of the same form: with one signed payload, sent once as a claim and 90 times as a change, anybody closes the name for ever (C153_taken_away_refuted; C153_deployed)."
  },
  {
   "property": "C154",
   "status": "proved",
   "theorems": [
    "C154_usable_stays"
   ],
   "note": "For all states reached from any genesis: C154_usable_stays. The example includes a gift that vests, its release and what root can do."
  },
  {
   "property": "C155",
   "status": "proved",
   "theorems": [
    "C155_exactly_if_usable",
    "C155_arrives",
    "C155_everything"
   ],
   "note": "For every state. How much staking and vesting hold back is C22, C33, C110 and C112; that others cannot increase it is C154. The rules of pallet_balances, a dependency, are part of the model (token_debit, token_credit)."
  }
 ]
}