{"id": "C01", "title": "A signed MSA payload is accepted at most once", "statement": "If a signed payload with expiry E has been accepted by add_public_key_to_msa, create_sponsored_account_with_delegation or grant_delegation, then every later submission carrying the same signature with an expiry not later than E is rejected.", "quantifier": "every sequence of signature submissions at non-decreasing block numbers, every signature, every expiry, every registry capacity of at least two", "why_tests_cant": "Replay safety depends on every interleaving of registrations, expiries and evictions of a bounded linked list; a test only exercises a few.", "anchors": ["pallets/msa/src/lib.rs::register_signature", "pallets/msa/src/lib.rs::enqueue_signature", "pallets/msa/src/lib.rs::mortality_block_limit"]}
{"id": "C02", "title": "The signature registry never corrupts and refuses only when full of unexpired signatures", "statement": "After any history the registry holds at most MaxSignaturesStored signatures, never returns SignatureRegistryCorrupted, and returns SignatureRegistryLimitExceeded only when it is full and its oldest entry has not expired.", "quantifier": "every history of submissions, every capacity of at least two", "why_tests_cant": "The eviction path is only reached after the registry has been filled; well-formedness of the linked list is a history invariant.", "anchors": ["pallets/msa/src/lib.rs::enqueue_signature"]}
{"id": "C03", "title": "Signature acceptance window", "statement": "A signature is accepted only if its expiry is strictly after the current block and strictly before the current block plus the mortality window.", "quantifier": "all blocks, expiries, registry states", "why_tests_cant": "Boundary behaviour for all values.", "anchors": ["pallets/msa/src/lib.rs::register_signature"]}
{"id": "C04", "title": "MSA ids are never reused", "statement": "Every MSA creation returns an id strictly greater than every id ever issued before, including ids of retired MSAs; no id is issued twice.", "quantifier": "all histories of MSA-pallet calls, successful or failing", "why_tests_cant": "Requires reasoning on whole histories including retirements.", "anchors": ["pallets/msa/src/lib.rs::create_account", "pallets/msa/src/lib.rs::get_next_msa_id", "pallets/msa/src/lib.rs::set_msa_identifier"]}
{"id": "C05", "title": "Key bookkeeping is exact", "statement": "At every reachable state each public key controls at most one MSA, the stored key count of each MSA equals the number of keys that control it and is at most MaxPublicKeysPerMsa.", "quantifier": "all histories; proved for top-level transactions (validation followed by dispatch), refuted when calls are wrapped in other calls", "why_tests_cant": "The counter and the key map are updated by separate code paths; agreement is an inductive invariant over histories.", "anchors": ["pallets/msa/src/lib.rs::add_key", "pallets/msa/src/lib.rs::delete_key_for_msa", "pallets/msa/src/lib.rs::retire_msa"]}
{"id": "C06", "title": "A key is attached only with both signatures", "statement": "A key that starts to control an already existing MSA does so only in a call carrying a valid signature by a key then controlling that MSA and a valid signature by the new key over the same payload naming that MSA and that new key.", "quantifier": "every transaction, every reachable state, every signature oracle", "why_tests_cant": "Quantifies over all calls: any other call that attaches a key would break it.", "anchors": ["pallets/msa/src/lib.rs::add_public_key_to_msa", "pallets/msa/src/lib.rs::ensure_msa_owner", "pallets/msa/src/lib.rs::verify_signature"]}
{"id": "C07", "title": "A key is detached only by its own MSA", "statement": "If a top-level transaction makes a key stop controlling an MSA then the signer controlled the same MSA: it is either another key of it, or the key itself retiring the MSA (and its last key, if no call was wrapped in another before).", "quantifier": "every top-level transaction from every reachable state", "why_tests_cant": "Quantifies over all calls and all states.", "anchors": ["pallets/msa/src/lib.rs::delete_msa_public_key", "pallets/msa/src/lib.rs::retire_msa", "pallets/msa/src/lib.rs::CheckFreeExtrinsicUse"]}
{"id": "C08", "title": "Retirement is permanent", "statement": "Once an MSA id that was issued has no controlling key, it never again has a controlling key.", "quantifier": "all continuations of all reachable states", "why_tests_cant": "Unbounded future histories.", "anchors": ["pallets/msa/src/lib.rs::retire_msa", "pallets/msa/src/lib.rs::add_key"]}
{"id": "C09", "title": "Registered providers stay registered and controllable", "statement": "Once an MSA is a registered provider it stays registered with the same name and always has at least one controlling key.", "quantifier": "all histories; the controlling key is proved for top-level transactions and refuted when calls are wrapped in other calls", "why_tests_cant": "Unbounded histories; depends on validation of two different free calls.", "anchors": ["pallets/msa/src/lib.rs::create_provider_for", "pallets/msa/src/lib.rs::ensure_msa_can_retire", "pallets/msa/src/lib.rs::validate_key_delete"]}
{"id": "C10", "title": "Delegations are granted only by the delegator's signature", "statement": "A delegation from D to P, or a schema inside it, becomes active only in a call signed by a key of P that carries a valid signature of a key of D over a payload naming P and exactly the resulting set of schemas.", "quantifier": "every transaction from every reachable state", "why_tests_cant": "Quantifies over all calls.", "anchors": ["pallets/msa/src/lib.rs::grant_delegation", "pallets/msa/src/lib.rs::create_sponsored_account_with_delegation", "pallets/msa/src/lib.rs::upsert_schema_permissions"]}
{"id": "C11", "title": "A grant installs exactly the requested schemas", "statement": "After a successful grant_delegation with list L, a schema is usable by the provider in any later block (without further calls) if and only if it is in L.", "quantifier": "all states, lists (with duplicates), blocks", "why_tests_cant": "All prior permission maps and lists.", "anchors": ["pallets/msa/src/lib.rs::upsert_schema_permissions", "pallets/msa/src/lib.rs::ensure_valid_schema_grant"]}
{"id": "C12", "title": "Revocation is effective and lasting", "statement": "After a delegation is revoked by either party, every delegation or schema check for that pair made in a later block fails, until a new grant signed by the delegator.", "quantifier": "all continuations of the history not containing a new grant", "why_tests_cant": "Unbounded continuations.", "anchors": ["pallets/msa/src/lib.rs::revoke_provider", "pallets/msa/src/lib.rs::ensure_valid_delegation", "pallets/msa/src/lib.rs::ensure_valid_schema_grant"]}
{"id": "C13", "title": "Delegation size and schema validity", "statement": "Every stored delegation holds at most MaxSchemaGrants schemas, every one of which was at most the highest registered schema id when granted.", "quantifier": "all histories", "why_tests_cant": "History invariant.", "anchors": ["pallets/msa/src/lib.rs::ensure_all_schema_ids_are_valid", "pallets/msa/src/types.rs::PermittedDelegationSchemas"]}
{"id": "C14", "title": "Free calls admitted by validation succeed", "statement": "A fee-less MSA call that passes transaction validation in a state succeeds when dispatched in that same state.", "quantifier": "all states and free calls", "why_tests_cant": "Agreement between two independent code paths for all states.", "anchors": ["pallets/msa/src/lib.rs::CheckFreeExtrinsicUse", "pallets/msa/src/lib.rs::revoke_provider"]}
{"id": "C15", "title": "No call path lets a stranger detach a key", "statement": "No call accepted by the runtime from a signer that does not control an MSA can detach a key from that MSA, including through utility batches.", "quantifier": "all calls, including nested ones, from all reachable states", "why_tests_cant": "Quantifies over all nested call trees.", "anchors": ["runtime/frequency/src/lib.rs::BaseCallFilter::is_utility_call_allowed", "pallets/msa/src/lib.rs::delete_msa_public_key"]}
{"id": "C16", "title": "Historical delegation checks tell the truth", "statement": "A delegation check for a past block B succeeds only if the delegation was active in block B.", "quantifier": "all histories and past blocks", "why_tests_cant": "Compares an answer given now with the state of every past block.", "anchors": ["pallets/msa/src/lib.rs::ensure_valid_delegation", "pallets/msa/src/lib.rs::upsert_schema_permissions"]}
{"id": "C17", "title": "The off-chain key index agrees with the chain", "statement": "After the off-chain worker has processed the events of all blocks of a history, the index lists for every MSA exactly the keys controlling it.", "quantifier": "all histories of key events", "why_tests_cant": "All histories; event-sourced copy vs source.", "anchors": ["pallets/msa/src/offchain_storage.rs::process_offchain_events", "pallets/msa/src/offchain_storage.rs::reverse_map_msa_keys"]}
{"id": "C18", "title": "The off-chain key index converges after restart", "statement": "Starting the index from the state of any later block and then replaying the events of any suffix of blocks, possibly processing some blocks several times because of a crash, yields exactly the on-chain keys.", "quantifier": "all histories, snapshot points, crash points", "why_tests_cant": "Crash points and snapshot points cannot be enumerated.", "anchors": ["pallets/msa/src/offchain_storage.rs::offchain_index_initial_state", "pallets/msa/src/offchain_storage.rs::apply_offchain_events"]}
{"id": "C20", "title": "Frozen balance equals stake plus unlocking", "statement": "At every reachable state the balance frozen for staking of each account equals its active stake plus the sum of its unlocking chunks.", "quantifier": "all histories of capacity calls by all accounts", "why_tests_cant": "History invariant over three storage items.", "anchors": ["pallets/capacity/src/lib.rs::stake", "pallets/capacity/src/lib.rs::unstake", "pallets/capacity/src/lib.rs::withdraw_unstaked"]}
{"id": "C21", "title": "No early withdrawal", "statement": "Tokens unstaked in epoch e are released by withdraw_unstaked only in an epoch not earlier than e plus the thaw period, and a withdrawal in epoch t releases exactly the chunks with thaw epoch at most t.", "quantifier": "all histories, epochs, chunk lists", "why_tests_cant": "All schedules of unstakes, epoch changes and withdrawals.", "anchors": ["pallets/capacity/src/lib.rs::add_unlock_chunk", "pallets/capacity/src/types.rs::unlock_chunks_reap_thawed"]}
{"id": "C22", "title": "Staked tokens are conserved", "statement": "For every account, the sum of amounts reported as staked equals active stake plus unlocking plus the sum reported as withdrawn, at every point of every history.", "quantifier": "all histories", "why_tests_cant": "Sum over unbounded histories of event amounts.", "anchors": ["pallets/capacity/src/lib.rs::stake", "pallets/capacity/src/lib.rs::unstake", "pallets/capacity/src/lib.rs::do_withdraw_unstaked"]}
{"id": "C23", "title": "Unlocking list is bounded", "statement": "An account never has more than MaxUnlockingChunks chunks; unstake is refused rather than losing a chunk.", "quantifier": "all histories", "why_tests_cant": "History invariant.", "anchors": ["pallets/capacity/src/lib.rs::add_unlock_chunk"]}
{"id": "C24", "title": "Remaining capacity never exceeds issued capacity", "statement": "At every reachable state the remaining capacity of a provider is at most the total capacity issued to it.", "quantifier": "all histories of stake, unstake, spend, replenish", "why_tests_cant": "History invariant.", "anchors": ["pallets/capacity/src/types.rs::CapacityDetails"]}
{"id": "C25", "title": "Capacity spending per epoch is bounded", "statement": "Within one epoch, the total capacity a provider spends is at most what it had issued at the start of the epoch plus what was issued to it during the epoch.", "quantifier": "all schedules of spends, stakes and unstakes in an epoch", "why_tests_cant": "All interleavings within an epoch.", "anchors": ["pallets/capacity/src/lib.rs::deduct", "pallets/capacity/src/lib.rs::replenish_all_for", "pallets/capacity/src/lib.rs::can_replenish", "pallets/frequency-tx-payment/src/payment.rs::withdraw_fee"]}
{"id": "C26", "title": "No dust stakes", "statement": "The active stake of an account is either zero (no ledger entry) or at least the minimum staking amount.", "quantifier": "all histories", "why_tests_cant": "History invariant.", "anchors": ["pallets/capacity/src/lib.rs::ensure_can_stake", "pallets/capacity/src/types.rs::StakingDetails::withdraw"]}
{"id": "C27", "title": "Epoch progress", "statement": "The epoch number never decreases, increases by at most one per block, and increases exactly at the first block at which the epoch length in force has elapsed since the epoch start.", "quantifier": "all block sequences and epoch length changes", "why_tests_cant": "All schedules of length changes.", "anchors": ["pallets/capacity/src/lib.rs::start_new_epoch_if_needed", "pallets/capacity/src/lib.rs::set_epoch_length"]}
{"id": "C28", "title": "Stake is backed by tokens", "statement": "The active stake of an account never exceeds the token balance it had when staking.", "quantifier": "all histories of stakes", "why_tests_cant": "History invariant.", "anchors": ["pallets/capacity/src/lib.rs::get_stakable_amount_for", "pallets/capacity/src/lib.rs::stake"]}
{"id": "C29", "title": "Provider totals equal the sum of its stakers", "statement": "The tokens recorded as staked to a provider equal the sum over stakers of the amounts they target to it.", "quantifier": "all histories", "why_tests_cant": "History invariant linking two ledgers.", "anchors": ["pallets/capacity/src/lib.rs::reduce_capacity", "pallets/capacity/src/lib.rs::increase_stake_and_issue_capacity"]}
{"id": "C30", "title": "Unstaking removes a bounded, proportional amount of capacity", "statement": "Unstaking removes all of a staker's capacity at the target when it unstakes its whole targeted amount and otherwise the rounded-up proportional share; never more than what is issued.", "quantifier": "all amounts and totals", "why_tests_cant": "Arithmetic over all u128 values including rounding.", "anchors": ["pallets/capacity/src/lib.rs::calculate_capacity_reduction", "pallets/capacity/src/lib.rs::reduce_capacity"]}
{"id": "C31", "title": "replenish_by_amount replenishes", "statement": "After a successful replenish_by_amount the remaining capacity is increased by the amount.", "quantifier": "all states and amounts", "why_tests_cant": "For all states.", "anchors": ["pallets/capacity/src/lib.rs::replenish_by_amount"]}
{"id": "C32", "title": "Vesting lock always covers unreleased tokens", "statement": "At every reachable state and time the balance frozen for vesting of an account is at least the sum of the amounts not yet released by its schedules; immediately after a claim it is equal.", "quantifier": "all histories, all times", "why_tests_cant": "History invariant over time.", "anchors": ["pallets/time-release/src/lib.rs::do_claim", "pallets/time-release/src/lib.rs::do_transfer", "pallets/time-release/src/lib.rs::prune_and_get_frozen_balance"]}
{"id": "C33", "title": "Release schedule arithmetic", "statement": "The amount frozen by a schedule at time t is per_period times the number of periods not completed by t: total before the start, never increasing in t, zero from the end on.", "quantifier": "all schedules and times", "why_tests_cant": "For all u32/u128 values.", "anchors": ["pallets/time-release/src/types.rs::ReleaseSchedule::frozen_amount", "pallets/time-release/src/types.rs::ReleaseSchedule::end"]}
{"id": "C34", "title": "Transfers with a schedule are all-or-nothing", "statement": "A successful schedule transfer moves exactly the schedule total and adds exactly that schedule; a refused one changes nothing; an account never has more than MaxReleaseSchedules schedules.", "quantifier": "all states and schedules", "why_tests_cant": "For all states.", "anchors": ["pallets/time-release/src/lib.rs::transfer", "pallets/time-release/src/lib.rs::do_transfer"]}
{"id": "C35", "title": "Anyone may claim, nobody can be harmed", "statement": "claim and claim_for by any signer only lower the vesting freeze to the unreleased amount, never remove a schedule that has unreleased tokens and are idempotent at a given time.", "quantifier": "all states, times, callers", "why_tests_cant": "For all states and times.", "anchors": ["pallets/time-release/src/lib.rs::claim", "pallets/time-release/src/lib.rs::claim_for", "pallets/time-release/src/lib.rs::prune_schedules_for"]}
{"id": "C36", "title": "Vested amounts are conserved", "statement": "Over any history of transfers and claims, the amount received by an account through schedules equals what it could have released plus what is still frozen after a claim.", "quantifier": "all histories", "why_tests_cant": "Unbounded histories.", "anchors": ["pallets/time-release/src/lib.rs::do_transfer", "pallets/time-release/src/lib.rs::do_claim"]}
{"id": "C39", "title": "Vesting calls never panic", "statement": "No claim, schedule transfer or root update, at any time and in any reachable state, makes the runtime panic (the arithmetic expects of the release schedule are unreachable and sums do not wrap).", "quantifier": "all histories, times and calls", "why_tests_cant": "A panic in dispatch halts block production; needs an invariant over all histories.", "anchors": ["pallets/time-release/src/types.rs::ReleaseSchedule::frozen_amount", "pallets/time-release/src/lib.rs::prune_and_get_frozen_balance"]}
{"id": "C40", "title": "Itemized page encoding round-trips", "statement": "Parsing the bytes of any page built from items returns the same items in the same order; parsing arbitrary bytes never panics and either returns items whose re-encoding is the input or an error.", "quantifier": "all lists of items, all byte strings", "why_tests_cant": "For all byte strings.", "anchors": ["pallets/stateful-storage/src/types.rs::ItemizedPage::try_parse", "pallets/stateful-storage/src/types.rs::ItemizedPage::apply_item_actions"]}
{"id": "C41", "title": "Page size limits hold", "statement": "No stored itemized or paginated page ever exceeds its maximum byte size and no page id exceeds the maximum.", "quantifier": "all histories", "why_tests_cant": "History invariant.", "anchors": ["pallets/stateful-storage/src/lib.rs::update_itemized", "pallets/stateful-storage/src/lib.rs::update_paginated"]}
{"id": "C42", "title": "Item actions mean what they say", "statement": "Applying actions to an itemized page removes exactly the items at the listed original indexes and appends added items in order; an out-of-range index rejects the whole call.", "quantifier": "all pages and action lists", "why_tests_cant": "For all lists.", "anchors": ["pallets/stateful-storage/src/types.rs::ItemizedPage::apply_item_actions"]}
{"id": "C43", "title": "Stale writes are rejected", "statement": "A write or delete carrying target hash h succeeds only if the current content hash of the page is h; otherwise the page is unchanged.", "quantifier": "all states and calls", "why_tests_cant": "For all states.", "anchors": ["pallets/stateful-storage/src/lib.rs::update_itemized", "pallets/stateful-storage/src/lib.rs::update_paginated", "pallets/stateful-storage/src/lib.rs::delete_paginated"]}
{"id": "C44", "title": "A signed storage payload cannot be replayed", "statement": "A signed storage payload that was applied once is rejected when submitted again later (barring hash collisions).", "quantifier": "all histories between the two submissions", "why_tests_cant": "All interleavings.", "anchors": ["pallets/stateful-storage/src/lib.rs::check_payload_expiration", "pallets/stateful-storage/src/lib.rs::update_paginated"]}
{"id": "C45", "title": "Writes are isolated", "statement": "A write to one (MSA, schema, page) never changes what is read at any other.", "quantifier": "all histories and keys", "why_tests_cant": "For all keys.", "anchors": ["pallets/stateful-storage/src/stateful_child_tree.rs::StatefulChildTree"]}
{"id": "C46", "title": "Append-only items are permanent", "statement": "Once an item is stored under an append-only schema it stays, at the same index with the same bytes, for ever.", "quantifier": "all histories", "why_tests_cant": "Unbounded histories.", "anchors": ["pallets/stateful-storage/src/lib.rs::check_schema_for_write", "pallets/stateful-storage/src/lib.rs::update_itemized"]}
{"id": "C47", "title": "Signature-required schemas accept only signed changes", "statement": "Content under a signature-required schema changes only in a transaction sent by a key of the owning MSA, or in a call that carries a valid, unexpired signature over the change by such a key; a provider's grant is not enough.", "quantifier": "all histories and calls", "why_tests_cant": "Quantifies over all calls.", "anchors": ["pallets/stateful-storage/src/lib.rs::check_schema_for_write", "pallets/stateful-storage/src/lib.rs::check_signature"]}
{"id": "C48", "title": "Only the owner or a permitted provider writes", "statement": "Content under an ordinary schema changes only in a call signed by a key of the owning MSA or by a key of a provider holding an active grant for the schema from it, or in a call carrying the owner's signature.", "quantifier": "all histories and calls", "why_tests_cant": "Quantifies over all calls.", "anchors": ["pallets/stateful-storage/src/lib.rs::check_msa_and_grants"]}
{"id": "C50", "title": "Suffixes for a base handle never repeat", "statement": "The sequence of suffixes generated for any canonical base is a duplicate-free enumeration of the configured range.", "quantifier": "all seeds, all ranges", "why_tests_cant": "For all 2^16 ranges and all seeds.", "anchors": ["pallets/handles/src/handles-utils/src/suffix.rs::generate_unique_suffixes", "pallets/handles/src/lib.rs::generate_suffix_for_canonical_handle"]}
{"id": "C51", "title": "Handles are unique and resolve consistently", "statement": "At every reachable state an MSA has at most one handle, no two MSAs share a canonical base and suffix, and forward and reverse lookups agree.", "quantifier": "all histories of claim, change, retire", "why_tests_cant": "History invariant over three maps.", "anchors": ["pallets/handles/src/lib.rs::do_claim_handle", "pallets/handles/src/lib.rs::do_retire_handle", "pallets/handles/src/lib.rs::get_msa_id_for_handle"]}
{"id": "C52", "title": "Suffix budget is exact", "statement": "A canonical base can be claimed exactly once per suffix of the range; afterwards claims fail with SuffixesExhausted.", "quantifier": "all histories", "why_tests_cant": "Unbounded histories.", "anchors": ["pallets/handles/src/lib.rs::get_next_suffix_index_for_canonical_handle"]}
{"id": "C53", "title": "Suffixes are never re-issued", "statement": "A canonical base and suffix pair that was given once is never given again, even after retirement.", "quantifier": "all histories", "why_tests_cant": "Unbounded histories.", "anchors": ["pallets/handles/src/lib.rs::do_claim_handle", "pallets/handles/src/lib.rs::do_retire_handle"]}
{"id": "C54", "title": "Handles cannot be retired early", "statement": "retire_handle as a top-level transaction succeeds only at or after the expiration of the claim signature.", "quantifier": "all histories", "why_tests_cant": "All schedules.", "anchors": ["pallets/handles/src/handles_signed_extension.rs::validate", "pallets/handles/src/lib.rs::retire_handle"]}
{"id": "C55", "title": "Handle characters are restricted", "statement": "Every accepted base handle contains only characters of the allowed ranges and none of the blocked ones.", "quantifier": "all Unicode strings", "why_tests_cant": "For all strings.", "anchors": ["pallets/handles/src/handles-utils/src/validator.rs::consists_of_supported_unicode_character_sets", "pallets/handles/src/lib.rs::validate_base_handle"]}
{"id": "C56", "title": "Display names split back", "statement": "Splitting a full display handle built from a base and suffix returns that base and suffix.", "quantifier": "all bases and suffixes", "why_tests_cant": "For all strings.", "anchors": ["pallets/handles/src/handles-utils/src/converter.rs::split_display_name", "pallets/handles/src/lib.rs::build_full_display_handle"]}
{"id": "C60", "title": "Messages of a block are stored densely in order", "statement": "The messages of a (block, schema) have indexes given by their submission order within the block and each is retrievable unchanged.", "quantifier": "all block contents, all schemas", "why_tests_cant": "All sequences.", "anchors": ["pallets/messages/src/lib.rs::add_message", "pallets/messages/src/lib.rs::get_messages_by_schema_and_block"]}
{"id": "C61", "title": "Paging returns every message exactly once", "statement": "Following next_block/next_index until has_next is false returns every message of the requested block range exactly once in order, for every page size.", "quantifier": "all chains, ranges, page sizes", "why_tests_cant": "All contents and page sizes.", "anchors": ["pallets/messages/src/rpc/src/lib.rs::get_messages_by_schema_id", "common/primitives/src/messages.rs::BlockPaginationResponse"]}
{"id": "C62", "title": "Messages are immutable", "statement": "A stored message is never altered or removed by later transactions or blocks.", "quantifier": "all histories", "why_tests_cant": "Unbounded histories.", "anchors": ["pallets/messages/src/lib.rs::add_message"]}
{"id": "C63", "title": "Message attribution", "statement": "A stored message names as provider the MSA of the signer, and if it names another MSA as source then that MSA had an active delegation and schema grant to the provider in that block.", "quantifier": "all histories", "why_tests_cant": "All calls.", "anchors": ["pallets/messages/src/lib.rs::add_onchain_message", "pallets/messages/src/lib.rs::add_ipfs_message"]}
{"id": "C70", "title": "Schema ids are dense, unique and immutable", "statement": "Ids are issued 1,2,3,...; a registered schema's content never changes and never disappears.", "quantifier": "all histories", "why_tests_cant": "Unbounded histories.", "anchors": ["pallets/schemas/src/lib.rs::add_schema", "pallets/schemas/src/lib.rs::get_next_schema_id"]}
{"id": "C71", "title": "Schema name versions are dense", "statement": "For every name the versions reported are 1..n in order of registration and each schema id occurs at most once.", "quantifier": "all histories", "why_tests_cant": "History invariant.", "anchors": ["pallets/schemas/src/types.rs::SchemaVersionId::add", "pallets/schemas/src/lib.rs::get_schema_versions"]}
{"id": "C72", "title": "A schema has at most one name", "statement": "No schema id is listed under two different names.", "quantifier": "all histories", "why_tests_cant": "History invariant.", "anchors": ["pallets/schemas/src/lib.rs::create_schema_name_via_governance"]}
{"id": "C73", "title": "Schema names are canonical", "statement": "Every accepted name is lower case, has exactly one dot, legal lengths and characters; parsing its text again gives the same name.", "quantifier": "all byte strings", "why_tests_cant": "All byte strings.", "anchors": ["pallets/schemas/src/types.rs::SchemaNamePayload::try_parse"]}
{"id": "C74", "title": "Schema size and settings rules", "statement": "Every registered schema respects the size limits in force at its creation, and append-only schemas are itemized; the governed maximum never exceeds the hard maximum.", "quantifier": "all histories", "why_tests_cant": "History invariant.", "anchors": ["pallets/schemas/src/lib.rs::create_schema_for", "pallets/schemas/src/lib.rs::set_max_schema_model_bytes"]}
{"id": "C80", "title": "Capacity fees are charged exactly or the call does not run", "statement": "A pay_with_capacity transaction runs only if all wrapped calls are eligible, the signer's key holds the minimum balance and controls an MSA with enough capacity; then exactly the fee is deducted from that MSA and nobody else's capacity changes.", "quantifier": "all transactions and states", "why_tests_cant": "All states and calls.", "anchors": ["pallets/frequency-tx-payment/src/lib.rs::withdraw_capacity_fee", "pallets/frequency-tx-payment/src/payment.rs::withdraw_fee"]}
{"id": "C81", "title": "Capacity batches are bounded and atomic", "statement": "A capacity batch with more than the maximum calls is rejected; if any wrapped call fails no wrapped call has any effect.", "quantifier": "all batches", "why_tests_cant": "All batches.", "anchors": ["pallets/frequency-tx-payment/src/lib.rs::pay_with_capacity_batch_all"]}
{"id": "C82", "title": "Capacity fees are monotone", "statement": "The capacity fee never decreases when a longer or heavier transaction is sent and is never zero for a non-empty eligible call.", "quantifier": "all lengths and weights", "why_tests_cant": "All u64 values with saturation.", "anchors": ["pallets/frequency-tx-payment/src/lib.rs::compute_capacity_fee"]}
{"id": "C83", "title": "Fee estimate matches the charge", "statement": "The fee reported by the capacity fee RPC equals the capacity deducted when the transaction is executed.", "quantifier": "all transactions", "why_tests_cant": "All transactions.", "anchors": ["pallets/frequency-tx-payment/src/lib.rs::compute_capacity_fee_details"]}
{"id": "C84", "title": "A signed transaction executes at most once", "statement": "The same signed transaction (account, nonce) is never dispatched twice.", "quantifier": "all histories", "why_tests_cant": "All histories including account removal.", "anchors": ["runtime/common/src/extensions/check_nonce.rs::CheckNonce"]}
{"id": "C85", "title": "Passkey calls are authorised", "statement": "A passkey call runs on behalf of an account only if the account approved the passkey and the passkey signed that call.", "quantifier": "all payloads", "why_tests_cant": "All payloads.", "anchors": ["pallets/passkey/src/lib.rs::validate_signatures"]}
{"id": "C86", "title": "Passkey can only transfer balances", "statement": "A passkey transaction only ever dispatches one of the allowed balance transfers, with the account's current nonce.", "quantifier": "all payloads", "why_tests_cant": "All payloads.", "anchors": ["pallets/passkey/src/lib.rs::filter_valid_calls", "runtime/frequency/src/lib.rs::PasskeyCallFilter"]}
{"id": "C87", "title": "Batches cannot contain blocked calls", "statement": "A utility batch admitted by the runtime contains no call that the batch rules block.", "quantifier": "all nested batches", "why_tests_cant": "All call trees.", "anchors": ["runtime/frequency/src/lib.rs::BaseCallFilter"]}
{"id": "C88", "title": "Proxy types are ordered by what they allow", "statement": "If proxy type A is declared a superset of B then every call B allows is allowed by A.", "quantifier": "all calls", "why_tests_cant": "All calls.", "anchors": ["runtime/frequency/src/lib.rs::InstanceFilter"]}
{"id": "C90", "title": "Lock-to-freeze migration preserves protection", "statement": "After the capacity migration every account with locked stake has the same amount frozen; running it again changes nothing.", "quantifier": "all pre-states", "why_tests_cant": "All pre-states.", "anchors": ["pallets/capacity/src/migration/v3.rs"]}
{"id": "C91", "title": "Message migration preserves messages", "statement": "After the message migration every message is retrievable under the same block and schema in the same order.", "quantifier": "all pre-states", "why_tests_cant": "All pre-states.", "anchors": ["pallets/messages/src/migration/v2.rs"]}
{"id": "C92", "title": "Vesting migration preserves protection", "statement": "After the time-release migration the freeze of every account with schedules covers its unreleased tokens.", "quantifier": "all pre-states", "why_tests_cant": "All pre-states.", "anchors": ["pallets/time-release/src/migration/v2.rs"]}
{"id": "C19", "title": "Delegations point to registered providers", "statement": "Every delegation stored by the MSA pallet is from one MSA to a different MSA that is registered as a provider.", "quantifier": "all histories of calls, wrapped or not", "why_tests_cant": "History invariant.", "anchors": ["pallets/msa/src/lib.rs::grant_delegation", "pallets/msa/src/lib.rs::create_sponsored_account_with_delegation", "pallets/msa/src/lib.rs::ensure_valid_registered_provider"]}
{"id": "C94", "title": "Reported grants agree with the check", "statement": "The list of granted schemas reported for a delegation (with revocation blocks) contains a schema with no revocation block or one not before block b exactly when the schema grant check for block b passes.", "quantifier": "all states, pairs, schemas, blocks not in the future", "why_tests_cant": "All states.", "anchors": ["pallets/msa/src/lib.rs::get_granted_schemas_by_msa_id", "pallets/msa/src/lib.rs::ensure_valid_schema_grant"]}
{"id": "C95", "title": "Either side can end a delegation", "statement": "A key of the delegator or of the provider can always end an active delegation with a free transaction, unless it was already ended in the same block.", "quantifier": "all reachable states, all delegations", "why_tests_cant": "Liveness over all states.", "anchors": ["pallets/msa/src/lib.rs::revoke_delegation_by_delegator", "pallets/msa/src/lib.rs::revoke_delegation_by_provider"]}
{"id": "C96", "title": "Creating an MSA is always possible", "statement": "A key that controls no MSA can create one, and gets the next id, as long as ids last.", "quantifier": "all reachable states, all keys", "why_tests_cant": "Liveness over all states.", "anchors": ["pallets/msa/src/lib.rs::create", "pallets/msa/src/lib.rs::create_account"]}
{"id": "C97", "title": "Root updates of vesting schedules", "statement": "A root update of an account's schedules is accepted exactly when every schedule is valid, there are at most the maximum number and their total is covered by the balance; it then replaces exactly that account's schedules and freezes exactly their total.", "quantifier": "all states, accounts, schedule lists", "why_tests_cant": "All inputs.", "anchors": ["pallets/time-release/src/lib.rs::update_release_schedules", "pallets/time-release/src/lib.rs::do_update_release_schedules"]}
{"id": "C93", "title": "Signed payloads of different kinds cannot be confused", "statement": "A signature made for one kind of payload is never accepted for another kind, because the signed bytes differ.", "quantifier": "all payload values", "why_tests_cant": "All payload values.", "anchors": ["common/primitives/src/utils.rs::wrap_binary_data", "pallets/msa/src/types.rs", "pallets/stateful-storage/src/types.rs", "common/primitives/src/handles.rs"]}
{"id": "C37", "title": "Thawed tokens can be withdrawn", "statement": "Whenever an account has an unlocking chunk whose thaw epoch has been reached, withdraw_unstaked succeeds.", "quantifier": "all reachable states", "why_tests_cant": "A liveness claim over all reachable states.", "anchors": ["pallets/capacity/src/lib.rs::withdraw_unstaked"]}
{"id": "C38", "title": "Stake is never stuck", "statement": "A staker with a free unlocking slot can always unstake its whole active stake with one call to some target.", "quantifier": "all reachable states", "why_tests_cant": "A liveness claim over all reachable states.", "anchors": ["pallets/capacity/src/lib.rs::unstake"]}
{"id": "C49", "title": "Storage queries return exactly what is stored", "statement": "The page listing of an MSA and schema returns every stored page of it once, with its content hash, nonce and bytes, and nothing else; the item query returns exactly the items of the itemized page.", "quantifier": "all histories, MSAs and schemas", "why_tests_cant": "Key hashing and decoding must work for all keys.", "anchors": ["pallets/stateful-storage/src/stateful_child_tree.rs::prefix_iterator", "pallets/stateful-storage/src/lib.rs::get_paginated_storage", "pallets/stateful-storage/src/lib.rs::get_itemized_storage"]}
{"id": "C98", "title": "Storage events track the content hash", "statement": "The content hash announced by the last event about a place is the hash of what is stored there, and every event's previous hash is the one announced before it, so a client following events can always predict the target hash.", "quantifier": "all histories and places", "why_tests_cant": "All interleavings of writes and deletions.", "anchors": ["pallets/stateful-storage/src/lib.rs::update_itemized", "pallets/stateful-storage/src/lib.rs::update_paginated", "pallets/stateful-storage/src/lib.rs::delete_paginated"]}
{"id": "C57", "title": "A handle changes only with its owner's consent", "statement": "The handle of an MSA changes only in a call that carries an unexpired signature by a key of that MSA over the claimed base and expiration, or in a retirement sent by a key of that MSA.", "quantifier": "all histories and calls", "why_tests_cant": "Quantifies over all calls and origins.", "anchors": ["pallets/handles/src/lib.rs::claim_handle", "pallets/handles/src/lib.rs::change_handle", "pallets/handles/src/lib.rs::retire_handle"]}
{"id": "C58", "title": "A signed handle claim takes effect once", "statement": "A signed claim payload that was applied for an MSA is not applied again.", "quantifier": "all histories between the two submissions", "why_tests_cant": "All interleavings.", "anchors": ["pallets/handles/src/lib.rs::verify_signed_payload", "pallets/handles/src/lib.rs::claim_handle", "pallets/handles/src/lib.rs::change_handle"]}
{"id": "C59", "title": "The next suffixes are reported exactly", "statement": "The query for the next suffixes of a base lists, without repetition, suffixes of the range never given out for that canonical form, as many as asked or as remain, and successive claims receive them in that order.", "quantifier": "all histories, bases and counts", "why_tests_cant": "All histories.", "anchors": ["pallets/handles/src/lib.rs::get_next_suffixes", "pallets/handles/src/lib.rs::generate_suffix_for_canonical_handle"]}
{"id": "C99", "title": "Handle validation agrees with claiming", "statement": "The handle validation query accepts every base handle that can be claimed, and only base handles whose text passes every check of a claim.", "quantifier": "all byte strings and states", "why_tests_cant": "All byte strings.", "anchors": ["pallets/handles/src/lib.rs::validate_handle", "pallets/handles/src/lib.rs::do_claim_handle"]}
{"id": "C100", "title": "When a schema is created", "statement": "A creation call is accepted exactly if its origin may use it, the model is well formed and within the size limits in force, append-only goes with itemized storage, the name (if any) is a valid one with fewer than 254 versions, and the 16 bit id space and the configured registration maximum are not exhausted.", "quantifier": "all histories and calls", "why_tests_cant": "All histories, sizes and name texts.", "anchors": ["pallets/schemas/src/lib.rs::create_schema_for", "pallets/schemas/src/lib.rs::create_schema_v3", "pallets/schemas/src/lib.rs::create_schema_via_governance_v2"]}
{"id": "C101", "title": "Authority over schemas", "statement": "A signed account can only append schemas under its own key or propose; it changes neither the size limit nor the name of an existing schema, and a proposal reaches the council as the matching call with the proposer as creator.", "quantifier": "all histories and signed calls", "why_tests_cant": "All calls and histories.", "anchors": ["pallets/schemas/src/lib.rs::propose_to_create_schema_v2", "pallets/schemas/src/lib.rs::create_schema_name_via_governance", "pallets/schemas/src/lib.rs::set_max_schema_model_bytes"]}
{"id": "C103", "title": "The schema id check is exact", "statement": "A list of schema ids passes the check that other pallets rely on exactly if every id is registered.", "quantifier": "all histories and id lists", "why_tests_cant": "All lists.", "anchors": ["pallets/schemas/src/lib.rs::are_all_schema_ids_valid"]}
{"id": "C104", "title": "Schema name migration", "statement": "On the main network the migration gives every known existing schema its name as its first version and protects it from another; it changes nothing else, does nothing on other networks and is idempotent.", "quantifier": "all pre-states", "why_tests_cant": "All pre-states.", "anchors": ["pallets/schemas/src/migration/v4.rs::migrate_to_v4"]}
{"id": "C105", "title": "When a message is accepted, and the announcement", "statement": "A message is accepted exactly if a key of an MSA signs it, the schema exists with the matching location, the content fits the size limit (for IPFS: the CID is well formed text of version 1 or later), and, if posted on behalf of another MSA, that MSA has granted the schema to the provider in that block. MessagesInBlock is deposited exactly once in each block with at least one accepted message.", "quantifier": "all histories and calls", "why_tests_cant": "All histories, contents and delegation states.", "anchors": ["pallets/messages/src/lib.rs::add_onchain_message", "pallets/messages/src/lib.rs::add_ipfs_message", "pallets/messages/src/lib.rs::validate_cid"]}
{"id": "C106", "title": "IPFS messages read back unchanged", "statement": "An accepted IPFS message reads back with the length it was posted with and a CID of the same bytes.", "quantifier": "all states, CIDs and lengths", "why_tests_cant": "All byte strings; goes through a bounded encoding.", "anchors": ["pallets/messages/src/lib.rs::add_ipfs_message", "pallets/messages/src/types.rs::Message::map_to_response"]}
{"id": "C107", "title": "Handles that read alike share a suffix series", "statement": "Base handles that differ only in the case of ASCII letters or in ASCII white space draw their suffixes from one series, so two MSAs never hold such handles with the same suffix.", "quantifier": "all pairs of base handles and all histories", "why_tests_cant": "The canonical form must agree for every pair of strings.", "anchors": ["pallets/handles/src/handles-utils/src/converter.rs::convert_to_canonical", "pallets/handles/src/handles-utils/src/converter.rs::replace_confusables", "pallets/handles/src/lib.rs::get_canonical_string_vec_from_base_handle"]}
{"id": "C108", "title": "Restricted proxies cannot move tokens", "statement": "A call made through the proxy pallet runs only if its sender is listed as a proxy of the real account with the used (and, if forced, the named) type, and only if that type allows the call. Through any type but Any no token balance changes, unless the call goes through a multisig.", "quantifier": "all calls, nested or not, all states", "why_tests_cant": "Quantifies over all nested call trees.", "anchors": ["runtime/frequency/src/lib.rs::InstanceFilter"]}
{"id": "C109", "title": "Pallet guarantees carry over to the runtime", "statement": "In every state the runtime reaches through transactions, passkey transactions, governance and blocks, each pallet's storage is one its own calls can produce in a history with non-decreasing blocks, schema counts and vesting times, so that what holds for every history of a pallet holds in the runtime.", "quantifier": "all runtime histories", "why_tests_cant": "All histories and nested calls.", "anchors": ["runtime/frequency/src/lib.rs", "pallets/msa/src/lib.rs", "pallets/capacity/src/lib.rs", "pallets/time-release/src/lib.rs"]}
{"id": "C110", "title": "Vesting tokens cannot leave the account", "statement": "In the runtime the tokens of an account that its schedules have not released are frozen and still in the account: no transfer, fee, stake, batch or proxy call can move them.", "quantifier": "all runtime histories, accounts and times from now on", "why_tests_cant": "All histories of all pallets that move tokens.", "anchors": ["pallets/time-release/src/lib.rs::transfer", "pallets/time-release/src/lib.rs::claim", "runtime/frequency/src/lib.rs"]}
{"id": "C111", "title": "Narrow proxies are confined", "statement": "A call through the proxy pallet by someone who is only a governance or cancel proxy of an account changes nothing in the modelled pallets, nested or not; one who is at most also a staking proxy can make the account stake and nothing else.", "quantifier": "all calls, nested or not, all states", "why_tests_cant": "Quantifies over all nested call trees.", "anchors": ["runtime/frequency/src/lib.rs::InstanceFilter"]}
{"id": "C112", "title": "Nobody else can touch an account", "statement": "No transaction, passkey transaction, governance call or block creates tokens. While an account that has no proxy and is no multisig account sends nothing, its balance does not decrease and its stake, unlocking tokens, nonce and proxies do not change.", "quantifier": "all runtime histories and accounts", "why_tests_cant": "All histories of all pallets and nested calls.", "anchors": ["runtime/frequency/src/lib.rs", "pallets/capacity/src/lib.rs", "pallets/time-release/src/lib.rs"]}
{"id": "C113", "title": "Capacity exists only for providers", "statement": "Whenever an MSA has a capacity balance in the runtime, it is a registered provider.", "quantifier": "all runtime histories", "why_tests_cant": "History invariant across two pallets.", "anchors": ["pallets/capacity/src/lib.rs::ensure_can_stake", "pallets/msa/src/lib.rs::is_registered_provider"]}
{"id": "C114", "title": "No handle without an owner", "statement": "An MSA that holds a handle is controlled by at least one key, so that its handle can be changed or retired.", "quantifier": "all runtime histories", "why_tests_cant": "History invariant across two pallets, all nested calls.", "anchors": ["pallets/msa/src/lib.rs::ensure_msa_can_retire", "pallets/handles/src/lib.rs::retire_handle"]}
{"id": "C115", "title": "Staked tokens cannot be spent", "statement": "As long as nobody stakes or withdraws unstaked tokens, the frozen stake of every account, including what is unlocking, stays as it is and no transfer, fee, batch, proxy or vesting call takes the account's balance below it (or further below it).", "quantifier": "all runtime histories without these two calls, all accounts", "why_tests_cant": "All histories of all pallets that move tokens.", "anchors": ["pallets/capacity/src/lib.rs::set_staking_account_and_capacity", "runtime/frequency/src/lib.rs"]}
{"id": "C116", "title": "Stored data has an owner and a schema", "statement": "Every stored page and item list belongs to an issued MSA and a registered schema with that payload location; every stored message to a registered schema with the location of its kind, an issued provider and, if on chain, an issued source.", "quantifier": "all runtime histories", "why_tests_cant": "History invariant across four pallets.", "anchors": ["pallets/stateful-storage/src/lib.rs", "pallets/messages/src/lib.rs", "pallets/schemas/src/lib.rs"]}
{"id": "C117", "title": "The pool accepts what a block accepts", "statement": "The transaction pool accepts a signed or passkey transaction exactly if a block on the same state would include it were it the turn of its nonce, and considers it ready exactly if a block would include it now.", "quantifier": "all states, transactions and passkey payloads", "why_tests_cant": "Two separate implementations (validate and pre_dispatch) must agree on every state and transaction.", "anchors": ["runtime/common/src/extensions/check_nonce.rs::validate", "runtime/common/src/extensions/check_nonce.rs::pre_dispatch", "pallets/frequency-tx-payment/src/lib.rs::validate", "pallets/msa/src/lib.rs::CheckFreeExtrinsicUse", "pallets/handles/src/handles_signed_extension.rs", "pallets/passkey/src/lib.rs::validate_unsigned"]}
{"id": "C118", "title": "Which transactions compete in the pool", "statement": "Two transactions that the pool accepted compete for one place exactly if they have the same sender and either the same nonce or are free MSA calls of the same kind (revocation as delegator, as provider, deletion of a key, retirement). Signed and passkey transactions of an account compete with each other; nobody can displace another account's transaction.", "quantifier": "all pairs of transactions, at any states", "why_tests_cant": "The byte strings of the tags must not collide for any accounts, nonces and kinds.", "anchors": ["runtime/common/src/extensions/check_nonce.rs::validate", "pallets/msa/src/lib.rs::validate_key_delete", "pallets/msa/src/lib.rs::ensure_msa_can_retire", "pallets/msa/src/lib.rs::validate_delegation_by_delegator"]}
{"id": "C119", "title": "Missing nonces are reported exactly", "statement": "frequency_getMissingNonceValues lists, in increasing order, exactly the nonces that no pending transaction of the account has and that a later pending transaction waits for, up to the first 1000.", "quantifier": "all states, accounts and pool contents", "why_tests_cant": "All pool contents and orders.", "anchors": ["node/service/src/rpc/frequency_rpc.rs::get_missing_nonces"]}
{"id": "C120", "title": "Queued transactions follow each other", "statement": "Once a transaction is included in a block, the sender's transaction with the next nonce no longer waits.", "quantifier": "all states and transactions", "why_tests_cant": "All states and calls, nested or not.", "anchors": ["runtime/common/src/extensions/check_nonce.rs::pre_dispatch", "runtime/common/src/extensions/check_nonce.rs::validate"]}
{"id": "C121", "title": "Tips are ignored with capacity", "statement": "A tip offered with a transaction paid with capacity is not charged, changes nothing about its inclusion or result, and does not change its priority.", "quantifier": "all states, transactions and tips", "why_tests_cant": "All states and calls.", "anchors": ["pallets/frequency-tx-payment/src/lib.rs::tip", "pallets/frequency-tx-payment/src/lib.rs::withdraw_fee"]}
{"id": "C122", "title": "The events query is faithful", "statement": "frequency_getEvents returns one entry for every event of the block, in order, from which the event's encoding and the extrinsic that caused it can be recovered.", "quantifier": "all event lists", "why_tests_cant": "All event lists.", "anchors": ["common/primitives/src/rpc.rs::From<EventRecord>", "node/service/src/rpc/frequency_rpc.rs::get_events"]}
{"id": "C123", "title": "Bytes survive the RPCs' JSON", "statement": "Bytes shown in hexadecimal read back unchanged, whatever they are; bytes shown as text read back unchanged if they are UTF-8 and are refused otherwise; an absent optional field reads back as absent, and an empty optional text too.", "quantifier": "all byte strings", "why_tests_cant": "All byte strings.", "anchors": ["common/primitives/src/utils.rs::as_hex", "common/primitives/src/utils.rs::as_string", "common/primitives/src/utils.rs::as_hex_option", "common/primitives/src/utils.rs::as_string_option"]}
{"id": "C124", "title": "Content identifiers are CIDs of version 1", "statement": "The content identifier of an IPFS message is accepted exactly if it is a CID of version 1 in a multibase notation: versions, content types and hash functions as unsigned varints, a digest of at most 64 bytes, and nothing else.", "quantifier": "all byte strings", "why_tests_cant": "All byte strings.", "anchors": ["pallets/messages/src/lib.rs::validate_cid", "pallets/messages/src/lib.rs::add_ipfs_message"]}
{"id": "C125", "title": "Avro models are JSON objects", "statement": "A schema with an Avro model is accepted, all else being in order, exactly if the model is the text of one JSON object (RFC 8259) with at most 127 levels, whose strings are text and whose numbers can be represented; so is every registered one. A text has only one reading.", "quantifier": "all byte strings and histories", "why_tests_cant": "All byte strings.", "anchors": ["pallets/schemas/src/serde.rs::validate_json_model", "pallets/schemas/src/lib.rs::ensure_valid_model"]}
{"id": "C126", "title": "Parquet models are lists of columns", "statement": "A schema with a Parquet model is accepted, all else being in order, exactly if the model is the text of a JSON list of columns, each with a name, a type of the Parquet format, a compression codec of the Parquet format (UNCOMPRESSED, SNAPPY, GZIP, LZO, BROTLI, ZSTD, LZ4_RAW) and a flag for the bloom filter.", "quantifier": "all byte strings and histories", "why_tests_cant": "All byte strings.", "anchors": ["common/primitives/src/parquet/column.rs::ParquetColumn", "common/primitives/src/parquet/types.rs::ParquetType", "common/primitives/src/parquet/column_compression_codec.rs::ColumnCompressionCodec", "pallets/schemas/src/lib.rs::ensure_valid_model"]}
{"id": "C127", "title": "What is registered as Avro is Avro", "statement": "Every schema registered with the model type Avro has an Avro schema as its model.", "quantifier": "all histories", "why_tests_cant": "All byte strings and histories.", "anchors": ["pallets/schemas/src/serde.rs::validate_json_model", "pallets/schemas/src/lib.rs::ensure_valid_model"]}
{"id": "C128", "title": "A content hash stands for one content", "statement": "A write, deletion or signed payload that names the content hash of a page is accepted only while the page holds the content, nonce included, for which that hash was computed; nobody who may write the page can give another content the same hash.", "quantifier": "all pages, contents, histories and writers", "why_tests_cant": "Depends on the structure of the hash, for all contents.", "anchors": ["pallets/stateful-storage/src/types.rs::Page::get_hash", "pallets/stateful-storage/src/lib.rs::update_paginated", "pallets/stateful-storage/src/lib.rs::update_itemized"]}
{"id": "C129", "title": "The limits of the deployed chain", "statement": "With the parameters of the deployed runtime, in every state it reaches: if no call is wrapped in another, an MSA has at most 25 keys and a provider a controlling key; in any case, a provider has a name of at most 16 bytes; a delegation has at most 30 schemas, all registered; a schema model 8 to 65500 bytes; a handle 3 to 20 characters and a suffix from 10 to 99; a page at most 1024 bytes and an id of at most 32, an item list at most 10260 bytes, both under a registered schema and an issued MSA; a message of a block at most 3072 bytes, at most 65536 of them per schema; an account at most 4 unlocking amounts, no stake below one hundredth of a token, at most 50 vesting schedules, no balance below the existential deposit, and its unreleased tokens still there.", "quantifier": "all runtime histories from all genesis balances and schedules", "why_tests_cant": "All histories of all pallets together.", "anchors": ["runtime/common/src/constants.rs", "runtime/frequency/src/lib.rs"]}
{"id": "C130", "title": "Delegation queries tell what will be accepted", "statement": "msa_checkDelegations answers for every asked id, in order, with yes exactly if in the given block, which must not be in the future, the MSA delegated to the provider (and granted the schema). msa_getAllGrantedDelegationsByMsaId lists every provider of an MSA once with the schemas and when they ended; msa_grantedSchemaIdsByMsaId gives the entry of one provider. A provider's post for the MSA is accepted in the next block, all else being in order, exactly if the schema is listed without an end.", "quantifier": "all runtime histories, ids and blocks", "why_tests_cant": "All histories; the queries and the check at dispatch are separate code.", "anchors": ["pallets/msa/src/rpc/src/lib.rs::check_delegations", "pallets/msa/src/rpc/src/lib.rs::get_granted_schemas_by_msa_id", "pallets/msa/src/rpc/src/lib.rs::get_all_granted_delegations_by_msa_id", "runtime/frequency/src/lib.rs::has_delegation"]}
{"id": "C131", "title": "Handle queries tell what will happen", "statement": "A text is refused by handles_getMsaForHandle exactly if it is longer than 38 bytes; the name reported for an MSA by handles_getHandleForMsa can be typed there and finds the MSA, unless its canonical form is empty (C51); what is found has that name. handles_getNextSuffixes lists as many distinct suffixes as asked for, up to 100 and to what is left of 90, none of them given out before for that form, and a claim or change accepted in the next block gets the first. What handles_validateHandle rejects is refused.", "quantifier": "all runtime histories, texts and counts", "why_tests_cant": "All histories and texts; the queries and the calls are separate code.", "anchors": ["pallets/handles/src/rpc/src/lib.rs::get_next_suffixes", "pallets/handles/src/rpc/src/lib.rs::get_msa_for_handle", "pallets/handles/src/rpc/src/lib.rs::validate_handle", "pallets/handles/src/rpc/src/lib.rs::get_handle_for_msa"]}
{"id": "C132", "title": "Storage queries give what a write needs", "statement": "The queries for pages and items of an MSA answer exactly if the schema is registered for pages or items. A key of the MSA can write a page in the next block exactly with the content hash that is listed for it, or 0 if it is not listed, with at most 1024 bytes and an id of at most 32; delete it exactly with the listed hash (with any hash, and without effect, if it is not listed) and unless the schema is append-only; append an item exactly with the hash in the answer and while the list fits 10260 bytes. Afterwards the queries show the change and nothing else changed. Every version of a schema name that is listed can be fetched.", "quantifier": "all runtime histories, ids, hashes and data", "why_tests_cant": "All histories; the queries and the calls are separate code.", "anchors": ["pallets/stateful-storage/src/rpc/src/lib.rs::get_paginated_storage", "pallets/stateful-storage/src/rpc/src/lib.rs::get_itemized_storage", "pallets/schemas/src/rpc/src/lib.rs::get_versions"]}
{"id": "C133", "title": "The MSA events tell who controls, provides and delegates", "statement": "Somebody who follows the events of the MSA pallet from the first block knows, at any time, which MSA a key controls, which MSAs are providers, and which delegations are honoured from the next block on; a step without an event about a delegator and a provider changes neither their delegation nor the schemas granted between them.", "quantifier": "all histories, keys, MSAs; calls may fail or be wrapped", "why_tests_cant": "All histories; state and events are written separately in each call.", "anchors": ["pallets/msa/src/lib.rs::Event", "pallets/msa/src/lib.rs::deposit_event"]}
{"id": "C134", "title": "MsaRetired means retired", "statement": "MsaRetired is deposited for an MSA exactly if no key controls it any more.", "quantifier": "all histories", "why_tests_cant": "All histories; retiring and deleting keys are separate calls with checks in a signed extension.", "anchors": ["pallets/msa/src/lib.rs::retire_msa", "pallets/msa/src/lib.rs::delete_msa_public_key", "pallets/msa/src/lib.rs::CheckFreeExtrinsicUse"]}
{"id": "C135", "title": "The vesting events tell what is vested", "statement": "The amount in Claimed is the amount claimed, so that the amounts add up to what was released, and the schedules of an account follow from its genesis schedules and the events.", "quantifier": "all genesis states, histories and accounts", "why_tests_cant": "All histories.", "anchors": ["pallets/time-release/src/lib.rs::Event", "pallets/time-release/src/lib.rs::do_claim", "pallets/time-release/src/lib.rs::claim_for"]}
{"id": "C136", "title": "The capacity events tell stakes and capacity", "statement": "Somebody who follows the events of the capacity pallet, each with its epoch, knows at any time what an account has staked, to whom, what it is unlocking and from when it can be withdrawn, what it has frozen, the length of an epoch, and the tokens, issued and remaining capacity and last replenishment of each provider.", "quantifier": "all histories, accounts and providers", "why_tests_cant": "All histories; state and events are written separately in each call.", "anchors": ["pallets/capacity/src/lib.rs::Event", "pallets/capacity/src/lib.rs::deposit_event"]}
{"id": "C137", "title": "A billion tokens on the main network", "statement": "The main network starts with 1,000,000,000 tokens, and there are never more, in any account or together.", "quantifier": "all histories from the genesis of the main network, for all runtime parameters", "why_tests_cant": "All histories.", "anchors": ["node/service/src/chain_spec/frequency.rs::frequency_genesis", "runtime/common/src/constants.rs::currency"]}
{"id": "C138", "title": "A development node seals what it should", "statement": "With instant sealing, once the node has caught up, every transaction that became ready and was not dropped by the pool is in a block; in every mode none is lost or sealed twice, and blocks are made only for commands of clients, transactions (instant) or ticks (interval). No block is empty unless a client or --sealing-create-empty-blocks asks for it. The chain only grows and what is final stays final. Every command of a client is answered, truthfully.", "quantifier": "all modes and all orders of imports, drops, ticks, commands and turns of the loop, all choices of the proposer", "why_tests_cant": "Depends on the schedule of several streams.", "anchors": ["node/service/src/block_sealing.rs::run_seal_command", "node/service/src/block_sealing.rs::frequency_dev_sealing"]}
{"id": "C139", "title": "Capacity limits how much an MSA can send", "statement": "Within an epoch, the fees of all capacity transactions that keys of an MSA got into blocks, whether their calls failed or not, add up to exactly what the capacity log shows as spent, and to at most the capacity issued to the MSA at the start and granted since. As each costs at least 177812, their number is bounded by that.", "quantifier": "all runtime histories, MSAs and stretches of history within an epoch", "why_tests_cant": "All histories, batches and failures; the charge and the call are separate code.", "anchors": ["pallets/frequency-tx-payment/src/lib.rs::withdraw_capacity_fee", "pallets/capacity/src/lib.rs::deduct", "pallets/frequency-tx-payment/src/payment.rs"]}
{"id": "C140", "title": "Free transactions are paid for in advance", "statement": "Every free transaction that is included (deleting a key, revoking a delegation, retiring an MSA or a handle) undoes one thing that a paid call made, so that there are at most twice as many as paid calls, and nobody can fill blocks for free.", "quantifier": "all runtime histories from genesis or any state", "why_tests_cant": "Unbounded histories; the checks before inclusion and the calls are separate code.", "anchors": ["pallets/msa/src/lib.rs::CheckFreeExtrinsicUse", "pallets/handles/src/handles_signed_extension.rs", "runtime/common/src/extensions/check_nonce.rs", "pallets/msa/src/lib.rs::ensure_valid_delegation"]}
{"id": "C141", "title": "Everyone can leave, free of charge", "statement": "Whoever holds a key of an MSA that is not a provider can, alone, without tokens and whatever others did, remove its delegations, its handle and its keys and retire it: there are transactions of theirs, all free and all accepted, that take at most as many blocks as a signature may last, after which no key controls the MSA and it has no handle. Balances and the keys of others are as before.", "quantifier": "all runtime histories, keys and MSAs", "why_tests_cant": "An existence claim about every reachable state of three pallets and their signed extensions.", "anchors": ["pallets/msa/src/lib.rs::retire_msa", "pallets/msa/src/lib.rs::ensure_msa_can_retire", "pallets/handles/src/lib.rs::retire_handle", "pallets/handles/src/handles_signed_extension.rs", "pallets/msa/src/lib.rs::revoke_delegation_by_delegator"]}
{"id": "C142", "title": "The council decides on providers and schemas", "statement": "On the main network providers, schemas and schema names are added only by root or by the council, exactly as proposed: a provider with at least one member of the council in favour, a schema or name with more than half of its seats. In favour are those whose last word on the motion is aye and who were members ever since, nobody twice; from five days after the motion was made, if the prime member is in favour, all who are not against. A member may also decide alone where one is enough.", "quantifier": "all runtime histories with all councils, changes of members, motions and votes", "why_tests_cant": "All interleavings of proposals, votes, changes of the council and other transactions.", "anchors": ["runtime/frequency/src/lib.rs::CouncilProposalProvider", "runtime/frequency/src/lib.rs::CreateProviderViaGovernanceOrigin", "runtime/frequency/src/lib.rs::CreateSchemaViaGovernanceOrigin", "pallets/msa/src/lib.rs::create_provider_via_governance", "pallets/schemas/src/lib.rs::create_schema_via_governance"]}
{"id": "C143", "title": "Proposals get a hearing", "statement": "Whoever controls an MSA can propose to become a provider, and anyone can propose a schema or a name. The proposal is before the council for five days, unless it is decided earlier; as soon as one member (for schemas and names: more than half) is in favour, anyone can close the motion, and exactly what was proposed is carried out.", "quantifier": "all runtime histories with all councils, changes of members, motions and votes", "why_tests_cant": "All interleavings of proposals, votes and changes of the council.", "anchors": ["runtime/frequency/src/lib.rs::CouncilProposalProvider", "pallets/msa/src/lib.rs::propose_to_be_provider", "pallets/schemas/src/lib.rs::propose_to_create_schema", "runtime/common/src/constants.rs::CouncilMaxProposals"]}
{"id": "C144", "title": "Nothing in the name of an MSA without its consent", "statement": "Every message of the chain was posted by a call that took effect in its block and was sent by a key of its provider; if it is in the name of another MSA, that MSA had earlier signed a grant of the schema to that provider, and the grant was in force. Whenever what is stored at a location of an MSA changes, it is by a storage call for that location that a key of the MSA sent or signed, or that came from a provider to which the MSA had earlier signed a grant of the schema that was in force.", "quantifier": "all runtime histories; calls may be wrapped in batches, proxy calls and multisigs, and may fail", "why_tests_cant": "All histories: the grant, the check of the signature and the use are separate calls of three pallets, arbitrarily far apart.", "anchors": ["pallets/msa/src/lib.rs::grant_delegation", "pallets/msa/src/lib.rs::create_sponsored_account_with_delegation", "pallets/msa/src/lib.rs::ensure_valid_schema_grant", "pallets/messages/src/lib.rs::add_onchain_message", "pallets/stateful-storage/src/lib.rs::check_msa_and_grants"]}
{"id": "C145", "title": "A retired MSA is closed", "statement": "Once an MSA has been retired, no key ever controls it again, it never has a handle or a delegation in force again, what is stored under it never changes, and no message is ever again posted by it or in its name.", "quantifier": "all runtime histories after the retirement; calls may be wrapped and may fail", "why_tests_cant": "All histories of four pallets after the event; the checks are made in a signed extension, the writes elsewhere.", "anchors": ["pallets/msa/src/lib.rs::retire_msa", "pallets/msa/src/lib.rs::ensure_msa_can_retire", "pallets/msa/src/lib.rs::ensure_valid_schema_grant", "pallets/stateful-storage/src/lib.rs::check_msa_and_grants", "pallets/messages/src/lib.rs::add_onchain_message", "pallets/handles/src/lib.rs::claim_handle"]}
{"id": "C146", "title": "Owners can erase their data", "statement": "Whatever happened before, a holder of a key of an MSA can, by storage calls that are all accepted, remove everything that is stored under the MSA except under append-only schemas, with no effect on anything else.", "quantifier": "all runtime histories, keys and MSAs", "why_tests_cant": "An existence claim about every reachable state: contents, hashes and schemas of any kind.", "anchors": ["pallets/stateful-storage/src/lib.rs::delete_page", "pallets/stateful-storage/src/lib.rs::apply_item_actions", "pallets/stateful-storage/src/stateful_child_tree.rs", "pallets/stateful-storage/src/types.rs::ItemizedOperations"]}
{"id": "C147", "title": "An MSA belongs to the keys it was entrusted to", "statement": "Every key of an MSA goes back to the key the MSA was created with, by a chain of keys of which each, while it controlled the MSA, signed for the next. Whoever holds a key can make it the only one within a block, by free transactions that are accepted, without effect on handle, delegations, balances or other MSAs. The only key of an MSA stays the only one until it signs for another.", "quantifier": "all runtime histories including wrapped calls, all keys and MSAs", "why_tests_cant": "About the whole history of an MSA and about everything others may attempt afterwards.", "anchors": ["pallets/msa/src/lib.rs::add_public_key_to_msa", "pallets/msa/src/lib.rs::delete_msa_public_key", "pallets/msa/src/lib.rs::create", "pallets/msa/src/lib.rs::create_sponsored_account_with_delegation", "pallets/msa/src/lib.rs::CheckFreeExtrinsicUse"]}
{"id": "C148", "title": "The capacity of an MSA is for its own keys", "statement": "If an MSA has less capacity left than before, then a key that controls it has sent a transaction to be paid with capacity, or somebody who had staked for it has unstaked. What it can spend per epoch falls only by unstaking.", "quantifier": "all states, histories (with wrapped calls) and MSAs", "why_tests_cant": "About everything that all others may do, in any order and nested in any way.", "anchors": ["pallets/capacity/src/lib.rs::deduct", "pallets/capacity/src/lib.rs::unstake", "pallets/frequency-tx-payment/src/payment.rs::withdraw_fee", "pallets/frequency-tx-payment/src/lib.rs::withdraw_capacity_fee"]}
{"id": "C149", "title": "Unstaking takes only the unstaker's share", "statement": "When an account unstakes from a provider, the provider loses at most the capacity that this account's stake generated for it, or, when only part is unstaked, the same share of its issued capacity as the unstaked tokens are of all tokens staked for it, up to rounding; what it has from others' stake stays.", "quantifier": "all histories of staking, unstaking and withdrawing by any accounts", "why_tests_cant": "About totals kept by increments over all stakes, of any number of stakers and providers.", "anchors": ["pallets/capacity/src/lib.rs::unstake", "pallets/capacity/src/lib.rs::reduce_capacity", "pallets/capacity/src/lib.rs::calculate_capacity_reduction", "pallets/capacity/src/lib.rs::get_stakable_amount_for"]}
{"id": "C150", "title": "Only governance changes the rules", "statement": "The length of an epoch and the longest model a schema may have are as at the start or as root has set them. Whatever vests for an account was there at the start, was sent to it by a transfer that took effect, or was set by root; and nobody but root takes a schedule away before its last payment is due.", "quantifier": "all states, histories (with wrapped calls), accounts and schedules", "why_tests_cant": "About everything that all accounts may attempt, in any order and nested in any way.", "anchors": ["pallets/capacity/src/lib.rs::set_epoch_length", "pallets/schemas/src/lib.rs::set_max_schema_model_bytes", "pallets/time-release/src/lib.rs::update_release_schedules", "pallets/time-release/src/lib.rs::prune_schedules_for"]}
{"id": "C151", "title": "Stakers can take their tokens back", "statement": "Whatever happened before, whoever has staked can, by transactions of their own that are accepted, unstake everything (if the list of unlocking chunks is not full) and withdraw it once it is thawed.", "quantifier": "all runtime histories and stakers", "why_tests_cant": "An existence claim about every reachable state, across staking, freezes and fees.", "anchors": ["pallets/capacity/src/lib.rs::unstake", "pallets/capacity/src/lib.rs::withdraw_unstaked", "pallets/capacity/src/lib.rs::get_stakable_amount_for", "pallets/frequency-tx-payment/src/lib.rs::withdraw_token_fee"]}
{"id": "C152", "title": "Nobody can close an account to vested tokens", "statement": "Whoever has the tokens can send an account a valid vesting schedule, whatever third parties did before: they cannot use up its slots.", "quantifier": "all histories, accounts, senders and schedules", "why_tests_cant": "About everything that all others may do before, in any order and number.", "anchors": ["pallets/time-release/src/lib.rs::transfer", "pallets/time-release/src/lib.rs::do_transfer", "pallets/time-release/src/lib.rs::prune_schedules_for", "runtime/common/src/constants.rs::MinReleaseTransfer"]}
{"id": "C153", "title": "Nobody can take a name away from everybody", "statement": "A name can be claimed by every MSA without a handle as long as fewer other MSAs have claimed it than it has suffixes: no single MSA can use them all up.", "quantifier": "all histories, MSAs and names", "why_tests_cant": "About everything that another MSA may do before, in any number of calls.", "anchors": ["pallets/handles/src/lib.rs::claim_handle", "pallets/handles/src/lib.rs::change_handle", "pallets/handles/src/lib.rs::do_claim_handle", "pallets/handles/src/lib.rs::get_next_suffix_index_for_canonical_handle"]}
{"id": "C154", "title": "Nobody else makes tokens unusable", "statement": "While an account without proxies that is not the account of a multisig sends nothing, the tokens that neither staking nor vesting holds back do not get fewer, whatever all others do, gifts that vest included; only root, with new schedules for the account, can change that.", "quantifier": "all runtime histories from all genesis states, accounts and continuations", "why_tests_cant": "About everything that all others, governance and time may do, in any order and nested in any way, and about the interplay of two freezes.", "anchors": ["pallets/time-release/src/lib.rs::transfer", "pallets/time-release/src/lib.rs::do_transfer", "pallets/time-release/src/lib.rs::claim_for", "pallets/capacity/src/lib.rs::set_staking_account_and_lock", "runtime/frequency/src/lib.rs"]}
{"id": "C155", "title": "Tokens that are not held back can be sent, and no others", "statement": "A payment to another account, sent with the next nonce, is accepted and succeeds exactly if the amount and the fee can be taken from what neither staking nor vesting holds back, keeping the existential deposit, and the receiver then has at least the existential deposit and no more than the chain can count. Then the sender pays amount and fee, the receiver gets the amount, and no other balance and nothing that is held back changes. An account of which nothing is held back can send all that it has, less the fee.", "quantifier": "all states, accounts, amounts, lengths and tips", "why_tests_cant": "An equivalence over all balances, freezes, fees and amounts, with four boundaries that interact.", "anchors": ["pallets/frequency-tx-payment/src/lib.rs::withdraw_token_fee", "pallets/capacity/src/lib.rs::set_staking_account_and_lock", "pallets/time-release/src/lib.rs::update_freeze", "runtime/frequency/src/lib.rs::pallet_balances"]}
