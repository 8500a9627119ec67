# Formal model of LibertyDSNP/frequency in Rocq

This is the plan and, further down, the record of what is modelled, what is
trusted and what was found. Sources are cited as `file:lines` in /repo.

## 1. Approach

* One set of files per part of the code, all under `rocq/theories`:
  `<Part>Model.v` (executable Gallina transcription, each definition citing the
  lines it models), `<Part>Spec.v` (the vocabulary of the properties, written
  without the model's helpers), `<Part>Proofs.v` (lemmas) and
  `<Part>Properties.v` (only theorem statements, `Print Assumptions`, and
  `Example`s showing that the hypotheses can be met).
* Storage maps are finite maps (`gmap` of std++, no axioms). Numbers are `N`
  with explicit bounds; `saturating_sub` is truncated subtraction,
  `saturating_add` is `min` with the type's maximum, `checked_add` returns an
  error. Rust panics/overflows that cannot be excluded are explicit results.
* An extrinsic is a total function from state and arguments to
  `Ok state` or `Err e`; FRAME's transactional dispatch (an error rolls the
  storage back) is the `step` wrapper. Histories are lists of steps; a
  reachable state is the result of running a history from genesis.
* Cryptography, the token pallet, other pallets seen through traits, and the
  unspecified parts of the environment are parameters (closed `Section`
  variables or fields of a configuration record), so that theorems hold for
  every behaviour of them, except for stated hypotheses.
* A property that the code violates is kept in the list. The failing full
  statement is refuted by a theorem ending in `_refuted`, and the part that
  does hold is proved under a name ending in `_partial`.

## 2. Plan per property

| Property | Modelled | Proof |
|---|---|---|
| C01-C03 | `register_signature`/`enqueue_signature` as a state machine with the map-based linked list and pointer | invariant: the map and pointer represent a duplicate-free queue sorted by insertion; every accepted signature stays queued until its expiry; then induction on histories |
| C04-C09 | all MSA extrinsics, validation by `CheckFreeExtrinsicUse`, and dispatch | inductive invariants over histories of transactions |
| C10-C13, C16 | delegations with per-schema revocation blocks | case analysis of every call; spec of "usable in block b" |
| C14 | validation versus dispatch | refuted for double revocation in a block; partial theorem for the others |
| C15, C87 | call trees, `BaseCallFilter`, nested dispatch over the MSA model | refutation by a concrete batch; positive theorem for top-level calls |
| C17-C18 | off-chain database, block import with indexing, the worker as a sequence of writes that may stop anywhere, locks, finality | invariant "the list of an MSA agrees with the chain for keys without an unprocessed event", kept by every single write; last event per key decides; refutations for wrapped deletes, forks and an interrupted first indexing |
| C19, C94-C96 | the MSA model | history invariant; decision rules as equivalences |
| C20-C31 | stake/unstake/withdraw, epochs, capacity ledger, freeze and balance | invariants over histories; accounting by ghost sums of event amounts; refutations for C28, C29, C31 |
| C32-C36, C39, C97 | schedules, claim, transfer, update, freeze | invariants over histories with time; arithmetic lemmas; panics are results of the model |
| C37-C38 | the capacity model | progress: the call is shown to succeed in every reachable state that meets the condition |
| C40-C49, C98 | page codec, item actions, page store with its child-trie keys (TwoX hash included), permission checks, signed calls, queries | codec induction; history invariants; key injectivity from the concatenating hashers; refutation for replay |
| C50-C59, C99, C107 | suffix shuffle, claim/change/retire, validator, splitter, UTF-8, canonical form, confusables | permutation invariant of lazy Fisher-Yates; history invariants; finite table sweeps lifted by lemmas |
| C60-C63, C105, C106 | message store, pagination RPC, IPFS payload codec | list model of a chain; termination measure of paging; codec round trip |
| C106, C124 | base32, unsigned varints and the CID reader in place of the parameters of the message model | the decoders are inverse to the encodings; equivalence of the reader with the CID grammar; refutations for version 0 and for trailing bytes |
| C70-C74, C100-C104 | schema registry, name parser, governance calls, name migration | history invariants; parser idempotence; decision rules as equivalences |
| C128 | the content hash of the runtime (first 32 bits of XXH64 of nonce and data) | C43 gives acceptance only on the expected hash; refutation: every step of XXH64 is inverted, so any hash can be reached with eight chosen bytes |
| C129 | the runtime with the parameters of constants.rs; open are only signatures, Blake2, Unicode tables, fees, multisig accounts and votes | C109 projects every runtime history to pallet histories, whose limits (C05, C09, C13, C20, C23, C24, C26, C34, C41, C51, C55, C60, C63, C74, C110, C113, C116, C125) then hold with the deployed numbers; no dust by induction over steps |
| C130 | the delegation queries of msa/src/rpc and the runtime APIs behind them | case analysis of the checks; ends are never in the future by induction over MSA histories; posts by C105 and the projection of C109 |
| C131 | the queries of handles/src/rpc: length limits, defaults, then the pallet's functions | C51, C59, C99 in the projected handle history (C109); names are at most 38 bytes by induction |
| C132 | the queries of stateful-storage/src/rpc and schemas/src/rpc | C43, C49, C70, C71 in the projected histories, with the deployed limits |
| C133-C134 | the events of the MSA pallet, call by call | induction over histories; what is known is a fold over the events |
| C135 | the events of the vesting pallet | from C32-C35; the amount in `Claimed` refutes the listed statement |
| C136 | the events of the capacity pallet | induction over histories with the effects of CapProofs |
| C137 | the endowment in the chain specification of the main network | C112 from that start |
| C138 | the loop that seals blocks in development mode, its streams of commands | invariants over all schedules |
| C139 | the runtime; no new code | every included capacity transaction adds its fee to the log; C25's bound on what is spent within an epoch in the projected history |
| C140 | the runtime; keys, delegations and handles are counted | each free success lowers the count by one, each paid call raises it by at most two, by induction over call trees and histories; refutation by a repeated revocation |
| C141 | the runtime; no new code | the transactions are constructed: revoke each delegation, wait for the handle, retire it, delete the other keys, retire; by induction on delegations and keys, each shown to be accepted; refutation by an invariant on the stored key count after a stranger's wrapped deletion |
| C142 | the council (pallet_collective's motions, votes, closing, prime member, change of members) on top of the runtime, and the origins the runtime configures | invariant: the recorded votes of a motion are those of the history; then case analysis of the steps, with the result for transactions on the main network (C86) |
| C143 | the same; the calls that propose | from the invariant, the threshold of a motion is that of its proposal; refutations by 25 proposals of one key and by a council that grows |
| C144 | the runtime; no new code. The calls that took effect are listed from the history, each with the state it met | invariant over the listed calls: every permission of a delegation has a signed grant among them, every message its posting call; induction over call trees and histories, with the storage pallet's description of what a call changes |
| C145 | the runtime; no new code | invariant over the small steps of the runtime: without a key and without a delegation in force none can be made; case analysis of the transaction that retires; refutation by a wrapped call to retire |
| C146 | the runtime; no new code | the calls are constructed, one per page and per item, by induction on the items and on the finitely many locations of an MSA; each is shown to be accepted by the exact acceptance condition (C43) |
| C147 | the runtime; no new code | over the deeds of C144 (the calls that took effect): the chain is built along them from the key effect of each call; the removal of the other keys by induction on their number (C141); the last part by induction on the later deeds |
| C148 | the runtime; no new code | case analysis of each call that takes effect, within any wrapping (the deeds of C144), and of the fee; then the first step of a history at which the capacity falls |
| C149 | the capacity pallet and the runtime; no new code | for stakers with one provider: the invariant of C29 with the share of C30; in general refuted by an attack from any state, by induction on the number of stakes |
| C150 | the runtime; no new code | the effect of each pallet's calls on the rules and on vesting schedules, lifted through wrapped calls (the deeds of C144) and fees to steps, then induction on the history |
| C151 | the runtime; no new code | the liveness of C37 and C38 carried to transactions with their fees; refuted where the fee cannot be paid, by induction on what the account sends |
| C152 | the vesting model; no new code | what others do elsewhere only frees slots, by induction on the history; refuted by filling the slots, which then stay full |
| C153 | the handle model; no new code | claims of other names and retirements leave the count of a name alone, by induction on the history; refuted by changing to the same name again and again |
| C154 | the runtime; no new code | what is held back grows at most as much as the balance, by induction on nested calls and histories, with the invariants of C110 and C112 |
| C155 | the runtime; no new code | case analysis of fee, debit and credit for `transfer_keep_alive`, for every state |
| C125-C127 | the JSON parser (serde_json) and the deserializers that serde derives for Avro and Parquet models, in place of the parameter of the schema model | soundness and completeness of the parser for the grammar of RFC 8259; equivalence of each deserializer with a description of its values; refutations for Parquet's codecs and types and for Avro |
| C80-C83 | capacity payment path, fee computation, batch | case analysis; monotonicity with saturation; refutation for C83 |
| C84-C86 | the composed runtime: extensions, nonces, passkey pallet | history invariant; refutations |
| C88, C108 | proxy filters and the proxy, multisig and batch wrappers over all call kinds | case analysis on the call type; induction on nested calls |
| C109-C110 | all pallet models composed into one runtime with one token balance | simulation: every runtime history projects to a history of each pallet; invariant on tokens |
| C111-C116 | the composed runtime | induction on nested calls (C111, C112), relations carried through every step of a transaction (C112, C113, C115), simulation by single pallet calls (C114, C116) |
| C117-C121 | the `validate` half of the extensions and of the passkey pallet, pool tags as bytes, the missing-nonce RPC | agreement of two implementations by case analysis; injectivity of the tag encodings; loop invariants over the pool's order; refutations for C119, C120 |
| C122-C123 | the events RPC, JSON forms of bytes | round trips |
| C90-C92 | storage migrations | map induction |
| C93 | SCALE encodings of the signed payloads | encoders as byte functions; injectivity per kind, refutation or separation across kinds |

## 3. Trusted base

* Coq 8.16.1's kernel (`vcheck` also runs `coqchk`). No kernel check is
  switched off, no plugin is used, no functor or module type is defined.
* Axioms: none. `Print Assumptions` beneath every theorem answers "Closed under
  the global context". std++ is used for finite maps; it brings no axioms.
* The reading of the Rust code that the model transcribes. Each definition
  cites its file and lines and says what it simplifies.
* The semantics of FRAME: a dispatch that returns an error leaves no trace in
  storage; transaction extensions see the outermost call; bounded collections
  refuse what exceeds their bound; `ValueQuery` maps answer with the default.
* The dependencies, as far as they appear: SCALE (`Scale.v`, `ScaleDec.v`),
  UTF-8 and number parsing (`Utf8.v`), XXH64 (`XxHash.v`), `Perbill` (`CapModel.v`),
  base32, varints and CIDs (`CidModel.v`), serde and
  serde_json (`JsModel.v`), weights and fee polynomials (`FeeModel.v`), locks and freezes of pallet_balances
  (`MiModel.v`), utility, proxy and multisig dispatch (`RtModel.v`), motions, votes and
  the prime member of pallet_collective (`CoModel.v`).
* Parameters, over which the theorems quantify: signature verification, Blake2,
  multibase other than base32 (in `MgModel` all of multibase and CIDs), Unicode decomposition tables, the token pallet's own
  refusals, weights of calls. Where a hypothesis on one of them is needed it is in
  the statement (`hashes_ok`, `sizes_ok`, `key_hash_ok`, "decoding undoes
  encoding", ...).

### What is modelled

| Files in /repo | Model |
|---|---|
| `pallets/msa/src/lib.rs`, `types.rs`, `common/primitives/src/msa.rs`: all calls, `CheckFreeExtrinsicUse`, signature registry, delegation queries, signed payload encodings | `SigModel`, `MsaModel` |
| `pallets/msa/src/offchain_storage.rs`, `rpc/src/lib.rs` | `OcModel` |
| `pallets/capacity/src/lib.rs`, `types.rs`: all calls, epochs, ledger, `Nontransferable`/`Replenishable` | `CapModel` |
| `pallets/capacity/src/migration/v3.rs`, `pallets/time-release/src/migration/v2.rs` | `MiModel` |
| `pallets/time-release/src/lib.rs`, `types.rs` | `TrModel` |
| `pallets/stateful-storage/src/*.rs`: down to bytes and keys of the child tries | `StModel` |
| `pallets/handles/src/lib.rs`, `handles_signed_extension.rs`, `src/handles-utils` incl. the confusables table and allowed ranges | `HModel`, `HConfusables` |
| `pallets/schemas/src/lib.rs`, `types.rs`, `migration/v4.rs` | `ScModel` |
| `pallets/schemas/src/serde.rs`, `common/primitives/src/parquet` | `JsModel` |
| `pallets/messages/src/lib.rs`, `types.rs`, `rpc`, `migration/v2.rs`, `common/primitives/src/messages.rs` | `MgModel`, `CidModel` |
| `pallets/frequency-tx-payment/src/lib.rs`, `capacity_stable_weights.rs`, `runtime/common/src/fee.rs` | `FeeModel`, `RtModel` |
| `pallets/passkey/src/lib.rs`, `runtime/frequency/src/lib.rs` (filters, proxy types, extensions), `runtime/common/src/extensions/check_nonce.rs`, `runtime/common/src/proxy.rs` | `RtModel` |
| the `validate` halves of these extensions, `node/service/src/rpc/frequency_rpc.rs`, `common/primitives/src/rpc.rs`, `utils.rs` | `PoolModel` |
| `pallets/{msa,handles,stateful-storage,schemas}/src/rpc/src/lib.rs` and the runtime APIs in `runtime/frequency/src/lib.rs` behind them | `RpcModel` |
| the events of `pallets/msa/src/lib.rs` and `pallets/time-release/src/lib.rs` | `EvModel` |
| `node/service/src/chain_spec/frequency.rs`: the endowment | `GenModel` |
| `node/service/src/block_sealing.rs`: modes, streams, `run_seal_command` | `SealModel` |
| `runtime/frequency/src/lib.rs`: the council's configuration, `CouncilProposalProvider`, governance origins; the `propose_*` calls of `pallets/msa/src/lib.rs` and `pallets/schemas/src/lib.rs` | `CoModel` |

Each model states its simplifications in comments. The main ones:

* Accounts, signatures and MSA ids are numbers; where an encoding matters
  (signed payloads, storage keys, pages) the bytes are modelled.
* Events are kept where a property mentions them: all those of the MSA, time-release and
  capacity pallets (C133-C136), the claims and retirements of handles, the new names of
  schemas, the content hashes in the storage events, the indexes of messages.
* The pallet models (all but `RtModel`) see other pallets through an arbitrary
  environment; `RtModel` replaces it by the actual other pallets, and C109 shows
  that every runtime history projects to a history of each pallet model.
* `RtModel`: proxies without delay and deposits, multisigs with threshold one,
  token fees given by a function without refund after dispatch; calls of pallets
  that do not belong to this repository are no-ops.
* `JsModel`: text to tree and tree to typed value are two passes; which floating
  point numbers are too large is a parameter.
* `OcModel`: typed keys instead of byte strings; one worker write is one atomic
  step; the node's blocks come in any order that the import rules permit.
* `PoolModel`: the pool itself (sc-transaction-pool, a dependency) appears only as
  the guarantees of the record `pool_rules`.
* `SealModel`: one chain without forks; `seal_block` and `finalize_block` of
  sc-consensus-manual-seal are described, the proposer's choice is arbitrary.
* `MiModel`: accounts of pallet_balances are taken to exist.
* `CoModel`: a motion is identified by its call instead of the call's hash; motions for
  batches, scheduled calls and calls of other pallets change nothing; fees of council
  transactions are left out.

### What is not modelled

Consensus, networking and the relay chain; the node's command line and services other than sealing;
block weights and lengths other than in fees; the wasm build; benchmarks,
generated weights and test pallets; `try-runtime` hooks; metadata and runtime API
plumbing; the cryptography and hash functions other than XXH64; the internals of
Substrate's pallets.

## 4. Findings

Places where the code does not do what a reader of its API would expect. Proved
ones name the theorem.

Runtime and transaction extensions

1. `BaseCallFilter` admits a batch if *any* of its calls is allowed
   (`C87_batch_refuted`).
2. `CheckFreeExtrinsicUse` and the handles extension see only the outermost call.
   Wrapped in a batch, a proxy or a multisig, `delete_msa_public_key` deletes any
   key of any MSA (`C15_anyone_detaches_refuted`, `C15_stranger_refuted`,
   `C07_wrapped_calls_refuted`); a handle can be retired early
   (`C54_inner_call_refuted`); an MSA can be retired with handle, keys and
   delegations.
3. A free transaction from an account without tokens stores no nonce and can be
   replayed (`C84_free_replay_refuted`); removing an account resets its nonce
   (`C84_reaped_replay_refuted`).
4. A free transaction of an account without tokens leaves the nonce as it is, so the
   sender's next queued transaction waits for ever (`C120_no_tokens_refuted`);
   `retire_handle` has no tag, so many of them by one account fill the pool while
   only one can succeed (`C118_conflicts`).
5. `frequency_getMissingNonceValues` leaves out nonces when two waiting transactions
   have the same nonce (`C119_duplicates_refuted`).
6. The passkey signature is never verified (`C85_signature_ignored_refuted`).
7. `NonTransfer` is declared a superset of `CancelProxy` but does not allow
   `reject_announcement` (`C88_cancel_refuted`); a `NonTransfer` proxy moves tokens
   through a multisig (`C108_example`).
8. The capacity fee estimate is too high for every transaction that fits a block
   (`C83_estimate_refuted`), zero for an empty batch (`C83_empty_batch_refuted`),
   and given for ineligible batches (`C83_ineligible_refuted`).

MSA

9. A registry with capacity one corrupts (`C02_capacity_one_refuted`).
10. Two revocations of one delegation in a block both pass validation, the second
   fails at dispatch (`C14_double_revocation_refuted`).
11. A schema revoked in the current block is still usable in it, and may be revoked
   twice (`C10_same_block_refuted`, `C10_double_schema_revocation_refuted`).
12. A historical query answers with grants made after the block asked about
    (`C16_past_checks_refuted`).
13. A revocation in block 0 is indistinguishable from an active delegation.

Off-chain index

14. Wrapped deletes (`C17_wrapped_delete_refuted`), forks (`C17_fork_refuted`:
    events are keyed by block number only) and an interrupted initial indexing
    (`C18_interrupted_refuted`) leave the index wrong for ever. More than 65535
    events in a block overwrite each other; `offchain_index::clear` from the worker
    has no effect.

Capacity

15. Already staked tokens can be staked again (`C28_stake_backed_refuted`), any
    number of times and under every configuration (`C28_unlimited_refuted`).
16. Unstaking with several targets leaves capacity that no stake backs
    (`C29_totals_refuted`).
17. `replenish_by_amount` does nothing (`C31_replenish_by_amount_refuted`).
18. The lock-to-freeze migration skips accounts that are only unstaking: their old
    lock stays for ever and nothing is frozen (`C90_unlock_only_refuted`). A failed
    `set_freeze` is only logged, and the lock removed anyway.

Stateful storage

19. Signed payloads can be replayed after a deletion, for deletions, for pages
    without data, and under another MSA (`C44_*_refuted`).
20. A signed delegation is also a signed storage write, a handle claim a page
    deletion (`C93_delegation_as_write_refuted`, `C93_handle_as_page_delete_refuted`).
21. Upserting a page of an append-only paginated schema is allowed; a signed delete
    of a missing page succeeds; a page with 65536 empty items would be unreadable if
    the page limit were 131072 or more.

Handles

22. All canonical forms above 32 bytes share the empty stored base
    (`C51_long_forms_refuted`, `C52_long_forms_refuted`).
23. Only the low 16 bits of a character are checked (`C55_outside_ranges_refuted`);
    reserved words are compared before canonicalisation
    (`C55_reserved_word_refuted`).
24. Other spellings of a suffix resolve too (`C56_other_spellings_refuted`).
25. A signed claim can be replayed as a change (`C58_replay_as_change_refuted`).
26. `validate_handle` accepts what cannot be claimed (`C99_validate_refuted`).
27. `Lena` and `lena` have different canonical forms (`C107_letter_l_refuted`).
28. A maximum suffix of 65535 overflows the loop bound.
29. A batch that retires an MSA leaves its handle behind with no owner
    (`C114_batch_refuted`); nobody can ever retire it.

Schemas and messages

30. Governance can give a schema a second name (`C72_second_name_refuted`).
31. The genesis size limit is unchecked (`C74_genesis_refuted`); the registration
    limit is not enforced (`C100_registration_limit_refuted`); id 0 counts as valid
    (`C103_id_zero_refuted`).
32. The 65537th message of a block replaces the 65536th (`C60_overflow_refuted`,
    `C62_overwritten_refuted`).
33. CIDs of version 0 are refused only in their own notation; in base32 they are
    accepted (`C124_version0_refuted`). Bytes after a CID are accepted and kept
    (`C124_trailing_refuted`).
34. The codec ZSTD of Parquet is refused and has to be written `Z_S_T_D`
    (`C126_zstd_refuted`, `C126_other_codec_refuted`): `rename_all =
    "SCREAMING_SNAKE_CASE"` splits the variant's capitals. Integers of 7 bits and
    decimals with more fractional digits than digits are accepted
    (`C126_meaningless_types_refuted`).
35. Any JSON object passes for an Avro schema (`C127_no_type_refuted`), while the RPC
    `schemas_checkSchemaValidity` asks for a real one, and accepts texts that are no
    object, which the chain refuses.

36. The content hash that guards writes to stateful storage is 32 bits of XXH64, a hash
    that can be inverted: whoever may write a page can give it any content hash
    with at most 39 bytes of their choice (`C128_hash_chosen_refuted`,
    `C128_item_hash_chosen_refuted` for item lists), and so
    make the chain accept again a payload that the owner signed once and that has
    not expired (`C128_replay_forced_refuted`, with a concrete run in
    `C128_example`).

Time release

37. The event `Claimed`, documented as carrying the amount claimed, reports the amount that
    stays frozen (`C135_claimed_amount_refuted`). Claiming n times in one block, which
    anyone may do for any account, reports n times that amount
    (`C135_claims_do_not_add_up`). `ReleaseSchedulesUpdated` does not carry the new
    schedules (`C135_update_not_told_refuted`).

Identity, limits

38. A wrapped deletion of someone else's key lowers the key count of the MSA of the
    caller, who can then attach more keys to it than MaxPublicKeysPerMsa
    (`C129_wrapped_calls_exceed_key_limit`: 26 keys with a limit of 25;
    `C05_wrapped_calls_refuted`). It can also leave a registered provider without
    any key (`C09_wrapped_calls_refuted`).
39. A wrapped `retire_msa` by one of two keys deposits `MsaRetired` although the other key
    still controls the MSA (`C134_announced_while_controlled_refuted`); a wrapped
    deletion of the last key leaves an MSA without keys that was never announced as
    retired (`C134_unannounced_without_keys_refuted`).

Node

40. The chain specification of the main network says "Total initial tokens:
    1_000_000_000 FRQCY" (frequency.rs:234); the amounts add up to 999,990,000
    (`C137_billion_refuted`).
41. With instant sealing, transactions that come at once leave empty blocks behind the one
    that takes them (`C138_instant_empty_refuted`).
42. A client that asks for a non-empty block while nothing is ready gets no answer: the
    command is dropped with its sender (`C138_answered_refuted`); the function that
    `run_seal_command` replaces would have answered with an error.

Free transactions

43. In the block in which a delegation was revoked, further revocations of it pass the
    check for free transactions and fail. A key without tokens has no nonce, so one
    signed revocation can be included any number of times, without a fee and without
    an effect (`C140_free_noop_refuted`); only the weight of the block bounds it.
44. A stranger can lock somebody in. A wrapped `delete_msa_public_key` (see finding on
    wrapped calls, C07) of one of two keys of another's MSA lowers the count of the
    stranger's own MSA, not of the victim's, whose stored count is then one too high for
    ever. `retire_msa` asks for a count of one, so whatever plain calls follow, a key
    stays on the MSA (`C141_locked_in`, `C141_leave_refuted`).

The council

45. Proposals of users take the places of the council's own motions, of which there are
    25. One key with an MSA can fill them with proposals to become a provider under 25
    names; then neither others nor, for motions to be voted on, the council itself can
    propose (`C143_crowded_out_refuted`).
46. The votes a schema proposal needs are fixed when it is made, while the origin is
    checked against the council as it is when the motion is closed. If the council grew
    meanwhile, anyone can close the motion before half of the council voted, and it is
    gone without effect (`C143_closed_too_early_refuted`).
47. Two consequences of the configuration that may surprise. A provider is made with one
    vote against all others (`C142_instance`). A schema is made with the vote of the
    prime member alone if nobody else votes within five days (`C142_prime_alone`).
48. An MSA that is retired inside another call keeps its delegations, as these are
    checked only for the transaction's own call (compare finding on C15). Its
    providers go on storing and posting in its name, and no key exists that could
    revoke them (`C145_wrapped_refuted`). The same follows when a stranger deletes
    the last key (`C15_stranger_refuted`).
49. Anyone can take away the capacity of any provider. Findings 15 and 16 combine:
    an account stakes a small amount for the victim and the same tokens again and again
    for another provider, then unstakes everything from the victim. The victim's
    issued and remaining capacity become 0, though its stakers are still bound
    (`C149_wiped_out_refuted`, for every state and configuration). On the deployed
    runtime it is one batch (`C149_deployed`).
50. Stakers can lock themselves out. As staked tokens can be staked again (finding 15), two
    stakes freeze more than the account has. It then cannot pay any fee, neither for
    unstaking nor for anything else, until somebody sends it tokens
    (`C151_cut_off_refuted`, `C151_stuck_refuted`).
51. Anybody can close an account to vesting transfers. The least amount of a schedule is 0
    on the deployed chain and an account has 50 slots. Fifty schedules of one smallest unit
    each, due at the last block number, fill them for good; only root can help
    (`C152_blocked_refuted`, `C152_deployed`).
52. Anybody can close a name for ever. A change to the same name uses up a suffix, and a
    signed claim can be sent again as a change as often as one likes until it expires
    (finding 25). With one such payload, its own or one that another MSA sent, an account
    uses up the 90 suffixes of a name in one block (`C153_taken_away_refuted`,
    `C153_deployed`).

## 5. Tests against wrong programs

`seeded/LOG.jsonl` has one line per attempt. A scratch copy of the theories gets
one edit in a model file, everything that depends on it is rebuilt, and the
theorems, lemmas and examples that fail are recorded. `tightened` names theorems
that were strengthened because an edit that falsifies the English claim went
unnoticed; the attempt is then repeated ("after tightening").
