{
 "claims": [
  {
   "property": "C01",
   "status": "proved",
   "theorems": [
    "C01_rollback_restores",
    "C01_rollback_total"
   ],
   "note": "For every program over the state API, with nested commits and rollbacks."
  },
  {
   "property": "C02",
   "status": "proved",
   "theorems": [
    "C02_commit_keeps",
    "C02_outer_rollback_undoes_committed"
   ],
   "note": ""
  },
  {
   "property": "C03",
   "status": "proved",
   "theorems": [
    "C03_set_account",
    "C03_set_storage",
    "C03_set_storage_defined",
    "C03_set_transient_storage",
    "C03_destroy_storage",
    "C03_destroy_account",
    "C03_no_zero_residue"
   ],
   "note": ""
  },
  {
   "property": "C04",
   "status": "proved",
   "theorems": [
    "C04_move_ether_conserves",
    "C04_move_ether_defined"
   ],
   "note": ""
  },
  {
   "property": "C05",
   "status": "proved",
   "theorems": [
    "C05_message",
    "C05_create",
    "C05_deleted_created",
    "C05_burning_step"
   ],
   "note": "Message calls and creations never increase the total; any decrease comes with a scheduled deletion (since Cancun of an account created in the same transaction), and the single destroying step is SELFDESTRUCT of exactly that balance. All forks since the merge."
  },
  {
   "property": "C06",
   "status": "proved",
   "theorems": [
    "C06_failed_message",
    "C06_failed_create",
    "C06_failed_call_caller",
    "C06_failed_create_caller"
   ],
   "note": "For message calls and creations at any depth; warm sets of the caller are those handed to the child."
  },
  {
   "property": "C07",
   "status": "proved",
   "theorems": [
    "C07_static",
    "C07_always",
    "C07_static_calls",
    "C07_inherited",
    "C07_no_creation"
   ],
   "note": "Account map, storage tries and transient tries are equal before and after; premises shown for every static call made during an execution."
  },
  {
   "property": "C08",
   "status": "proved",
   "theorems": [
    "C08_gas_decreases",
    "C08_gas_bounded",
    "C08_child_gas",
    "C08_returned_gas"
   ],
   "note": "Gas is a natural number in the model; every charge is checked before it is subtracted."
  },
  {
   "property": "C09",
   "status": "proved",
   "theorems": [
    "C09_bounds_never_reached",
    "C09_recursion",
    "C09_progress",
    "C09_iterations"
   ],
   "note": "The fuel of the model is never exhausted and the recursion equation of the Python function holds without it."
  },
  {
   "property": "C10",
   "status": "proved",
   "theorems": [
    "C10_stack_size",
    "C10_words"
   ],
   "note": "Size bound unconditional; word bound from well-formed state and environment."
  },
  {
   "property": "C11",
   "status": "proved",
   "theorems": [
    "C11_extension_price",
    "C11_extension_size",
    "C11_path_independent",
    "C11_memory_words",
    "C11_memory_grows",
    "C11_exact"
   ],
   "note": ""
  },
  {
   "property": "C12",
   "status": "proved",
   "theorems": [
    "C12_jump_destinations",
    "C12_pc_on_boundary"
   ],
   "note": ""
  },
  {
   "property": "C13",
   "status": "proved",
   "theorems": [
    "C13_alu",
    "C13_alu_word"
   ],
   "note": "All 26 arithmetic, comparison and bitwise instructions against a table of mathematical functions; exact price, stack, pc effect."
  },
  {
   "property": "C14",
   "status": "proved",
   "theorems": [
    "C14_amounts",
    "C14_unaffordable",
    "C14_child_gas",
    "C14_caller_keeps"
   ],
   "note": ""
  },
  {
   "property": "C15",
   "status": "proved",
   "theorems": [
    "C15_depth",
    "C15_child_depth",
    "C15_too_deep",
    "C15_call_at_limit"
   ],
   "note": ""
  },
  {
   "property": "C16",
   "status": "proved",
   "theorems": [
    "C16_refund_counter",
    "C16_refund_create",
    "C16_nested"
   ],
   "note": "Counter of a successful outermost frame is non-negative; nested frames cover the slots they cleared"
  },
  {
   "property": "C17",
   "status": "proved",
   "theorems": [
    "C17_message",
    "C17_create",
    "C17_modexp_refuted",
    "C17_selfdestruct_refuted"
   ],
   "note": "Premises: values in type range, total supply below 2^256, sender funded, storage only under accounts with nonce or code. In Osaka nothing escapes; before Osaka only OverflowError, and the refuted theorems show that it does."
  },
  {
   "property": "C18",
   "status": "proved",
   "theorems": [
    "C18_message",
    "C18_create",
    "C18_step",
    "C18_transaction",
    "C18_chain",
    "C18_sender",
    "C18_plain"
   ],
   "note": "Message calls, single instructions, transactions and chains of accepted blocks. C18_transaction and C18_chain are for the forks since Cancun; C18_sender and C18_plain hold in all forks since the merge."
  },
  {
   "property": "C19",
   "status": "proved",
   "theorems": [
    "C19_message",
    "C19_create",
    "C19_step",
    "C19_not_deleted",
    "C19_create_not_deleted",
    "C19_transaction",
    "C19_chain",
    "C19_before_cancun_refuted"
   ],
   "note": "Message calls, single instructions, transactions and chains of accepted blocks; accounts with real code are never scheduled for deletion. Since Cancun; C19_before_cancun_refuted shows that the property (and C18 for contracts) fails before."
  },
  {
   "property": "C20",
   "status": "proved",
   "theorems": [
    "C20_storage_owner"
   ],
   "note": "Any changed slot is explained by an SSTORE executed in its owner's storage context or by the creation of the owner"
  },
  {
   "property": "C21",
   "status": "proved",
   "theorems": [
    "C21_sets_grow",
    "C21_account_access",
    "C21_slot_access",
    "C21_sstore_price",
    "C06_failed_call_caller",
    "C06_failed_create_caller"
   ],
   "note": "Failed children: see C06_failed_call_caller."
  },
  {
   "property": "C22",
   "status": "proved",
   "theorems": [
    "C22_delegations",
    "C22_exact",
    "C22_others",
    "C22_message",
    "C22_total"
   ],
   "note": "rooted: accounts with storage have a nonce or non-delegation code"
  },
  {
   "property": "C23",
   "status": "proved",
   "theorems": [
    "C23_exact_bits",
    "C23_no_false_negatives",
    "C23_order_independent",
    "C23_concatenation",
    "C23_block"
   ],
   "note": "C23_block: the header and receipt blooms of an accepted block miss no log."
  },
  {
   "property": "C24",
   "status": "proved",
   "theorems": [
    "C24_compact_injective",
    "C24_compact_length",
    "C24_compact_decodes",
    "C24_nibbles"
   ],
   "note": "Injectivity, exact length, a full decoding (flags and nibbles read back) and the nibble form of byte strings."
  },
  {
   "property": "C25",
   "status": "proved",
   "theorems": [
    "C25_reads",
    "C25_root_of_mapping",
    "C25_root_defined"
   ],
   "note": "For any two histories of trie_set with the same reads. For a secured trie the alternative is that two of its own keys have the same hash. Premise: the hash returns 32 bytes."
  },
  {
   "property": "C26",
   "status": "proved",
   "theorems": [
    "C26_root_commits"
   ],
   "note": "Same mapping of keys to encoded values, or two distinct strings among those hashed for these two roots collide. Premises: 32-byte hash, keys and encodings under 2^58 bytes, non-empty encodings."
  },
  {
   "property": "C27",
   "status": "proved",
   "theorems": [
    "C27_state_root_commits",
    "C27_storage_root_of_contents"
   ],
   "note": "Same accounts and storage, or a collision among the strings hashed for these two roots. Premises: Python type ranges, storage only where there is an account, keccak256(0x80) is the EMPTY_TRIE_ROOT constant."
  },
  {
   "property": "C28",
   "status": "proved",
   "theorems": [
    "C28_roundtrip",
    "C28_legacy_wire",
    "C28_injective",
    "C28_transaction_hash",
    "C28_unknown_type"
   ],
   "note": "Every transaction type; premises are the Python type ranges and total size below the RLP limit. All forks since the merge."
  },
  {
   "property": "C29",
   "status": "proved",
   "theorems": [
    "C29_preimages_bind",
    "C29_signing_hashes_bind",
    "C29_sender",
    "C29_authority"
   ],
   "note": "Preimages and signing hashes determine the signed fields, or a hash collision is exhibited; the sender and authority are what ecrecover returns on that hash with valid r, s, y-parity."
  },
  {
   "property": "C30",
   "status": "proved",
   "theorems": [
    "C30_roundtrip",
    "C30_legacy_wire",
    "C30_injective",
    "C30_unknown_type"
   ],
   "note": ""
  },
  {
   "property": "C31",
   "status": "proved",
   "theorems": [
    "C31_value",
    "C31_total",
    "C31_direction",
    "C31_bounds",
    "C31_eighth_refuted",
    "C31_monotone"
   ],
   "note": "Exact value, success for every admissible parent, direction, bounds and monotonicity. Two clauses of the statement are corrected: for an odd gas limit the target is rounded down, so the fee can rise by slightly more than one eighth (C31_eighth_refuted; C31_bounds gives the true bound), and with gas used below target the fee falls weakly (rounding may leave it unchanged)."
  },
  {
   "property": "C32",
   "status": "proved",
   "theorems": [
    "C32_header",
    "C32_steps",
    "validate_header_inv"
   ],
   "note": ""
  },
  {
   "property": "C33",
   "status": "proved",
   "theorems": [
    "C33_series",
    "C33_terms_below_exponential",
    "C33_taylor_monotone",
    "C33_price",
    "C33_excess",
    "C33_excess_total",
    "C33_value",
    "C33_excess_value",
    "C33_fork_block_refuted"
   ],
   "note": "All forks since the merge. The comment about the fork block is refuted for Prague and Osaka (C33_fork_block_refuted)."
  },
  {
   "property": "C34",
   "status": "proved",
   "theorems": [
    "C34_transaction",
    "C34_transactions",
    "C34_always"
   ],
   "note": "C34_always: limits after every prefix; C34_transactions: receipts, tries, logs. All forks since the merge."
  },
  {
   "property": "C35",
   "status": "proved",
   "theorems": [
    "C35_fees",
    "C35_failed"
   ],
   "note": "C35_failed: exact balances of a transaction whose execution failed. All forks since the merge."
  },
  {
   "property": "C36",
   "status": "proved",
   "theorems": [
    "C36_accepts",
    "C36_price",
    "C36_once",
    "C36_no_replay"
   ],
   "note": "C36_accepts is an equivalence; no-replay over chains of accepted blocks starting from a state with no open transaction. All forks since the merge, blocks in the order of their forks."
  },
  {
   "property": "C37",
   "status": "proved",
   "theorems": [
    "C37_retained",
    "C37_linked",
    "C37_chain",
    "C37_numbers"
   ],
   "note": "For all chains built by any sequence of accepted and rejected blocks; also for the full history, of which the code keeps the last 255 blocks. All forks since the merge."
  },
  {
   "property": "C38",
   "status": "proved",
   "theorems": [
    "C38_blockhash"
   ],
   "note": "For chains whose first block has number 0. All forks since the merge."
  },
  {
   "property": "C39",
   "status": "proved",
   "theorems": [
    "C39_blocks",
    "C39_early",
    "C39_state_refuted"
   ],
   "note": "The first wording (state restored too) is false: C39_state_refuted exhibits a rejected block that leaves the state changed. All forks since the merge."
  },
  {
   "property": "C40",
   "status": "proved",
   "theorems": [
    "C40_legacy",
    "C40_check_legacy",
    "C40_typed_ignored",
    "C40_typed_refuted"
   ],
   "note": "The statement says what the code does: legacy transactions are protected, typed ones are not (witness C40_typed_refuted)."
  },
  {
   "property": "C41",
   "status": "proved",
   "theorems": [
    "C41_balances",
    "C41_no_empty_account",
    "C41_total",
    "C41_failure",
    "C41_trie"
   ],
   "note": "Storage is unchanged in states where only accounts with a nonce or code have storage. Amounts are U256 in the code, so an overflow raises OverflowError rather than InvalidBlock (C41_failure). All forks since the merge."
  },
  {
   "property": "C42",
   "status": "proved",
   "theorems": [
    "C42_extract",
    "C42_roundtrip",
    "C42_reject",
    "C42_logs",
    "C42_block",
    "C42_requests"
   ],
   "note": "The code does not look at the padding bytes of the three padded fields, so 'canonical layout' leaves them free. C42_block: the requests hash of an accepted block covers the deposit events of all its logs in order. C42_requests removes the conditions on receipts from C42_block: they follow from the hypotheses of C59_block."
  },
  {
   "property": "C43",
   "status": "proved",
   "theorems": [
    "C43_intrinsic_exact",
    "C43_monotone",
    "C43_validate"
   ],
   "note": "All forks since the merge."
  },
  {
   "property": "C44",
   "status": "proved",
   "theorems": [
    "C44_refines",
    "C44_flush",
    "C44_has_storage",
    "C44_destroy_twice_refuted",
    "C44_crash_refuted",
    "C44_has_storage_refuted"
   ],
   "note": "The three refuted theorems give concrete sequences where the database-backed state loses a write, raises KeyError, or wrongly reports storage. The database itself is an external library, modelled as a store of accounts and slots."
  },
  {
   "property": "C45",
   "status": "proved",
   "theorems": [
    "C45_order",
    "C45_total_order",
    "C45_stays_activated",
    "C45_unscheduled",
    "C45_earlier_first",
    "C45_earlier_first_refuted",
    "C45_set_block",
    "C45_incremental",
    "C45_active_is_latest",
    "C45_check",
    "C45_active",
    "C45_changed"
   ],
   "note": "Also covers the selection of the active fork (ForkTracking in ethereum_spec_tools/sync.py). The order agrees with activation among forks of one kind; across kinds it cannot, as C45_earlier_first_refuted shows, and C45_active_is_latest states the condition on the schedule under which the active fork is the latest activated one. C45_check and C45_active: a fork is active from exactly the block on that has its number, or the first one that has reached its time. C45_changed: the answer of advance_block."
  },
  {
   "property": "C46",
   "status": "proved",
   "theorems": [
    "C46_encode_correct",
    "C46_roundtrip",
    "C46_self_delimiting",
    "C46_injective",
    "C46_sequences",
    "C46_canonical",
    "C46_not_malleable"
   ],
   "note": "encode/decode of the external ethereum_rlp package as modelled in Rlp.v; encodings below 2^64 bytes (the format's own limit)"
  },
  {
   "property": "C47",
   "status": "proved",
   "theorems": [
    "C47_header_hash",
    "C47_block",
    "C47_state",
    "C47_as_read"
   ],
   "note": "Conclusion is 'equal or a keccak256 collision among the strings hashed for these two blocks'. Hypotheses: keccak256 gives 32 bytes; field ranges of the Python types; each transaction's wire encoding shorter than 2^58 bytes. All forks since the merge."
  },
  {
   "property": "C48",
   "status": "proved",
   "theorems": [
    "C48_block",
    "C48_chain"
   ],
   "note": "Starting from a state with no open transaction. All forks since the merge."
  },
  {
   "property": "C49",
   "status": "proved",
   "theorems": [
    "C49_header"
   ],
   "note": "All forks since the merge."
  },
  {
   "property": "C50",
   "status": "proved",
   "theorems": [
    "C50_fails",
    "C50_runs",
    "C50_sound",
    "C50_splice",
    "C50_padded",
    "C50_opcodes"
   ],
   "note": "All instructions that start no other frame, all forks since the merge (availability of opcodes per fork: C53). Premises of C50_fails/C50_runs: values of the environment and the frame fit their types (env_ok, frame_ok, as in C17), and before Cancun no SELFDESTRUCT with 2^255 wei (C17_selfdestruct_refuted); C50_sound needs only 256-bit stack words. The value of ALU instructions is the table of C13."
  },
  {
   "property": "C51",
   "status": "proved",
   "theorems": [
    "C51_fails",
    "C51_refused",
    "C51_runs"
   ],
   "note": "Holds for any function in the place of the child execution. Premises: stack of at most 1024 items and memory of whole words (C10, C11 prove both for every reachable frame); the child's output shorter than 2^256 bytes (bounded by gas, C17)."
  },
  {
   "property": "C52",
   "status": "proved",
   "theorems": [
    "C52_fails",
    "C52_refused",
    "C52_runs",
    "C52_occupied"
   ],
   "note": "As C51. C52_occupied: storage counts as occupied exactly when some slot is non-zero, for states without stored zeros (preserved by every state operation, C03)."
  },
  {
   "property": "C53",
   "status": "proved",
   "theorems": [
    "C53_code",
    "C53_precompiled",
    "C53_creation",
    "C53_precompile_set"
   ],
   "note": "Premise owned: no storage under an account with neither nonce nor code (preserved by execution, C17). Individual instructions are those of C50-C52; valid jump destinations those of C12."
  },
  {
   "property": "C54",
   "status": "proved",
   "theorems": [
    "C54_header",
    "C54_block"
   ],
   "note": "Acceptance of headers and blocks, as exact conditions. All forks since the merge."
  },
  {
   "property": "C55",
   "status": "proved",
   "theorems": [
    "C55_transaction"
   ],
   "note": "the frames run by the message are specified by C50-C53; the authorizations by C22. All forks since the merge."
  },
  {
   "property": "C56",
   "status": "proved",
   "theorems": [
    "C56_block"
   ],
   "note": "The steps of executing a block and their link to the header. All forks since the merge."
  },
  {
   "property": "C57",
   "status": "proved",
   "theorems": [
    "C57_transaction",
    "C57_body",
    "C57_block",
    "C57_chain"
   ],
   "note": "Anchored states stay anchored through messages, delegations, transactions, system calls, withdrawals, blocks and chains. All forks since the merge."
  },
  {
   "property": "C58",
   "status": "proved",
   "theorems": [
    "C58_encoding",
    "C58_sha256",
    "C58_ripemd160",
    "C58_identity",
    "C58_ecrecover",
    "C58_p256verify",
    "C58_modexp",
    "C58_bn128_add",
    "C58_bn128_mul",
    "C58_bn128_pairing",
    "C58_bls_g1_add",
    "C58_bls_g2_add",
    "C58_bls_g1_msm",
    "C58_bls_g2_msm",
    "C58_bls_pairing",
    "C58_bls_map_g1",
    "C58_bls_map_g2",
    "C58_point_evaluation",
    "C58_blake2f",
    "C58_message",
    "C58_message_rejected"
   ],
   "note": "Reference in PrecompileSpec.v, written from the EIPs and RFC 7693; library cryptography is a parameter."
  },
  {
   "property": "C59",
   "status": "proved",
   "theorems": [
    "C59_transaction",
    "C59_body",
    "C59_block",
    "C59_chain",
    "C59_transaction_refuted",
    "C59_withdrawal_refuted",
    "C59_overflow_refuted"
   ],
   "note": "For digest functions of the right sizes, Paris to Osaka. C59_transaction decides acceptance and shows that a rejected transaction leaves the state unchanged; C59_body, C59_block and C59_chain cover blocks and chains. Before Osaka the virtual machine can raise OverflowError (C17): that is the one further outcome, and C59_overflow_refuted shows it with a block of each fork. The other refuted theorems show that an empty transaction string raises IndexError and an overflowing withdrawal raises OverflowError. Before Osaka, which limits both, the size of the block is assumed below 2^32 bytes and its gas limit below 2^60."
  },
  {
   "property": "C60",
   "status": "proved",
   "theorems": [
    "C60_cache_size",
    "C60_dataset_size",
    "C60_seed",
    "C60_epoch",
    "C60_words"
   ],
   "note": "sizes with the standard notion of primality (Znumtheory.prime)"
  },
  {
   "property": "C61",
   "status": "proved",
   "theorems": [
    "C61_cache",
    "C61_item",
    "C61_light",
    "C61_fnv",
    "C61_overflow"
   ],
   "note": "keccak256 and keccak512 are arbitrary functions, the latter with 64-byte outputs"
  },
  {
   "property": "C62",
   "status": "proved",
   "theorems": [
    "C62_formula",
    "C62_raises",
    "C62_bounds",
    "C62_later",
    "C62_direction",
    "C62_ommers",
    "C62_bomb",
    "C62_delay",
    "C62_schedule"
   ],
   "note": "Formula, exceptions, bounds, monotonicity, bomb, and delay for all 13 proof-of-work forks."
  },
  {
   "property": "C63",
   "status": "proved",
   "theorems": [
    "C63_ethash_unique",
    "C63_proof_of_work",
    "C63_header",
    "C63_pow_hash",
    "C63_linked",
    "C63_tip_refuted",
    "C63_london_limit_refuted"
   ],
   "note": "Iff characterisation of header acceptance. Extending the tip and the gas limit of the first London block are refuted by witnesses."
  },
  {
   "property": "C64",
   "status": "proved",
   "theorems": [
    "C64_ommers",
    "C64_london_refuted",
    "C64_history"
   ],
   "note": "Iff characterisation and the consequence for histories of any length; histories are assumed to have consecutive numbers (see C63_tip_refuted)."
  },
  {
   "property": "C65",
   "status": "proved",
   "theorems": [
    "C65_rewards",
    "C65_no_error",
    "C65_block",
    "C65_accepted",
    "C65_rejected"
   ],
   "note": "Transaction execution of these forks is a parameter."
  },
  {
   "property": "C66",
   "status": "proved",
   "theorems": [
    "C66_dao",
    "C66_idempotent"
   ],
   "note": ""
  },
  {
   "property": "C67",
   "status": "proved",
   "theorems": [
    "C67_int",
    "C67_numbers",
    "C67_digits",
    "C67_bytes",
    "C67_round_trip",
    "C67_padded",
    "C67_reads",
    "C67_errors"
   ],
   "note": "All decoders, characterised by explicit grammars; the 4300-digit limit of newer CPython and code points above 255 are not modelled"
  },
  {
   "property": "C68",
   "status": "proved",
   "theorems": [
    "C68_configuration",
    "C68_state",
    "C68_distinct",
    "C68_block",
    "C68_pow_block",
    "C68_pow_start",
    "C68_chain",
    "C68_balance_refuted",
    "C68_nonce_refuted",
    "C68_requests_refuted"
   ],
   "note": "Osaka and proof-of-work forks; JSON parsing not modelled. A missing balance raises AttributeError, a hexadecimal nonce ValueError, and requests_hash of an Osaka genesis block is zero (refuted claims)"
  },
  {
   "property": "C69",
   "status": "proved",
   "theorems": [
    "C69_intrinsic",
    "C69_validate",
    "C69_invalid",
    "C69_known",
    "C69_roundtrip",
    "C69_unknown_type",
    "C69_later"
   ],
   "note": "PropPowTx.v; model PowTx.v. The 13 forks are the values of pow_name."
  },
  {
   "property": "C70",
   "status": "proved",
   "theorems": [
    "C70_sender",
    "C70_refused",
    "C70_stable",
    "C70_osaka",
    "C70_malleability_refuted",
    "C70_not_malleable",
    "C70_replay_refuted",
    "C70_chain",
    "C70_typed_refuted"
   ],
   "note": "PropPowTx.v. Malleability uses the hypothesis that recovery is symmetric under s -> n - s; replay and typed chain ids are refuted."
  },
  {
   "property": "C71",
   "status": "proved",
   "theorems": [
    "C71_accepts",
    "C71_rejected",
    "C71_transaction",
    "C71_gas",
    "C71_accounts",
    "C71_total",
    "C71_cleared",
    "C71_not_cleared"
   ],
   "note": "PropPowRun.v. The virtual machine of these forks is an arbitrary function."
  },
  {
   "property": "C72",
   "status": "proved",
   "theorems": [
    "C72_sequence",
    "C72_gas",
    "C72_no_mint",
    "C72_burn",
    "C72_execute",
    "C72_block",
    "C72_commits",
    "C72_receipt_bytes",
    "C72_receipt_injective",
    "C72_commits_receipts",
    "C72_fork_rules",
    "C72_hashes"
   ],
   "note": "PropPowBody.v. The virtual machine is an arbitrary function; C73 has the supply bounds for the real one."
  },
  {
   "property": "C73",
   "status": "proved",
   "theorems": [
    "C73_message",
    "C73_call",
    "C73_frugal",
    "C73_transaction",
    "C73_transactions",
    "C73_block",
    "C73_life"
   ],
   "note": "PropPowVm.v. The supply theorems of C72 without the assumption on the machine. C73_life: chains of accepted blocks of all 13 forks."
  },
  {
   "property": "C74",
   "status": "proved",
   "theorems": [
    "C74_recursion",
    "C74_escape",
    "C74_failed",
    "C74_gas",
    "C74_failed_call",
    "C74_failed_transaction"
   ],
   "note": "PropPowVm.v"
  },
  {
   "property": "C75",
   "status": "proved",
   "theorems": [
    "C75_static",
    "C75_call"
   ],
   "note": "process_message of 13 forks; one instruction as seen by its frame."
  },
  {
   "property": "C76",
   "status": "proved",
   "theorems": [
    "C76_message",
    "C76_early",
    "C76_call",
    "C76_accepted",
    "C76_transaction",
    "C76_modexp_refuted",
    "C76_selfdestruct_refuted"
   ],
   "note": "Positive theorems under the stated bounds; the two provisos are shown necessary by witnesses (_refuted)."
  },
  {
   "property": "C77",
   "status": "proved",
   "theorems": [
    "C77_message",
    "C77_create",
    "C77_call",
    "C77_transaction",
    "C77_transactions",
    "C77_block"
   ],
   "note": "Deleted accounts are excepted in C77_transaction; code limits hold of them too."
  },
  {
   "property": "C78",
   "status": "proved",
   "theorems": [
    "C78_message",
    "C78_create",
    "C78_call",
    "C78_transaction",
    "C78_transactions",
    "C78_block",
    "C78_homestead_refuted"
   ],
   "note": "For forks before Spurious Dragon the claim is refuted by a witness."
  },
  {
   "property": "C79",
   "status": "proved",
   "theorems": [
    "C79_message",
    "C79_create",
    "C79_nested",
    "C79_call",
    "C79_settled"
   ],
   "note": "All 13 forks."
  },
  {
   "property": "C80",
   "status": "proved",
   "theorems": [
    "C80_step",
    "C80_fails",
    "C80_runs",
    "C80_sound",
    "C80_block"
   ],
   "note": "Instructions that start frames are C81 and C82."
  },
  {
   "property": "C81",
   "status": "proved",
   "theorems": [
    "C81_fails",
    "C81_refused",
    "C81_runs"
   ],
   "note": "Exact failure, refusal, child message and resumed frame per fork, child execution arbitrary."
  },
  {
   "property": "C82",
   "status": "proved",
   "theorems": [
    "C82_fails",
    "C82_refused",
    "C82_runs"
   ],
   "note": "Exact failure, refusal, collision, child message and resumed frame per fork, creation arbitrary."
  },
  {
   "property": "C83",
   "status": "proved",
   "theorems": [
    "C83_code",
    "C83_precompiled",
    "C83_creation",
    "C83_precompile_set"
   ],
   "note": "Transfer, run, end and code deposit per fork."
  },
  {
   "property": "C84",
   "status": "proved",
   "theorems": [
    "C84_ecrecover",
    "C84_sha256",
    "C84_ripemd160",
    "C84_identity",
    "C84_modexp",
    "C84_bn128_add",
    "C84_bn128_mul",
    "C84_bn128_pairing",
    "C84_blake2f",
    "C84_message",
    "C84_message_rejected"
   ],
   "note": "Price and answer of the nine contracts per fork, and what a call of them gives."
  },
  {
   "property": "C85",
   "status": "proved",
   "theorems": [
    "C85_modexp",
    "C85_others",
    "C85_message",
    "C85_blob_price"
   ],
   "note": "Forks before Osaka; the other contracts are those of C58, instructions, calls and frames of all five forks are in C50-C53."
  },
  {
   "property": "C86",
   "status": "proved",
   "theorems": [
    "C86_call",
    "C86_sender",
    "C86_plain",
    "C86_block",
    "C86_once",
    "C86_no_replay",
    "C86_not_again",
    "C86_merge"
   ],
   "note": "C86_merge joins the two kinds of chains: the state since the merge starts with the accounts the last proof-of-work block left."
  },
  {
   "property": "C87",
   "status": "proved",
   "theorems": [
    "C87_encoding",
    "C87_block",
    "C87_recent",
    "C87_hashes",
    "C87_header",
    "C87_life"
   ],
   "note": "C87_recent: the header a Paris block builds on has a mix digest of 32 bytes and a base fee, if it was accepted by London or later. C87_life needs no hypothesis about the state in between: the invariant that no transaction of the state is open is proved along the chain. C87_block: the whole blocks, with transactions and ommers, keep their encodings."
  },
  {
   "property": "C88",
   "status": "proved",
   "theorems": [
    "C88_transactions",
    "C88_block",
    "C88_empty_refuted"
   ],
   "note": "Every block of Frontier to Gray Glacier is appended, turned down with an exception meant for that, or (since Byzantium) ends in the OverflowError of MODEXP (C76). The proviso about empty transaction strings is needed: C88_empty_refuted."
  },
  {
   "property": "C89",
   "status": "proved",
   "theorems": [
    "C89_strings",
    "C89_transaction",
    "C89_transaction_hash",
    "C89_sender",
    "C89_authority",
    "C89_receipt",
    "C89_header",
    "C89_withdrawal",
    "C89_block"
   ],
   "note": "Fixes the encodings that C28, C29 and C47 only show to be injective. C89_strings characterises the strings of numbers, addresses and hashes; RLP itself is C46."
  },
  {
   "property": "C90",
   "status": "proved",
   "theorems": [
    "C90_prime",
    "C90_points",
    "C90_recover",
    "C90_reject",
    "C90_sender",
    "C90_exact",
    "C90_sign_refuted"
   ],
   "note": "coincurve is a parameter. C90_prime proves the modulus prime by a certificate of Pocklington. C90_exact: the function of the record crypto that the rest of the model uses can be taken to be this one, without hiding an exception, since callers pass a v of 0 or 1. C90_sign_refuted: a larger v raises ValueError."
  },
  {
   "property": "C91",
   "status": "proved",
   "theorems": [
    "C91_message",
    "C91_transaction",
    "C91_chain",
    "C91_safe",
    "C91_pow_message",
    "C91_pow_transaction",
    "C91_pow_chain",
    "C91_life"
   ],
   "note": "For message calls, transactions (C91_transaction and C91_pow_transaction also for a sender whose nonce is still 0) and chains, in all forks; C91_life joins the forks with proof of work and those since the merge. A wallet that signed an authorization is out of scope (what it delegates to may spend its ether), and so are the accounts listed by the DAO fork, which moves their ether."
  },
  {
   "property": "C92",
   "status": "proved",
   "theorems": [
    "C92_message",
    "C92_transaction",
    "C92_chain",
    "C92_scan",
    "C92_pow_message",
    "C92_pow_transaction",
    "C92_pow_chain",
    "C92_life"
   ],
   "note": "Messages, transactions and chains of accepted blocks, of proof of work (C92_pow_*, for accounts the DAO fork does not list), since the merge, and across the merge (C92_life). C92_scan: which instructions a code contains is decided by a linear scan."
  },
  {
   "property": "C93",
   "status": "proved",
   "theorems": [
    "C93_seal",
    "C93_header",
    "C93_block",
    "C93_library",
    "C93_seal_refuted"
   ],
   "note": "C93_seal: the check alone; C93_header, C93_block: with the check patched into a fork, no condition on the difficulty, because it is compared with a minimum of 131072 before. C93_library: the condition on the library is met by the functions of ethash.py. C93_seal_refuted: difficulty 1."
  },
  {
   "property": "C94",
   "status": "proved",
   "theorems": [
    "C94_load",
    "C94_latest",
    "C94_active",
    "C94_json",
    "C94_rejects"
   ],
   "note": "C94_load, C94_latest: the list that is loaded; C94_active, C94_json: the active fork; C94_rejects: which files fail."
  }
 ]
}
