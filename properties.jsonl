{"id": "C01", "title": "Rollback restores the world state", "statement": "After begin_transaction, any sequence of state operations (including nested, properly closed begin/commit/rollback pairs) and then rollback_transaction, every account, every storage slot and every transient slot reads exactly as it did before begin_transaction, and the enclosing snapshots are untouched.", "quantifier": "all states, all finite well-bracketed sequences of state API calls", "why_tests_cant": "the sequence of operations and nesting depth are unbounded; a test fixes one sequence", "anchors": ["src/ethereum/osaka/state.py:begin_transaction", "src/ethereum/osaka/state.py:rollback_transaction", "src/ethereum/osaka/state.py:commit_transaction"]}
{"id": "C02", "title": "Commit keeps changes and outer rollback still undoes them", "statement": "commit_transaction changes no account, storage or transient value; and a rollback of an enclosing transaction still restores the values at its begin even though inner transactions were committed.", "quantifier": "all states, all well-bracketed operation sequences, all nesting depths", "why_tests_cant": "unbounded nesting and operation sequences", "anchors": ["src/ethereum/osaka/state.py:commit_transaction", "src/ethereum/osaka/state.py:rollback_transaction"]}
{"id": "C03", "title": "State reads return the last write and nothing else moves", "statement": "set_account/set_storage/set_transient_storage/destroy_storage/destroy_account change the value read back at exactly the addressed account/slot and leave every other account and slot unchanged; zero values and removed accounts leave no residue (an all-zero storage is indistinguishable from no storage).", "quantifier": "all states, addresses, keys and values", "why_tests_cant": "quantifies over all pairs of distinct addresses/keys and all prior states", "anchors": ["src/ethereum/osaka/state.py:set_storage", "src/ethereum/osaka/state.py:get_storage", "src/ethereum/osaka/state.py:set_account", "src/ethereum/osaka/state.py:destroy_storage", "src/ethereum/osaka/trie.py:trie_set"]}
{"id": "C04", "title": "Ether transfers conserve the total balance", "statement": "move_ether either raises without a net transfer being possible (insufficient funds) or leaves the sum of all account balances unchanged, debits the sender and credits the recipient by exactly the amount, including when sender and recipient coincide.", "quantifier": "all states, senders, recipients and amounts", "why_tests_cant": "sums over arbitrarily large account sets", "anchors": ["src/ethereum/osaka/state.py:move_ether", "src/ethereum/osaka/state.py:modify_state"]}
{"id": "C05", "title": "EVM execution cannot create ether", "statement": "For every message, whatever the code executed, the sum of all account balances after the message call is at most the sum before; it is strictly smaller only through SELFDESTRUCT of an account created in the same transaction. In Paris and Shanghai: through SELFDESTRUCT of any account.", "quantifier": "all codes, call trees, states, gas amounts and environments", "why_tests_cant": "ranges over all EVM programs and call trees", "anchors": ["src/ethereum/osaka/vm/interpreter.py:process_message", "src/ethereum/osaka/vm/instructions/system.py:selfdestruct", "src/ethereum/osaka/vm/instructions/system.py:call"]}
{"id": "C06", "title": "A failing frame has no effect on the world", "statement": "If a message call ends with an error (revert or exceptional halt), every account, storage slot and transient slot is exactly what it was when the frame was entered, and the caller's logs, refund counter, account-deletion set and warm sets are unchanged by it.", "quantifier": "all messages, codes, states; any failure point at any depth", "why_tests_cant": "the failure may happen after any number of steps and nested calls", "anchors": ["src/ethereum/osaka/vm/interpreter.py:process_message", "src/ethereum/osaka/vm/interpreter.py:process_create_message", "src/ethereum/osaka/vm/__init__.py:incorporate_child_on_error"]}
{"id": "C07", "title": "Static calls cannot modify anything", "statement": "A message executed with is_static set leaves every account, storage slot and transient slot unchanged, emits no logs and schedules no account deletion, however deep it calls.", "quantifier": "all static messages, codes, states and call trees", "why_tests_cant": "ranges over all programs reachable from a static call", "anchors": ["src/ethereum/osaka/vm/instructions/storage.py:sstore", "src/ethereum/osaka/vm/instructions/log.py:log_n", "src/ethereum/osaka/vm/instructions/system.py:generic_create", "src/ethereum/osaka/vm/instructions/system.py:call"]}
{"id": "C08", "title": "Gas never increases and never goes negative", "statement": "At every point of execution of a frame the remaining gas is at most what it was at any earlier point of the frame, and a finished frame returns no more gas than the message supplied; a frame that halts exceptionally returns zero gas.", "quantifier": "all messages, codes, states and steps", "why_tests_cant": "all programs, all numbers of steps", "anchors": ["src/ethereum/osaka/vm/gas.py:charge_gas", "src/ethereum/osaka/vm/interpreter.py:execute_code", "src/ethereum/osaka/vm/instructions/system.py:generic_call"]}
{"id": "C09", "title": "EVM execution terminates", "statement": "process_message and process_create_message terminate for every code and state: each executed instruction consumes gas or halts, and the number of loop iterations of a frame is at most its gas plus one.", "quantifier": "all messages, codes, states, gas amounts", "why_tests_cant": "termination over all programs", "anchors": ["src/ethereum/osaka/vm/interpreter.py:execute_code", "src/ethereum/osaka/vm/gas.py"]}
{"id": "C10", "title": "Stack stays within bounds", "statement": "During any execution the operand stack never exceeds 1024 items and every item is an integer below 2^256.", "quantifier": "all codes, states, steps", "why_tests_cant": "all programs, all step counts", "anchors": ["src/ethereum/osaka/vm/stack.py:push", "src/ethereum/osaka/vm/stack.py:pop", "src/ethereum/osaka/vm/instructions/"]}
{"id": "C11", "title": "Memory is word sized, only grows, and expansion is priced path-independently", "statement": "During any execution memory length is a multiple of 32 and never shrinks; the total charged for memory expansion in a frame depends only on the final size (3w + w^2/512 for w words), not on the sequence of expansions.", "quantifier": "all codes, states, steps; all expansion sequences", "why_tests_cant": "unbounded sequences of expansions", "anchors": ["src/ethereum/osaka/vm/gas.py:calculate_gas_extend_memory", "src/ethereum/osaka/vm/gas.py:calculate_memory_gas_cost", "src/ethereum/osaka/vm/memory.py:memory_write"]}
{"id": "C12", "title": "Only real instructions are executed", "statement": "The jump-destination set computed for a code consists of exactly the positions of JUMPDEST bytes that are not inside PUSH data, and during any execution the program counter always sits on an instruction boundary (push data is never executed).", "quantifier": "all byte strings as code; all executions", "why_tests_cant": "all codes; all execution traces", "anchors": ["src/ethereum/osaka/vm/runtime.py:get_valid_jump_destinations", "src/ethereum/osaka/vm/instructions/control_flow.py:jump", "src/ethereum/osaka/vm/instructions/control_flow.py:jumpi"]}
{"id": "C13", "title": "Arithmetic, comparison and bitwise opcodes compute the specified functions", "statement": "Each arithmetic/comparison/bitwise opcode, on operands below 2^256, pushes the mathematically specified value: modular add/sub/mul, floor division with x/0=0, truncated signed division and remainder in two's complement, addmod/mulmod without intermediate wrap-around, exponentiation mod 2^256, sign extension, byte selection, logical and arithmetic shifts, count-leading-zeros.", "quantifier": "all 256-bit operands", "why_tests_cant": "2^512 or more operand combinations per opcode", "anchors": ["src/ethereum/osaka/vm/instructions/arithmetic.py", "src/ethereum/osaka/vm/instructions/bitwise.py", "src/ethereum/osaka/vm/instructions/comparison.py"]}
{"id": "C14", "title": "Sub-call gas obeys the 63/64 rule", "statement": "For every CALL-family instruction the gas given to the callee is at most 63/64 of what remains after paying the fixed costs plus the value stipend of 2300, and the gas charged to the caller never exceeds what it has; at least floor(remaining/64) is retained.", "quantifier": "all gas requests, remaining gas, values and costs", "why_tests_cant": "all integer combinations", "anchors": ["src/ethereum/osaka/vm/gas.py:calculate_message_call_gas", "src/ethereum/osaka/vm/gas.py:max_message_call_gas"]}
{"id": "C15", "title": "Call depth is bounded", "statement": "No frame is ever executed at depth greater than 1024; a call attempted at depth 1024 pushes 0 and returns its gas to the caller.", "quantifier": "all call trees", "why_tests_cant": "unbounded recursion patterns", "anchors": ["src/ethereum/osaka/vm/instructions/system.py:generic_call", "src/ethereum/osaka/vm/instructions/system.py:generic_create", "src/ethereum/osaka/vm/interpreter.py:process_message"]}
{"id": "C16", "title": "The gas refund counter of a transaction is never negative", "statement": "Whatever SSTOREs, nested calls, reverts and creations a message performs, the refund counter of a successful top-level frame is non-negative, so the unsigned conversion after execution cannot raise.", "quantifier": "all programs, call trees, pre-states (with no storage under code-less nonce-less accounts)", "why_tests_cant": "individual SSTOREs subtract refunds; non-negativity depends on the whole history of a slot across frames", "anchors": ["src/ethereum/osaka/vm/instructions/storage.py:sstore", "src/ethereum/osaka/vm/interpreter.py:process_message_call", "src/ethereum/osaka/state.py:get_storage_original"]}
{"id": "C17", "title": "EVM execution raises no internal error", "statement": "From a well-formed pre-state and environment, executing any message never escapes with a Python-level error (AssertionError, OverflowError, IndexError, KeyError): all failures are EVM errors confined to the frame. This holds in Osaka; in the forks from Paris to Prague the only Python-level error that can escape is an OverflowError (MODEXP with places beyond 2^256, and before Cancun SELFDESTRUCT with 2^255 wei), and it does escape.", "quantifier": "all messages, codes, well-formed states and environments", "why_tests_cant": "absence of crashes over all programs", "anchors": ["src/ethereum/osaka/state.py:move_ether", "src/ethereum/osaka/state.py:set_storage", "src/ethereum/osaka/state.py:get_storage_original", "src/ethereum/osaka/vm/interpreter.py:execute_code", "src/ethereum/osaka/vm/instructions/block.py:block_hash", "src/ethereum/prague/vm/precompiled_contracts/modexp.py:modexp", "src/ethereum/shanghai/vm/instructions/system.py:selfdestruct"]}
{"id": "C18", "title": "Account nonces never decrease", "statement": "For every account that has a nonce or code before a message call or transaction, its nonce afterwards is at least what it was. (Transactions: since Cancun. Before Cancun a contract can destroy itself; there an account that has a nonce but no code keeps its nonce and gets no code, and so does the sender of the transaction, whose nonce rises above that of the transaction.)", "quantifier": "all messages, transactions, codes, states; the forks Paris, Shanghai, Cancun, Prague and Osaka", "why_tests_cant": "all programs", "anchors": ["src/ethereum/osaka/state.py:increment_nonce", "src/ethereum/osaka/vm/interpreter.py:process_create_message", "src/ethereum/osaka/fork.py:process_transaction"]}
{"id": "C19", "title": "Deployed code is immutable", "statement": "An account that holds code (other than a delegation designator) when a transaction starts holds the same code when the transaction ends, whatever is executed, in the forks since Cancun. Before Cancun this does not hold.", "quantifier": "all transactions, states and codes", "why_tests_cant": "all programs, incl. SELFDESTRUCT/CREATE2 combinations", "anchors": ["src/ethereum/osaka/vm/instructions/system.py:selfdestruct", "src/ethereum/osaka/vm/interpreter.py:process_create_message", "src/ethereum/osaka/vm/eoa_delegation.py:set_delegation"]}
{"id": "C20", "title": "Storage is written only by its owner", "statement": "A message call can change the storage of an account only by executing a frame whose storage context is that account (or by creating the account); accounts never entered keep their storage.", "quantifier": "all messages, codes, states", "why_tests_cant": "all programs and call trees", "anchors": ["src/ethereum/osaka/vm/instructions/storage.py:sstore", "src/ethereum/osaka/vm/interpreter.py:process_create_message"]}
{"id": "C21", "title": "Warm sets only grow and price accesses correctly", "statement": "Within a frame the sets of accessed addresses and storage keys only grow; an access to a member is charged the warm price and any other access the cold price and makes it a member; a failed child frame adds nothing to the caller's sets.", "quantifier": "all codes, states, steps", "why_tests_cant": "all access sequences", "anchors": ["src/ethereum/osaka/vm/instructions/storage.py:sload", "src/ethereum/osaka/vm/instructions/environment.py:balance", "src/ethereum/osaka/vm/__init__.py:incorporate_child_on_success"]}
{"id": "C22", "title": "Delegations are set only as authorised", "statement": "Processing an authorization list only ever changes accounts whose valid authorization matches chain id and nonce, only if their code is empty or already a delegation; it leaves them with empty code or exactly a 23-byte designator, increments the nonce by one per applied tuple, never changes a balance or storage, and replaying an applied tuple has no effect.", "quantifier": "all authorization lists, states and signatures", "why_tests_cant": "lists are unbounded and may repeat authorities", "anchors": ["src/ethereum/osaka/vm/eoa_delegation.py:set_delegation", "src/ethereum/osaka/vm/eoa_delegation.py:recover_authority"]}
{"id": "C23", "title": "Logs bloom has no false negatives", "statement": "For every list of logs, the bloom has the three bits of the address and of every topic of every log set; it has no other bits; it is independent of log order and the bloom of a concatenation is the bitwise or of the blooms.", "quantifier": "all finite log lists and hash functions", "why_tests_cant": "lists are unbounded", "anchors": ["src/ethereum/osaka/bloom.py:add_to_bloom", "src/ethereum/osaka/bloom.py:logs_bloom"]}
{"id": "C24", "title": "Compact (hex-prefix) encoding is invertible", "statement": "nibble_list_to_compact is injective on pairs of nibble list and leaf flag, and produces whole bytes for lists of either parity; bytes_to_nibble_list is injective and yields two nibbles below 16 per byte.", "quantifier": "all nibble lists of any length", "why_tests_cant": "unbounded lists", "anchors": ["src/ethereum/osaka/trie.py:nibble_list_to_compact", "src/ethereum/osaka/trie.py:bytes_to_nibble_list"]}
{"id": "C25", "title": "Trie root does not depend on insertion order", "statement": "The root of a trie is a function of its key/value mapping only: any order of insertions (and any overwritten or deleted intermediate values) leading to the same mapping gives the same root.", "quantifier": "all finite mappings and all insertion orders", "why_tests_cant": "n! insertion orders for unbounded n", "anchors": ["src/ethereum/osaka/trie.py:root", "src/ethereum/osaka/trie.py:patricialize", "src/ethereum/osaka/trie.py:trie_set"]}
{"id": "C26", "title": "Trie root commits to the whole mapping", "statement": "If two tries have the same root then they hold the same mapping, unless the two computations exhibit two distinct byte strings with the same keccak256 hash.", "quantifier": "all pairs of finite mappings", "why_tests_cant": "collision freedom over all pairs of tries", "anchors": ["src/ethereum/osaka/trie.py:root", "src/ethereum/osaka/trie.py:encode_internal_node", "src/ethereum/osaka/trie.py:patricialize"]}
{"id": "C27", "title": "State root commits to all accounts and storage", "statement": "Two states with the same state root have the same accounts (nonce, balance, code) and the same storage, unless a keccak256 collision is exhibited.", "quantifier": "all pairs of states", "why_tests_cant": "all pairs of states", "anchors": ["src/ethereum/osaka/state.py:state_root", "src/ethereum/osaka/state.py:storage_root", "src/ethereum/osaka/fork_types.py:encode_account"]}
{"id": "C28", "title": "Transaction encoding round-trips and is injective", "statement": "decode_transaction(encode_transaction(tx)) gives tx back in every fork that knows its type (access lists and fee market since Paris, blobs since Cancun, authorizations since Prague; earlier forks turn those types down), and two different transactions never have the same encoding.", "quantifier": "all transactions of all types, access lists and authorization lists of any length; the forks Paris, Shanghai, Cancun, Prague and Osaka", "why_tests_cant": "unbounded field sizes and lists", "anchors": ["src/ethereum/osaka/transactions.py:encode_transaction", "src/ethereum/osaka/transactions.py:decode_transaction", "src/ethereum/paris/transactions.py", "src/ethereum/shanghai/transactions.py", "src/ethereum/cancun/transactions.py", "src/ethereum/prague/transactions.py"]}
{"id": "C29", "title": "Signing hashes bind all transaction fields and separate domains", "statement": "The preimages hashed for signing are equal only for equal unsigned contents of the same kind: a signature for one transaction type, chain or field value is never a signature over the preimage of another, nor of an EIP-7702 authorization.", "quantifier": "all pairs of transactions and authorizations", "why_tests_cant": "all pairs of values", "anchors": ["src/ethereum/osaka/transactions.py:signing_hash_pre155", "src/ethereum/osaka/transactions.py:signing_hash_155", "src/ethereum/osaka/transactions.py:signing_hash_1559", "src/ethereum/osaka/vm/eoa_delegation.py:recover_authority"]}
{"id": "C30", "title": "Receipts round-trip", "statement": "decode_receipt(encode_receipt(tx, receipt)) gives the receipt back for every transaction type.", "quantifier": "all receipts with any number of logs", "why_tests_cant": "unbounded logs", "anchors": ["src/ethereum/osaka/blocks.py:encode_receipt", "src/ethereum/osaka/blocks.py:decode_receipt"]}
{"id": "C31", "title": "Base fee update is bounded and correctly directed", "statement": "The base fee computed for a child block moves up iff the parent used more than its target and down iff less, by at most one eighth (but by at least one when going up), is monotone in the parent's gas used, never becomes zero from a positive value and never raises for an admissible parent.", "quantifier": "all parent gas limits, gas used and base fees", "why_tests_cant": "all integers", "anchors": ["src/ethereum/osaka/fork.py:calculate_base_fee_per_gas"]}
{"id": "C32", "title": "Block gas limit changes slowly", "statement": "A header accepted against its parent has a gas limit within (strictly less than) 1/1024 of the parent's and at least 5000; over n blocks the limit is bounded by the corresponding n-step bound.", "quantifier": "all gas limits, chains of any length", "why_tests_cant": "chains of any length", "anchors": ["src/ethereum/osaka/fork.py:check_gas_limit"]}
{"id": "C33", "title": "Blob base fee is at least one, monotone and terminating", "statement": "taylor_exponential terminates for every input with positive denominator; the blob gas price is at least 1 and monotone in the excess blob gas; the excess blob gas stays within one block's increment of its parent and resets to zero when below target (393216 in Cancun, 786432 since Prague; the exact rule of each fork is given). At the first block of Cancun, Prague and Osaka the parent counts as using no blob gas: for the latter two this forgets the excess, contrary to the comment in the code.", "quantifier": "all excess values and headers", "why_tests_cant": "loop length depends on unbounded input", "anchors": ["src/ethereum/utils/numeric.py:taylor_exponential", "src/ethereum/osaka/vm/gas.py:calculate_blob_gas_price", "src/ethereum/osaka/vm/gas.py:calculate_excess_blob_gas", "src/ethereum/cancun/vm/gas.py", "src/ethereum/prague/vm/gas.py"]}
{"id": "C34", "title": "A block's transactions never exceed its gas and blob gas limits", "statement": "While applying any list of transactions, cumulative gas used never exceeds the block gas limit and cumulative blob gas never exceeds the per-block maximum; there is one receipt per transaction, stored under its index, each receipt's cumulative gas exceeds the one before by at least 21000 (16800 before Prague), and the last is the gas used of the block.", "quantifier": "all transaction lists and states; the forks Paris, Shanghai, Cancun, Prague and Osaka", "why_tests_cant": "lists of any length", "anchors": ["src/ethereum/osaka/fork.py:check_transaction", "src/ethereum/osaka/fork.py:process_transaction", "src/ethereum/osaka/fork.py:apply_body", "src/ethereum/paris/fork.py", "src/ethereum/shanghai/fork.py", "src/ethereum/cancun/fork.py", "src/ethereum/prague/fork.py"]}
{"id": "C35", "title": "Transaction fee accounting is exact", "statement": "Processing a transaction charges the sender gas_used times the effective gas price plus blob fees plus transferred value, pays the coinbase gas_used times the priority fee, and the sum of all balances decreases by exactly base fee times gas used plus blob fees plus ether destroyed by SELFDESTRUCT; gas used is between the calldata floor and the gas limit and refunds are at most one fifth of the gas spent.", "quantifier": "all transactions, states and codes executed; the forks Paris, Shanghai, Cancun, Prague and Osaka", "why_tests_cant": "all programs and fee parameters", "anchors": ["src/ethereum/osaka/fork.py:process_transaction", "src/ethereum/osaka/fork.py:check_transaction", "src/ethereum/paris/fork.py", "src/ethereum/shanghai/fork.py", "src/ethereum/cancun/fork.py", "src/ethereum/prague/fork.py"]}
{"id": "C36", "title": "Accepted transactions are affordable and can only be applied in nonce order, once", "statement": "check_transaction accepts only if the sender's nonce equals the transaction nonce, the sender can pay gas_limit*max fee + blob fees + value, and the effective price is between base fee and max fee; after a transaction is processed the same transaction (or any other with the same sender and nonce) is rejected in every later state of the chain.", "quantifier": "all transactions, states, and all later histories whose blocks come in the order of their forks; the forks Paris, Shanghai, Cancun, Prague and Osaka", "why_tests_cant": "all continuations of a chain", "anchors": ["src/ethereum/osaka/fork.py:check_transaction", "src/ethereum/osaka/fork.py:process_transaction", "src/ethereum/paris/fork.py", "src/ethereum/shanghai/fork.py", "src/ethereum/cancun/fork.py", "src/ethereum/prague/fork.py"]}
{"id": "C37", "title": "Accepted chains are linked", "statement": "In every chain built by state_transition, stored blocks have consecutive numbers, each parent_hash is the hash of the preceding header, timestamps strictly increase, gas_used <= gas_limit, and at most 255 blocks are retained.", "quantifier": "all sequences of blocks offered to state_transition; the forks Paris, Shanghai, Cancun, Prague and Osaka", "why_tests_cant": "histories of any length", "anchors": ["src/ethereum/osaka/fork.py:state_transition", "src/ethereum/osaka/fork.py:validate_header", "src/ethereum/paris/fork.py", "src/ethereum/shanghai/fork.py", "src/ethereum/cancun/fork.py", "src/ethereum/prague/fork.py"]}
{"id": "C38", "title": "BLOCKHASH returns ancestors' hashes", "statement": "During execution of block N on an accepted chain, BLOCKHASH(n) is the hash of the header numbered n for every retained n with N-256 <= n < N and 0 for every other argument; the lookup never goes out of range.", "quantifier": "all chains, all 256-bit arguments; the forks Paris, Shanghai, Cancun, Prague and Osaka", "why_tests_cant": "chains of any length, all arguments", "anchors": ["src/ethereum/osaka/fork.py:get_last_256_block_hashes", "src/ethereum/osaka/vm/instructions/block.py:block_hash", "src/ethereum/paris/fork.py", "src/ethereum/shanghai/fork.py", "src/ethereum/cancun/fork.py", "src/ethereum/prague/fork.py"]}
{"id": "C39", "title": "A rejected block leaves the chain unchanged", "statement": "If state_transition raises, the list of blocks and the chain id are as before; if the block is rejected for its size, header or ommers the whole chain object is as before. (The state is not restored when execution or the comparison with the header fails; that stronger claim is refuted.)", "quantifier": "all chains and invalid blocks; the forks Paris, Shanghai, Cancun, Prague and Osaka", "why_tests_cant": "all ways in which a block can be invalid", "anchors": ["src/ethereum/osaka/fork.py:state_transition", "src/ethereum/paris/fork.py", "src/ethereum/shanghai/fork.py", "src/ethereum/cancun/fork.py", "src/ethereum/prague/fork.py"]}
{"id": "C40", "title": "Legacy transactions signed for another chain are rejected; the chain id of typed transactions is ignored", "statement": "check_transaction rejects every replay-protected legacy transaction whose v names a chain id other than the chain's. The chain id of a typed transaction (types 1 to 4) is not compared with the chain's: the same transaction recovers the same sender on every chain, and a block of chain 1 holding a transaction made for chain 5 is accepted.", "quantifier": "all transactions and chain ids", "why_tests_cant": "all transactions", "anchors": ["src/ethereum/osaka/transactions.py:recover_sender", "src/ethereum/osaka/fork.py:check_transaction"]}
{"id": "C41", "title": "Withdrawals credit exactly their amounts", "statement": "Processing withdrawals increases each address's balance by exactly 10^9 times the sum of its withdrawal amounts, increases the total balance by the total, and changes no nonce, code or storage.", "quantifier": "all withdrawal lists and states; the forks Paris, Shanghai, Cancun, Prague and Osaka", "why_tests_cant": "lists of any length with repeated addresses", "anchors": ["src/ethereum/osaka/fork.py:process_withdrawals", "src/ethereum/paris/fork.py", "src/ethereum/shanghai/fork.py", "src/ethereum/cancun/fork.py", "src/ethereum/prague/fork.py"]}
{"id": "C42", "title": "Deposit request extraction is faithful", "statement": "extract_deposit_data accepts exactly the 576-byte event payloads with the canonical ABI layout and returns the concatenation of the five fields (192 bytes); encoding any five fields canonically and extracting gives them back.", "quantifier": "all byte strings", "why_tests_cant": "all 576-byte strings", "anchors": ["src/ethereum/osaka/requests.py:extract_deposit_data"]}
{"id": "C43", "title": "Intrinsic gas is exact and monotone", "statement": "The intrinsic cost equals 21000 (since the merge) + 4 per zero byte + 16 per non-zero byte + creation (since Shanghai with 2 per word of init code), access-list and (since Prague) authorization costs; since Prague the floor equals 21000 + 10 per zero byte + 40 per non-zero byte; validation accepts exactly if the gas limit covers both and, since Osaka, is at most 2^24, the nonce is below 2^64-1 and init code since Shanghai has at most 49152 bytes.", "quantifier": "all transactions; the forks Paris, Shanghai, Cancun, Prague and Osaka", "why_tests_cant": "payloads of any length", "anchors": ["src/ethereum/osaka/transactions.py:calculate_intrinsic_cost", "src/ethereum/osaka/transactions.py:validate_transaction", "src/ethereum/paris/transactions.py", "src/ethereum/shanghai/transactions.py", "src/ethereum/cancun/transactions.py", "src/ethereum/prague/transactions.py"]}
{"id": "C44", "title": "Database-backed state refines the reference state", "statement": "Any sequence of state calls and nested transactions that the reference state executes, executed on the database-backed journaled state, raises no error and gives the same reads of accounts, slots, original slots and transient slots, and after a flush the database holds exactly the reference accounts and storage, provided no address is destroyed, written and destroyed again within one outermost transaction. Without that proviso a write can be lost or KeyError raised. The storage-presence test is never wrongly false, but can be wrongly true.", "quantifier": "all starting states, all sequences of calls with arbitrarily nested transactions", "why_tests_cant": "all interleavings of nested transactions, destructions and writes", "anchors": ["src/ethereum_optimized/state_db.py", "src/ethereum/osaka/state.py"]}
{"id": "C45", "title": "Fork activation is a total order consistent with activation", "statement": "Fork criteria are totally ordered with block-number forks before timestamp forks before unscheduled ones, and an activated criterion stays activated for later blocks. The active fork is at or after a given one from exactly the block on that has its number, or that has reached its time.", "quantifier": "all criteria, block numbers and timestamps", "why_tests_cant": "all integers", "anchors": ["src/ethereum/fork_criteria.py"]}
{"id": "C46", "title": "RLP encoding is injective and self-delimiting", "statement": "The RLP encoding used for all commitments is injective, no encoding is a proper prefix of another, and decoding inverts encoding.", "quantifier": "all nested byte-string lists", "why_tests_cant": "unbounded nesting and lengths", "anchors": ["src/ethereum/osaka/trie.py:encode_node", "src/ethereum/osaka/blocks.py", "src/ethereum/osaka/transactions.py"]}
{"id": "C47", "title": "The block hash commits to the whole block", "statement": "Two blocks accepted on the same chain whose headers have the same hash have the same header (as far as the fields of its class go), the same decoded transactions in the same order and the same withdrawals, unless the computations exhibit two distinct byte strings with the same keccak256 hash.", "quantifier": "all pairs of headers; all pairs of accepted blocks; the forks Paris, Shanghai, Cancun, Prague and Osaka", "why_tests_cant": "A field left out of the header encoding, or a root not compared, is only visible on pairs of blocks that differ in exactly that field; tests use a finite list of blocks with correct roots.", "anchors": ["src/ethereum/osaka/blocks.py:65-242", "src/ethereum/osaka/fork.py:192-270", "src/ethereum/osaka/fork.py:335-388", "src/ethereum/paris/fork.py", "src/ethereum/shanghai/fork.py", "src/ethereum/cancun/fork.py", "src/ethereum/prague/fork.py", "src/ethereum/paris/blocks.py", "src/ethereum/shanghai/blocks.py", "src/ethereum/cancun/blocks.py", "src/ethereum/prague/blocks.py"]}
{"id": "C48", "title": "A block creates ether only through withdrawals and destroys the base fee", "statement": "After an accepted block, the sum of all balances plus gas used times the base fee plus blob gas used times the blob price is at most the sum before plus 10^9 times the withdrawn amounts; along any chain of accepted blocks the supply grows by at most the withdrawals.", "quantifier": "all blocks and all chains of accepted blocks, whatever code they execute; the forks Paris, Shanghai, Cancun, Prague and Osaka", "why_tests_cant": "all programs and all chains of any length", "anchors": ["src/ethereum/osaka/fork.py:apply_body", "src/ethereum/osaka/fork.py:process_transaction", "src/ethereum/osaka/fork.py:process_withdrawals", "src/ethereum/paris/fork.py", "src/ethereum/shanghai/fork.py", "src/ethereum/cancun/fork.py", "src/ethereum/prague/fork.py"]}
{"id": "C49", "title": "The header of an accepted block agrees with its execution", "statement": "For every accepted block (withdrawals since Shanghai, blob gas since Cancun, requests since Prague): the state root is the root of the resulting state; the transactions, receipts and withdrawals roots are the roots of tries holding exactly the decoded transactions, their receipts and the withdrawals under the RLP of their positions; every receipt's bloom is the bloom of its logs and the header's bloom that of all logs; the receipts' cumulative gas increases to the header's gas used, which is at most the gas limit; the blob gas used is the sum over the transactions and at most the block limit; the requests hash is the SHA-256 of the hashes of the non-empty deposit, withdrawal and consolidation requests in that order.", "quantifier": "all chains and all blocks accepted by state_transition; the forks Paris, Shanghai, Cancun, Prague and Osaka", "why_tests_cant": "A missing or swapped comparison accepts wrong headers, of which tests try only a few; blocks have unboundedly many transactions running arbitrary code.", "anchors": ["src/ethereum/osaka/fork.py:192-270", "src/ethereum/osaka/fork.py:apply_body", "src/ethereum/osaka/requests.py:compute_requests_hash", "src/ethereum/paris/fork.py", "src/ethereum/shanghai/fork.py", "src/ethereum/cancun/fork.py", "src/ethereum/prague/fork.py"]}
{"id": "C50", "title": "Every instruction has the meaning and the price of the instruction table", "statement": "For every instruction that starts no other frame (all opcodes except CREATE, CREATE2, CALL, CALLCODE, DELEGATECALL and STATICCALL): execution fails with an exceptional halt exactly when the stack underflows or overflows, the gas is below the listed price (base price, warm/cold access, copied words, memory expansion with the quadratic term, EIP-2200/3529 storage prices, EIP-161 new-account price), or the listed extra condition holds (invalid jump destination, out-of-bounds return data, write in a static frame, SSTORE with at most 2300 gas left); and then the world is unchanged. Otherwise the whole frame after the instruction (stack, memory, program counter, gas, logs, refund counter, output, deletion set, warm sets) is exactly the listed one, and the world changes only as listed for SSTORE, TSTORE and SELFDESTRUCT. Every byte decodes to the instruction of the opcode table, and to nothing else. In every fork since the merge; the instruction set is that of the fork (PUSH0 since Shanghai; TLOAD, TSTORE, MCOPY, BLOBHASH, BLOBBASEFEE since Cancun; CLZ in Osaka), and before Cancun SELFDESTRUCT moves the balance and empties and registers every account.", "quantifier": "all instructions, all frames and worlds, all stack contents, memory sizes and gas amounts, all bytes", "why_tests_cant": "The table has unbounded operands (memory offsets, gas, balances, warm sets, original and current storage values); tests exercise a few points of each instruction, and errors in rarely reached combinations (empty ranges far beyond memory, two-range expansion of MCOPY, dirty-slot refunds) survive them.", "anchors": ["src/ethereum/osaka/vm/instructions/", "src/ethereum/osaka/vm/gas.py:94-180", "src/ethereum/osaka/vm/memory.py", "src/ethereum/osaka/vm/stack.py", "src/ethereum/osaka/vm/instructions/__init__.py:33-365", "src/ethereum/paris/vm/instructions/", "src/ethereum/shanghai/vm/instructions/", "src/ethereum/cancun/vm/instructions/", "src/ethereum/prague/vm/instructions/"]}
{"id": "C51", "title": "Message calls: exact price, refusal, child message and resumed frame", "statement": "For CALL, CALLCODE, DELEGATECALL and STATICCALL: the frame halts exceptionally exactly when operands are missing, the gas is below the price (warm or cold access, EIP-7702 delegation access, 9000 for value, 25000 for creating an account, memory expansion over input and output), or value is sent by CALL in a static frame; then the world is unchanged. Otherwise, if the depth is 1024 or the balance is too small, no child runs, 0 is pushed, the price alone is paid and the stipend is handed back. Otherwise exactly one child is started, with exactly the listed message (caller, target, code of the account or of its delegate, value, input bytes, min(requested, all but one 64th) plus stipend, depth + 1, static flag, warm sets), in the unchanged world; and the resumed frame is exactly the listed one: output bytes copied to memory, success flag, return data, gas handed back, and logs, refunds, deletions and warm sets of the child only if it succeeded. In every fork since the merge; delegations only since Prague.", "quantifier": "all frames, worlds and operands; all behaviours of the child (arbitrary function in place of the child execution)", "why_tests_cant": "Price, refusal and hand-over depend on unbounded gas, memory, balances and on an arbitrary child execution; a test fixes one callee.", "anchors": ["src/ethereum/osaka/vm/instructions/system.py:276-514, 574-712", "src/ethereum/osaka/vm/gas.py:200-290", "src/ethereum/osaka/vm/eoa_delegation.py:100-145", "src/ethereum/osaka/vm/__init__.py:150-220", "src/ethereum/cancun/vm/instructions/system.py:generic_call", "src/ethereum/prague/vm/instructions/system.py:generic_call"]}
{"id": "C52", "title": "Contract creation: exact price, refusal, address, child message and resumed frame", "statement": "For CREATE and CREATE2: the frame halts exceptionally exactly when operands are missing, the gas is below 32000 + 2 (or 8 with CREATE2) per word of init code + memory expansion, the init code exceeds 49152 bytes, or the frame is static; then the world is unchanged. Otherwise, if the creator's balance is too small, its nonce is 2^64-1, or the depth is 1024, nothing is created, 0 is pushed and only the price is paid. Otherwise the creator's nonce is incremented and nothing else changes; the address is the last 20 bytes of keccak(rlp([creator, nonce])) or keccak(0xff ++ creator ++ salt ++ keccak(init code)); if that address has a nonce, code or a non-zero storage slot, all the gas but one 64th is lost and 0 is pushed; otherwise exactly one creation is started with exactly the listed message, and the resumed frame is exactly the listed one (address or 0, return data only of a failed creation, gas, logs, refunds, deletions and warm sets). In every fork since the merge; before Shanghai init code has no price per word (6 with CREATE2) and no size limit.", "quantifier": "all frames, worlds and operands; all hash functions; all behaviours of the creation (arbitrary function in its place)", "why_tests_cant": "The case distinction is on unbounded gas, balances, nonces up to 2^64-1, init code sizes and an arbitrary init code execution; address collisions cannot be produced by tests at all.", "anchors": ["src/ethereum/osaka/vm/instructions/system.py:63-241", "src/ethereum/osaka/utils/address.py", "src/ethereum/paris/vm/instructions/system.py:generic_create", "src/ethereum/shanghai/vm/instructions/system.py:generic_create"]}
{"id": "C53", "title": "The life of a message: value, run, end, code deposit", "statement": "Running a message (depth at most 1024) moves exactly its value from caller to target, then runs the code from an empty frame, byte by byte through the opcode table, until the frame stops, the code ends, or an instruction (or an unassigned byte) fails. A normal end keeps the frame and the world as they are; a revert restores every account, storage slot and transient slot but keeps gas and output; an exceptional halt restores them and takes all gas and the output. A message to addresses 1-17 or 256 runs the precompiled contract instead, and nothing at all when reached through a delegation. A creation first clears the storage of the new account, increments its nonce and marks it created; after a successful run the returned bytes become its code at 200 gas per byte, changing nothing else, unless they start with 0xEF, exceed 24576 bytes or cannot be paid: then everything is restored and all gas is taken. In every fork since the merge: addresses 1-9 in Paris and Shanghai, 1-10 in Cancun, 1-17 in Prague; an instruction of a later fork is an unassigned byte.", "quantifier": "all messages, worlds, code and init code, all gas amounts", "why_tests_cant": "Code, world and gas are unbounded and execution is recursive; tests look at the end of selected runs.", "anchors": ["src/ethereum/osaka/vm/interpreter.py:161-321", "src/ethereum/paris/vm/interpreter.py", "src/ethereum/shanghai/vm/interpreter.py", "src/ethereum/cancun/vm/interpreter.py", "src/ethereum/prague/vm/interpreter.py"]}
{"id": "C54", "title": "Exactly the right headers and blocks are accepted", "statement": "After a last block whose blob gas counters are far from 2^64, a header is accepted exactly when: its number is the parent's plus one, its parent hash is the hash of the parent header, its time is later, its gas used is within its gas limit, its gas limit is at least 5000 and differs from the parent's by less than a 1024th, its base fee is the parent's plus or minus the exact fraction (used - target)/(8 target) of it (up by at least 1), since Cancun its excess blob gas is 0, the parent's excess plus a third of its blob usage, or what exceeds the target, depending on the exact prices, its extra data has at most 32 bytes, and difficulty, nonce and ommers hash are those of proof of stake; every other header raises InvalidBlock. A block is accepted exactly when its RLP has at most 8388608 bytes (since Osaka), its header is such a child, it has no ommers, its body executes, and gas, the roots and the bloom filter, since Shanghai the withdrawals root, since Cancun the blob gas and since Prague the requests hash of the header are those of the execution; the chain then is the last 255 blocks with this one at the end.", "quantifier": "all crypto, chains, headers and blocks whose parent's excess plus used blob gas and three times its used blob gas are below 2^64; the forks Paris, Shanghai, Cancun, Prague and Osaka", "why_tests_cant": "A missing or off-by-one condition shows only on headers that violate that single condition; the statement covers every header.", "anchors": ["src/ethereum/osaka/fork.py", "src/ethereum/osaka/vm/gas.py", "src/ethereum/paris/fork.py", "src/ethereum/shanghai/fork.py", "src/ethereum/cancun/fork.py", "src/ethereum/prague/fork.py"]}
{"id": "C55", "title": "A transaction runs exactly the message it describes", "statement": "A transaction that is processed takes the fee of all its gas and blobs from the sender and raises the nonce, then runs one message: from the sender, with the value, the data or init code and the gas left after the intrinsic cost, at depth 0, transferring value and not static; the warm addresses are the sender, the target, the coinbase, the precompiled contracts and the announced addresses, the warm slots the announced ones; a creation goes to the address derived from sender and nonce and fails with all its gas if that is occupied; otherwise the authorizations are applied, the code of the target is read through at most one designator, and the message runs. The gas charged, the refund, the tip, the deletions and the receipt are those given by the result. (All forks since the merge: the coinbase is warm since Shanghai; authorizations and designators since Prague.)", "quantifier": "all transactions, block environments and states without open snapshots whose storage belongs to accounts with a nonce or real code; the forks Paris, Shanghai, Cancun, Prague and Osaka", "why_tests_cant": "five transaction types times creation, delegation, access lists and authorizations, over arbitrary states", "anchors": ["src/ethereum/osaka/fork.py:process_transaction", "src/ethereum/osaka/utils/message.py:prepare_message", "src/ethereum/osaka/vm/interpreter.py:process_message_call", "src/ethereum/paris/fork.py", "src/ethereum/shanghai/fork.py", "src/ethereum/cancun/fork.py", "src/ethereum/prague/fork.py"]}
{"id": "C56", "title": "An accepted block is executed in full, in order", "statement": "Executing an accepted block consists of: since Cancun a system call (from the system address, 30 million gas, no value and no transfer, nothing warm, code of the target read through at most one designator) to the beacon roots contract with the parent beacon block root; since Prague one to the history contract with the parent hash; the transactions in order, each as C55 says, given the gas and blob gas used so far; since Shanghai the withdrawals, credited in Gwei, with nothing else changed; then, since Prague, calls to the withdrawal and consolidation request contracts, which must have code and must succeed. The receipts committed to by the header are those of these transactions, the state root is that of the final state, and the requests hash commits to the deposits found in the receipts and the return data of the two calls, with type bytes 0, 1 and 2 and empty ones left out.", "quantifier": "all crypto, chains, blocks, and states with no open snapshot that are anchored (C57); the forks Paris, Shanghai, Cancun, Prague and Osaka", "why_tests_cant": "It fixes every step and every input of every step of executing arbitrary blocks; tests see only the final roots of particular blocks.", "anchors": ["src/ethereum/osaka/fork.py", "src/ethereum/osaka/requests.py", "src/ethereum/paris/fork.py", "src/ethereum/shanghai/fork.py", "src/ethereum/cancun/fork.py", "src/ethereum/prague/fork.py"]}
{"id": "C57", "title": "Storage and code belong to lasting accounts, along whole chains", "statement": "Call an account firm when it has a nonce or code that is neither empty nor a delegation designator, and a state anchored when every account with non-zero storage and every account with code is firm. Starting from an anchored state, every transaction, every block body, every accepted block and every chain of accepted blocks ends in an anchored state, so the side condition used by the refund, delegation and storage properties holds at every point of the chain.", "quantifier": "for all crypto, block environments, transactions, blocks and chains of any length, all states with no open snapshot that are anchored; the forks Paris, Shanghai, Cancun, Prague and Osaka", "why_tests_cant": "It is an invariant over every execution of every contract and every chain; a counterexample would need a particular interleaving of creation, delegation, self-destruction and storage writes.", "anchors": ["src/ethereum/osaka/state.py", "src/ethereum/osaka/fork.py", "src/ethereum/osaka/vm/interpreter.py", "src/ethereum/osaka/vm/eoa_delegation.py", "src/ethereum/paris/fork.py", "src/ethereum/shanghai/fork.py", "src/ethereum/cancun/fork.py", "src/ethereum/prague/fork.py"]}
{"id": "C58", "title": "Precompiled contracts charge the specified price and give the specified answer", "statement": "For every input, each of the eighteen precompiled contracts (ECRECOVER, SHA256, RIPEMD160, identity, MODEXP, the three alt_bn128 contracts, BLAKE2F, point evaluation, the seven BLS12-381 contracts and P256VERIFY) charges exactly the price of its EIP, accepts exactly the inputs that encode field elements, curve points, subgroup members and scalars as the EIPs demand, fails with the specified error on all others, and otherwise outputs exactly the encoding of the specified result: MODEXP outputs base^exponent mod modulus, BLAKE2F outputs the function F of RFC 7693 for any number of rounds, multi-scalar multiplication and pairings fold over any number of items. A call of such a contract gives the caller that output and takes exactly that price, or takes all gas and changes nothing.", "quantifier": "All inputs of any length, all messages, worlds, block and transaction environments, and all library functions (hashes, group operations, pairings, signature recovery).", "why_tests_cant": "The input spaces are byte strings of any length; validation boundaries (coordinates equal to the field modulus, points outside the subgroup, zero-length operands, long exponents, truncated inputs read as zero-padded) are exactly what fixed vectors miss.", "anchors": ["src/ethereum/osaka/vm/precompiled_contracts/ecrecover.py:ecrecover", "src/ethereum/osaka/vm/precompiled_contracts/modexp.py:modexp", "src/ethereum/osaka/vm/precompiled_contracts/alt_bn128.py:bytes_to_g1", "src/ethereum/osaka/vm/precompiled_contracts/blake2f.py:blake2f", "src/ethereum/osaka/vm/precompiled_contracts/bls12_381/__init__.py:bytes_to_g1", "src/ethereum/osaka/vm/precompiled_contracts/point_evaluation.py:point_evaluation", "src/ethereum/osaka/vm/precompiled_contracts/p256verify.py:p256verify", "src/ethereum/crypto/blake2.py:Blake2.compress", "src/ethereum/crypto/kzg.py:verify_kzg_proof"]}
{"id": "C59", "title": "Processing a block raises no internal error since the merge, but for the OverflowError of C17 before Osaka", "statement": "(Paris to Osaka.) Every transaction, block and chain step either succeeds or is turned down with an exception meant for that: InvalidTransaction or InvalidBlock, or an RLP decoding error of a malformed typed transaction. Before Osaka the only other outcome is the OverflowError of the virtual machine (C17), and a block of each of these forks shows it. In Osaka nothing else happens: no overflow, failed assertion, index error or exception of the virtual machine leaves the state transition. A transaction is executed exactly if it pays for its intrinsic gas and is acceptable, and a rejected one leaves the state unchanged. The hypotheses (typed fields, no empty transaction string, room in the header numbers, total ether below 2^256) are kept by accepted blocks or shown to be needed.", "quantifier": "all forks from Paris to Osaka, all digest functions of the right output sizes, all states, blocks and chains of any length, any code, any call depth", "why_tests_cant": "A crash needs one unlucky combination of state, code and header numbers among unboundedly many; tests only show that the executed ones do not crash.", "anchors": ["src/ethereum/osaka/fork.py:process_transaction", "src/ethereum/osaka/fork.py:apply_body", "src/ethereum/osaka/fork.py:state_transition", "src/ethereum/osaka/vm/interpreter.py:process_message_call", "src/ethereum/osaka/trie.py:root"]}
{"id": "C60", "title": "Ethash cache and dataset sizes are the largest primes below linear growth", "statement": "For every block number the loops of cache_size and dataset_size terminate without underflow and return 64 times the largest prime below 2^18 + 2^11 * epoch and 128 times the largest prime below 2^23 + 2^16 * epoch. Seed, cache, dataset and sizes depend on the epoch (30000 blocks) only; the first seed is zero and each next seed is the hash of the one before. Byte strings and little-endian 32-bit word sequences convert back and forth without loss.", "quantifier": "all block numbers, all hash functions, all byte strings and word sequences", "why_tests_cant": "The search for a prime runs once per epoch and there are infinitely many epochs; published tables cover 2048 of them.", "anchors": ["src/ethereum/ethash.py:cache_size", "src/ethereum/ethash.py:dataset_size", "src/ethereum/ethash.py:generate_seed", "src/ethereum/ethash.py:epoch", "src/ethereum/utils/numeric.py:is_prime", "src/ethereum/utils/numeric.py:le_bytes_to_uint32_sequence"]}
{"id": "C61", "title": "Ethash evaluates the Yellow Paper function; light and full verification agree", "statement": "For block numbers below 1962270000 and every 64-byte hash function, generate_cache, generate_dataset and hashimoto_light raise nothing and compute the values described by the recurrences of the Yellow Paper appendix. hashimoto_light over the cache returns the same mix digest and result as hashimoto over the full dataset, and only items inside the dataset are fetched. The mixing function fnv is injective in each argument. From block 1962270000 on verification raises OverflowError.", "quantifier": "all block numbers in the stated range, all header hashes, nonces, and hash functions of the right output size", "why_tests_cant": "The full dataset has at least a gigabyte, so the two ways of evaluation are never compared in full by a test.", "anchors": ["src/ethereum/ethash.py:generate_cache", "src/ethereum/ethash.py:fnv", "src/ethereum/ethash.py:fnv_hash", "src/ethereum/ethash.py:generate_dataset_item", "src/ethereum/ethash.py:generate_dataset", "src/ethereum/ethash.py:hashimoto", "src/ethereum/ethash.py:hashimoto_light"]}
{"id": "C62", "title": "Proof-of-work difficulty follows the EIP-2 / EIP-100 formulas in every fork", "statement": "For every later timestamp, calculate_block_difficulty of each of the 13 proof-of-work forks raises nothing and returns max(131072, parent + parent/2048 * correction + bomb), where correction is +1/-1 at 13 seconds (Frontier), max(1 - age/10, -99) (Homestead to Spurious Dragon) or max(1 or 2 - age/9, -99) with 2 if the parent has ommers (Byzantium on), and the bomb uses the block number less the fork's delay. It never falls below the minimum, rises at most by parent/2048 (or twice that with ommers) besides the bomb, decreases with the age of the block, an ommer shifts the rule by nine seconds, the bomb is zero below 200000 and doubles every 100000 blocks, and a larger delay never gives a larger difficulty. Timestamps outside the range raise OverflowError exactly as stated.", "quantifier": "all block numbers, timestamps, parent difficulties, and forks", "why_tests_cant": "The rule combines floor division, a clamp, a minimum and an exponential term over unbounded integers; the bomb is only visible at large numbers.", "anchors": ["src/ethereum/frontier/fork.py:calculate_block_difficulty", "src/ethereum/homestead/fork.py:calculate_block_difficulty", "src/ethereum/byzantium/fork.py:calculate_block_difficulty", "src/ethereum/gray_glacier/fork.py:calculate_block_difficulty"]}
{"id": "C63", "title": "Proof-of-work headers are accepted exactly if they follow a block and carry an Ethash seal", "statement": "In each of the 13 proof-of-work forks validate_header accepts a header exactly if some block of the chain is its parent (number, hash, time, gas limit or base fee rule, extra data, difficulty, DAO fork extra data) and its mix digest and nonce are an Ethash seal meeting the difficulty; every other header raises InvalidBlock and nothing else. The Ethash result is unique. The hash that is sealed determines every field but mix digest and nonce. In a chain whose numbers are consecutive every accepted block refers to the one before it. The claim that accepted blocks always extend the last block is false (the parent is looked up by number), and so is the claim that the first London block obeys the gas limit rule; both have witnesses.", "quantifier": "all chains, headers, hash functions of the right output size, block numbers below 1962270000, 13 forks", "why_tests_cant": "The condition joins a dozen checks with a memory-hard function that tests replace by a stub.", "anchors": ["src/ethereum/frontier/fork.py:validate_header", "src/ethereum/frontier/fork.py:validate_proof_of_work", "src/ethereum/frontier/fork.py:generate_header_hash_for_pow", "src/ethereum/dao_fork/fork.py:validate_header", "src/ethereum/london/fork.py:validate_header", "src/ethereum/gray_glacier/fork.py:state_transition"]}
{"id": "C64", "title": "Ommers are recent, never canonical and never included twice", "statement": "validate_ommers accepts a list of ommers exactly if the header commits to it, there are at most two, all different, each is an acceptable header of a block 1 to 6 generations back whose parent is among the last seven blocks but is not the parent of the including block, and none is canonical or already included in these blocks; everything else raises InvalidBlock. Along any consecutive history of accepted blocks of any length an ommer is thus included at most once ever and is never a block of the history. An ommer from before London makes the first London block raise AttributeError instead (refuted with a witness that the Berlin rules accept).", "quantifier": "all chains, histories of any length, lists of ommers, 13 forks", "why_tests_cant": "The code looks at seven blocks only; that this suffices for the whole history is an argument about all chains.", "anchors": ["src/ethereum/frontier/fork.py:validate_ommers", "src/ethereum/london/fork.py:validate_ommers", "src/ethereum/gray_glacier/fork.py:validate_ommers"]}
{"id": "C65", "title": "Block and ommer rewards create exactly the stated ether", "statement": "pay_rewards raises nothing within the ether supply bound and credits the miner with the reward plus 1/32 of it per ommer and each ommer's miner with (8 - age)/8 of it, adding up when addresses coincide; nonces, codes, storage and all other balances stay. For an accepted block of any proof-of-work fork the total ether after the transactions grows by exactly the sum of these payments, which lies between R and R + 2 * (R/32 + 7R/8).", "quantifier": "all states, miners, ommers, rewards, 13 forks and any transaction execution", "why_tests_cant": "Coinciding addresses, all ages and any state are covered at once; tests fix a few blocks.", "anchors": ["src/ethereum/frontier/fork.py:pay_rewards", "src/ethereum/gray_glacier/fork.py:pay_rewards", "src/ethereum/gray_glacier/fork.py:apply_body", "src/ethereum/gray_glacier/state.py:create_ether"]}
{"id": "C66", "title": "The DAO fork empties the listed accounts into the recovery contract and changes nothing else", "statement": "apply_dao raises nothing on any state within the supply bound. Afterwards the 116 listed accounts have balance zero, the recovery contract has gained the sum of their balances, total ether, nonces, codes, storage and all other balances are unchanged. The list has no duplicates and does not contain the recovery contract. A second application changes no account.", "quantifier": "all states with total ether below 2^256", "why_tests_cant": "The irregular state change ran once on one state; the statement covers all states, including listed accounts without ether or not existing.", "anchors": ["src/ethereum/dao_fork/dao.py:apply_dao", "src/ethereum/dao_fork/fork.py:apply_fork"]}
{"id": "C67", "title": "Hexadecimal and decimal texts are read as what they denote", "statement": "The decoders of utils/hexadecimal.py return a number or byte string exactly if the text, with an optional leading 0x removed, denotes it: digits of both cases, surrounding whitespace, a sign, single underscores and a second prefix as Python's int allows; two digits per byte and whitespace between bytes for byte strings. The result is unique; everything else raises ValueError, numbers out of range OverflowError. Byte strings are read back from how they are written, fewer digits than a fixed width are padded on the left, more raise ValueError.", "quantifier": "all texts (code points below 256), all byte strings", "why_tests_cant": "Tests try well-formed texts; the statement characterises every accepted text, including the ones nobody meant to accept.", "anchors": ["src/ethereum/utils/hexadecimal.py:hex_to_uint", "src/ethereum/utils/hexadecimal.py:hex_to_bytes", "src/ethereum/utils/hexadecimal.py:remove_hex_prefix", "src/ethereum/osaka/utils/hexadecimal.py:hex_to_address"]}
{"id": "C68", "title": "The genesis block and state are those of the configuration", "statement": "get_genesis_configuration returns exactly what the texts of the file denote, or raises ValueError or OverflowError. add_genesis_block puts exactly the declared accounts and slots into the state (the last one where two texts mean the same place), appends one block numbered 0 whose header has the root of that state and the prescribed default fields, and otherwise raises ValueError, OverflowError or AttributeError. With distinct addresses an Osaka chain started from it satisfies the hypotheses of C59, so every next block is accepted or rejected without an internal error; a proof-of-work chain satisfies those of C63 and C64.", "quantifier": "all configurations, all accounts and storage, all crypto functions", "why_tests_cant": "Tests load three known files; the statement covers every file, colliding spellings of an address, and all chains built on the result.", "anchors": ["src/ethereum/genesis.py:add_genesis_block", "src/ethereum/genesis.py:get_genesis_configuration", "src/ethereum/genesis.py:hex_or_base_10_str_to_u256"]}
{"id": "C69", "title": "Every fork prices and decodes transactions by its own schedule", "statement": "In each of the 13 proof-of-work forks the intrinsic cost is 21000, plus 4 per zero byte and 68 (since Istanbul 16) per other byte of data, plus 32000 for a creation since Homestead, plus 2400 per address and 1900 per storage key of the access list. A transaction is valid exactly if its gas covers this and its nonce is below 2^64-1. Exactly the transaction types the fork knows decode, what is encoded decodes to itself, other types are refused. From fork to fork the cost of a transaction never rises, except for creations in Homestead.", "quantifier": "all forks from Frontier to Gray Glacier, all transactions, all byte strings", "why_tests_cant": "Tests price a few transactions per fork; the statement fixes the price of all of them and how it changes between forks.", "anchors": ["src/ethereum/gray_glacier/transactions.py:calculate_intrinsic_cost", "src/ethereum/gray_glacier/transactions.py:validate_transaction", "src/ethereum/gray_glacier/transactions.py:decode_transaction", "src/ethereum/frontier/transactions.py:calculate_intrinsic_cost"]}
{"id": "C70", "title": "The sender of a transaction in every fork, malleability and replay", "statement": "In each proof-of-work fork the sender is recovered exactly if r is in range, s is in range (at most half the group order since Homestead), v is 27 or 28, or names the chain since Spurious Dragon, or the parity of a typed transaction is 0 or 1; it is then the address of the recovered key, and known transactions are otherwise refused with InvalidSignatureError. Forks never disagree about the sender, and since Spurious Dragon agree with Osaka. Refuted for Frontier: everybody can turn a transaction into a different accepted one of the same sender; since Homestead this is impossible. Refuted: before Spurious Dragon transactions can be replayed on other chains, and the chain id of typed transactions is never compared.", "quantifier": "all forks, chains, transactions and crypto functions", "why_tests_cant": "Tests check particular signatures; non-malleability and agreement between forks are statements about all signatures.", "anchors": ["src/ethereum/gray_glacier/transactions.py:recover_sender", "src/ethereum/frontier/transactions.py:recover_sender", "src/ethereum/homestead/transactions.py:recover_sender", "src/ethereum/spurious_dragon/transactions.py:recover_sender"]}
{"id": "C71", "title": "What one transaction does in every proof-of-work fork", "statement": "Whatever the virtual machine does, process_transaction succeeds exactly if the transaction is valid and acceptable (gas left in the block, price at least the base fee since London, nonce, funds, sender without code) and then: the sender pays for all the gas and its nonce rises, the machine runs the described message, the unused gas and a refund of at most half (a fifth since London) of what was used go back, the coinbase receives the price less the base fee, self-destructed accounts and, since Spurious Dragon, touched empty ones disappear, and the receipt has the state root (Frontier to Spurious Dragon) or the status (since Byzantium), the cumulative gas, the logs and their bloom. Otherwise it is refused and nothing changes. Total ether changes by what the machine does, minus the base fee and what self-destructed accounts still hold. No touched account is left empty since Spurious Dragon.", "quantifier": "all forks, environments, states, known transactions, virtual machines and crypto functions", "why_tests_cant": "Tests run given transactions; the statement is an equivalence for all transactions, states and machine behaviours.", "anchors": ["src/ethereum/gray_glacier/fork.py:process_transaction", "src/ethereum/gray_glacier/fork.py:check_transaction", "src/ethereum/gray_glacier/fork.py:make_receipt", "src/ethereum/frontier/fork.py:process_transaction", "src/ethereum/spurious_dragon/fork.py:process_transaction"]}
{"id": "C72", "title": "The transactions of an accepted proof-of-work block", "statement": "The transactions of a block succeed exactly if all decode and run one after the other as C71 describes. If a block is accepted its header commits to them: the gas used is that after the last receipt and within the limit, the two roots are those of tries that hold exactly the encoded transactions and receipts at their indices, the bloom is that of all logs, and the new state is that after the transactions with the rewards of C65 added. If the virtual machine creates no ether, the total afterwards plus base fee times gas used is at most the total before plus the rewards; equal if it conserves ether and destroys no account. Blocks with equal transactions roots have equal transactions, or two different inputs hashed for these roots collide.", "quantifier": "all forks, chains, blocks with fewer than 2^256 transactions, virtual machines and crypto functions", "why_tests_cant": "Tests replay given blocks; the supply bound and the commitment are statements about all blocks.", "anchors": ["src/ethereum/gray_glacier/fork.py:apply_body", "src/ethereum/gray_glacier/fork.py:state_transition", "src/ethereum/gray_glacier/fork.py:get_last_256_block_hashes", "src/ethereum/frontier/fork.py:apply_body"]}
{"id": "C73", "title": "Running code creates no ether in any proof-of-work fork", "statement": "Whatever code a message runs, in whatever fork from Frontier to Gray Glacier, the sum of all balances after the message is at most the sum before, and is smaller only if the message succeeded and some account is to be deleted. So a transaction destroys at least the base fee of the gas it pays for, exactly that if nothing is deleted, and an accepted block increases the supply by at most the block and ommer rewards less base fee times gas used.", "quantifier": "all 13 forks, environments, messages, codes, states, depths, transactions, blocks and crypto functions", "why_tests_cant": "Tests run given programs; that no program in any fork can mint ether is a statement about all of them.", "anchors": ["src/ethereum/gray_glacier/vm/interpreter.py:process_message_call", "src/ethereum/gray_glacier/vm/instructions/system.py:selfdestruct", "src/ethereum/gray_glacier/vm/instructions/system.py:generic_call", "src/ethereum/frontier/vm/interpreter.py:process_message", "src/ethereum/frontier/vm/instructions/system.py:selfdestruct", "src/ethereum/gray_glacier/fork.py:state_transition"]}
{"id": "C74", "title": "Failing frames of the proof-of-work forks are undone", "statement": "In every fork from Frontier to Gray Glacier: process_message and process_create_message satisfy their recursion without any bound on steps; a frame returns at most the gas it got; a frame ends without error, by REVERT or by an exceptional halt, and nothing but an exception of the host language escapes; a frame with an error leaves all accounts, storage and open transactions as they were; after an exceptional halt no gas is left, and since Byzantium no output. A call from outside that fails logs, refunds, deletes and touches nothing, and a transaction whose message fails changes only the sender (nonce plus one, gas paid) and the coinbase.", "quantifier": "all 13 forks, environments, messages, codes, states and crypto functions", "why_tests_cant": "Rollback has to hold for failures at every point of every program.", "anchors": ["src/ethereum/gray_glacier/vm/interpreter.py:process_message", "src/ethereum/gray_glacier/vm/interpreter.py:process_create_message", "src/ethereum/gray_glacier/vm/interpreter.py:execute_code", "src/ethereum/frontier/vm/interpreter.py:process_create_message", "src/ethereum/spurious_dragon/vm/interpreter.py:process_create_message"]}
{"id": "C75", "title": "Static frames of the proof-of-work forks change nothing", "statement": "In every fork that has STATICCALL, a static message leaves every account and all storage as it was, except that an absent account may come into being empty when its address is called, however deep the calls inside it go; it logs nothing, deletes nothing and refunds nothing. So an instruction STATICCALL, or any call or creation executed inside a static frame, leaves state, logs, deletions and refunds of the caller as they were.", "quantifier": "all 13 forks, environments, messages, codes, states, depths and crypto functions", "why_tests_cant": "The guarantee is about every program that may run inside a static frame, at every depth; tests pick a few forbidden instructions.", "anchors": ["src/ethereum/byzantium/vm/instructions/system.py:staticcall", "src/ethereum/byzantium/vm/instructions/storage.py:sstore", "src/ethereum/gray_glacier/vm/instructions/system.py:generic_call", "src/ethereum/gray_glacier/vm/interpreter.py:process_message"]}
{"id": "C76", "title": "No internal errors in the proof-of-work forks, with one exception", "statement": "If the numbers of the message and environment have their sizes, the caller can pay, and fewer than 2^255 wei exist, then running a message or creation at depth at most 1024 never ends in an exception that escapes (which would abort the block), except the OverflowError of the MODEXP precompile from Byzantium on. Hence any transaction of a type the fork knows is either executed, leaving a state of the same kind, or rejected without a trace, or ends in that one overflow. Both provisos are needed: since Byzantium a call of MODEXP announcing a base of 2^256-1 bytes aborts the block with any gas, and with 2^255 wei a contract destroying itself in its own favour does in every fork.", "quantifier": "all 13 forks, environments, messages, creations, transactions, states and crypto functions whose digests have their sizes", "why_tests_cant": "It concerns every instruction, precompile and nesting of frames with every operand; the failing inputs are at the edges of the number types.", "anchors": ["src/ethereum/gray_glacier/vm/interpreter.py:process_message", "src/ethereum/gray_glacier/fork.py:process_transaction", "src/ethereum/byzantium/vm/precompiled_contracts/modexp.py:modexp", "src/ethereum/frontier/vm/instructions/system.py:selfdestruct"]}
{"id": "C77", "title": "Nonces, code and existence of accounts in the proof-of-work forks", "statement": "During a message no account vanishes, no nonce falls, and an account with a nonce or code keeps its code; code that changed is within the limits of the fork (at most 0x6000 bytes since Spurious Dragon, not beginning with 0xEF since London). After a transaction the same holds of all accounts it does not delete, so if all codes are within the limits before a block they are after it.", "quantifier": "all 13 forks, environments, messages, creations, transactions, blocks, states and crypto functions", "why_tests_cant": "It concerns every program and every nesting of creations, calls and failures.", "anchors": ["src/ethereum/gray_glacier/vm/interpreter.py:process_create_message", "src/ethereum/spurious_dragon/vm/interpreter.py:process_create_message", "src/ethereum/london/vm/interpreter.py:process_create_message", "src/ethereum/frontier/vm/instructions/system.py:create"]}
{"id": "C78", "title": "No empty account survives since Spurious Dragon", "statement": "From Spurious Dragon on (EIP-161), after a transaction and after an accepted block, an account that is stored but empty (nonce 0, balance 0, no code) was stored and empty before; so a state without empty accounts never gets one. A message leaves only such accounts empty that were empty before, that it reports as touched, or its own target. Before Spurious Dragon this is false.", "quantifier": "all forks from Spurious Dragon to Gray Glacier, environments, messages, transactions, blocks, states and crypto functions", "why_tests_cant": "An account may become empty through any nesting of calls, creations, self-destructions and failures; the set of touched accounts has to cover all of them, including after a rollback.", "anchors": ["src/ethereum/gray_glacier/fork.py:process_transaction", "src/ethereum/gray_glacier/vm/__init__.py:incorporate_child_on_success", "src/ethereum/gray_glacier/vm/interpreter.py:process_message_call", "src/ethereum/gray_glacier/vm/instructions/system.py:selfdestruct", "src/ethereum/gray_glacier/fork.py:pay_rewards"]}
{"id": "C79", "title": "The refund counter of the proof-of-work forks", "statement": "At the end of a successful outermost message or creation the signed refund counter is not negative and at most 44000 times the gas used plus 24000. In nested frames it may be negative, but by no more than clearing the slots that are now filled again had earned (15000 each since Istanbul, 4800 since London, 0 before). So the conversion to an unsigned number at the end of a message call never fails.", "quantifier": "all 13 forks, environments, messages, creations, states and crypto functions", "why_tests_cant": "A refund taken back in one frame may have been earned in another that was called, reverted or delegated to; the invariant ranges over all nestings and write sequences.", "anchors": ["src/ethereum/gray_glacier/vm/instructions/storage.py:sstore", "src/ethereum/istanbul/vm/instructions/storage.py:sstore", "src/ethereum/gray_glacier/vm/interpreter.py:process_message_call", "src/ethereum/gray_glacier/vm/__init__.py:incorporate_child_on_success"]}
{"id": "C80", "title": "Price and meaning of every instruction in the proof-of-work forks", "statement": "In each of the 13 proof-of-work forks the byte at the program counter is executed as the instruction with that opcode if a fork up to this one introduced it, and is an invalid opcode otherwise. Every instruction that starts no other frame fails exactly when the table of the fork says so (missing operands, full stack, less gas than its price in that fork, forbidden write or jump), without changing the world, and otherwise leaves exactly the frame, the world and the touched accounts of the table: prices of EIP-150, 160, 161, 1884, 2200, 2929, refunds of EIP-2200 and 3529, SELFDESTRUCT paying everything out and emptying the account, account and slot accesses recorded since Berlin only.", "quantifier": "all 13 forks, instructions, frames, worlds, environments, sets of accounts deleted by the frames above and crypto functions (failure and success exactly under the size conditions of the inputs; the resulting frame without them)", "why_tests_cant": "Tests check prices at sampled operands in sampled forks; the table fixes them for every operand, memory size, storage history and fork.", "anchors": ["src/ethereum/frontier/vm/gas.py", "src/ethereum/istanbul/vm/instructions/storage.py:sstore", "src/ethereum/gray_glacier/vm/instructions/storage.py:sstore", "src/ethereum/gray_glacier/vm/instructions/environment.py", "src/ethereum/frontier/vm/instructions/system.py:selfdestruct", "src/ethereum/gray_glacier/vm/instructions/system.py:selfdestruct", "src/ethereum/gray_glacier/vm/instructions/__init__.py"]}
{"id": "C81", "title": "Message calls in the proof-of-work forks", "statement": "For CALL, CALLCODE, DELEGATECALL and STATICCALL in each proof-of-work fork: the frame halts exceptionally, leaving the world unchanged, exactly when operands are missing, the gas due is not there, or (since Byzantium) ether is sent by CALL in a static frame. The gas due is the price of the fork (40 before EIP-150, 700 until Istanbul, warm or cold since Berlin; 9000 for value; 25000 for an account that is missing, or since EIP-161 only for an empty account that gets value; memory expansion) plus, before EIP-150, the whole gas asked for the child. Otherwise, at depth 1024 or with too small a balance, no child runs and all its gas comes back; otherwise exactly one child runs on exactly the listed message, told which accounts the frames above have destroyed, and the resumed frame and the reported touched accounts are exactly the listed ones.", "quantifier": "all 13 forks, frames, worlds, operands and environments; all behaviours of the child (arbitrary function in place of the child execution)", "why_tests_cant": "Price, refusal and hand-over depend on unbounded gas, memory, balances and on an arbitrary child execution, and differ from fork to fork.", "anchors": ["src/ethereum/frontier/vm/instructions/system.py:call", "src/ethereum/frontier/vm/gas.py:calculate_message_call_gas", "src/ethereum/tangerine_whistle/vm/gas.py:calculate_message_call_gas", "src/ethereum/spurious_dragon/vm/instructions/system.py:call", "src/ethereum/gray_glacier/vm/instructions/system.py:generic_call"]}
{"id": "C82", "title": "Contract creation in the proof-of-work forks", "statement": "For CREATE and CREATE2 in each proof-of-work fork: the frame halts exceptionally, leaving the world unchanged, exactly when operands are missing, the gas is below 32000 + 6 per word hashed by CREATE2 + memory expansion, or the frame is static; there is no limit on the init code. Otherwise, if the creator's balance is too small, its nonce is 2^64-1 or the depth is 1024, nothing is created, 0 is pushed and only the price is paid. Otherwise the creator's nonce goes up by one; if the derived address has a nonce, code or storage, the gas meant for the child (all of it before EIP-150, all but one 64th since) is lost and 0 is pushed; otherwise exactly one creation is started on exactly the listed message and the resumed frame and reported touched accounts are exactly the listed ones.", "quantifier": "all 13 forks, frames, worlds, operands, environments and hash functions; all behaviours of the creation (arbitrary function in its place)", "why_tests_cant": "The case distinction is on unbounded gas, balances, nonces up to 2^64-1, sizes and an arbitrary init code execution; address collisions cannot be produced by tests at all.", "anchors": ["src/ethereum/frontier/vm/instructions/system.py:create", "src/ethereum/constantinople/vm/instructions/system.py:create2", "src/ethereum/gray_glacier/vm/instructions/system.py:generic_create"]}
{"id": "C83", "title": "The life of a message in the proof-of-work forks", "statement": "Running a message (depth at most 1024) first makes its target an account that exists, moves exactly its value from caller to target, then runs the code from an empty frame, byte by byte through the opcode table of the fork, until the frame stops, the code ends, or an instruction (or a byte that is no instruction of the fork) fails. A normal end keeps the frame and the world as they are; a revert restores every account and slot but keeps gas and output; an exceptional halt restores them and takes all gas and, since Byzantium, the output. The touched accounts reported are those the run collected. Addresses 1-4, since Byzantium 5-8, since Istanbul 9 run the precompiled contract instead. A creation first clears the storage of the new account, since Spurious Dragon increments its nonce, since Istanbul marks it created; the returned bytes become its code at 200 gas per byte unless they cannot be paid, since Spurious Dragon exceed 24576 bytes, or since London start with 0xEF: then everything is restored and all gas is taken, except that in Frontier the contract remains without code and the gas is kept.", "quantifier": "all 13 forks, messages, worlds, code and init code, gas amounts, environments and crypto functions", "why_tests_cant": "Code, world and gas are unbounded and execution is recursive; tests look at the end of selected runs in selected forks.", "anchors": ["src/ethereum/frontier/vm/interpreter.py:process_create_message", "src/ethereum/homestead/vm/interpreter.py:process_create_message", "src/ethereum/spurious_dragon/vm/interpreter.py:process_create_message", "src/ethereum/london/vm/interpreter.py:process_create_message", "src/ethereum/gray_glacier/vm/interpreter.py:execute_code"]}
{"id": "C84", "title": "Precompiled contracts of the proof-of-work forks", "statement": "In each proof-of-work fork ECRECOVER, SHA256, RIPEMD160 and identity, since Byzantium MODEXP and the three alt_bn128 contracts, and since Istanbul BLAKE2F charge exactly the price of that fork (EIP-198 then EIP-2565 for MODEXP, EIP-196/197 then EIP-1108 for the curve), accept exactly the inputs the EIPs demand, and output exactly the encoding of the specified result. MODEXP has no limits on lengths; it answers as specified whenever its operands end below 2^256, and otherwise, given its gas, raises an exception that nobody handles. A call of such a contract gives the caller that output and takes exactly that price, or takes all gas and changes nothing.", "quantifier": "all 13 forks, inputs of any length, messages, worlds, environments and library functions", "why_tests_cant": "The input spaces are byte strings of any length; prices change between forks at thresholds of the lengths.", "anchors": ["src/ethereum/byzantium/vm/precompiled_contracts/modexp.py:modexp", "src/ethereum/berlin/vm/precompiled_contracts/modexp.py:gas_cost", "src/ethereum/byzantium/vm/precompiled_contracts/alt_bn128.py:alt_bn128_add", "src/ethereum/istanbul/vm/precompiled_contracts/alt_bn128.py:alt_bn128_pairing_check", "src/ethereum/istanbul/vm/precompiled_contracts/blake2f.py:blake2f", "src/ethereum/frontier/vm/precompiled_contracts/ecrecover.py:ecrecover"]}
{"id": "C85", "title": "MODEXP, precompiled contracts and blob price in the forks from Paris to Prague", "statement": "Before Osaka, MODEXP charges max(200, ceil(max(base, modulus length)/8)^2 * max(1, iterations) / 3) (EIP-2565), has no limit on lengths, and outputs base^exponent mod modulus in the length of the modulus (zeros for modulus zero, nothing if base and modulus are empty); if the place of the exponent or of the modulus exceeds 2^256 an OverflowError aborts the block, in the first case whatever the gas. All other precompiled contracts a fork has behave as in Osaka. A call of such a contract gives the caller that output and takes exactly that price, or takes all gas and changes nothing. The blob price that BLOBBASEFEE gives is the complete exponential series of the excess blob gas over 3338477 in Cancun and over 5007716 since Prague.", "quantifier": "All five forks since the merge, all inputs of any length, messages, worlds, environments, excess values and crypto functions", "why_tests_cant": "Inputs of any length, and numbers up to 2^256 announced in them; the block-aborting overflow needs lengths no test vector uses.", "anchors": ["src/ethereum/prague/vm/precompiled_contracts/modexp.py:modexp", "src/ethereum/prague/vm/precompiled_contracts/modexp.py:gas_cost", "src/ethereum/cancun/vm/gas.py:calculate_blob_gas_price", "src/ethereum/paris/vm/precompiled_contracts/mapping.py", "src/ethereum/cancun/vm/precompiled_contracts/mapping.py", "src/ethereum/prague/vm/precompiled_contracts/mapping.py"]}
{"id": "C86", "title": "A used nonce stays used, from Frontier to Osaka", "statement": "In every proof-of-work fork, execution never lowers the nonce of, gives code to or deletes an account that has a nonce and no code, and a transaction leaves its sender such an account with a nonce above that of the transaction. So along any chain of accepted blocks of any of the 13 forks (with the DAO transfers anywhere), continued by any chain of blocks of the forks since the merge in their order, no two transactions have the same sender and nonce, and no transaction with a used sender and nonce is accepted again, by the rules of any fork.", "quantifier": "all 13 proof-of-work forks and the five forks since the merge; all messages, codes, transactions, states, blocks with fewer than 2^256 transactions and chains of any length; all crypto functions", "why_tests_cant": "all programs and all chains of any length, across forks", "anchors": ["src/ethereum/frontier/fork.py:process_transaction", "src/ethereum/frontier/vm/interpreter.py:process_message_call", "src/ethereum/frontier/vm/instructions/system.py:selfdestruct", "src/ethereum/gray_glacier/fork.py:check_transaction", "src/ethereum/paris/fork.py:check_transaction"]}
{"id": "C87", "title": "The merge joins the two kinds of chains", "statement": "The code of Paris reads the last block of proof of work as one of its own: it encodes and hashes its header as the code of Gray Glacier does, BLOCKHASH sees the same 256 hashes, and the first header of Paris is accepted just if it follows the last one of proof of work (number, hash, time, gas limit, base fee) and has no difficulty, nonce or ommers; otherwise it raises InvalidBlock. Along a whole chain, from the first block of Frontier to the last of Osaka, no sender and nonce occurs twice, and ether comes from block rewards, ommer rewards and withdrawals only.", "quantifier": "all proof-of-work chains of any forks and lengths, all chains since the merge on top of them, all headers", "why_tests_cant": "Tests of the transition run a handful of two-block chains; the property is about every pair of a header of proof of work and a first header of Paris, and about whole chains of unbounded length through all forks.", "anchors": ["src/ethereum/paris/fork.py:82-101", "src/ethereum/paris/fork.py:104-140", "src/ethereum/paris/fork.py:273-322", "src/ethereum/paris/blocks.py:28-181", "src/ethereum/gray_glacier/blocks.py:28-190"]}
{"id": "C88", "title": "Processing a block of proof of work raises no internal error but the overflow of MODEXP", "statement": "Take a chain of proof of work in a sound state (balances below 2^255 in total, consecutive blocks, enough of them kept for the last 256 hashes) and any block with fields of their types, whose transactions are lists of fields or (since Berlin) strings that are not empty. state_transition then appends the block and leaves a sound state, or leaves the list of blocks alone and raises InvalidBlock, one of the exceptions for invalid transactions or (since Berlin, for a transaction that is not RLP of the right shape) DecodingError, or (since Byzantium) the OverflowError of MODEXP. There is no other exception: no KeyError, AssertionError, underflow, overflow or RLP encoding error in header and ommer checks, transactions, roots and rewards. An empty string as a transaction does raise IndexError.", "quantifier": "all forks from Frontier to Gray Glacier, all chains and blocks with the stated typing, all hash functions with digests of the right size", "why_tests_cant": "Absence of an exception over all blocks and states is a universal statement over the whole of block processing, from Ethash to the rewards; tests run chosen blocks.", "anchors": ["src/ethereum/gray_glacier/fork.py:151-207", "src/ethereum/gray_glacier/fork.py:541-700", "src/ethereum/frontier/fork.py:135-190", "src/ethereum/gray_glacier/transactions.py:308-324"]}
{"id": "C89", "title": "Layout of everything that is hashed or signed", "statement": "Transactions, signed messages, authorizations, receipts, headers, withdrawals and blocks are encoded field by field as the EIPs lay down: a transaction is its type byte and the list of message and signature; the sender signs the type byte and the message alone (EIP-155 adds the chain and two zeros, and v names that chain); a receipt carries the type byte of its transaction; each fork adds fields at the end of the header and moves none. Numbers are strings without leading zero byte, addresses and hashes have fixed length.", "quantifier": "all transactions of the five types, receipts, headers and blocks of the forks from Paris to Osaka, all chain ids and signatures", "why_tests_cant": "Round trips and injectivity hold for any order of the fields; the order itself has to hold for all values", "anchors": ["src/ethereum/osaka/transactions.py:encode_transaction", "src/ethereum/osaka/transactions.py:recover_sender", "src/ethereum/osaka/transactions.py:get_transaction_hash", "src/ethereum/osaka/vm/eoa_delegation.py:recover_authority", "src/ethereum/osaka/blocks.py:encode_receipt", "src/ethereum/osaka/blocks.py:Header", "src/ethereum/shanghai/blocks.py:Block", "src/ethereum/paris/blocks.py:Header"]}
{"id": "C90", "title": "secp256k1_recover accepts exactly the r of points of the curve", "statement": "secp256k1_recover returns a key exactly if r is the first coordinate of a point (y^2 = r^3 + 7 modulo p) and coincurve recovers a key from the 65 bytes r, s, v; otherwise it raises InvalidSignatureError and nothing else, for a v below 256 (the callers pass 0 or 1). The power computed in the code decides this because p is prime (proved). Each such r has exactly two points, with second coordinates of different parity, which is what v selects. The sender of an accepted transaction has such an r. A v of 256 or more raises ValueError instead.", "quantifier": "all r, s below 2^256, all v, all hashes, every behaviour of coincurve; all transactions", "why_tests_cant": "The numbers range over 2^256 values and the criterion rests on the primality of a 256-bit number", "anchors": ["src/ethereum/crypto/elliptic_curve.py:secp256k1_recover", "src/ethereum/osaka/transactions.py:recover_sender"]}
{"id": "C91", "title": "Ether leaves a wallet only with its consent", "statement": "An account with a nonce and without code (a wallet) never loses ether through what others do: whatever contracts run, and whatever other transactions, system transactions, withdrawals and requests a block contains, its balance does not fall, its nonce stays the same, it gets no code and is not deleted, as long as it sends no transaction and signs no authorization. A transaction it does send raises its nonce by exactly one and costs it at most the value, the gas limit at the maximum fee and the blobs at the maximum blob fee it signed. Along every chain of accepted blocks its nonce counts the transactions it sent and its balance falls by at most the sum it signed for. From Frontier to Gray Glacier the same holds of every wallet that the DAO fork does not list, and from there on across the merge to Osaka.", "quantifier": "all forks from Frontier to Osaka, all states, transactions, blocks and chains, all contract code, every cryptography", "why_tests_cant": "The claim is about all contracts anybody could write and all sequences of blocks: CALL with value, DELEGATECALL, CALLCODE, CREATE, SELFDESTRUCT and reverts nested in any way", "anchors": ["src/ethereum/osaka/vm/interpreter.py:process_message", "src/ethereum/osaka/vm/instructions/system.py:generic_call", "src/ethereum/osaka/vm/instructions/system.py:selfdestruct", "src/ethereum/osaka/fork.py:process_transaction", "src/ethereum/osaka/vm/eoa_delegation.py:set_delegation", "src/ethereum/frontier/vm/interpreter.py:process_message", "src/ethereum/gray_glacier/fork.py:process_transaction", "src/ethereum/dao_fork/dao.py:apply_dao"]}
{"id": "C92", "title": "A contract can only do what its code contains", "statement": "Take a contract whose code is not an EIP-7702 designator and contains no CALLCODE, DELEGATECALL and SELFDESTRUCT instruction (bytes that are data of a PUSH do not count). Whatever messages, transactions (with any authorizations), system transactions and withdrawals are processed, its code stays the same and it is not deleted. If the code contains no CREATE and CREATE2, its nonce stays the same. If it contains no CALL, CREATE and CREATE2, its balance never falls. If it contains no SSTORE, its storage stays the same. A linear scan of the code decides which instructions it contains.", "quantifier": "all contracts and codes (for proof of work: outside the list of the DAO fork), all messages, all transactions and all chains of accepted blocks of all forks from Frontier to Osaka", "why_tests_cant": "The claim is about every program any other contract may run and every sequence of blocks; a test runs a few adversaries. Reentrancy, delegated code, authorizations, refunds, coinbase payments and deletions all touch accounts.", "anchors": ["src/ethereum/osaka/vm/interpreter.py", "src/ethereum/osaka/vm/instructions/system.py", "src/ethereum/osaka/vm/instructions/storage.py", "src/ethereum/osaka/vm/eoa_delegation.py", "src/ethereum/osaka/state.py", "src/ethereum/osaka/fork.py", "src/ethereum/frontier/vm/interpreter.py", "src/ethereum/gray_glacier/vm/interpreter.py", "src/ethereum/dao_fork/dao.py"]}
{"id": "C93", "title": "The optimized proof-of-work check decides as the plain one", "statement": "If the external library ethash accepts exactly the digest of Ethash of the given epoch, header hash and nonce with a result that is at most the boundary, then the optimized validate_proof_of_work gives the same result as the plain one for every header of difficulty 2 or more; with it patched in, every header and every block (with its ommers) gives the same result and the same chain, whatever their difficulty. At difficulty 1 the optimized check on its own raises OverflowError where the plain one accepts.", "quantifier": "all libraries that meet the condition, all hash functions, all forks of proof of work, all chains, all headers and blocks below number 1962270000 with nonces of 8 bytes", "why_tests_cant": "Computing Ethash takes minutes for one header; tests use a few headers. The property is about every header, every difficulty and both orders of evaluation.", "anchors": ["src/ethereum_optimized/fork.py:38-72", "src/ethereum_optimized/__init__.py:49-62", "src/ethereum/gray_glacier/fork.py:280-421"]}
{"id": "C94", "title": "A loaded schedule of forks makes the right fork active", "statement": "Hardfork.load returns forks in strictly increasing order, and for every criterion the last fork the configuration gives it; a module named twice has its latest criterion. load_from_json fails exactly for missing keys, negative numbers, a time of 2^256 or more, or a DAO fork. Otherwise, if the block numbers never go back from one fork to the next and the time of Shanghai is not reached before the merge block, the fork that ForkTracking makes active at a block is the last fork of the file that is reached, also when several forks begin with one block.", "quantifier": "all dictionaries of criteria and names; all JSON configurations; all block numbers and timestamps", "why_tests_cant": "The repository has one configuration per network; the property is about all of them, with any coincidence of blocks, and all blocks.", "anchors": ["src/ethereum_spec_tools/forks.py:122-170", "src/ethereum_spec_tools/sync.py:49-105", "src/ethereum/fork_criteria.py"]}
