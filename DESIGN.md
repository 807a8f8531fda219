# Formal model of ethereum/execution-specs in Rocq

Focus: `src/ethereum/osaka` (the newest fork) plus the fork-independent helpers it uses.
The virtual machines of `paris`, `shanghai`, `cancun` and `prague` are the same model with another value of the field
`b_fork` of the block environment; theorems about it hold in all five forks unless a hypothesis names one.
The 13 proof-of-work forks (`frontier` to `gray_glacier`) have their own model, block level (C60-C72) and virtual
machine (C73-C84).

## Method

* The model is a shallow embedding: each Python function becomes a total Gallina function of the same
  name and branch structure, with a comment citing the file and lines.  Model files contain no proofs.
* Unsigned integers (`Uint`, `U256`, `U64`) are `N`; signed ones (`int`) are `Z`.  The range checks done by
  `ethereum_types` are explicit: `U256(x)` on an out-of-range value, `Uint` subtraction below zero, and
  so on, yield the exception value `Crash` instead of a number.
* Bytes are lists of `Byte.byte`.  `Address` (Bytes20) and storage keys (Bytes32) are represented by their
  big-endian integer value.
* Exceptions are values: `Halt e` (ExceptionalHalt and subclasses), `Revert`, `Crash c` (Python-level
  errors not caught by the interpreter), `Invalid e` (InvalidBlock/InvalidTransaction).  An
  exception carries the mutated frame and world, as in Python.
* The EVM frame is a record, the world (state + transient storage) another; opcodes are state/exception
  monad programs.  `process_message` recurses on the remaining call depth, the instruction loop is iterated
  (binary) `gas_left + 1` times; running out of either is an explicit `OutOfFuel` value, shown
  unreachable (C09), so the final functions have no fuel argument.
* External code (keccak256, secp256k1 recovery, pairing/KZG libraries, sha256, ripemd160) is a record of
  functions `crypto` passed as a parameter; theorems hold for every such record.  Where a theorem
  needs a fact about it (hash length 32) the fact is a visible hypothesis; collision resistance is never
  assumed: theorems conclude "equal or here is a collision".

## Modelled code

Model files (no proofs in them); every definition cites its lines.

| file | Python code |
|------|-------------|
| Base | `ethereum_types` (external: Bytes, Uint, U64, U256), `utils/numeric.py`, `utils/byte.py` |
| State | `osaka/state.py`, `osaka/fork_types.py`, the dictionary part of `osaka/trie.py` |
| Rlp | `ethereum_rlp` (external) |
| Vm, Instructions, Precompiles, Interpreter, Transactions, Blocks, Fork | also the files of the same name of `paris`, `shanghai`, `cancun` and `prague`, by tests of the fork (`at_least`) |
| Vm | `osaka/vm/__init__.py`, `stack.py`, `memory.py`, `gas.py`, `exceptions.py` |
| Instructions | `osaka/vm/instructions/*.py`, `vm/runtime.py`, `vm/eoa_delegation.py`, `utils/address.py` |
| Precompiles | `osaka/vm/precompiled_contracts/**`, `crypto/blake2.py`, `crypto/kzg.py`, checks of `crypto/elliptic_curve.py` |
| Interpreter | `osaka/vm/interpreter.py`, rest of `vm/eoa_delegation.py` |
| Bloom, Trie, Transactions, Blocks, Requests | the modules of the same name in `osaka/` |
| Fork | `osaka/fork.py`, `utils/message.py`, blob fee functions of `vm/gas.py` |
| ForkCriteria | `fork_criteria.py`, `ForkTracking` of `ethereum_spec_tools/sync.py` |
| ForkConfig | `Hardfork.load`, `Hardfork.load_from_json` of `ethereum_spec_tools/forks.py` |
| StateDb | `ethereum_optimized/state_db.py` |
| Ethash | `ethash.py`, `is_prime` and the word conversions of `utils/numeric.py` |
| Pow | headers, difficulty, ommers, rewards and `state_transition` of the 13 proof-of-work forks' `fork.py`; `dao_fork/dao.py`; `create_ether`, `move_ether` of their `state.py` |
| PowTx | `transactions.py` and the transaction part of `fork.py` (`process_transaction`, receipts, `apply_body`, environment) of the 13 proof-of-work forks, as one function of a rule table |
| PowVm | the `vm/` packages of the 13 proof-of-work forks (`instructions/`, `gas.py`, `precompiled_contracts/`, `interpreter.py`), as one function of the fork; instructions that never changed are those of Instructions |
| OptimizedPow | `ethereum_optimized/fork.py`, and what it is patched into |
| Merge | headers of Gray Glacier as the code of Paris reads them, `apply_fork` of Paris |
| Hexadecimal | `utils/hexadecimal.py`, `osaka/utils/hexadecimal.py`; `int(s, base)` and `bytes.fromhex` of CPython |
| Genesis | `genesis.py` after JSON parsing, for the forks since the merge and the proof-of-work forks |

### Not modelled

* The classes of Python objects: each fork has its own `Header`, `Block` and `Account`, and code of one fork reads the
  attributes of objects of the one before.  Only the test of the class in `calculate_excess_blob_gas` is modelled, and
  Merge says how Paris reads headers of Gray Glacier.
* `apply_fork` (it returns the chain; but `apply_dao` and Merge), tracing (`evm_trace`), JSON loading, command line tools.
* Inside the field `crypto` (so: any function of the right type): keccak256, sha256, ripemd160, secp256k1 recovery (C90 opens it up to coincurve),
  secp256r1 verification, point addition and multiplication, pairings, maps to curves, compressed point decoding and
  `KeyValidate`.  Everything around them in the precompiled contracts is modelled: decoding, range, curve and
  subgroup checks (subgroup: the multiple by the group order is infinity), loops, discounts, encoding.
* Points are affine pairs; the all-zero pair is infinity.  Jacobian coordinates of `py_ecc` are not modelled.
* Python object identity: dictionaries are persistent maps, and a mutation is a new value of the world or the frame.
* In StateDb the database library (`rust_pyspec_glue`) is a store of accounts and slots.  In OptimizedPow the library
  `ethash` is any function; C93 has a hypothesis on it.

### Representation choices that matter when reading theorems

* Trie dictionaries in State are finite maps (order is irrelevant there); in Trie they are insertion-ordered
  association lists, because C25 is about order.
* A secured trie is the dictionary of its unhashed keys, as in Python.
* Snapshots are stacks of (accounts, storage) pairs as in `state.py`; Python copies, so sharing is not an issue.

## Proof files

* State layer: StateSpec, StateProofs, PropState (C01-C04).  Numbers: NumericProofs, ArithProofs, PropArith (C13).
* One instruction: EvmStep, EvmLocal, EvmPlan, EvmPlanProofs, EvmCallProofs classify what an instruction can do; EvmFrame
  and EvmRule turn this into an induction rule for frames; EvmAccounts, EvmInv hold shared invariants,
  EvmPlain the invariant of accounts without code before Prague (used for no-replay, C36).
* PropExec (C06, C08, C09, C15), PropGas (C11, C12, C14, C21), PropAccounts (C05, C18, C19), PropSafe (C07, C10, C17),
  PropRefund (C16, C20), PropDelegation (C22).
* Functional correctness: InstrSpec, InstrProofs, PropInstr (C50), PropCalls (C51, C52), PropFrames (C53), PrecompileSpec,
  PropPrecompiles, PropBlake2 (C58), PropOuter (C55), PropBody (C56), PropHeader (C54).
* Encodings: RlpProofs, PropRlp (C46), PropBloom (C23), TrieProofs, PropTrie (C24-C27), PropTx (C28, C29, C43),
  PropBlocks (C30, C42, C47).
* Blocks and chains: PropFees (C31, C33), ForkProofs, PropWithdrawals (C41), PropForks (C45), PropChain (C32, C37-C39),
  TxProofs, PropTransaction (C34-C36, C40), PropHistory (C48 and chain versions), PropAnchored (C57), PropCommit (C47, C49),
  TotalProofs and PropTotal (C59, C42 for chains).
* Proof of work: PropEthash (C60, C61), PropDifficulty (C62), PropPow (C63), PropOmmers (C64 and C63 for histories),
  PropRewards (C65, C66), PropPowExamples (examples and the refuted claims),
  PropPowTx (C69, C70), PropPowRun (C71), PropPowBody (C72).
* Virtual machine before the merge: PowVmPlan, PowVmOps, PowVmCalls (what one instruction does), PowVmFrame (derivations of
  frames), PowVmRule (proof rule for frames), PowVmInv (invariants), PropPowVm (C73, C74),
  PowVmKeep (fields that instructions leave alone), PropPowFrames (C75, C77), PropPowEmpty (C78),
  PropPowRefund (C79), PropPowSafe (C76), PowInstrSpec, PowInstrProofs, PropPowInstr (C80),
  PropPowCalls (C81, C82), PropPowLife (C83), PropPowPre (C84), PropPowReplay (C86).
* Forks from Paris to Prague: the files above with `b_fork` and `h_fork`, and PropPos (C85, C17 refuted before Osaka), PropMerge (C87), PropPowTotal (C88).
  C59 covers them up to the OverflowError of C17.
* Texts and genesis: PropHex (C67), PropGenesis (C68).  Layout of encodings: PropWire (C89).
* Public keys: Curve (secp256k1_recover around coincurve), Fermat (Fermat's little theorem, criterion of Pocklington), PropCurve (C90).
* Wallets: PropConsent, PropPowConsent (C91).
* Contracts bound by their own code: PropCapable, PropPowCapable (C92).
* The optimized proof-of-work check: PropOptimized (C93).  Schedules from files: PropForkConfig (C94).
* PropStateDb (C44).  EvmExamples and ForkExamples hold the concrete data of the non-vacuity examples.

## Per property

| id | modelled | how it is proved |
|----|----------|------------------|
| C01, C02 | state.py, trie.py (dict part) | induction on the grammar of well-bracketed operation sequences |
| C03 | state.py | direct map reasoning (std++ gmap), plus representation invariant "no zero slots, no empty tries" preserved by all operations |
| C04 | state.py | sum over gmap, insert/delete lemmas |
| C05 | whole interpreter | invariant over the instruction loop and call tree (induction on depth, loop count) |
| C06 | whole interpreter | snapshot discipline invariant + rollback |
| C07 | whole interpreter | invariant: static frame leaves world equal |
| C08 | whole interpreter | per-opcode gas relation lifted through loop and calls |
| C09 | whole interpreter | strictly decreasing gas per continuing step; depth bound |
| C10, C11, C12 | whole interpreter, gas.py, memory.py, runtime.py | frame invariant per opcode; jumpdest analysis by induction against an inductive "instruction boundary" specification |
| C13 | arithmetic.py, bitwise.py, comparison.py | number theory against Z specification |
| C14 | gas.py | arithmetic |
| C15 | interpreter | invariant on depth |
| C16 | interpreter, state | potential function summed over the slots of the pre-transaction storage |
| C17 | interpreter, state | conjunction of frame/world well-formedness invariants, Crash outcomes excluded |
| C18, C19, C20 | interpreter, fork | world relation invariant |
| C21 | opcodes, incorporate_child | monotonicity |
| C22 | eoa_delegation.py | induction on the list |
| C23 | bloom.py | induction on the logs |
| C24 | trie.py | list induction |
| C25, C26 | trie.py root/patricialize on insertion-ordered dicts | induction on tree size; permutation invariance; decoding/injectivity of node encoding with RLP injectivity |
| C27 | state.py + trie.py | from C26 |
| C28, C29, C30 | transactions.py, blocks.py over modelled RLP | from RLP injectivity, field by field |
| C31, C32, C33 | fork.py, gas.py, numeric.py | arithmetic; well-founded loop |
| C34, C35, C36 | fork.py process_transaction on top of the interpreter | invariants over the transaction list |
| C37, C38 | fork.py chain part | invariant over accepted histories |
| C39 | fork.py state_transition | refuted: the state is mutated in place before the header commitments are checked; the block-list part is proved |
| C40 | transactions.py recover_sender | refuted for typed transactions (chain_id is never compared); proved for legacy ones |
| C41, C42 | fork.py, requests.py | induction; byte-level reasoning |
| C43 | transactions.py | induction on data |
| C44 | ethereum_optimized/state_db.py | simulation relation; refuted in corner cases (nested destroy_storage, cleared storage) with the reachable fragment proved |
| C45 | fork_criteria.py | direct |
| C46 | rlp (external library, modelled from its documented behaviour) | structural induction |
| C47 | blocks.py, fork.py | RLP injectivity and trie commitment; "equal or a collision" |
| C48 | fork.py | sums over accounts, through transactions, withdrawals and system calls |
| C49 | fork.py | inversion of `state_transition` |
| C50 | instructions/*.py | reference table (InstrSpec), one proof per class of instruction |
| C51, C52 | system.py, eoa_delegation.py | reference description of price, refusal, child message, resumption; any child semantics |
| C53 | interpreter.py | big-step relation `executes` against the loop |
| C54 | fork.py validate_header, state_transition | acceptance as an equivalence |
| C55 | fork.py process_transaction, message.py | reference description of one transaction, over the frames of C53 |
| C56 | fork.py apply_body | reference description of one block |
| C57 | everything that changes the state | invariant from instructions up to chains |
| C58 | precompiled_contracts, blake2.py, kzg.py | reference from EIPs and RFC 7693; BLAKE2 by simulation |
| C59 | all of block execution | invariant `good` of states, `healthy` of block outputs, `chain_ok` of chains; every step is total |
| C60 | ethash.py sizes and seeds, numeric.py | loop invariant: odd candidates, no prime skipped; trial division against `Znumtheory.prime` |
| C61 | ethash.py | loops as sequences of states; recurrences of the Yellow Paper |
| C62 | calculate_block_difficulty of 13 forks | closed form over `Z`; monotonicity from it |
| C63 | validate_header, validate_proof_of_work | each check against one clause of `acceptable`; Ethash by C61 |
| C64 | validate_ommers | iff by the same method; seven blocks suffice because numbers are consecutive |
| C65 | pay_rewards | balances as sums of payments |
| C66 | dao.py | induction over the list; list facts by computation |
| C67 | hexadecimal.py | grammars as inductive predicates; the scanner is sound and complete for them |
| C68 | genesis.py | texts by C67; last write wins; the result meets the hypotheses of C59, C63 and C64 |
| C69, C70 | transactions.py of 13 forks | one table of rules; each rule against a readable "since fork" condition |
| C71 | process_transaction of 13 forks | reference description `pow_transacted`, equivalence; machine is arbitrary |
| C72 | apply_body, state_transition of 13 forks | induction over the transactions; C65 for rewards; C26 for roots |
| C73 | EVM of 13 forks | invariant of the frame rule; supply of C72 instantiated |
| C74 | EVM of 13 forks | structural part of the frame rule |
| C75 | EVM of 13 forks | invariant of the frame rule for static frames |
| C76 | EVM and transactions of 13 forks | invariant of the frame rule with the sizes of all numbers; C71 and C79 for transactions |
| C77 | EVM of 13 forks, transactions, blocks | invariant of the frame rule; C71 and C72 for transactions and blocks |
| C78 | EVM, transactions, blocks of the forks since Spurious Dragon | invariant "empty before, touched or the target" of the frame rule; clearing of C71; rewards are positive |
| C79 | EVM of 13 forks | invariant of the frame rule: counter against the number of cleared slots, and against gas |
| C80 | instructions of 13 forks | table by fork (PowInstrSpec) written from the EIPs; shared instructions from C50, the eight others by symbolic execution |
| C81, C82 | calls and creations of 13 forks | child execution arbitrary; symbolic execution against reference messages and resumed frames of C51, C52 |
| C83 | interpreter.py of 13 forks | as C53, with existence of accounts and the touched set |
| C84 | precompiled contracts of 13 forks | C58 where unchanged; MODEXP and alt_bn128 with the prices of the fork |
| C85 | modexp.py, gas.py, mapping.py of Paris to Prague | MODEXP is that of Berlin (C84); series of C33 with the fraction of the fork |
| C86 | EVM, transactions and blocks of 13 forks, joined to C36 | invariant of the frame rule: an account with a nonce and no code; induction over chains |
| C87 | Merge: `paris/fork.py` on a chain of `gray_glacier` | C54 and C86 joined; the state is settled after every block |
| C88 | PowTx, Pow, PowVm: `state_transition` of `frontier`…`gray_glacier` as a whole | Total up to invalid blocks and the overflow of MODEXP; empty transaction strings raise IndexError (refuted) |
| C89 | encodings of transactions, receipts, headers, blocks | one list of fields per object, in terms of `transaction` attributes; equal by computation, signed messages by cases of `recover_sender` |
| C90 | crypto/elliptic_curve.py `secp256k1_recover` | criterion of Euler; `p` is 3 modulo 4, so a power is a root; the converse by Fermat, with `p` proved prime |
| C91 | process_message, SELFDESTRUCT, CREATE, set_delegation, process_transaction, apply_body | frame rule: a frame at an account without code runs no instruction, so every value moved and every creation is another account's; then transactions, blocks, chains by induction; the same with the rule of the forks with proof of work, the DAO fork and across the merge |
| C92 | process_message, execute_code, CALL and its variants, CREATE, SSTORE, SELFDESTRUCT, set_delegation, process_transaction, apply_body | frame rule with the invariant that the program counter is on an instruction boundary: a frame in the contract's name runs the contract's code (CALLCODE and DELEGATECALL excluded), so each change to it is one of its own instructions; then transactions, blocks, chains; the same for proof of work with its frame rule, and across the merge |
| C93 | `ethereum_optimized/fork.py` | C63 (Ethash has one value, which the plain check computes) against the condition on the library; the difficulty of a checked header is at least 131072 |
| C94 | forks.py:122-170, ForkTracking | dictionaries as ordered lists, insertion sort; then C45_active |

## What was found

Properties that fail as first worded are kept as `_refuted` theorems with a witness, next to the corrected theorem.

* C31: with an odd gas limit the base fee can rise by slightly more than one eighth (`C31_eighth_refuted`).
* C39: `state_transition` changes `chain.state` before the header is compared, so a rejected block leaves a changed state
  (`C39_state_refuted`).
* C40: the `chain_id` of typed transactions is never compared with the chain (`C40_typed_refuted`).
* C41: an overflowing withdrawal raises `OverflowError`, not `InvalidBlock` (`C41_failure`).
* C42: padding bytes of deposit events are not checked.
* C44: the database-backed state loses writes, raises `KeyError` or reports storage wrongly in corner cases.
* C45: the order of fork criteria disagrees with activation across kinds (`C45_earlier_first_refuted`).
* C33: `calculate_excess_blob_gas` asks whether the parent has the class `Header` of the same package, so the excess is
  forgotten at the first block of Prague and of Osaka, not only of Cancun (`C33_fork_block_refuted`).
* `calculate_excess_blob_gas` can overflow `U64` for large headers; BLOBBASEFEE raises if the blob price reaches `2^256`.
* C59: an empty byte string as a transaction raises `IndexError` (`C59_transaction_refuted`); before Osaka a transaction to MODEXP raises `OverflowError` (`C59_overflow_refuted`); a chain that was given fewer
  than 255 earlier blocks raises `IndexError` in BLOCKHASH, so `chain_ok` asks for them.
* SELFDESTRUCT and code changes of an empty account that has storage would destroy the storage; C57 excludes such accounts.
* Harmless: `created_accounts` is not rolled back; CALLCODE with value in a static frame moves ether from an account to
  itself; BLAKE2 has an unused seventeenth word; `decode_g1_scalar_pair` builds an exception without raising it; the RLP
  decoder ignores trailing bytes at top level; system transactions ignore `accounts_to_delete`; the coinbase is paid
  before self-destructed accounts are deleted.
* C61: from block 1962270000 on the rows of the dataset do not fit `U32` and verification raises `OverflowError`
  (`C61_overflow`).
* C63: `validate_header` of the proof-of-work forks looks up the parent by number, so a block whose parent is an earlier
  block is accepted on top of the last block and executed on its state (`C63_tip_refuted`).
* C63: the first London block may have any gas limit; EIP-1559 bounds it (`C63_london_limit_refuted`).
* C64: an ommer from before London makes the first London block raise `AttributeError` (`C64_london_refuted`); ommers from
  before a fork are judged by the difficulty rule of the new fork.
* C62: a Frontier timestamp within 13 of `2^256` raises `OverflowError` (`C62_raises`).
* C67: `hex_to_uint` also accepts a sign, underscores, whitespace and a second `0x` (`C67_nonvacuous`).
* C68: an account without a balance raises `AttributeError` although a default is given; nonces are read as decimal only;
  the `requests_hash` of an Osaka genesis block is zero, not the hash of no requests (`C68_*_refuted`).
* C70: Frontier signatures are malleable, transactions before Spurious Dragon are not bound to a chain, and typed chain
  ids are never compared (`C70_*_refuted`).
* C71: the coinbase is paid before self-destructed accounts are deleted, so a coinbase that destroys itself loses the fees.
* C76: MODEXP from Byzantium to Gray Glacier adds 96 to the announced length of the base in `U256` before gas is
  charged; an announced length near `2^256` raises `OverflowError` and aborts the block, instead of running out of gas
  (`C76_modexp_refuted`).
* C76: SELFDESTRUCT adds the balance to the beneficiary before it empties the account; with `2^255` wei and the account
  itself as beneficiary this overflows (`C76_selfdestruct_refuted`).  No such balance exists in practice.
* C17: both also hold after the merge: MODEXP until Prague (`C17_modexp_refuted`), SELFDESTRUCT in Paris and Shanghai
  (`C17_selfdestruct_refuted`).

## Trusted base

* Coq 8.16.1: kernel, and `vm_compute` (used in examples and a few closed computations on constants).
* The reading of the Python text recorded in the comments, and the behaviour of `ethereum_types` and `ethereum_rlp` (not in
  the repository) as modelled in Base and Rlp.
* Axioms: none.  Each Prop file ends with `Print Assumptions` of the tuple of its theorems; every one answers
  "Closed under the global context".  The library std++ is used without its axioms; the `coqchk` summary lists only
  the seven declarations of `Coq.ssr.ssrunder` (a module type of the standard library that is instantiated there).
* Facts about cryptography are hypotheses of the theorems that need them (output lengths); collision resistance is
  never assumed.

## Tests of the theorems

`seeded/LOG.jsonl` records wrong programs: each is an edit of one definition of the model in a scratch copy, with the
theorems that stopped proving.  Edits that survived led to stronger theorems; these are named in the log.
