(** * Vm: environments, frames, the instruction monad, stack, memory, gas.

    Models src/ethereum/osaka/vm/__init__.py, stack.py, memory.py, gas.py. *)
From Verif Require Import Base State.

(** ** External cryptographic code

    Functions implemented by libraries outside the repository (pycryptodome,
    coincurve, py_ecc, ckzg, hashlib) or by repository code that only wraps
    them.  Theorems are stated for every such record. *)

(** Affine coordinates of curve points; the point at infinity is all zeros
    (which is what normalize returns for it, and is on no curve used here). *)
Notation g1_point := (N * N)%type.
Notation g2_point := ((N * N) * (N * N))%type.

Record crypto := Crypto {
  (** ethereum/crypto/hash.py keccak256 *)
  keccak256 : bytes -> bytes;
  (** hashlib.sha256(_).digest() *)
  sha256_digest : bytes -> bytes;
  (** hashlib.new("ripemd160", _).digest() *)
  ripemd160_digest : bytes -> bytes;
  (** ethereum/crypto/elliptic_curve.py secp256k1_recover(r, s, v, hash);
      [None] is InvalidSignatureError *)
  secp256k1_recover : N -> N -> N -> bytes -> option bytes;
  (** ethereum/crypto/elliptic_curve.py secp256r1_verify(r, s, x, y, hash);
      [false] is InvalidSignatureError *)
  secp256r1_verify : N -> N -> N -> N -> bytes -> bool;
  (** py_ecc.optimized_bn128 add then normalize, on affine points
      ((0,0) is infinity) *)
  bn128_add : g1_point -> g1_point -> g1_point;
  (** py_ecc.optimized_bn128 multiply then normalize *)
  bn128_mul : g1_point -> N -> g1_point;
  (** the same for points of the twist *)
  bn128_g2_mul : g2_point -> N -> g2_point;
  (** whether the product of [pairing(q, p)] over the pairs [(p, q)] is
      [FQ12.one()] *)
  bn128_pairing_is_one : list (g1_point * g2_point) -> bool;
  (** py_ecc.optimized_bls12_381 add, multiply and neg, normalized *)
  bls_g1_add : g1_point -> g1_point -> g1_point;
  bls_g1_mul : g1_point -> N -> g1_point;
  bls_g2_add : g2_point -> g2_point -> g2_point;
  bls_g2_mul : g2_point -> N -> g2_point;
  bls_g2_neg : g2_point -> g2_point;
  (** clear_cofactor_G1(map_to_curve_G1(_)) and the same for G2 *)
  bls_map_to_g1 : N -> g1_point;
  bls_map_to_g2 : N * N -> g2_point;
  (** the product of [pairing(q, p)] over the pairs [(p, q)], as above *)
  bls_pairing_is_one : list (g1_point * g2_point) -> bool;
  (** the generators G1 and G2 *)
  bls_g1_generator : g1_point;
  bls_g2_generator : g2_point;
  (** py_ecc.bls: pubkey_to_G1, signature_to_G2 ([None] is an exception) and
      G2ProofOfPossession.KeyValidate *)
  bls_pubkey_to_g1 : bytes -> option g1_point;
  bls_signature_to_g2 : bytes -> option g2_point;
  bls_key_validate : bytes -> bool;
}.

(** ** Environments *)

(** src/ethereum/osaka/fork_types.py:67-79 *)
Record authorization := Authorization {
  a_chain_id : N; a_address : address; a_nonce : N;
  a_y_parity : N; a_r : N; a_s : N;
}.

(** The forks since the merge: src/ethereum/{paris,shanghai,cancun,prague,
    osaka} *)
Inductive pos_fork := Paris | Shanghai | Cancun | Prague | Osaka.
Definition fork_rank (f : pos_fork) : N :=
  match f with
  | Paris => 0 | Shanghai => 1 | Cancun => 2 | Prague => 3 | Osaka => 4
  end.
(** [f] is [first] or a later fork *)
Definition at_least (first f : pos_fork) : bool := fork_rank first <=? fork_rank f.

(** src/ethereum/osaka/vm/__init__.py:34-50; the mutable [state] lives in
    [world].  [b_fork] is the package the block belongs to; the fields of later
    forks are not read ([b_excess_blob_gas], [b_parent_beacon_block_root]). *)
Record block_env := BlockEnv {
  b_fork : pos_fork;
  b_chain_id : N;
  b_block_gas_limit : N;
  b_block_hashes : list N;
  b_coinbase : address;
  b_number : N;
  b_base_fee_per_gas : N;
  b_time : N;
  b_prev_randao : N;
  b_excess_blob_gas : N;
  b_parent_beacon_block_root : N;
}.

(** src/ethereum/osaka/vm/__init__.py:95-110; the mutable
    [transient_storage] lives in [world]; [index_in_block] and [tx_hash] are
    only used for tracing and are left out. *)
Record tx_env := TxEnv {
  t_origin : address;
  t_gas_price : N;
  t_gas : N;
  t_access_list_addresses : gset address;
  t_access_list_storage_keys : gset (address * N);
  t_blob_versioned_hashes : list N;
  t_authorizations : list authorization;
}.

(** src/ethereum/osaka/blocks.py Log *)
Record log := Log {
  log_address : address;
  log_topics : list N;
  log_data : bytes;
}.

(** src/ethereum/osaka/vm/__init__.py:113-135; [block_env] and [tx_env] are
    the same for all messages of a transaction and are parameters of the model;
    [parent_evm] is only used for tracing.  [m_target = None] is Bytes0. *)
Record message := Message {
  m_caller : address;
  m_target : option address;
  m_current_target : address;
  m_gas : N;
  m_value : N;
  m_data : bytes;
  m_code_address : option address;
  m_code : bytes;
  m_depth : N;
  m_should_transfer_value : bool;
  m_is_static : bool;
  m_accessed_addresses : gset address;
  m_accessed_storage_keys : gset (address * N);
  m_disable_precompiles : bool;
}.

(** src/ethereum/osaka/vm/__init__.py:138-157.  The stack is a list with its
    top first (the end of the Python list). *)
Record evm := Evm {
  e_pc : N;
  e_stack : list N;
  e_memory : bytes;
  e_code : bytes;
  e_gas_left : N;
  e_valid_jump_destinations : gset N;
  e_logs : list log;
  e_refund_counter : Z;
  e_running : bool;
  e_message : message;
  e_output : bytes;
  e_accounts_to_delete : gset address;
  e_return_data : bytes;
  e_error : option exn;
  e_accessed_addresses : gset address;
  e_accessed_storage_keys : gset (address * N);
}.

(** Field updates. *)
Definition set_pc x (e : evm) := let 'Evm a b c d g v l r n m o t q k f h := e in Evm x b c d g v l r n m o t q k f h.
Definition set_stack x (e : evm) := let 'Evm a b c d g v l r n m o t q k f h := e in Evm a x c d g v l r n m o t q k f h.
Definition set_memory x (e : evm) := let 'Evm a b c d g v l r n m o t q k f h := e in Evm a b x d g v l r n m o t q k f h.
Definition set_gas_left x (e : evm) := let 'Evm a b c d g v l r n m o t q k f h := e in Evm a b c d x v l r n m o t q k f h.
Definition set_logs x (e : evm) := let 'Evm a b c d g v l r n m o t q k f h := e in Evm a b c d g v x r n m o t q k f h.
Definition set_refund_counter x (e : evm) := let 'Evm a b c d g v l r n m o t q k f h := e in Evm a b c d g v l x n m o t q k f h.
Definition set_running x (e : evm) := let 'Evm a b c d g v l r n m o t q k f h := e in Evm a b c d g v l r x m o t q k f h.
Definition set_output x (e : evm) := let 'Evm a b c d g v l r n m o t q k f h := e in Evm a b c d g v l r n m x t q k f h.
Definition set_accounts_to_delete x (e : evm) := let 'Evm a b c d g v l r n m o t q k f h := e in Evm a b c d g v l r n m o x q k f h.
Definition set_return_data x (e : evm) := let 'Evm a b c d g v l r n m o t q k f h := e in Evm a b c d g v l r n m o t x k f h.
Definition set_error x (e : evm) := let 'Evm a b c d g v l r n m o t q k f h := e in Evm a b c d g v l r n m o t q x f h.
Definition set_accessed_addresses x (e : evm) := let 'Evm a b c d g v l r n m o t q k f h := e in Evm a b c d g v l r n m o t q k x h.
Definition set_accessed_storage_keys x (e : evm) := let 'Evm a b c d g v l r n m o t q k f h := e in Evm a b c d g v l r n m o t q k f x.

(** ** The instruction monad

    An instruction mutates the frame and the world and may raise; a raised
    exception leaves the mutations made so far, as in Python. *)
Inductive res (A : Type) :=
| Ret (a : A) (e : evm) (w : world)
| Exc (x : exn) (e : evm) (w : world).
Arguments Ret {A}. Arguments Exc {A}.

Definition M (A : Type) := evm -> world -> res A.

Definition ret {A} (a : A) : M A := fun e w => Ret a e w.
Definition raise {A} (x : exn) : M A := fun e w => Exc x e w.
Definition bind {A B} (m : M A) (f : A -> M B) : M B := fun e w =>
  match m e w with
  | Ret a e' w' => f a e' w'
  | Exc x e' w' => Exc x e' w'
  end.

Declare Scope evm_scope.
Delimit Scope evm_scope with evm.
Notation "x <- m ;; k" := (bind m (fun x => k))
  (at level 62, m at next level, right associativity) : evm_scope.
Notation "m ;;; k" := (bind m (fun _ => k))
  (at level 62, right associativity) : evm_scope.
Open Scope evm_scope.

Definition get_evm : M evm := fun e w => Ret e e w.
Definition upd (f : evm -> evm) : M unit := fun e w => Ret tt (f e) w.
Definition get_state : M state := fun e w => Ret (st w) e w.
Definition put_state (s : state) : M unit := fun e w => Ret tt e (set_st s w).
Definition get_transient : M transient_storage := fun e w => Ret (ts w) e w.
Definition put_transient (t : transient_storage) : M unit :=
  fun e w => Ret tt e (set_ts t w).

(** A pure Python expression that may raise a Python-level error. *)
Definition lift {A} (r : result A) : M A :=
  match r with Ok a => ret a | Raise c => raise (ECrash c) end.

(** A statement that replaces the state or raises. *)
Definition lift_state (f : state -> result state) : M unit :=
  s <- get_state ;; s' <- lift (f s) ;; put_state s'.

Definition when (b : bool) (m : M unit) : M unit := if b then m else ret tt.

(** ** stack.py *)

(** src/ethereum/osaka/vm/stack.py:22-40 *)
Definition pop : M N := fun e w =>
  match e_stack e with
  | [] => Exc (EHalt StackUnderflowError) e w
  | v :: s => Ret v (set_stack s e) w
  end.

(** src/ethereum/osaka/vm/stack.py:43-59 *)
Definition push (value : N) : M unit := fun e w =>
  if lenN (e_stack e) =? 1024 then Exc (EHalt StackOverflowError) e w
  else Ret tt (set_stack (value :: e_stack e) e) w.

(** ** memory.py *)

(** src/ethereum/osaka/vm/memory.py:20-35: slice assignment
    [memory[start : start+len(value)] = value], which (in Python) also covers
    a start beyond the end of the memory by appending. *)
Definition memory_write_bytes (memory : bytes) (start_position : N)
    (value : bytes) : bytes :=
  takeN start_position memory ++ value
    ++ dropN (start_position + lenN value) memory.

(** src/ethereum/osaka/vm/memory.py:38-58 *)
Definition memory_read_bytes (memory : bytes) (start_position size : N) : bytes :=
  sliceN start_position (start_position + size) memory.

(** src/ethereum/osaka/vm/memory.py:61-80 *)
Definition buffer_read (buffer : bytes) (start_position size : N) : bytes :=
  right_pad_zero_bytes
    (sliceN start_position (start_position + size) buffer) size.

Definition memory_write (start_position : N) (value : bytes) : M unit :=
  upd (fun e => set_memory (memory_write_bytes (e_memory e) start_position value) e).

(** [evm.memory += b"\x00" * expand_by] (every memory instruction) *)
Definition expand_memory (expand_by : N) : M unit :=
  upd (fun e => set_memory (e_memory e ++ zeros expand_by) e).

(** ** gas.py *)

(** src/ethereum/osaka/vm/gas.py:27-85 *)
Definition GAS_JUMPDEST := 1.
Definition GAS_BASE := 2.
Definition GAS_VERY_LOW := 3.
Definition GAS_STORAGE_SET := 20000.
Definition GAS_STORAGE_UPDATE := 5000.
Definition GAS_STORAGE_CLEAR_REFUND := 4800.
Definition GAS_LOW := 5.
Definition GAS_MID := 8.
Definition GAS_HIGH := 10.
Definition GAS_EXPONENTIATION := 10.
Definition GAS_EXPONENTIATION_PER_BYTE := 50.
Definition GAS_MEMORY := 3.
Definition GAS_KECCAK256 := 30.
Definition GAS_KECCAK256_WORD := 6.
Definition GAS_COPY := 3.
Definition GAS_BLOCK_HASH := 20.
Definition GAS_LOG := 375.
Definition GAS_LOG_DATA := 8.
Definition GAS_LOG_TOPIC := 375.
Definition GAS_CREATE := 32000.
Definition GAS_CODE_DEPOSIT := 200.
Definition GAS_ZERO := 0.
Definition GAS_NEW_ACCOUNT := 25000.
Definition GAS_CALL_VALUE := 9000.
Definition GAS_CALL_STIPEND := 2300.
Definition GAS_SELF_DESTRUCT := 5000.
Definition GAS_SELF_DESTRUCT_NEW_ACCOUNT := 25000.
Definition GAS_ECRECOVER := 3000.
Definition GAS_P256VERIFY := 6900.
Definition GAS_SHA256 := 60.
Definition GAS_SHA256_WORD := 12.
Definition GAS_RIPEMD160 := 600.
Definition GAS_RIPEMD160_WORD := 120.
Definition GAS_IDENTITY := 15.
Definition GAS_IDENTITY_WORD := 3.
Definition GAS_RETURN_DATA_COPY := 3.
Definition GAS_FAST_STEP := 5.
Definition GAS_BLAKE2_PER_ROUND := 1.
Definition GAS_COLD_SLOAD := 2100.
Definition GAS_COLD_ACCOUNT_ACCESS := 2600.
Definition GAS_WARM_ACCESS := 100.
Definition GAS_INIT_CODE_WORD_COST := 2.
Definition GAS_BLOBHASH_OPCODE := 3.
Definition GAS_POINT_EVALUATION := 50000.
Definition GAS_PER_BLOB := 2 ^ 17.
Definition BLOB_SCHEDULE_TARGET := 6.
Definition TARGET_BLOB_GAS_PER_BLOCK := GAS_PER_BLOB * BLOB_SCHEDULE_TARGET.
Definition BLOB_BASE_COST := 2 ^ 13.
Definition BLOB_SCHEDULE_MAX := 9.
Definition MIN_BLOB_GASPRICE := 1.
Definition BLOB_BASE_FEE_UPDATE_FRACTION := 5007716.
Definition GAS_BLS_G1_ADD := 375.
Definition GAS_BLS_G1_MUL := 12000.
Definition GAS_BLS_G1_MAP := 5500.
Definition GAS_BLS_G2_ADD := 600.
Definition GAS_BLS_G2_MUL := 22500.
Definition GAS_BLS_G2_MAP := 23800.

(** src/ethereum/osaka/vm/gas.py:121-138 *)
Definition charge_gas (amount : N) : M unit := fun e w =>
  if e_gas_left e <? amount then Exc (EHalt OutOfGasError) e w
  else Ret tt (set_gas_left (e_gas_left e - amount) e) w.

(** src/ethereum/osaka/vm/gas.py:141-164 *)
Definition calculate_memory_gas_cost (size_in_bytes : N) : N :=
  let size_in_words := ceil32 size_in_bytes / 32 in
  let linear_cost := size_in_words * GAS_MEMORY in
  let quadratic_cost := size_in_words ^ 2 / 512 in
  linear_cost + quadratic_cost.

(** The loop of calculate_gas_extend_memory (gas.py:189-201): returns
    (to_be_paid, size_to_extend). *)
Fixpoint extend_memory_loop (current_size : N) (extensions : list (N * N))
    (to_be_paid size_to_extend : N) : N * N :=
  match extensions with
  | [] => (to_be_paid, size_to_extend)
  | (start_position, size) :: rest =>
      if size =? 0
      then extend_memory_loop current_size rest to_be_paid size_to_extend
      else
        let before_size := ceil32 current_size in
        let after_size := ceil32 (start_position + size) in
        if after_size <=? before_size
        then extend_memory_loop current_size rest to_be_paid size_to_extend
        else
          let already_paid := calculate_memory_gas_cost before_size in
          let total_cost := calculate_memory_gas_cost after_size in
          extend_memory_loop after_size rest
            (to_be_paid + (total_cost - already_paid))
            (size_to_extend + (after_size - before_size))
  end.

(** src/ethereum/osaka/vm/gas.py:167-203: (cost, expand_by) *)
Definition calculate_gas_extend_memory (memory : bytes)
    (extensions : list (N * N)) : N * N :=
  extend_memory_loop (lenN memory) extensions 0 0.

(** src/ethereum/osaka/vm/gas.py:248-262 *)
Definition max_message_call_gas (gas : N) : N := gas - gas / 64.

(** src/ethereum/osaka/vm/gas.py:206-245: (cost, sub_call); the
    [call_stipend] argument always has its default value *)
Definition calculate_message_call_gas
    (value gas gas_left memory_cost extra_gas : N) : N * N :=
  let call_stipend := if value =? 0 then 0 else GAS_CALL_STIPEND in
  if gas_left <? extra_gas + memory_cost
  then (gas + extra_gas, gas + call_stipend)
  else
    let gas := N.min gas
      (max_message_call_gas (gas_left - memory_cost - extra_gas)) in
    (gas + extra_gas, gas + call_stipend).

(** src/ethereum/osaka/vm/gas.py:265-281 *)
Definition init_code_cost (init_code_length : N) : N :=
  GAS_INIT_CODE_WORD_COST * ceil32 init_code_length / 32.

(** One iteration of the loop of taylor_exponential
    (src/ethereum/utils/numeric.py:196-201); state: (i, output,
    numerator_accumulated). *)
Definition taylor_step (numerator denominator : N) (s : N * N * N)
  : (N * N * N) + N :=
  let '(i, output, acc) := s in
  if acc =? 0 then inr (output / denominator)
  else inl (i + 1, output + acc, (acc * numerator) / (denominator * i)).

(** src/ethereum/utils/numeric.py:171-202.  [None] would mean that the
    iteration bound is too small ([NumericProofs.v] shows it is not, for a
    positive denominator). *)
Definition taylor_exponential (factor numerator denominator : N) : option N :=
  let bound := 2 * numerator + numerator * N.size numerator
               + N.size (factor * denominator) + 4 in
  match bound with
  | 0 => None
  | Npos p =>
      match loop_pos p (taylor_step numerator denominator)
              (1, 0, factor * denominator) with
      | inr v => Some v
      | inl _ => None
      end
  end.

(** src/ethereum/osaka/vm/gas.py:348-366 *)
Definition calculate_blob_gas_price (excess_blob_gas : N) : option N :=
  taylor_exponential MIN_BLOB_GASPRICE excess_blob_gas
    BLOB_BASE_FEE_UPDATE_FRACTION.
(** src/ethereum/cancun/vm/gas.py:73, :325-343: the fraction of Cancun *)
Definition fork_blob_gas_price (f : pos_fork) (excess_blob_gas : N) : option N :=
  if at_least Prague f then calculate_blob_gas_price excess_blob_gas
  else taylor_exponential MIN_BLOB_GASPRICE excess_blob_gas 3338477.

(** ** vm/__init__.py *)

(** src/ethereum/osaka/vm/__init__.py:160-176 *)
Definition incorporate_child_on_success (e child : evm) : evm :=
  set_gas_left (e_gas_left e + e_gas_left child)
  (set_logs (e_logs e ++ e_logs child)
  (set_refund_counter (e_refund_counter e + e_refund_counter child)%Z
  (set_accounts_to_delete
     (e_accounts_to_delete e ∪ e_accounts_to_delete child)
  (set_accessed_addresses
     (e_accessed_addresses e ∪ e_accessed_addresses child)
  (set_accessed_storage_keys
     (e_accessed_storage_keys e ∪ e_accessed_storage_keys child) e))))).

(** src/ethereum/osaka/vm/__init__.py:179-190 *)
Definition incorporate_child_on_error (e child : evm) : evm :=
  set_gas_left (e_gas_left e + e_gas_left child) e.
