(** * Instructions: opcodes and their implementations.

    Models src/ethereum/osaka/vm/instructions/*.py, vm/runtime.py,
    vm/eoa_delegation.py:31-70 and 115-146, utils/address.py.

    Every instruction follows the Python statement order: stack, gas,
    operation, program counter.  Instructions that start a child frame take
    [process_message] / [process_create_message] as parameters (the knot is
    tied in [Interpreter.v]). *)
From Verif Require Import Base State Rlp Vm.

(** ** Opcodes *)

(** src/ethereum/osaka/vm/instructions/__init__.py:33-215.  The families
    PUSH0..PUSH32, DUP1..16, SWAP1..16, LOG0..4 carry their index. *)
Inductive op :=
| STOP | ADD | MUL | SUB | DIV | SDIV | MOD | SMOD | ADDMOD | MULMOD | EXP
| SIGNEXTEND
| LT | GT | SLT | SGT | EQ | ISZERO | AND | OR | XOR | NOT | BYTE | SHL | SHR
| SAR | CLZ | KECCAK
| ADDRESS | BALANCE | ORIGIN | CALLER | CALLVALUE | CALLDATALOAD
| CALLDATASIZE | CALLDATACOPY | CODESIZE | CODECOPY | GASPRICE | EXTCODESIZE
| EXTCODECOPY | RETURNDATASIZE | RETURNDATACOPY | EXTCODEHASH
| BLOCKHASH | COINBASE | TIMESTAMP | NUMBER | PREVRANDAO | GASLIMIT | CHAINID
| SELFBALANCE | BASEFEE | BLOBHASH | BLOBBASEFEE
| POP | MLOAD | MSTORE | MSTORE8 | SLOAD | SSTORE | JUMP | JUMPI | PC | MSIZE
| GAS | JUMPDEST | TLOAD | TSTORE | MCOPY
| PUSH (n : N) | DUP (n : N) | SWAP (n : N) | LOG (n : N)
| CREATE | CALL | CALLCODE | RETURN | DELEGATECALL | CREATE2 | STATICCALL
| REVERT | SELFDESTRUCT.

(** [Ops(byte)]; [None] is the ValueError of the enum lookup. *)
Definition decode_op (b : byte) : option op :=
  match Byte.to_N b with
  | 0x00 => Some STOP | 0x01 => Some ADD | 0x02 => Some MUL
  | 0x03 => Some SUB | 0x04 => Some DIV | 0x05 => Some SDIV
  | 0x06 => Some MOD | 0x07 => Some SMOD | 0x08 => Some ADDMOD
  | 0x09 => Some MULMOD | 0x0A => Some EXP | 0x0B => Some SIGNEXTEND
  | 0x10 => Some LT | 0x11 => Some GT | 0x12 => Some SLT | 0x13 => Some SGT
  | 0x14 => Some EQ | 0x15 => Some ISZERO | 0x16 => Some AND | 0x17 => Some OR
  | 0x18 => Some XOR | 0x19 => Some NOT | 0x1A => Some BYTE
  | 0x1B => Some SHL | 0x1C => Some SHR | 0x1D => Some SAR | 0x1E => Some CLZ
  | 0x20 => Some KECCAK
  | 0x30 => Some ADDRESS | 0x31 => Some BALANCE | 0x32 => Some ORIGIN
  | 0x33 => Some CALLER | 0x34 => Some CALLVALUE | 0x35 => Some CALLDATALOAD
  | 0x36 => Some CALLDATASIZE | 0x37 => Some CALLDATACOPY
  | 0x38 => Some CODESIZE | 0x39 => Some CODECOPY | 0x3A => Some GASPRICE
  | 0x3B => Some EXTCODESIZE | 0x3C => Some EXTCODECOPY
  | 0x3D => Some RETURNDATASIZE | 0x3E => Some RETURNDATACOPY
  | 0x3F => Some EXTCODEHASH
  | 0x40 => Some BLOCKHASH | 0x41 => Some COINBASE | 0x42 => Some TIMESTAMP
  | 0x43 => Some NUMBER | 0x44 => Some PREVRANDAO | 0x45 => Some GASLIMIT
  | 0x46 => Some CHAINID | 0x47 => Some SELFBALANCE | 0x48 => Some BASEFEE
  | 0x49 => Some BLOBHASH | 0x4A => Some BLOBBASEFEE
  | 0x50 => Some POP | 0x51 => Some MLOAD | 0x52 => Some MSTORE
  | 0x53 => Some MSTORE8 | 0x54 => Some SLOAD | 0x55 => Some SSTORE
  | 0x56 => Some JUMP | 0x57 => Some JUMPI | 0x58 => Some PC
  | 0x59 => Some MSIZE | 0x5A => Some GAS | 0x5B => Some JUMPDEST
  | 0x5C => Some TLOAD | 0x5D => Some TSTORE | 0x5E => Some MCOPY
  | 0xF0 => Some CREATE | 0xF1 => Some CALL | 0xF2 => Some CALLCODE
  | 0xF3 => Some RETURN | 0xF4 => Some DELEGATECALL | 0xF5 => Some CREATE2
  | 0xFA => Some STATICCALL | 0xFD => Some REVERT | 0xFF => Some SELFDESTRUCT
  | x =>
      if (0x5F <=? x) && (x <=? 0x7F) then Some (PUSH (x - 0x5F))
      else if (0x80 <=? x) && (x <=? 0x8F) then Some (DUP (x - 0x80))
      else if (0x90 <=? x) && (x <=? 0x9F) then Some (SWAP (x - 0x90 + 1))
      else if (0xA0 <=? x) && (x <=? 0xA4) then Some (LOG (x - 0xA0))
      else None
  end.

(** ** runtime.py *)

(** src/ethereum/osaka/vm/runtime.py:22-68.  The Python loop moves [pc] over
    the code and skips push data; here the loop walks over the remaining bytes,
    [skip] counting the push-data bytes still to be passed over. *)
Fixpoint jumpdest_scan (rest : bytes) (pc skip : N) : gset N :=
  match rest with
  | [] => ∅
  | b :: rest' =>
      if 0 <? skip then jumpdest_scan rest' (pc + 1) (N.pred skip)
      else match decode_op b with
           | Some JUMPDEST => {[ pc ]} ∪ jumpdest_scan rest' (pc + 1) 0
           | Some (PUSH n) => jumpdest_scan rest' (pc + 1) n
           | _ => jumpdest_scan rest' (pc + 1) 0
           end
  end.
Definition get_valid_jump_destinations (c : bytes) : gset N :=
  jumpdest_scan c 0 0.

(** ** utils/address.py *)

(** src/ethereum/osaka/utils/address.py:25-39 *)
Definition to_address_masked (x : N) : address := x mod 2 ^ 160.

(** [Address(left_pad_zero_bytes(h[-20:], 20))] *)
Definition address_of_hash (h : bytes) : address :=
  from_be_bytes (dropN (lenN h - 20) h).

(** src/ethereum/osaka/utils/address.py:42-62 *)
Definition compute_contract_address (cr : crypto) (a : address) (nonce : N)
  : address :=
  address_of_hash (keccak256 cr (encode (RList [RAddress a; RUint nonce]))).

(** src/ethereum/osaka/utils/address.py:65-93 *)
Definition compute_create2_contract_address (cr : crypto) (a : address)
    (salt : N) (call_data : bytes) : address :=
  address_of_hash (keccak256 cr
    ([Byte.xff] ++ to_be_bytes20 a ++ to_be_bytes32 salt
       ++ keccak256 cr call_data)).

(** ** Delegation designators, src/ethereum/osaka/vm/eoa_delegation.py *)

(** src/ethereum/osaka/vm/eoa_delegation.py:22-28 *)
Definition SET_CODE_TX_MAGIC : bytes := [Byte.x05].
Definition EOA_DELEGATION_MARKER : bytes := [Byte.xef; Byte.x01; Byte.x00].
Definition EOA_DELEGATION_MARKER_LENGTH : N := 3.
Definition EOA_DELEGATED_CODE_LENGTH : N := 23.
Definition PER_EMPTY_ACCOUNT_COST : N := 25000.
Definition PER_AUTH_BASE_COST : N := 12500.
Definition NULL_ADDRESS : address := 0.

(** src/ethereum/osaka/vm/eoa_delegation.py:31-51 *)
Definition is_valid_delegation (c : bytes) : bool :=
  (lenN c =? EOA_DELEGATED_CODE_LENGTH)
  && bytes_eqb (takeN EOA_DELEGATION_MARKER_LENGTH c) EOA_DELEGATION_MARKER.

(** src/ethereum/osaka/vm/eoa_delegation.py:54-70 *)
Definition get_delegated_code_address (c : bytes) : option address :=
  if is_valid_delegation c
  then Some (from_be_bytes (dropN EOA_DELEGATION_MARKER_LENGTH c))
  else None.

(** ** Helpers *)

(** Result of running a whole frame. *)
Inductive pmres :=
| PRet (e : evm) (w : world)
| PExc (x : exn) (w : world).

Definition call_child (f : message -> world -> pmres) (m : message) : M evm :=
  fun e w =>
    match f m w with
    | PRet c w' => Ret c e w'
    | PExc x w' => Exc x e w'
    end.

(** [evm.pc += Uint(n)] *)
Definition pc_add (n : N) : M unit := upd (fun e => set_pc (e_pc e + n) e).

(** [U256(x)] where [x] may be too large *)
Definition cast (x : N) : M N := lift (to_u256 x).

(** The repeated statement [if a in evm.accessed_addresses: WARM else: add a;
    COLD]. *)
Definition access_address (a : address) : M N :=
  e <- get_evm ;;
  if decide (a ∈ e_accessed_addresses e) then ret GAS_WARM_ACCESS
  else
    upd (fun e => set_accessed_addresses ({[ a ]} ∪ e_accessed_addresses e) e) ;;;
    ret GAS_COLD_ACCOUNT_ACCESS.

Definition b2n (b : bool) : N := if b then 1 else 0.

(** [ceil32(size) // 32] *)
Definition words_of (size : N) : N := ceil32 size / 32.

(** ** control_flow.py *)

(** src/ethereum/osaka/vm/instructions/control_flow.py:23-42 *)
Definition op_stop : M unit :=
  upd (set_running false) ;;; pc_add 1.

(** src/ethereum/osaka/vm/instructions/control_flow.py:45-67 *)
Definition op_jump : M unit :=
  jump_dest <- pop ;;
  charge_gas GAS_MID ;;;
  e <- get_evm ;;
  if decide (jump_dest ∈ e_valid_jump_destinations e)
  then upd (set_pc jump_dest)
  else raise (EHalt InvalidJumpDestError).

(** src/ethereum/osaka/vm/instructions/control_flow.py:70-98 *)
Definition op_jumpi : M unit :=
  jump_dest <- pop ;;
  conditional_value <- pop ;;
  charge_gas GAS_HIGH ;;;
  e <- get_evm ;;
  if conditional_value =? 0 then upd (set_pc (e_pc e + 1))
  else if decide (jump_dest ∈ e_valid_jump_destinations e)
  then upd (set_pc jump_dest)
  else raise (EHalt InvalidJumpDestError).

(** src/ethereum/osaka/vm/instructions/control_flow.py:101-122 *)
Definition op_pc : M unit :=
  charge_gas GAS_BASE ;;;
  e <- get_evm ;;
  v <- cast (e_pc e) ;;
  push v ;;;
  pc_add 1.

(** src/ethereum/osaka/vm/instructions/control_flow.py:125-146 *)
Definition op_gas : M unit :=
  charge_gas GAS_BASE ;;;
  e <- get_evm ;;
  v <- cast (e_gas_left e) ;;
  push v ;;;
  pc_add 1.

(** src/ethereum/osaka/vm/instructions/control_flow.py:149-171 *)
Definition op_jumpdest : M unit :=
  charge_gas GAS_JUMPDEST ;;; pc_add 1.

(** ** arithmetic.py *)

(** The value part of each arithmetic instruction is a named function so that
    properties can refer to it; the cited lines contain both. *)
Definition unop (g : N) (f : N -> N) : M unit :=
  x <- pop ;; charge_gas g ;;; push (f x) ;;; pc_add 1.
Definition binop (g : N) (f : N -> N -> N) : M unit :=
  x <- pop ;; y <- pop ;; charge_gas g ;;; push (f x y) ;;; pc_add 1.
Definition binop_opt (g : N) (f : N -> N -> result N) : M unit :=
  x <- pop ;; y <- pop ;; charge_gas g ;;;
  r <- lift (f x y) ;; push r ;;; pc_add 1.
Definition ternop (g : N) (f : N -> N -> N -> result N) : M unit :=
  x <- pop ;; y <- pop ;; z <- pop ;; charge_gas g ;;;
  r <- lift (f x y z) ;; push r ;;; pc_add 1.

(** [U256.from_signed] as an expression *)
Definition u256_from_signed (z : Z) : result N :=
  match from_signed z with Some n => Ok n | None => Raise OverflowError end.

(** src/ethereum/osaka/vm/instructions/arithmetic.py:32-56 *)
Definition op_add := binop GAS_VERY_LOW wrapping_add.
(** arithmetic.py:59-83 *)
Definition op_sub := binop GAS_VERY_LOW wrapping_sub.
(** arithmetic.py:86-110 *)
Definition op_mul := binop GAS_LOW wrapping_mul.
(** arithmetic.py:113-140 *)
Definition div_value (dividend divisor : N) : N :=
  if divisor =? 0 then 0 else dividend / divisor.
Definition op_div := binop GAS_LOW div_value.
(** arithmetic.py:143-176 *)
Definition sdiv_value (x y : N) : result N :=
  let dividend := to_signed x in
  let divisor := to_signed y in
  u256_from_signed
    (if (divisor =? 0)%Z then 0%Z
     else if (dividend =? - 2 ^ 255)%Z && (divisor =? -1)%Z then (- 2 ^ 255)%Z
     else (get_sign (dividend * divisor) * (Z.abs dividend / Z.abs divisor))%Z).
Definition op_sdiv := binop_opt GAS_LOW sdiv_value.
(** arithmetic.py:179-206 *)
Definition mod_value (x y : N) : N := if y =? 0 then 0 else x mod y.
Definition op_mod := binop GAS_LOW mod_value.
(** arithmetic.py:209-236 *)
Definition smod_value (x y : N) : result N :=
  let x := to_signed x in
  let y := to_signed y in
  u256_from_signed
    (if (y =? 0)%Z then 0%Z
     else (get_sign x * (Z.abs x mod Z.abs y))%Z).
Definition op_smod := binop_opt GAS_LOW smod_value.
(** arithmetic.py:239-267 *)
Definition addmod_value (x y z : N) : result N :=
  if z =? 0 then Ok 0 else to_u256 ((x + y) mod z).
Definition op_addmod := ternop GAS_MID addmod_value.
(** arithmetic.py:270-298 *)
Definition mulmod_value (x y z : N) : result N :=
  if z =? 0 then Ok 0 else to_u256 ((x * y) mod z).
Definition op_mulmod := ternop GAS_MID mulmod_value.
(** arithmetic.py:301-331 *)
Definition exp_value (base exponent : N) : result N :=
  to_u256 (pow_mod base exponent (U256_MAX + 1)).
Definition op_exp : M unit :=
  base <- pop ;;
  exponent <- pop ;;
  let exponent_bits := bit_length exponent in
  let exponent_bytes := (exponent_bits + 7) / 8 in
  charge_gas (GAS_EXPONENTIATION + GAS_EXPONENTIATION_PER_BYTE * exponent_bytes) ;;;
  result <- lift (exp_value base exponent) ;;
  push result ;;;
  pc_add 1.
(** arithmetic.py:334-374 *)
Definition signextend_value (byte_num value : N) : result N :=
  if 31 <? byte_num then Ok value
  else
    let value_bytes := dropN (31 - byte_num) (to_be_bytes32 value) in
    match value_bytes with
    | [] => Raise IndexError
    | b0 :: _ =>
        let sign_bit := N.shiftr (Byte.to_N b0) 7 in
        if sign_bit =? 0 then to_u256 (from_be_bytes value_bytes)
        else
          let num_bytes_prepend := 32 - (byte_num + 1) in
          to_u256 (from_be_bytes
            (repeat Byte.xff (N.to_nat num_bytes_prepend) ++ value_bytes))
    end.
Definition op_signextend := binop_opt GAS_LOW signextend_value.

(** ** comparison.py *)

(** src/ethereum/osaka/vm/instructions/comparison.py:22-46 *)
Definition op_lt := binop GAS_VERY_LOW (fun l r => b2n (l <? r)).
(** comparison.py:49-72 *)
Definition op_slt :=
  binop GAS_VERY_LOW (fun l r => b2n (to_signed l <? to_signed r)%Z).
(** comparison.py:75-99 *)
Definition op_gt := binop GAS_VERY_LOW (fun l r => b2n (r <? l)).
(** comparison.py:102-125 *)
Definition op_sgt :=
  binop GAS_VERY_LOW (fun l r => b2n (to_signed r <? to_signed l)%Z).
(** comparison.py:128-152 *)
Definition op_eq := binop GAS_VERY_LOW (fun l r => b2n (l =? r)).
(** comparison.py:155-178 *)
Definition op_iszero := unop GAS_VERY_LOW (fun x => b2n (x =? 0)).

(** ** bitwise.py *)

(** src/ethereum/osaka/vm/instructions/bitwise.py:22-44 *)
Definition op_and := binop GAS_VERY_LOW N.land.
(** bitwise.py:47-69 *)
Definition op_or := binop GAS_VERY_LOW N.lor.
(** bitwise.py:72-94 *)
Definition op_xor := binop GAS_VERY_LOW N.lxor.
(** bitwise.py:97-118; [~x] of U256 is the int complement masked to 256 bits *)
Definition not_value (x : N) : N :=
  Z.to_N (Z.land (Z.lnot (Z.of_N x)) (Z.ones 256)).
Definition op_not := unop GAS_VERY_LOW not_value.
(** bitwise.py:121-154; the U256 product [extra_bytes_to_right * 8] is at
    most 248 *)
Definition byte_value (byte_index word : N) : N :=
  if 32 <=? byte_index then 0
  else N.land (N.shiftr word ((31 - byte_index) * 8)) 255.
Definition op_byte := binop GAS_VERY_LOW byte_value.
(** bitwise.py:157-182 *)
Definition shl_value (shift value : N) : result N :=
  if shift <? 256 then to_u256 (N.land (N.shiftl value shift) U256_MAX)
  else Ok 0.
Definition op_shl := binop_opt GAS_VERY_LOW shl_value.
(** bitwise.py:185-210 *)
Definition shr_value (shift value : N) : N :=
  if shift <? 256 then N.shiftr value shift else 0.
Definition op_shr := binop GAS_VERY_LOW shr_value.
(** bitwise.py:213-240 *)
Definition sar_value (shift value : N) : result N :=
  let signed_value := to_signed value in
  if shift <? 256
  then u256_from_signed (Z.shiftr signed_value (Z.of_N shift))
  else if (0 <=? signed_value)%Z then Ok 0 else Ok U256_MAX.
Definition op_sar := binop_opt GAS_VERY_LOW sar_value.
(** bitwise.py:243-268; U256 subtraction raises below zero *)
Definition clz_value (x : N) : result N :=
  if 256 <? bit_length x then Raise OverflowError
  else Ok (256 - bit_length x).
Definition op_clz : M unit :=
  x <- pop ;; charge_gas GAS_LOW ;;;
  r <- lift (clz_value x) ;; push r ;;; pc_add 1.

(** ** stack.py (instructions) *)

(** src/ethereum/osaka/vm/instructions/stack.py:25-45 *)
Definition op_pop : M unit :=
  _ <- pop ;; charge_gas GAS_BASE ;;; pc_add 1.

(** src/ethereum/osaka/vm/instructions/stack.py:48-78 *)
Definition op_push (num_bytes : N) : M unit :=
  (if num_bytes =? 0 then charge_gas GAS_BASE else charge_gas GAS_VERY_LOW) ;;;
  e <- get_evm ;;
  start <- cast (e_pc e + 1) ;;
  let data_to_push := from_be_bytes (buffer_read (e_code e) start num_bytes) in
  v <- cast data_to_push ;;
  push v ;;;
  pc_add (1 + num_bytes).

(** src/ethereum/osaka/vm/instructions/stack.py:81-106 *)
Definition op_dup (item_number : N) : M unit :=
  charge_gas GAS_VERY_LOW ;;;
  e <- get_evm ;;
  match nthN (e_stack e) item_number with
  | None => raise (EHalt StackUnderflowError)
  | Some data_to_duplicate => push data_to_duplicate ;;; pc_add 1
  end.

(** Exchange of the top with the element [n] below it. *)
Definition swap_top (n : N) (s : list N) : option (list N) :=
  match nthN s 0, nthN s n with
  | Some a, Some b => Some (<[0%nat := b]> (<[N.to_nat n := a]> s))
  | _, _ => None
  end.

(** src/ethereum/osaka/vm/instructions/stack.py:109-140 *)
Definition op_swap (item_number : N) : M unit :=
  charge_gas GAS_VERY_LOW ;;;
  e <- get_evm ;;
  match swap_top item_number (e_stack e) with
  | None => raise (EHalt StackUnderflowError)
  | Some s => upd (set_stack s) ;;; pc_add 1
  end.

(** ** memory.py (instructions) *)

(** src/ethereum/osaka/vm/instructions/memory.py:31-59 *)
Definition op_mstore : M unit :=
  start_position <- pop ;;
  v <- pop ;;
  let value := to_be_bytes32 v in
  e <- get_evm ;;
  let '(cost, expand_by) :=
    calculate_gas_extend_memory (e_memory e) [(start_position, lenN value)] in
  charge_gas (GAS_VERY_LOW + cost) ;;;
  expand_memory expand_by ;;;
  memory_write start_position value ;;;
  pc_add 1.

(** memory.py:62-91 *)
Definition op_mstore8 : M unit :=
  start_position <- pop ;;
  value <- pop ;;
  e <- get_evm ;;
  let '(cost, expand_by) :=
    calculate_gas_extend_memory (e_memory e) [(start_position, 1)] in
  charge_gas (GAS_VERY_LOW + cost) ;;;
  expand_memory expand_by ;;;
  memory_write start_position [byte_of_N (N.land value 255)] ;;;
  pc_add 1.

(** memory.py:94-121 *)
Definition op_mload : M unit :=
  start_position <- pop ;;
  e <- get_evm ;;
  let '(cost, expand_by) :=
    calculate_gas_extend_memory (e_memory e) [(start_position, 32)] in
  charge_gas (GAS_VERY_LOW + cost) ;;;
  expand_memory expand_by ;;;
  e <- get_evm ;;
  value <- cast (from_be_bytes
                   (memory_read_bytes (e_memory e) start_position 32)) ;;
  push value ;;;
  pc_add 1.

(** memory.py:124-144 *)
Definition op_msize : M unit :=
  charge_gas GAS_BASE ;;;
  e <- get_evm ;;
  v <- cast (lenN (e_memory e)) ;;
  push v ;;;
  pc_add 1.

(** memory.py:147-177 *)
Definition op_mcopy : M unit :=
  destination <- pop ;;
  source <- pop ;;
  length <- pop ;;
  let words := words_of length in
  let copy_gas_cost := GAS_COPY * words in
  e <- get_evm ;;
  let '(cost, expand_by) :=
    calculate_gas_extend_memory (e_memory e)
      [(source, length); (destination, length)] in
  charge_gas (GAS_VERY_LOW + copy_gas_cost + cost) ;;;
  expand_memory expand_by ;;;
  e <- get_evm ;;
  let value := memory_read_bytes (e_memory e) source length in
  memory_write destination value ;;;
  pc_add 1.

(** ** log.py *)

(** src/ethereum/osaka/vm/instructions/log.py:51-54 *)
Fixpoint pop_n (n : nat) : M (list N) :=
  match n with
  | O => ret []
  | S n' => t <- pop ;; r <- pop_n n' ;; ret (t :: r)
  end.

(** src/ethereum/osaka/vm/instructions/log.py:32-81 *)
Definition op_log (num_topics : N) : M unit :=
  memory_start_index <- pop ;;
  size <- pop ;;
  topics <- pop_n (N.to_nat num_topics) ;;
  e <- get_evm ;;
  let '(cost, expand_by) :=
    calculate_gas_extend_memory (e_memory e) [(memory_start_index, size)] in
  charge_gas (GAS_LOG + GAS_LOG_DATA * size + GAS_LOG_TOPIC * num_topics + cost) ;;;
  expand_memory expand_by ;;;
  e <- get_evm ;;
  if m_is_static (e_message e) then raise (EHalt WriteInStaticContext)
  else
    let log_entry := Log (m_current_target (e_message e)) topics
      (memory_read_bytes (e_memory e) memory_start_index size) in
    upd (fun e => set_logs (e_logs e ++ [log_entry]) e) ;;;
    pc_add 1.

(** ** storage.py *)

(** src/ethereum/osaka/vm/instructions/storage.py:37-66 *)
Definition op_sload : M unit :=
  key <- pop ;;
  e <- get_evm ;;
  let target := m_current_target (e_message e) in
  (if decide ((target, key) ∈ e_accessed_storage_keys e)
   then charge_gas GAS_WARM_ACCESS
   else
     upd (fun e => set_accessed_storage_keys
            ({[ (target, key) ]} ∪ e_accessed_storage_keys e) e) ;;;
     charge_gas GAS_COLD_SLOAD) ;;;
  s <- get_state ;;
  push (get_storage s target key) ;;;
  pc_add 1.

(** Refund change of an SSTORE, storage.py:105-124 *)
Definition sstore_refund (original_value current_value new_value : N) : Z :=
  if current_value =? new_value then 0%Z
  else
    ((if (negb (original_value =? 0) && negb (current_value =? 0)
         && (new_value =? 0))%N
      then Z.of_N GAS_STORAGE_CLEAR_REFUND else 0)
     + (if (negb (original_value =? 0) && (current_value =? 0))%N
        then - Z.of_N GAS_STORAGE_CLEAR_REFUND else 0)
     + (if (original_value =? new_value)%N
        then if (original_value =? 0)%N
             then Z.of_N (GAS_STORAGE_SET - GAS_WARM_ACCESS)
             else Z.of_N (GAS_STORAGE_UPDATE - GAS_COLD_SLOAD - GAS_WARM_ACCESS)
        else 0))%Z.

(** Gas of an SSTORE without the cold surcharge, storage.py:97-103 *)
Definition sstore_gas (original_value current_value new_value : N) : N :=
  if (original_value =? current_value) && negb (current_value =? new_value)
  then if original_value =? 0 then GAS_STORAGE_SET
       else GAS_STORAGE_UPDATE - GAS_COLD_SLOAD
  else GAS_WARM_ACCESS.

(** src/ethereum/osaka/vm/instructions/storage.py:69-132 *)
Definition op_sstore : M unit :=
  key <- pop ;;
  new_value <- pop ;;
  e <- get_evm ;;
  if e_gas_left e <=? GAS_CALL_STIPEND then raise (EHalt OutOfGasError)
  else
    s <- get_state ;;
    let target := m_current_target (e_message e) in
    original_value <- lift (get_storage_original s target key) ;;
    let current_value := get_storage s target key in
    cold <- (if decide ((target, key) ∈ e_accessed_storage_keys e) then ret 0
             else
               upd (fun e => set_accessed_storage_keys
                      ({[ (target, key) ]} ∪ e_accessed_storage_keys e) e) ;;;
               ret GAS_COLD_SLOAD) ;;
    let gas_cost :=
      cold + sstore_gas original_value current_value new_value in
    upd (fun e => set_refund_counter
           (e_refund_counter e
            + sstore_refund original_value current_value new_value)%Z e) ;;;
    charge_gas gas_cost ;;;
    if m_is_static (e_message e) then raise (EHalt WriteInStaticContext)
    else
      lift_state (fun s => set_storage s target key new_value) ;;;
      pc_add 1.

(** src/ethereum/osaka/vm/instructions/storage.py:135-157 *)
Definition op_tload : M unit :=
  key <- pop ;;
  charge_gas GAS_WARM_ACCESS ;;;
  e <- get_evm ;;
  t <- get_transient ;;
  push (get_transient_storage t (m_current_target (e_message e)) key) ;;;
  pc_add 1.

(** src/ethereum/osaka/vm/instructions/storage.py:160-184 *)
Definition op_tstore : M unit :=
  key <- pop ;;
  new_value <- pop ;;
  charge_gas GAS_WARM_ACCESS ;;;
  e <- get_evm ;;
  if m_is_static (e_message e) then raise (EHalt WriteInStaticContext)
  else
    t <- get_transient ;;
    put_transient
      (set_transient_storage t (m_current_target (e_message e)) key new_value) ;;;
    pc_add 1.

Section Instructions.
  Context (cr : crypto) (be : block_env) (te : tx_env).

  (** ** keccak.py *)

  (** src/ethereum/osaka/vm/instructions/keccak.py:31-64 *)
  Definition op_keccak : M unit :=
    memory_start_index <- pop ;;
    size <- pop ;;
    let words := words_of size in
    let word_gas_cost := GAS_KECCAK256_WORD * words in
    e <- get_evm ;;
    let '(cost, expand_by) :=
      calculate_gas_extend_memory (e_memory e) [(memory_start_index, size)] in
    charge_gas (GAS_KECCAK256 + word_gas_cost + cost) ;;;
    expand_memory expand_by ;;;
    e <- get_evm ;;
    let data := memory_read_bytes (e_memory e) memory_start_index size in
    v <- cast (from_be_bytes (keccak256 cr data)) ;;
    push v ;;;
    pc_add 1.

  (** ** block.py *)

  (** src/ethereum/osaka/vm/instructions/block.py:22-64; the negative Python
      index counts from the end of the list, IndexError when it is too large *)
  Definition op_blockhash : M unit :=
    block_number <- pop ;;
    charge_gas GAS_BLOCK_HASH ;;;
    let max_block_number := block_number + 256 in
    let current_block_number := b_number be in
    hash <- (if (current_block_number <=? block_number)
                || (max_block_number <? current_block_number)
             then ret 0
             else match nthN (rev (b_block_hashes be))
                          (current_block_number - block_number - 1) with
                  | Some h => ret h
                  | None => raise (ECrash IndexError)
                  end) ;;
    v <- cast hash ;;
    push v ;;;
    pc_add 1.

  (** Instructions that push one value: charge, evaluate, push, advance. *)
  Definition push_value (g : N) (m : M N) : M unit :=
    charge_gas g ;;; v <- m ;; push v ;;; pc_add 1.

  (** block.py:67-97 *)
  Definition op_coinbase := push_value GAS_BASE (cast (b_coinbase be)).
  (** block.py:100-130; [time] already is a U256 *)
  Definition op_timestamp := push_value GAS_BASE (ret (b_time be)).
  (** block.py:133-162 *)
  Definition op_number := push_value GAS_BASE (cast (b_number be)).
  (** block.py:165-194 *)
  Definition op_prevrandao := push_value GAS_BASE (cast (b_prev_randao be)).
  (** block.py:197-226 *)
  Definition op_gaslimit := push_value GAS_BASE (cast (b_block_gas_limit be)).
  (** block.py:229-255 *)
  Definition op_chainid := push_value GAS_BASE (cast (b_chain_id be)).

  (** ** environment.py *)

  (** src/ethereum/osaka/vm/instructions/environment.py:43-63 *)
  Definition op_address :=
    push_value GAS_BASE
      (e <- get_evm ;; cast (m_current_target (e_message e))).
  (** environment.py:66-93 *)
  Definition op_balance : M unit :=
    x <- pop ;;
    let a := to_address_masked x in
    g <- access_address a ;;
    charge_gas g ;;;
    s <- get_state ;;
    push (balance (get_account s a)) ;;;
    pc_add 1.
  (** environment.py:96-117 *)
  Definition op_origin := push_value GAS_BASE (cast (t_origin te)).
  (** environment.py:120-140 *)
  Definition op_caller :=
    push_value GAS_BASE (e <- get_evm ;; cast (m_caller (e_message e))).
  (** environment.py:143-163 *)
  Definition op_callvalue :=
    push_value GAS_BASE (e <- get_evm ;; ret (m_value (e_message e))).
  (** environment.py:166-189 *)
  Definition op_calldataload : M unit :=
    start_index <- pop ;;
    charge_gas GAS_VERY_LOW ;;;
    e <- get_evm ;;
    v <- cast (from_be_bytes
                 (buffer_read (m_data (e_message e)) start_index 32)) ;;
    push v ;;;
    pc_add 1.
  (** environment.py:192-212 *)
  Definition op_calldatasize :=
    push_value GAS_BASE (e <- get_evm ;; cast (lenN (m_data (e_message e)))).

  (** Common part of CALLDATACOPY and CODECOPY, which differ only in the
      source buffer. *)
  Definition copy_to_memory (source : evm -> bytes) : M unit :=
    memory_start_index <- pop ;;
    data_start_index <- pop ;;
    size <- pop ;;
    let words := words_of size in
    let copy_gas_cost := GAS_COPY * words in
    e <- get_evm ;;
    let '(cost, expand_by) :=
      calculate_gas_extend_memory (e_memory e) [(memory_start_index, size)] in
    charge_gas (GAS_VERY_LOW + copy_gas_cost + cost) ;;;
    expand_memory expand_by ;;;
    e <- get_evm ;;
    memory_write memory_start_index
      (buffer_read (source e) data_start_index size) ;;;
    pc_add 1.

  (** environment.py:215-247 *)
  Definition op_calldatacopy := copy_to_memory (fun e => m_data (e_message e)).
  (** environment.py:250-270 *)
  Definition op_codesize :=
    push_value GAS_BASE (e <- get_evm ;; cast (lenN (e_code e))).
  (** environment.py:273-305 *)
  Definition op_codecopy := copy_to_memory e_code.
  (** environment.py:308-328 *)
  Definition op_gasprice := push_value GAS_BASE (cast (t_gas_price te)).
  (** environment.py:331-360 *)
  Definition op_extcodesize : M unit :=
    x <- pop ;;
    let a := to_address_masked x in
    access_gas_cost <- access_address a ;;
    charge_gas access_gas_cost ;;;
    s <- get_state ;;
    codesize <- cast (lenN (code (get_account s a))) ;;
    push codesize ;;;
    pc_add 1.
  (** environment.py:363-402 *)
  Definition op_extcodecopy : M unit :=
    x <- pop ;;
    let a := to_address_masked x in
    memory_start_index <- pop ;;
    code_start_index <- pop ;;
    size <- pop ;;
    let words := words_of size in
    let copy_gas_cost := GAS_COPY * words in
    e <- get_evm ;;
    let '(cost, expand_by) :=
      calculate_gas_extend_memory (e_memory e) [(memory_start_index, size)] in
    access_gas_cost <- access_address a ;;
    charge_gas (access_gas_cost + copy_gas_cost + cost) ;;;
    expand_memory expand_by ;;;
    s <- get_state ;;
    memory_write memory_start_index
      (buffer_read (code (get_account s a)) code_start_index size) ;;;
    pc_add 1.
  (** environment.py:405-424 *)
  Definition op_returndatasize :=
    push_value GAS_BASE (e <- get_evm ;; cast (lenN (e_return_data e))).
  (** environment.py:427-458; the U256 sum [position + size] cannot overflow
      after the bounds check *)
  Definition op_returndatacopy : M unit :=
    memory_start_index <- pop ;;
    return_data_start_position <- pop ;;
    size <- pop ;;
    let words := words_of size in
    let copy_gas_cost := GAS_RETURN_DATA_COPY * words in
    e <- get_evm ;;
    let '(cost, expand_by) :=
      calculate_gas_extend_memory (e_memory e) [(memory_start_index, size)] in
    charge_gas (GAS_VERY_LOW + copy_gas_cost + cost) ;;;
    if lenN (e_return_data e) <? return_data_start_position + size
    then raise (EHalt OutOfBoundsRead)
    else
      expand_memory expand_by ;;;
      last <- cast (return_data_start_position + size) ;;
      memory_write memory_start_index
        (sliceN return_data_start_position last (e_return_data e)) ;;;
      pc_add 1.
  (** environment.py:461-493 *)
  Definition op_extcodehash : M unit :=
    x <- pop ;;
    let a := to_address_masked x in
    access_gas_cost <- access_address a ;;
    charge_gas access_gas_cost ;;;
    s <- get_state ;;
    let acc := get_account s a in
    codehash <- (if decide (acc = EMPTY_ACCOUNT) then ret 0
                 else cast (from_be_bytes (keccak256 cr (code acc)))) ;;
    push codehash ;;;
    pc_add 1.
  (** environment.py:496-521 *)
  Definition op_selfbalance :=
    push_value GAS_FAST_STEP
      (e <- get_evm ;; s <- get_state ;;
       ret (balance (get_account s (m_current_target (e_message e))))).
  (** environment.py:524-544 *)
  Definition op_basefee := push_value GAS_BASE (cast (b_base_fee_per_gas be)).
  (** environment.py:547-571 *)
  Definition op_blobhash : M unit :=
    index <- pop ;;
    charge_gas GAS_BLOBHASH_OPCODE ;;;
    v <- cast (default 0 (nthN (t_blob_versioned_hashes te) index)) ;;
    push v ;;;
    pc_add 1.
  (** environment.py:574-597 *)
  Definition op_blobbasefee :=
    push_value GAS_BASE
      (match fork_blob_gas_price (b_fork be) (b_excess_blob_gas be) with
       | Some p => cast p
       | None => raise EOutOfFuel
       end).

  (** ** eoa_delegation.py *)

  (** src/ethereum/osaka/vm/eoa_delegation.py:115-146: returns
      (is_delegated, code_address, code, access_gas_cost).  Before Prague code
      is never a delegation (cancun/vm/instructions/system.py:307, :375-381). *)
  Definition access_delegation (a : address) : M (bool * address * bytes * N) :=
    s <- get_state ;;
    let c := code (get_account s a) in
    if negb (at_least Prague (b_fork be) && is_valid_delegation c)
    then ret (false, a, c, 0)
    else
      let a' := from_be_bytes (dropN EOA_DELEGATION_MARKER_LENGTH c) in
      access_gas_cost <- access_address a' ;;
      ret (true, a', code (get_account s a'), access_gas_cost).

  (** ** system.py *)

  (** src/ethereum/osaka/vm/interpreter.py:65-67 *)
  Definition STACK_DEPTH_LIMIT : N := 1024.
  Definition MAX_CODE_SIZE : N := 0x6000.
  Definition MAX_INIT_CODE_SIZE : N := 2 * MAX_CODE_SIZE.

  Context (process_message process_create_message : message -> world -> pmres).

  (** What EIP-3860 adds since Shanghai (shanghai/vm/instructions/system.py:82,
      :164, :212; paris/vm/instructions/system.py:73-79, :157, :199-202) *)
  Definition init_code_gas_cost (size : N) : N :=
    if at_least Shanghai (b_fork be) then init_code_cost size else 0.

  (** src/ethereum/osaka/vm/instructions/system.py:63-146 *)
  Definition generic_create (endowment : N) (contract_address : address)
      (memory_start_position memory_size : N) : M unit :=
    e <- get_evm ;;
    let call_data :=
      memory_read_bytes (e_memory e) memory_start_position memory_size in
    if at_least Shanghai (b_fork be) && (MAX_INIT_CODE_SIZE <? lenN call_data)
    then raise (EHalt OutOfGasError)
    else
    let create_message_gas := max_message_call_gas (e_gas_left e) in
    upd (fun e => set_gas_left (e_gas_left e - create_message_gas) e) ;;;
    let msg := e_message e in
    if m_is_static msg then raise (EHalt WriteInStaticContext)
    else
    upd (set_return_data []) ;;;
    let sender_address := m_current_target msg in
    s <- get_state ;;
    let sender := get_account s sender_address in
    if (balance sender <? endowment) || (nonce sender =? 2 ^ 64 - 1)
       || (STACK_DEPTH_LIMIT <? m_depth msg + 1)
    then
      upd (fun e => set_gas_left (e_gas_left e + create_message_gas) e) ;;;
      push 0
    else
    upd (fun e => set_accessed_addresses
           ({[ contract_address ]} ∪ e_accessed_addresses e) e) ;;;
    if account_has_code_or_nonce s contract_address
       || account_has_storage s contract_address
    then
      lift_state (fun s => increment_nonce s (m_current_target msg)) ;;;
      push 0
    else
    lift_state (fun s => increment_nonce s (m_current_target msg)) ;;;
    e <- get_evm ;;
    let child_message := {|
      m_caller := m_current_target msg;
      m_target := None;
      m_current_target := contract_address;
      m_gas := create_message_gas;
      m_value := endowment;
      m_data := [];
      m_code_address := None;
      m_code := call_data;
      m_depth := m_depth msg + 1;
      m_should_transfer_value := true;
      m_is_static := false;
      m_accessed_addresses := e_accessed_addresses e;
      m_accessed_storage_keys := e_accessed_storage_keys e;
      m_disable_precompiles := false |} in
    child_evm <- call_child process_create_message child_message ;;
    match e_error child_evm with
    | Some _ =>
        upd (fun e => incorporate_child_on_error e child_evm) ;;;
        upd (set_return_data (e_output child_evm)) ;;;
        push 0
    | None =>
        upd (fun e => incorporate_child_on_success e child_evm) ;;;
        upd (set_return_data []) ;;;
        v <- cast (m_current_target (e_message child_evm)) ;;
        push v
    end.

  (** src/ethereum/osaka/vm/instructions/system.py:149-189 *)
  Definition op_create : M unit :=
    endowment <- pop ;;
    memory_start_position <- pop ;;
    memory_size <- pop ;;
    e <- get_evm ;;
    let '(cost, expand_by) :=
      calculate_gas_extend_memory (e_memory e)
        [(memory_start_position, memory_size)] in
    let init_code_gas := init_code_gas_cost memory_size in
    charge_gas (GAS_CREATE + cost + init_code_gas) ;;;
    expand_memory expand_by ;;;
    s <- get_state ;;
    let target := m_current_target (e_message e) in
    let contract_address :=
      compute_contract_address cr target (nonce (get_account s target)) in
    generic_create endowment contract_address memory_start_position memory_size ;;;
    pc_add 1.

  (** src/ethereum/osaka/vm/instructions/system.py:192-241 *)
  Definition op_create2 : M unit :=
    endowment <- pop ;;
    memory_start_position <- pop ;;
    memory_size <- pop ;;
    salt <- pop ;;
    e <- get_evm ;;
    let '(cost, expand_by) :=
      calculate_gas_extend_memory (e_memory e)
        [(memory_start_position, memory_size)] in
    let call_data_words := words_of memory_size in
    let init_code_gas := init_code_gas_cost memory_size in
    charge_gas (GAS_CREATE + GAS_KECCAK256_WORD * call_data_words + cost
                + init_code_gas) ;;;
    expand_memory expand_by ;;;
    e <- get_evm ;;
    let contract_address :=
      compute_create2_contract_address cr (m_current_target (e_message e)) salt
        (memory_read_bytes (e_memory e) memory_start_position memory_size) in
    generic_create endowment contract_address memory_start_position memory_size ;;;
    pc_add 1.

  (** src/ethereum/osaka/vm/instructions/system.py:244-273 *)
  Definition op_return : M unit :=
    memory_start_position <- pop ;;
    memory_size <- pop ;;
    e <- get_evm ;;
    let '(cost, expand_by) :=
      calculate_gas_extend_memory (e_memory e)
        [(memory_start_position, memory_size)] in
    charge_gas (GAS_ZERO + cost) ;;;
    expand_memory expand_by ;;;
    e <- get_evm ;;
    upd (set_output
           (memory_read_bytes (e_memory e) memory_start_position memory_size)) ;;;
    upd (set_running false).

  (** src/ethereum/osaka/vm/instructions/system.py:276-343 *)
  Definition generic_call (gas value : N) (caller to code_address : address)
      (should_transfer_value is_staticcall : bool)
      (memory_input_start_position memory_input_size
       memory_output_start_position memory_output_size : N)
      (code : bytes) (disable_precompiles : bool) : M unit :=
    upd (set_return_data []) ;;;
    e <- get_evm ;;
    let msg := e_message e in
    if STACK_DEPTH_LIMIT <? m_depth msg + 1
    then
      upd (fun e => set_gas_left (e_gas_left e + gas) e) ;;;
      push 0
    else
    let call_data :=
      memory_read_bytes (e_memory e) memory_input_start_position
        memory_input_size in
    let child_message := {|
      m_caller := caller;
      m_target := Some to;
      m_current_target := to;
      m_gas := gas;
      m_value := value;
      m_data := call_data;
      m_code_address := Some code_address;
      m_code := code;
      m_depth := m_depth msg + 1;
      m_should_transfer_value := should_transfer_value;
      m_is_static := if is_staticcall then true else m_is_static msg;
      m_accessed_addresses := e_accessed_addresses e;
      m_accessed_storage_keys := e_accessed_storage_keys e;
      m_disable_precompiles := disable_precompiles |} in
    child_evm <- call_child process_message child_message ;;
    match e_error child_evm with
    | Some _ =>
        upd (fun e => incorporate_child_on_error e child_evm) ;;;
        upd (set_return_data (e_output child_evm)) ;;;
        push 0
    | None =>
        upd (fun e => incorporate_child_on_success e child_evm) ;;;
        upd (set_return_data (e_output child_evm)) ;;;
        push 1
    end ;;;
    output_len <- cast (lenN (e_output child_evm)) ;;
    let actual_output_size := N.min memory_output_size output_len in
    memory_write memory_output_start_position
      (takeN actual_output_size (e_output child_evm)).

  (** src/ethereum/osaka/vm/instructions/system.py:346-429 *)
  Definition op_call : M unit :=
    gas <- pop ;;
    to_word <- pop ;;
    let to := to_address_masked to_word in
    value <- pop ;;
    memory_input_start_position <- pop ;;
    memory_input_size <- pop ;;
    memory_output_start_position <- pop ;;
    memory_output_size <- pop ;;
    e <- get_evm ;;
    let '(memory_cost, expand_by) :=
      calculate_gas_extend_memory (e_memory e)
        [(memory_input_start_position, memory_input_size);
         (memory_output_start_position, memory_output_size)] in
    access_gas_cost <- access_address to ;;
    deleg <- access_delegation to ;;
    let '(disable_precompiles, code_address, code, delegated_access_gas_cost) :=
      deleg in
    let access_gas_cost := access_gas_cost + delegated_access_gas_cost in
    s <- get_state ;;
    let create_gas_cost :=
      if (value =? 0) || is_account_alive s to then 0 else GAS_NEW_ACCOUNT in
    let transfer_gas_cost := if value =? 0 then 0 else GAS_CALL_VALUE in
    let '(cost, sub_call) :=
      calculate_message_call_gas value gas (e_gas_left e) memory_cost
        (access_gas_cost + create_gas_cost + transfer_gas_cost) in
    charge_gas (cost + memory_cost) ;;;
    if m_is_static (e_message e) && negb (value =? 0)
    then raise (EHalt WriteInStaticContext)
    else
    expand_memory expand_by ;;;
    let sender_balance :=
      balance (get_account s (m_current_target (e_message e))) in
    (if sender_balance <? value
     then
       push 0 ;;;
       upd (set_return_data []) ;;;
       upd (fun e => set_gas_left (e_gas_left e + sub_call) e)
     else
       generic_call sub_call value (m_current_target (e_message e)) to
         code_address true false
         memory_input_start_position memory_input_size
         memory_output_start_position memory_output_size
         code disable_precompiles) ;;;
    pc_add 1.

  (** src/ethereum/osaka/vm/instructions/system.py:432-513 *)
  Definition op_callcode : M unit :=
    gas <- pop ;;
    code_word <- pop ;;
    let code_address := to_address_masked code_word in
    value <- pop ;;
    memory_input_start_position <- pop ;;
    memory_input_size <- pop ;;
    memory_output_start_position <- pop ;;
    memory_output_size <- pop ;;
    e <- get_evm ;;
    let to := m_current_target (e_message e) in
    let '(memory_cost, expand_by) :=
      calculate_gas_extend_memory (e_memory e)
        [(memory_input_start_position, memory_input_size);
         (memory_output_start_position, memory_output_size)] in
    access_gas_cost <- access_address code_address ;;
    deleg <- access_delegation code_address ;;
    let '(disable_precompiles, code_address, code, delegated_access_gas_cost) :=
      deleg in
    let access_gas_cost := access_gas_cost + delegated_access_gas_cost in
    let transfer_gas_cost := if value =? 0 then 0 else GAS_CALL_VALUE in
    let '(cost, sub_call) :=
      calculate_message_call_gas value gas (e_gas_left e) memory_cost
        (access_gas_cost + transfer_gas_cost) in
    charge_gas (cost + memory_cost) ;;;
    expand_memory expand_by ;;;
    s <- get_state ;;
    let sender_balance :=
      balance (get_account s (m_current_target (e_message e))) in
    (if sender_balance <? value
     then
       push 0 ;;;
       upd (set_return_data []) ;;;
       upd (fun e => set_gas_left (e_gas_left e + sub_call) e)
     else
       generic_call sub_call value (m_current_target (e_message e)) to
         code_address true false
         memory_input_start_position memory_input_size
         memory_output_start_position memory_output_size
         code disable_precompiles) ;;;
    pc_add 1.

  (** src/ethereum/osaka/vm/instructions/system.py:516-571;
      shanghai/vm/instructions/system.py:480-545, where every account is
      deleted *)
  Definition op_selfdestruct : M unit :=
    x <- pop ;;
    let beneficiary := to_address_masked x in
    e <- get_evm ;;
    cold <- (if decide (beneficiary ∈ e_accessed_addresses e) then ret 0
             else
               upd (fun e => set_accessed_addresses
                      ({[ beneficiary ]} ∪ e_accessed_addresses e) e) ;;;
               ret GAS_COLD_ACCOUNT_ACCESS) ;;
    s <- get_state ;;
    let originator := m_current_target (e_message e) in
    let new_account_cost :=
      if negb (is_account_alive s beneficiary)
         && negb (balance (get_account s originator) =? 0)
      then GAS_SELF_DESTRUCT_NEW_ACCOUNT else 0 in
    charge_gas (GAS_SELF_DESTRUCT + cold + new_account_cost) ;;;
    if m_is_static (e_message e) then raise (EHalt WriteInStaticContext)
    else
    let originator_balance := balance (get_account s originator) in
    (if at_least Cancun (b_fork be)
     then lift_state (fun s => move_ether s originator beneficiary originator_balance)
     else
       new_balance <- lift (to_u256 (balance (get_account s beneficiary)
                                     + originator_balance)) ;;
       lift_state (fun s => set_account_balance s beneficiary new_balance)) ;;;
    s <- get_state ;;
    (if negb (at_least Cancun (b_fork be))
        || bool_decide (originator ∈ created_accounts s)
     then
       lift_state (fun s => set_account_balance s originator 0) ;;;
       upd (fun e => set_accounts_to_delete
              ({[ originator ]} ∪ e_accounts_to_delete e) e)
     else ret tt) ;;;
    upd (set_running false).

  (** src/ethereum/osaka/vm/instructions/system.py:574-639 *)
  Definition op_delegatecall : M unit :=
    gas <- pop ;;
    code_word <- pop ;;
    let code_address := to_address_masked code_word in
    memory_input_start_position <- pop ;;
    memory_input_size <- pop ;;
    memory_output_start_position <- pop ;;
    memory_output_size <- pop ;;
    e <- get_evm ;;
    let '(memory_cost, expand_by) :=
      calculate_gas_extend_memory (e_memory e)
        [(memory_input_start_position, memory_input_size);
         (memory_output_start_position, memory_output_size)] in
    access_gas_cost <- access_address code_address ;;
    deleg <- access_delegation code_address ;;
    let '(disable_precompiles, code_address, code, delegated_access_gas_cost) :=
      deleg in
    let access_gas_cost := access_gas_cost + delegated_access_gas_cost in
    let '(cost, sub_call) :=
      calculate_message_call_gas 0 gas (e_gas_left e) memory_cost
        access_gas_cost in
    charge_gas (cost + memory_cost) ;;;
    expand_memory expand_by ;;;
    generic_call sub_call (m_value (e_message e)) (m_caller (e_message e))
      (m_current_target (e_message e)) code_address false false
      memory_input_start_position memory_input_size
      memory_output_start_position memory_output_size
      code disable_precompiles ;;;
    pc_add 1.

  (** src/ethereum/osaka/vm/instructions/system.py:642-712 *)
  Definition op_staticcall : M unit :=
    gas <- pop ;;
    to_word <- pop ;;
    let to := to_address_masked to_word in
    memory_input_start_position <- pop ;;
    memory_input_size <- pop ;;
    memory_output_start_position <- pop ;;
    memory_output_size <- pop ;;
    e <- get_evm ;;
    let '(memory_cost, expand_by) :=
      calculate_gas_extend_memory (e_memory e)
        [(memory_input_start_position, memory_input_size);
         (memory_output_start_position, memory_output_size)] in
    access_gas_cost <- access_address to ;;
    deleg <- access_delegation to ;;
    let '(disable_precompiles, code_address, code, delegated_access_gas_cost) :=
      deleg in
    let access_gas_cost := access_gas_cost + delegated_access_gas_cost in
    let '(cost, sub_call) :=
      calculate_message_call_gas 0 gas (e_gas_left e) memory_cost
        access_gas_cost in
    charge_gas (cost + memory_cost) ;;;
    expand_memory expand_by ;;;
    generic_call sub_call 0 (m_current_target (e_message e)) to code_address
      true true
      memory_input_start_position memory_input_size
      memory_output_start_position memory_output_size
      code disable_precompiles ;;;
    pc_add 1.

  (** src/ethereum/osaka/vm/instructions/system.py:715-742 *)
  Definition op_revert : M unit :=
    memory_start_index <- pop ;;
    size <- pop ;;
    e <- get_evm ;;
    let '(cost, expand_by) :=
      calculate_gas_extend_memory (e_memory e) [(memory_start_index, size)] in
    charge_gas cost ;;;
    expand_memory expand_by ;;;
    e <- get_evm ;;
    upd (set_output (memory_read_bytes (e_memory e) memory_start_index size)) ;;;
    raise ERevert.

  (** src/ethereum/osaka/vm/instructions/__init__.py:218-368; only those of
      [available] are members of [Ops] *)
  Definition op_implementation (o : op) : M unit :=
    match o with
    | STOP => op_stop | ADD => op_add | MUL => op_mul | SUB => op_sub
    | DIV => op_div | SDIV => op_sdiv | MOD => op_mod | SMOD => op_smod
    | ADDMOD => op_addmod | MULMOD => op_mulmod | EXP => op_exp
    | SIGNEXTEND => op_signextend
    | LT => op_lt | GT => op_gt | SLT => op_slt | SGT => op_sgt
    | EQ => op_eq | ISZERO => op_iszero | AND => op_and | OR => op_or
    | XOR => op_xor | NOT => op_not | BYTE => op_byte | SHL => op_shl
    | SHR => op_shr | SAR => op_sar | CLZ => op_clz | KECCAK => op_keccak
    | ADDRESS => op_address | BALANCE => op_balance | ORIGIN => op_origin
    | CALLER => op_caller | CALLVALUE => op_callvalue
    | CALLDATALOAD => op_calldataload | CALLDATASIZE => op_calldatasize
    | CALLDATACOPY => op_calldatacopy | CODESIZE => op_codesize
    | CODECOPY => op_codecopy | GASPRICE => op_gasprice
    | EXTCODESIZE => op_extcodesize | EXTCODECOPY => op_extcodecopy
    | RETURNDATASIZE => op_returndatasize
    | RETURNDATACOPY => op_returndatacopy | EXTCODEHASH => op_extcodehash
    | BLOCKHASH => op_blockhash | COINBASE => op_coinbase
    | TIMESTAMP => op_timestamp | NUMBER => op_number
    | PREVRANDAO => op_prevrandao | GASLIMIT => op_gaslimit
    | CHAINID => op_chainid | SELFBALANCE => op_selfbalance
    | BASEFEE => op_basefee | BLOBHASH => op_blobhash
    | BLOBBASEFEE => op_blobbasefee
    | POP => op_pop | MLOAD => op_mload | MSTORE => op_mstore
    | MSTORE8 => op_mstore8 | SLOAD => op_sload | SSTORE => op_sstore
    | JUMP => op_jump | JUMPI => op_jumpi | PC => op_pc | MSIZE => op_msize
    | GAS => op_gas | JUMPDEST => op_jumpdest | TLOAD => op_tload
    | TSTORE => op_tstore | MCOPY => op_mcopy
    | PUSH n => op_push n | DUP n => op_dup n | SWAP n => op_swap n
    | LOG n => op_log n
    | CREATE => op_create | CALL => op_call | CALLCODE => op_callcode
    | RETURN => op_return | DELEGATECALL => op_delegatecall
    | CREATE2 => op_create2 | STATICCALL => op_staticcall
    | REVERT => op_revert | SELFDESTRUCT => op_selfdestruct
    end.
End Instructions.

(** vm/instructions/__init__.py of the forks: [Ops]; prague :32-215, cancun
    :32-215, shanghai :32-208, paris :32-207 *)
Definition available (f : pos_fork) (o : op) : bool :=
  match o with
  | PUSH k => at_least Shanghai f || negb (k =? 0)
  | BLOBHASH | BLOBBASEFEE | TLOAD | TSTORE | MCOPY => at_least Cancun f
  | CLZ => at_least Osaka f
  | _ => true
  end.
