(** * PowVm: the EVM of the proof-of-work forks.

    Models vm/ of src/ethereum/{frontier, homestead, dao_fork,
    tangerine_whistle, spurious_dragon, byzantium, constantinople, istanbul,
    muir_glacier, berlin, london, arrow_glacier, gray_glacier}.

    - The fork is a parameter [n]; every difference between the forks is
      written [if since X n then ... else ...].  Lines are those of
      gray_glacier unless another fork is named.
    - Instructions whose text agrees with that of Osaka (arithmetic except EXP,
      comparison, bitwise, keccak, control flow, memory, stack, log, block and
      the environment instructions without an access cost) are Osaka's, taken
      from [Instructions].  PREVRANDAO is DIFFICULTY here.
    - The frame [evm], the message and the snapshots are those of Osaka.
      Fields that a fork does not have ([return_data] and [is_static] before
      Byzantium, [accessed_addresses] and [accessed_storage_keys] before
      Berlin, [should_transfer_value] in Frontier) are kept but cannot be
      observed there.  The transient storage is not used.
    - [evm.touched_accounts] is not part of [evm]: an instruction returns the
      addresses it adds.  No instruction raises after adding one, so an
      exception does not lose any.
    - [message.parent_evm] is only used by SELFDESTRUCT to collect the
      [accounts_to_delete] of all parents; that union is the parameter
      [inherited].
    - Tracing is left out. *)
From Verif Require Import Base State Rlp Bloom Transactions Trie Blocks Requests Fork Ethash Pow PowTx.
From Verif Require Import Vm Instructions Precompiles Interpreter.

(** ** Forks *)

Definition rank (n : pow_name) : N :=
  match n with
  | Frontier => 0 | Homestead => 1 | DaoFork => 2 | TangerineWhistle => 3
  | SpuriousDragon => 4 | Byzantium => 5 | Constantinople => 6 | Istanbul => 7
  | MuirGlacier => 8 | Berlin => 9 | London => 10 | ArrowGlacier => 11
  | GrayGlacier => 12
  end.
Definition since (first n : pow_name) : bool := rank first <=? rank n.

(** vm/instructions/__init__.py of the forks: [Ops] and [op_implementation] *)
Definition pow_available (n : pow_name) (o : op) : bool :=
  match o with
  | DELEGATECALL => since Homestead n
  | RETURNDATASIZE | RETURNDATACOPY | STATICCALL | REVERT => since Byzantium n
  | SHL | SHR | SAR | EXTCODEHASH | CREATE2 => since Constantinople n
  | CHAINID | SELFBALANCE => since Istanbul n
  | BASEFEE => since London n
  | CLZ | BLOBHASH | BLOBBASEFEE | TLOAD | TSTORE | MCOPY => false
  | PUSH k => negb (k =? 0)
  | _ => true
  end.

(** ** Gas, vm/gas.py:26-66 (frontier, tangerine_whistle, spurious_dragon,
    istanbul, berlin and london for the changes) *)

Definition pow_gas_sload (n : pow_name) : N :=
  if since Istanbul n then 800 else if since TangerineWhistle n then 200 else 50.
Definition pow_gas_external (n : pow_name) : N :=
  if since TangerineWhistle n then 700 else 20.
Definition pow_gas_balance (n : pow_name) : N :=
  if since Istanbul n then 700 else if since TangerineWhistle n then 400 else 20.
Definition pow_gas_code_hash (n : pow_name) : N :=
  if since Istanbul n then 700 else 400.
Definition pow_gas_call (n : pow_name) : N :=
  if since TangerineWhistle n then 700 else 40.
Definition pow_gas_exp_byte (n : pow_name) : N :=
  if since SpuriousDragon n then 50 else 10.
Definition pow_gas_clear_refund (n : pow_name) : N :=
  if since London n then 4800 else 15000.
Definition REFUND_SELF_DESTRUCT : N := 24000.

(** vm/gas.py:185-225; frontier/vm/gas.py:184-209, where all the gas asked for
    is charged *)
Definition pow_message_call_gas (n : pow_name)
    (value gas gas_left memory_cost extra_gas : N) : N * N :=
  if since TangerineWhistle n
  then calculate_message_call_gas value gas gas_left memory_cost extra_gas
  else (gas + extra_gas, if value =? 0 then gas else gas + GAS_CALL_STIPEND).

(** The gas of a frame started by CREATE: system.py:79, frontier
    system.py:69-70 *)
Definition pow_create_gas (n : pow_name) (gas_left : N) : N :=
  if since TangerineWhistle n then max_message_call_gas gas_left else gas_left.

(** ** State *)

(** state.py:494-507 *)
Definition touch_account (s : state) (a : address) : state :=
  if account_exists s a then s else set_account s a (Some EMPTY_ACCOUNT).
(** state.py:529-547 *)
Definition pow_set_code (s : state) (a : address) (c : bytes) : result state :=
  modify_account s a (fun acc => Ok (Account (nonce acc) (balance acc) c)).

(** ** Instructions *)

(** The block, as the instructions of Osaka read it *)
Definition pow_block_env (env : pow_env) : block_env := {|
  b_fork := Osaka;
  b_chain_id := pe_chain_id env;
  b_block_gas_limit := pe_block_gas_limit env;
  b_block_hashes := map from_be_bytes (pe_block_hashes env);
  b_coinbase := pe_coinbase env;
  b_number := pe_number env;
  b_base_fee_per_gas := pe_base_fee_per_gas env;
  b_time := pe_time env;
  b_prev_randao := pe_difficulty env;
  b_excess_blob_gas := 0;
  b_parent_beacon_block_root := 0 |}.

(** A frame that has ended: the frame, the accounts it touched, the world *)
Inductive ppres :=
| PPRet (e : evm) (touched : gset address) (w : world)
| PPExc (x : exn) (w : world).

Definition pow_call_child (f : message -> world -> ppres) (m : message)
  : M (evm * gset address) :=
  fun e w =>
    match f m w with
    | PPRet c t w' => Ret (c, t) e w'
    | PPExc x w' => Exc x e w'
    end.

(** No child frame is started by the instructions taken from Osaka. *)
Definition no_child (_ : message) (w : world) : pmres := PExc EOutOfFuel w.

(** An instruction that touches no account *)
Definition quietly (m : M unit) : M (gset address) := m ;;; ret ∅.

(** The cost of looking at the account [a]: fixed before Berlin *)
Definition pow_access (n : pow_name) (before : N) (a : address) : M N :=
  if since Berlin n then access_address a else ret before.

(** arithmetic.py:301-331 *)
Definition pow_exp (n : pow_name) : M unit :=
  base <- pop ;;
  exponent <- pop ;;
  let exponent_bits := bit_length exponent in
  let exponent_bytes := (exponent_bits + 7) / 8 in
  charge_gas (GAS_EXPONENTIATION + pow_gas_exp_byte n * exponent_bytes) ;;;
  result <- lift (exp_value base exponent) ;;
  push result ;;;
  pc_add 1.

(** environment.py:63-92 *)
Definition pow_balance (n : pow_name) : M unit :=
  x <- pop ;;
  let a := to_address_masked x in
  g <- pow_access n (pow_gas_balance n) a ;;
  charge_gas g ;;;
  s <- get_state ;;
  push (balance (get_account s a)) ;;;
  pc_add 1.

(** environment.py:328-357 *)
Definition pow_extcodesize (n : pow_name) : M unit :=
  x <- pop ;;
  let a := to_address_masked x in
  access_gas_cost <- pow_access n (pow_gas_external n) a ;;
  charge_gas access_gas_cost ;;;
  s <- get_state ;;
  codesize <- cast (lenN (code (get_account s a))) ;;
  push codesize ;;;
  pc_add 1.

(** environment.py:360-399 *)
Definition pow_extcodecopy (n : pow_name) : M unit :=
  x <- pop ;;
  let a := to_address_masked x in
  memory_start_index <- pop ;;
  code_start_index <- pop ;;
  size <- pop ;;
  let words := words_of size in
  let copy_gas_cost := GAS_COPY * words in
  e <- get_evm ;;
  let '(cost, expand_by) :=
    calculate_gas_extend_memory (e_memory e) [(memory_start_index, size)] in
  access_gas_cost <- pow_access n (pow_gas_external n) a ;;
  charge_gas (access_gas_cost + copy_gas_cost + cost) ;;;
  expand_memory expand_by ;;;
  s <- get_state ;;
  let value := buffer_read (code (get_account s a)) code_start_index size in
  memory_write memory_start_index value ;;;
  pc_add 1.

Section Instructions.
  Context (cr : crypto) (n : pow_name) (env : pow_env) (te : tx_env).

  (** environment.py:458-492 *)
  Definition pow_extcodehash : M unit :=
    x <- pop ;;
    let a := to_address_masked x in
    access_gas_cost <- pow_access n (pow_gas_code_hash n) a ;;
    charge_gas access_gas_cost ;;;
    s <- get_state ;;
    let account := get_account s a in
    codehash <- (if decide (account = EMPTY_ACCOUNT) then ret 0
                 else cast (from_be_bytes (keccak256 cr (code account)))) ;;
    push codehash ;;;
    pc_add 1.

  (** storage.py:31-60; istanbul/vm/instructions/storage.py:31-56 *)
  Definition pow_sload : M unit :=
    key <- pop ;;
    e <- get_evm ;;
    let target := m_current_target (e_message e) in
    (if since Berlin n
     then
       if decide ((target, key) ∈ e_accessed_storage_keys e)
       then charge_gas GAS_WARM_ACCESS
       else
         upd (fun e => set_accessed_storage_keys
                ({[ (target, key) ]} ∪ e_accessed_storage_keys e) e) ;;;
         charge_gas GAS_COLD_SLOAD
     else charge_gas (pow_gas_sload n)) ;;;
    s <- get_state ;;
    push (get_storage s target key) ;;;
    pc_add 1.

  (** What a write that changes nothing new costs, and what changing a slot
      costs, from Istanbul on: istanbul storage.py:80-86, storage.py:91-97 *)
  Definition pow_noop_price : N :=
    if since Berlin n then GAS_WARM_ACCESS else pow_gas_sload n.
  Definition pow_update_price : N :=
    if since Berlin n then GAS_STORAGE_UPDATE - GAS_COLD_SLOAD
    else GAS_STORAGE_UPDATE.

  (** storage.py:91-97; istanbul storage.py:80-86; frontier storage.py:73-76 *)
  Definition pow_sstore_gas (original_value current_value new_value : N) : N :=
    if since Istanbul n then
      if (original_value =? current_value) && negb (current_value =? new_value)
      then if original_value =? 0 then GAS_STORAGE_SET else pow_update_price
      else pow_noop_price
    else
      if negb (new_value =? 0) && (current_value =? 0)
      then GAS_STORAGE_SET else GAS_STORAGE_UPDATE.

  (** storage.py:99-118; istanbul storage.py:88-106; frontier
      storage.py:78-80 *)
  Definition pow_sstore_refund (original_value current_value new_value : N) : Z :=
    let clear := Z.of_N (pow_gas_clear_refund n) in
    if since Istanbul n then
      if current_value =? new_value then 0%Z
      else
        ((if (negb (original_value =? 0) && negb (current_value =? 0)
              && (new_value =? 0))%N
          then clear else 0)
         + (if (negb (original_value =? 0) && (current_value =? 0))%N
            then - clear else 0)
         + (if (original_value =? new_value)%N
            then if (original_value =? 0)%N
                 then Z.of_N (GAS_STORAGE_SET - pow_noop_price)
                 else Z.of_N (pow_update_price - pow_noop_price)
            else 0))%Z
    else
      if (new_value =? 0) && negb (current_value =? 0) then clear else 0%Z.

  (** storage.py:63-126; istanbul storage.py:59-114; frontier
      storage.py:57-88.  Before Istanbul the original value is not looked
      up. *)
  Definition pow_sstore : M unit :=
    key <- pop ;;
    new_value <- pop ;;
    e <- get_evm ;;
    if since Istanbul n && (e_gas_left e <=? GAS_CALL_STIPEND)
    then raise (EHalt OutOfGasError)
    else
      s <- get_state ;;
      let target := m_current_target (e_message e) in
      original_value <- (if since Istanbul n
                         then lift (get_storage_original s target key)
                         else ret 0) ;;
      let current_value := get_storage s target key in
      cold <- (if since Berlin n
               then
                 if decide ((target, key) ∈ e_accessed_storage_keys e) then ret 0
                 else
                   upd (fun e => set_accessed_storage_keys
                          ({[ (target, key) ]} ∪ e_accessed_storage_keys e) e) ;;;
                   ret GAS_COLD_SLOAD
               else ret 0) ;;
      upd (fun e => set_refund_counter
             (e_refund_counter e
              + pow_sstore_refund original_value current_value new_value)%Z e) ;;;
      charge_gas (cold + pow_sstore_gas original_value current_value new_value) ;;;
      if m_is_static (e_message e) then raise (EHalt WriteInStaticContext)
      else
        lift_state (fun s => set_storage s target key new_value) ;;;
        pc_add 1.

  (** *** system.py *)

  (** [if account_exists_and_is_empty(...): evm.touched_accounts.add(...)],
      from Spurious Dragon on *)
  Definition touched_if_empty (s : state) (a : address) : gset address :=
    if since SpuriousDragon n && account_exists_and_is_empty s a
    then {[ a ]} else ∅.

  (** vm/__init__.py:145-166 and :169-194: what a child frame that has ended
      adds to the touched accounts of its parent; address 3 is that of
      RIPEMD160 *)
  Definition touched_by_child (c : evm) (t : gset address) (s : state)
    : gset address :=
    match e_error c with
    | None => t ∪ touched_if_empty s (m_current_target (e_message c))
    | Some _ =>
        if decide (3 ∈ t) then {[ 3 ]}
        else if m_current_target (e_message c) =? 3
        then touched_if_empty s 3 else ∅
    end.

  (** system.py:472-533; frontier system.py:344-395, tangerine_whistle :368,
      byzantium :386, berlin :472 *)
  Definition pow_selfdestruct_new_account (s : state)
      (originator beneficiary : address) : N :=
    if since SpuriousDragon n then
      if negb (is_account_alive s beneficiary)
         && negb (balance (get_account s originator) =? 0)
      then GAS_SELF_DESTRUCT_NEW_ACCOUNT else 0
    else if since TangerineWhistle n then
      if account_exists s beneficiary then 0 else GAS_SELF_DESTRUCT_NEW_ACCOUNT
    else 0.
  Definition pow_selfdestruct (inherited : gset address) : M (gset address) :=
    x <- pop ;;
    let beneficiary := to_address_masked x in
    e <- get_evm ;;
    let originator := m_current_target (e_message e) in
    cold <- (if since Berlin n
             then
               if decide (beneficiary ∈ e_accessed_addresses e) then ret 0
               else
                 upd (fun e => set_accessed_addresses
                        ({[ beneficiary ]} ∪ e_accessed_addresses e) e) ;;;
                 ret GAS_COLD_ACCOUNT_ACCESS
             else ret 0) ;;
    s <- get_state ;;
    let base_cost := if since TangerineWhistle n then GAS_SELF_DESTRUCT else 0 in
    let new_account_cost :=
      pow_selfdestruct_new_account s originator beneficiary in
    (if since London n then ret tt
     else
       upd (fun e => set_accounts_to_delete
              (e_accounts_to_delete e ∪ inherited) e) ;;;
       if decide (originator ∈ e_accounts_to_delete e ∪ inherited) then ret tt
       else upd (fun e => set_refund_counter
                   (e_refund_counter e + Z.of_N REFUND_SELF_DESTRUCT)%Z e)) ;;;
    charge_gas (base_cost + cold + new_account_cost) ;;;
    if m_is_static (e_message e) then raise (EHalt WriteInStaticContext)
    else
      new_balance <- lift (to_u256 (balance (get_account s beneficiary)
                                    + balance (get_account s originator))) ;;
      lift_state (fun s => pow_set_account_balance s beneficiary new_balance) ;;;
      lift_state (fun s => pow_set_account_balance s originator 0) ;;;
      upd (fun e => set_accounts_to_delete
             ({[ originator ]} ∪ e_accounts_to_delete e) e) ;;;
      s <- get_state ;;
      upd (set_running false) ;;;
      ret (touched_if_empty s beneficiary).

  Context (inherited : gset address).
  (** The functions used for child frames; they are told the accounts deleted
      by the parents. *)
  Context (process_message process_create_message
           : gset address -> message -> world -> ppres).

  (** system.py:61-137; frontier system.py:44-130, tangerine_whistle :51,
      byzantium :53 *)
  Definition pow_generic_create (endowment : N) (contract_address : address)
      (memory_start_position memory_size : N) : M (gset address) :=
    e <- get_evm ;;
    let call_data :=
      memory_read_bytes (e_memory e) memory_start_position memory_size in
    let create_message_gas := pow_create_gas n (e_gas_left e) in
    upd (fun e => set_gas_left (e_gas_left e - create_message_gas) e) ;;;
    let msg := e_message e in
    if m_is_static msg then raise (EHalt WriteInStaticContext)
    else
    upd (set_return_data []) ;;;
    let sender_address := m_current_target msg in
    s <- get_state ;;
    let sender := get_account s sender_address in
    if (balance sender <? endowment) || (nonce sender =? 2 ^ 64 - 1)
       || (STACK_DEPTH_LIMIT <? m_depth msg + 1)
    then
      upd (fun e => set_gas_left (e_gas_left e + create_message_gas) e) ;;;
      push 0 ;;;
      ret ∅
    else
    (if since Berlin n
     then upd (fun e => set_accessed_addresses
                 ({[ contract_address ]} ∪ e_accessed_addresses e) e)
     else ret tt) ;;;
    if account_has_code_or_nonce s contract_address
       || account_has_storage s contract_address
    then
      lift_state (fun s => pow_increment_nonce s (m_current_target msg)) ;;;
      push 0 ;;;
      ret ∅
    else
    lift_state (fun s => pow_increment_nonce s (m_current_target msg)) ;;;
    e <- get_evm ;;
    let child_message := {|
      m_caller := m_current_target msg;
      m_target := None;
      m_current_target := contract_address;
      m_gas := create_message_gas;
      m_value := endowment;
      m_data := [];
      m_code_address := None;
      m_code := call_data;
      m_depth := m_depth msg + 1;
      m_should_transfer_value := true;
      m_is_static := false;
      m_accessed_addresses := e_accessed_addresses e;
      m_accessed_storage_keys := e_accessed_storage_keys e;
      m_disable_precompiles := false |} in
    child <- pow_call_child
               (process_create_message (e_accounts_to_delete e ∪ inherited))
               child_message ;;
    let '(child_evm, child_touched) := child in
    s <- get_state ;;
    match e_error child_evm with
    | Some _ =>
        upd (fun e => incorporate_child_on_error e child_evm) ;;;
        upd (set_return_data (e_output child_evm)) ;;;
        push 0
    | None =>
        upd (fun e => incorporate_child_on_success e child_evm) ;;;
        upd (set_return_data []) ;;;
        v <- cast (m_current_target (e_message child_evm)) ;;
        push v
    end ;;;
    ret (touched_by_child child_evm child_touched s).

  (** system.py:140-175 *)
  Definition pow_create : M (gset address) :=
    endowment <- pop ;;
    memory_start_position <- pop ;;
    memory_size <- pop ;;
    e <- get_evm ;;
    let '(cost, expand_by) :=
      calculate_gas_extend_memory (e_memory e)
        [(memory_start_position, memory_size)] in
    charge_gas (GAS_CREATE + cost) ;;;
    expand_memory expand_by ;;;
    s <- get_state ;;
    let target := m_current_target (e_message e) in
    let contract_address :=
      compute_contract_address cr target (nonce (get_account s target)) in
    t <- pow_generic_create endowment contract_address memory_start_position
           memory_size ;;
    pc_add 1 ;;;
    ret t.

  (** system.py:178-219 *)
  Definition pow_create2 : M (gset address) :=
    endowment <- pop ;;
    memory_start_position <- pop ;;
    memory_size <- pop ;;
    salt <- pop ;;
    e <- get_evm ;;
    let '(cost, expand_by) :=
      calculate_gas_extend_memory (e_memory e)
        [(memory_start_position, memory_size)] in
    let call_data_words := words_of memory_size in
    charge_gas (GAS_CREATE + GAS_KECCAK256_WORD * call_data_words + cost) ;;;
    expand_memory expand_by ;;;
    e <- get_evm ;;
    let contract_address :=
      compute_create2_contract_address cr (m_current_target (e_message e)) salt
        (memory_read_bytes (e_memory e) memory_start_position memory_size) in
    t <- pow_generic_create endowment contract_address memory_start_position
           memory_size ;;
    pc_add 1 ;;;
    ret t.

  (** system.py:254-318; frontier system.py:168-222 *)
  Definition pow_generic_call (gas value : N) (caller to code_address : address)
      (should_transfer_value is_staticcall : bool)
      (memory_input_start_position memory_input_size
       memory_output_start_position memory_output_size : N)
    : M (gset address) :=
    upd (set_return_data []) ;;;
    e <- get_evm ;;
    let msg := e_message e in
    if STACK_DEPTH_LIMIT <? m_depth msg + 1
    then
      upd (fun e => set_gas_left (e_gas_left e + gas) e) ;;;
      push 0 ;;;
      ret ∅
    else
    let call_data :=
      memory_read_bytes (e_memory e) memory_input_start_position
        memory_input_size in
    s <- get_state ;;
    let child_message := {|
      m_caller := caller;
      m_target := Some to;
      m_current_target := to;
      m_gas := gas;
      m_value := value;
      m_data := call_data;
      m_code_address := Some code_address;
      m_code := code (get_account s code_address);
      m_depth := m_depth msg + 1;
      m_should_transfer_value := should_transfer_value;
      m_is_static := if is_staticcall then true else m_is_static msg;
      m_accessed_addresses := e_accessed_addresses e;
      m_accessed_storage_keys := e_accessed_storage_keys e;
      m_disable_precompiles := false |} in
    child <- pow_call_child
               (process_message (e_accounts_to_delete e ∪ inherited))
               child_message ;;
    let '(child_evm, child_touched) := child in
    s <- get_state ;;
    match e_error child_evm with
    | Some _ =>
        upd (fun e => incorporate_child_on_error e child_evm) ;;;
        upd (set_return_data (e_output child_evm)) ;;;
        push 0
    | None =>
        upd (fun e => incorporate_child_on_success e child_evm) ;;;
        upd (set_return_data (e_output child_evm)) ;;;
        push 1
    end ;;;
    output_len <- cast (lenN (e_output child_evm)) ;;
    let actual_output_size := N.min memory_output_size output_len in
    memory_write memory_output_start_position
      (takeN actual_output_size (e_output child_evm)) ;;;
    ret (touched_by_child child_evm child_touched s).

  (** system.py:355-364; frontier gas.py:199-205 *)
  Definition pow_call_create_cost (s : state) (value : N) (to : address) : N :=
    if since SpuriousDragon n
    then if (value =? 0) || is_account_alive s to then 0 else GAS_NEW_ACCOUNT
    else if account_exists s to then 0 else GAS_NEW_ACCOUNT.

  (** system.py:321-395; frontier system.py:225-282 *)
  Definition pow_call : M (gset address) :=
    gas <- pop ;;
    to_word <- pop ;;
    let to := to_address_masked to_word in
    value <- pop ;;
    memory_input_start_position <- pop ;;
    memory_input_size <- pop ;;
    memory_output_start_position <- pop ;;
    memory_output_size <- pop ;;
    e <- get_evm ;;
    let '(memory_cost, expand_by) :=
      calculate_gas_extend_memory (e_memory e)
        [(memory_input_start_position, memory_input_size);
         (memory_output_start_position, memory_output_size)] in
    access_gas_cost <- pow_access n (pow_gas_call n) to ;;
    s <- get_state ;;
    let create_gas_cost := pow_call_create_cost s value to in
    let transfer_gas_cost := if value =? 0 then 0 else GAS_CALL_VALUE in
    let '(cost, sub_call) :=
      pow_message_call_gas n value gas (e_gas_left e) memory_cost
        (access_gas_cost + create_gas_cost + transfer_gas_cost) in
    charge_gas (cost + memory_cost) ;;;
    if m_is_static (e_message e) && negb (value =? 0)
    then raise (EHalt WriteInStaticContext)
    else
    expand_memory expand_by ;;;
    let sender_balance :=
      balance (get_account s (m_current_target (e_message e))) in
    t <- (if sender_balance <? value
          then
            push 0 ;;;
            upd (set_return_data []) ;;;
            upd (fun e => set_gas_left (e_gas_left e + sub_call) e) ;;;
            ret ∅
          else
            pow_generic_call sub_call value (m_current_target (e_message e)) to
              to true false
              memory_input_start_position memory_input_size
              memory_output_start_position memory_output_size) ;;
    pc_add 1 ;;;
    ret t.

  (** The price of a new account in CALLCODE, whose [to] is the running
      account: only frontier system.py:306-319 and homestead :312 charge it,
      through [calculate_message_call_gas]; tangerine_whistle :323-330 does
      not *)
  Definition pow_callcode_create_cost (s : state) (to : address) : N :=
    if since TangerineWhistle n then 0
    else if account_exists s to then 0 else GAS_NEW_ACCOUNT.

  (** system.py:398-469; frontier system.py:285-341 *)
  Definition pow_callcode : M (gset address) :=
    gas <- pop ;;
    code_word <- pop ;;
    let code_address := to_address_masked code_word in
    value <- pop ;;
    memory_input_start_position <- pop ;;
    memory_input_size <- pop ;;
    memory_output_start_position <- pop ;;
    memory_output_size <- pop ;;
    e <- get_evm ;;
    let to := m_current_target (e_message e) in
    let '(memory_cost, expand_by) :=
      calculate_gas_extend_memory (e_memory e)
        [(memory_input_start_position, memory_input_size);
         (memory_output_start_position, memory_output_size)] in
    access_gas_cost <- pow_access n (pow_gas_call n) code_address ;;
    s <- get_state ;;
    let create_gas_cost := pow_callcode_create_cost s to in
    let transfer_gas_cost := if value =? 0 then 0 else GAS_CALL_VALUE in
    let '(cost, sub_call) :=
      pow_message_call_gas n value gas (e_gas_left e) memory_cost
        (access_gas_cost + create_gas_cost + transfer_gas_cost) in
    charge_gas (cost + memory_cost) ;;;
    expand_memory expand_by ;;;
    let sender_balance :=
      balance (get_account s (m_current_target (e_message e))) in
    t <- (if sender_balance <? value
          then
            push 0 ;;;
            upd (set_return_data []) ;;;
            upd (fun e => set_gas_left (e_gas_left e + sub_call) e) ;;;
            ret ∅
          else
            pow_generic_call sub_call value (m_current_target (e_message e)) to
              code_address true false
              memory_input_start_position memory_input_size
              memory_output_start_position memory_output_size) ;;
    pc_add 1 ;;;
    ret t.

  (** system.py:536-591; homestead system.py:407-450 *)
  Definition pow_delegatecall : M (gset address) :=
    gas <- pop ;;
    code_word <- pop ;;
    let code_address := to_address_masked code_word in
    memory_input_start_position <- pop ;;
    memory_input_size <- pop ;;
    memory_output_start_position <- pop ;;
    memory_output_size <- pop ;;
    e <- get_evm ;;
    let '(memory_cost, expand_by) :=
      calculate_gas_extend_memory (e_memory e)
        [(memory_input_start_position, memory_input_size);
         (memory_output_start_position, memory_output_size)] in
    access_gas_cost <- pow_access n (pow_gas_call n) code_address ;;
    let '(cost, sub_call) :=
      pow_message_call_gas n 0 gas (e_gas_left e) memory_cost
        access_gas_cost in
    charge_gas (cost + memory_cost) ;;;
    expand_memory expand_by ;;;
    t <- pow_generic_call sub_call (m_value (e_message e))
           (m_caller (e_message e)) (m_current_target (e_message e))
           code_address false false
           memory_input_start_position memory_input_size
           memory_output_start_position memory_output_size ;;
    pc_add 1 ;;;
    ret t.

  (** system.py:594-655 *)
  Definition pow_staticcall : M (gset address) :=
    gas <- pop ;;
    to_word <- pop ;;
    let to := to_address_masked to_word in
    memory_input_start_position <- pop ;;
    memory_input_size <- pop ;;
    memory_output_start_position <- pop ;;
    memory_output_size <- pop ;;
    e <- get_evm ;;
    let '(memory_cost, expand_by) :=
      calculate_gas_extend_memory (e_memory e)
        [(memory_input_start_position, memory_input_size);
         (memory_output_start_position, memory_output_size)] in
    access_gas_cost <- pow_access n (pow_gas_call n) to ;;
    let '(cost, sub_call) :=
      pow_message_call_gas n 0 gas (e_gas_left e) memory_cost
        access_gas_cost in
    charge_gas (cost + memory_cost) ;;;
    expand_memory expand_by ;;;
    t <- pow_generic_call sub_call 0 (m_current_target (e_message e)) to to
           true true
           memory_input_start_position memory_input_size
           memory_output_start_position memory_output_size ;;
    pc_add 1 ;;;
    ret t.

  (** vm/instructions/__init__.py: [op_implementation] *)
  Definition pow_op (o : op) : M (gset address) :=
    match o with
    | EXP => quietly (pow_exp n)
    | BALANCE => quietly (pow_balance n)
    | EXTCODESIZE => quietly (pow_extcodesize n)
    | EXTCODECOPY => quietly (pow_extcodecopy n)
    | EXTCODEHASH => quietly pow_extcodehash
    | SLOAD => quietly pow_sload
    | SSTORE => quietly pow_sstore
    | CREATE => pow_create
    | CREATE2 => pow_create2
    | CALL => pow_call
    | CALLCODE => pow_callcode
    | DELEGATECALL => pow_delegatecall
    | STATICCALL => pow_staticcall
    | SELFDESTRUCT => pow_selfdestruct inherited
    | _ => quietly (op_implementation cr (pow_block_env env) te no_child no_child o)
    end.
End Instructions.

(** ** Precompiled contracts *)

(** byzantium/vm/precompiled_contracts/modexp.py:68-101; berlin :68-89 *)
Definition pow_modexp_complexity (n : pow_name) (base_length modulus_length : N)
  : N :=
  let max_length := N.max base_length modulus_length in
  if since Berlin n then ((max_length + 7) / 8) ^ 2
  else if max_length <=? 64 then max_length ^ 2
  else if max_length <=? 1024
  then max_length ^ 2 / 4 + 96 * max_length - 3072
  else max_length ^ 2 / 16 + 480 * max_length - 199680.

(** byzantium modexp.py:104-133; berlin :92-131 *)
Definition pow_modexp_iterations (n : pow_name)
    (exponent_length exponent_head : N) : N :=
  let bits := bit_length exponent_head - 1 in
  let count :=
    if since Berlin n then
      if exponent_length <=? 32 then bits else 8 * (exponent_length - 32) + bits
    else
      if exponent_length <? 32 then bits else 8 * (exponent_length - 32) + bits in
  N.max count 1.

(** byzantium modexp.py:136-169; berlin :134-169 *)
Definition pow_modexp_gas_cost (n : pow_name)
    (base_length modulus_length exponent_length exponent_head : N) : N :=
  let cost := pow_modexp_complexity n base_length modulus_length
              * pow_modexp_iterations n exponent_length exponent_head in
  if since Berlin n then N.max 200 (cost / 3) else cost / 20.

(** byzantium modexp.py:24-65, berlin :24-65.  The sums of lengths are of type
    [U256] and may raise OverflowError. *)
Definition pow_modexp (n : pow_name) : M unit :=
  data <- get_data ;;
  let base_length := read_word data 0 in
  let exp_length := read_word data 32 in
  let modulus_length := read_word data 64 in
  exp_start <- lift (to_u256 (96 + base_length)) ;;
  let exp_head :=
    from_be_bytes (buffer_read data exp_start (N.min 32 exp_length)) in
  charge_gas
    (pow_modexp_gas_cost n base_length modulus_length exp_length exp_head) ;;;
  if (base_length =? 0) && (modulus_length =? 0) then upd (set_output [])
  else
    let base := from_be_bytes (buffer_read data 96 base_length) in
    let exp := from_be_bytes (buffer_read data exp_start exp_length) in
    modulus_start <- lift (to_u256 (exp_start + exp_length)) ;;
    let modulus :=
      from_be_bytes (buffer_read data modulus_start modulus_length) in
    if modulus =? 0 then upd (set_output (zeros modulus_length))
    else upd (set_output
                (to_be_fixed (N.to_nat modulus_length)
                   (pow_mod base exp modulus))).

Section Precompiles.
  Context (cr : crypto) (n : pow_name).

  (** alt_bn128.py:137-161; byzantium :137 *)
  Definition pow_bn128_add : M unit :=
    data <- get_data ;;
    charge_gas (if since Istanbul n then 150 else 500) ;;;
    match bn128_bytes_to_g1 (buffer_read data 0 64),
          bn128_bytes_to_g1 (buffer_read data 64 64) with
    | Some p0, Some p1 =>
        let '(x, y) := bn128_add cr p0 p1 in
        upd (set_output (to_be_bytes32 x ++ to_be_bytes32 y))
    | _, _ => raise (EHalt OutOfGasError)
    end.

  (** alt_bn128.py:164-188; byzantium :164 *)
  Definition pow_bn128_mul : M unit :=
    data <- get_data ;;
    charge_gas (if since Istanbul n then 6000 else 40000) ;;;
    match bn128_bytes_to_g1 (buffer_read data 0 64) with
    | Some p0 =>
        let k := read_word data 64 in
        let '(x, y) := bn128_mul cr p0 k in
        upd (set_output (to_be_bytes32 x ++ to_be_bytes32 y))
    | None => raise (EHalt OutOfGasError)
    end.

  (** alt_bn128.py:191-225; byzantium :191 *)
  Definition pow_bn128_pairing : M unit :=
    data <- get_data ;;
    charge_gas (if since Istanbul n
                then 34000 * (lenN data / 192) + 45000
                else 80000 * (lenN data / 192) + 100000) ;;;
    if negb (lenN data mod 192 =? 0) then raise (EHalt OutOfGasError)
    else match bn128_pairing cr data with
         | None => raise (EHalt OutOfGasError)
         | Some b => upd (set_output (to_be_bytes32 (b2n b)))
         end.

  (** precompiled_contracts/mapping.py:34-43; frontier :28-33, byzantium
      :34-43, istanbul :36-46 *)
  Definition pow_precompile (a : address) : option (M unit) :=
    match a with
    | 0x01 => Some (pre_ecrecover cr)
    | 0x02 => Some (pre_sha256 cr)
    | 0x03 => Some (pre_ripemd160 cr)
    | 0x04 => Some pre_identity
    | 0x05 => if since Byzantium n then Some (pow_modexp n) else None
    | 0x06 => if since Byzantium n then Some pow_bn128_add else None
    | 0x07 => if since Byzantium n then Some pow_bn128_mul else None
    | 0x08 => if since Byzantium n then Some pow_bn128_pairing else None
    | 0x09 => if since Istanbul n then Some pre_blake2f else None
    | _ => None
    end.
End Precompiles.

(** ** Interpreter *)

Section Interpreter.
  Context (cr : crypto) (n : pow_name) (env : pow_env) (te : tx_env).

  (** The [except] clauses of execute_code (interpreter.py:299-308; frontier
      :266-269, where the output is kept and Revert does not exist) *)
  Definition pow_handle_exn (x : exn) (e : evm) (t : gset address) (w : world)
    : ppres :=
    match x with
    | EHalt _ =>
        let e := set_gas_left 0 e in
        let e := if since Byzantium n then set_output [] e else e in
        PPRet (set_error (Some x) e) t w
    | ERevert => PPRet (set_error (Some x) e) t w
    | _ => PPExc x w
    end.

  Section Frame.
    Context (inherited : gset address).
    Context (process_message process_create_message
             : gset address -> message -> world -> ppres).

    (** One iteration of the loop of execute_code (interpreter.py:286-295); an
        opcode of a later fork is not a member of [Ops] *)
    Definition pow_step (s : evm * gset address * world)
      : (evm * gset address * world)
        + (option exn * evm * gset address * world) :=
      let '(e, t, w) := s in
      if e_running e && (e_pc e <? lenN (e_code e)) then
        match nthN (e_code e) (e_pc e) with
        | None => inr (Some (ECrash IndexError), e, t, w)
        | Some b =>
            match decode_op b with
            | None => inr (Some (EHalt (InvalidOpcode b)), e, t, w)
            | Some o =>
                if pow_available n o then
                  match pow_op cr n env te inherited process_message
                          process_create_message o e w with
                  | Ret new e' w' => inl (e', t ∪ new, w')
                  | Exc x e' w' => inr (Some x, e', t, w')
                  end
                else inr (Some (EHalt (InvalidOpcode b)), e, t, w)
            end
        end
      else inr (None, e, t, w).

    (** The loop, iterated at most [gas + 2] times; [PowVmFrame] shows that
        this bound is never reached. *)
    Definition pow_loop (e : evm) (w : world)
      : option exn * evm * gset address * world :=
      match loop_pos (N.succ_pos (e_gas_left e + 1)) pow_step (e, ∅, w) with
      | inl (e', t', w') => (Some EOutOfFuel, e', t', w')
      | inr r => r
      end.

    (** interpreter.py:246-309; frontier :214-270 *)
    Definition pow_execute_code (m : message) (w : world) : ppres :=
      let e := init_evm m in
      match m_code_address m ≫= pow_precompile cr n with
      | Some precompile =>
          match precompile e w with
          | Ret _ e' w' => PPRet e' ∅ w'
          | Exc x e' w' => pow_handle_exn x e' ∅ w'
          end
      | None =>
          match pow_loop e w with
          | (None, e', t', w') => PPRet e' t' w'
          | (Some x, e', t', w') => pow_handle_exn x e' t' w'
          end
      end.

    (** interpreter.py:227-244 (after the depth check); frontier :193-211,
        where [should_transfer_value] does not exist *)
    Definition pow_process_message_body (m : message) (w : world) : ppres :=
      let w0 := begin_transaction w in
      let s0 := touch_account (st w0) (m_current_target m) in
      match (if m_should_transfer_value m && negb (m_value m =? 0)
             then move_ether_pow s0 (m_caller m) (m_current_target m) (m_value m)
             else Ok s0) with
      | Raise c => PPExc (ECrash c) (set_st s0 w0)
      | Ok s1 =>
          match pow_execute_code m (set_st s1 w0) with
          | PPExc x w2 => PPExc x w2
          | PPRet e t w2 =>
              match (match e_error e with
                     | Some _ => rollback_transaction w2
                     | None => commit_transaction w2
                     end) with
              | Ok w3 => PPRet e t w3
              | Raise c => PPExc (ECrash c) w2
              end
          end
      end.
  End Frame.

  (** The [try] block that charges the code deposit: interpreter.py:184-196
      (frontier :157-162, homestead :158-162, spurious_dragon :176-181, london
      :187-199) *)
  Definition pow_deposit (e : evm) : option halt * evm :=
    let contract_code := e_output e in
    let contract_code_gas := lenN contract_code * GAS_CODE_DEPOSIT in
    if since London n
       && match contract_code with b :: _ => Byte.to_N b =? 0xEF | [] => false end
    then (Some InvalidContractPrefix, e)
    else if e_gas_left e <? contract_code_gas then (Some OutOfGasError, e)
    else
      let e' := set_gas_left (e_gas_left e - contract_code_gas) e in
      if since SpuriousDragon n && (MAX_CODE_SIZE <? lenN contract_code)
      then (Some OutOfGasError, e')
      else (None, e').

  (** interpreter.py:151-206; frontier :135-173, homestead :135-175.  In
      Frontier a contract whose deposit is not paid is left without code. *)
  Definition pow_process_create_message_with
      (process_message : message -> world -> ppres) (m : message) (w : world)
    : ppres :=
    let w0 := begin_transaction w in
    let s1 := destroy_storage (st w0) (m_current_target m) in
    let s2 := if since Istanbul n then mark_account_created s1 (m_current_target m)
              else s1 in
    match (if since SpuriousDragon n
           then pow_increment_nonce s2 (m_current_target m) else Ok s2) with
    | Raise c => PPExc (ECrash c) w0
    | Ok s3 =>
        match process_message m (set_st s3 w0) with
        | PPExc x w4 => PPExc x w4
        | PPRet e t w4 =>
            match e_error e with
            | Some _ =>
                match rollback_transaction w4 with
                | Ok w5 => PPRet e t w5
                | Raise c => PPExc (ECrash c) w4
                end
            | None =>
                match pow_deposit e with
                | (Some h, e') =>
                    if since Homestead n then
                      match rollback_transaction w4 with
                      | Ok w5 =>
                          let e' := set_gas_left 0 e' in
                          let e' := if since Byzantium n then set_output [] e'
                                    else e' in
                          PPRet (set_error (Some (EHalt h)) e') t w5
                      | Raise c => PPExc (ECrash c) w4
                      end
                    else
                      match commit_transaction w4 with
                      | Ok w5 => PPRet (set_output [] e') t w5
                      | Raise c => PPExc (ECrash c) w4
                      end
                | (None, e') =>
                    match pow_set_code (st w4) (m_current_target m) (e_output e) with
                    | Raise c => PPExc (ECrash c) w4
                    | Ok s5 =>
                        match commit_transaction (set_st s5 w4) with
                        | Ok w6 => PPRet e' t w6
                        | Raise c => PPExc (ECrash c) w4
                        end
                    end
                end
            end
        end
    end.

  (** interpreter.py:208-244, by fuel as in [Interpreter] *)
  Fixpoint pow_process_message_fuel (fuel : nat) (inherited : gset address)
      (m : message) (w : world) : ppres :=
    if STACK_DEPTH_LIMIT <? m_depth m
    then PPExc (EHalt StackDepthLimitError) w
    else match fuel with
         | O => PPExc EOutOfFuel w
         | S f =>
             pow_process_message_body inherited (pow_process_message_fuel f)
               (fun i => pow_process_create_message_with
                           (pow_process_message_fuel f i)) m w
         end.

  Definition pow_process_message (inherited : gset address) (m : message)
      (w : world) : ppres :=
    pow_process_message_fuel (N.to_nat (1025 - m_depth m)) inherited m w.

  Definition pow_process_create_message (inherited : gset address)
      (m : message) (w : world) : ppres :=
    pow_process_create_message_with (pow_process_message inherited) m w.

  (** A whole message call: an output, or an exception that escapes. *)
  Inductive pcres :=
  | PCRet (o : call_output) (w : world)
  | PCExc (x : exn) (w : world).

  (** The end of process_message_call (interpreter.py:130-148); the target of
      a call is touched if it is empty (:123-126) *)
  Definition pow_finish_call (e : evm) (t : gset address) (w : world) : pcres :=
    match e_error e with
    | Some _ => PCRet (CallOutput (e_gas_left e) 0 [] ∅ ∅ (e_error e)) w
    | None =>
        if (e_refund_counter e <? 0)%Z
           || (Z.of_N U256_CEIL <=? e_refund_counter e)%Z
        then PCExc (ECrash OverflowError) w
        else
          PCRet (CallOutput (e_gas_left e) (Z.to_N (e_refund_counter e))
                   (e_logs e) (e_accounts_to_delete e) t None) w
    end.

  (** interpreter.py:92-148; frontier :83-132 *)
  Definition pow_process_message_call (m : message) (w : world) : pcres :=
    match m_target m with
    | None =>
        if account_has_code_or_nonce (st w) (m_current_target m)
           || account_has_storage (st w) (m_current_target m)
        then PCRet (CallOutput 0 0 [] ∅ ∅ (Some (EHalt AddressCollision))) w
        else match pow_process_create_message ∅ m w with
             | PPRet e t w' => pow_finish_call e t w'
             | PPExc x w' => PCExc x w'
             end
    | Some target =>
        match pow_process_message ∅ m w with
        | PPRet e t w' =>
            pow_finish_call e (t ∪ touched_if_empty n (st w') target) w'
        | PPExc x w' => PCExc x w'
        end
    end.
End Interpreter.

(** [process_message_call] as [PowTx] uses it *)
Definition pow_evm (cr : crypto) (n : pow_name) (env : pow_env) (te : tx_env)
    (m : message) : sm call_output :=
  fun s =>
    match pow_process_message_call cr n env te m (World s empty_transient) with
    | PCRet o w => (Done o, st w)
    | PCExc x w => (Fail (FEvm x), st w)
    end.
