(** * InstrSpec: reference table of the instruction set (used by C50-C52).

    A reference table of the instruction set, written from the Yellow Paper
    and the EIPs: operands taken and results left, price, memory touched,
    conditions of exceptional halting, and the resulting frame and world.  The
    theorems are in PropInstr.v. *)
From Verif Require Import Base State Rlp Vm Instructions StateSpec StateProofs
  NumericProofs ArithProofs PropArith EvmStep EvmLocal EvmPlan EvmPlanProofs EvmCallProofs.
From Coq Require Import ZifyBool ZifyN ZifyNat.
Ltac Zify.zify_post_hook ::= idtac.

(** ** The reference table *)

(** Operands taken from the stack. *)
Definition takes (o : op) : nat :=
  match o with
  | STOP | ADDRESS | ORIGIN | CALLER | CALLVALUE | CALLDATASIZE | CODESIZE | GASPRICE
  | RETURNDATASIZE | COINBASE | TIMESTAMP | NUMBER | PREVRANDAO | GASLIMIT | CHAINID
  | SELFBALANCE | BASEFEE | BLOBBASEFEE | PC | MSIZE | GAS | JUMPDEST | PUSH _ => 0
  | ISZERO | NOT | CLZ | BALANCE | CALLDATALOAD | EXTCODESIZE | EXTCODEHASH | BLOCKHASH
  | BLOBHASH | POP | MLOAD | SLOAD | JUMP | TLOAD | SELFDESTRUCT => 1
  | ADDMOD | MULMOD | CALLDATACOPY | CODECOPY | RETURNDATACOPY | MCOPY | CREATE => 3
  | EXTCODECOPY | CREATE2 => 4
  | DELEGATECALL | STATICCALL => 6
  | CALL | CALLCODE => 7
  | DUP n | SWAP n => S (N.to_nat n)
  | LOG n => 2 + N.to_nat n
  | _ => 2
  end%nat.
(** Results left on the stack. *)
Definition leaves (o : op) : nat :=
  match o with
  | STOP | CALLDATACOPY | CODECOPY | EXTCODECOPY | RETURNDATACOPY | POP | MSTORE | MSTORE8
  | SSTORE | JUMP | JUMPI | JUMPDEST | TSTORE | MCOPY | LOG _ | RETURN | REVERT
  | SELFDESTRUCT => 0
  | DUP n => 2 + N.to_nat n
  | SWAP n => S (N.to_nat n)
  | _ => 1
  end%nat.

(** Size in words, price of a memory of a number of words. *)
Definition words (n : N) : N := (n + 31) / 32.
Definition cmem (w : N) : N := 3 * w + w * w / 512.
(** Memory (in bytes) once all non-empty [ranges] are covered. *)
Fixpoint grown (size : N) (ranges : list (N * N)) : N :=
  match ranges with
  | [] => size
  | (s, n) :: rest => grown (if n =? 0 then size else N.max size (32 * words (s + n))) rest
  end.
Definition growth (size : N) (ranges : list (N * N)) : N :=
  cmem (grown size ranges / 32) - cmem (size / 32).
(** Memory ranges used by an instruction. *)
Definition touches (o : op) (args : list N) : list (N * N) :=
  match o, args with
  | (MLOAD | MSTORE), p :: _ => [(p, 32)]
  | MSTORE8, p :: _ => [(p, 1)]
  | (KECCAK | RETURN | REVERT | LOG _), p :: n :: _ => [(p, n)]
  | (CALLDATACOPY | CODECOPY | RETURNDATACOPY), [p; _; n] => [(p, n)]
  | EXTCODECOPY, [_; p; _; n] => [(p, n)]
  | MCOPY, [d; s; n] => [(s, n); (d, n)]
  | _, _ => []
  end.

(** An account that does not exist for the purposes of EIP-161. *)
Definition dead (w : world) (a : address) : bool :=
  let acc := get_account (st w) a in
  (nonce acc =? 0) && (balance acc =? 0) && match code acc with [] => true | _ => false end.
Definition self (e : evm) : address := m_current_target (e_message e).
Definition account_price (e : evm) (a : address) : N :=
  if decide (a ∈ e_accessed_addresses e) then 100 else 2600.
Definition address_of (x : N) : address := x mod 2 ^ 160.

(** Value of a slot at the start of the transaction. *)
Definition first_value (w : world) (a : address) (k : N) : N :=
  match get_storage_original (st w) a k with Ok v => v | Raise _ => 0 end.
(** EIP-2200, 2929, 3529. *)
Definition store_price (orig cur new : N) : N :=
  if new =? cur then 100
  else if cur =? orig then if orig =? 0 then 20000 else 2900
  else 100.
Definition store_refund (orig cur new : N) : Z :=
  (if (new =? cur)%N then 0
   else if (cur =? orig)%N then if (new =? 0)%N then 4800 else 0
   else (if (orig =? 0)%N then 0
         else if (cur =? 0)%N then -4800 else if (new =? 0)%N then 4800 else 0)
        + (if (new =? orig)%N then if (orig =? 0)%N then 19900 else 2800 else 0))%Z.

(** Price without memory expansion. *)
Definition base_price (o : op) (args : list N) (e : evm) (w : world) : N :=
  match o, args with
  | (STOP | RETURN | REVERT), _ => 0
  | JUMPDEST, _ => 1
  | (ADDRESS | ORIGIN | CALLER | CALLVALUE | CALLDATASIZE | CODESIZE | GASPRICE
    | RETURNDATASIZE | COINBASE | TIMESTAMP | NUMBER | PREVRANDAO | GASLIMIT | CHAINID
    | BASEFEE | BLOBBASEFEE | POP | PC | MSIZE | GAS | PUSH 0), _ => 2
  | SELFBALANCE, _ => 5
  | JUMP, _ => 8
  | JUMPI, _ => 10
  | BLOCKHASH, _ => 20
  | (TLOAD | TSTORE), _ => 100
  | KECCAK, [_; n] => 30 + 6 * words n
  | (CALLDATACOPY | CODECOPY | RETURNDATACOPY | MCOPY), [_; _; n] => 3 + 3 * words n
  | EXTCODECOPY, [a; _; _; n] => account_price e (address_of a) + 3 * words n
  | (BALANCE | EXTCODESIZE | EXTCODEHASH), [a] => account_price e (address_of a)
  | SLOAD, [k] => if decide ((self e, k) ∈ e_accessed_storage_keys e) then 100 else 2100
  | SSTORE, [k; v] =>
      (if decide ((self e, k) ∈ e_accessed_storage_keys e) then 0 else 2100)
      + store_price (first_value w (self e) k) (get_storage (st w) (self e) k) v
  | LOG t, _ :: n :: _ => 375 + 375 * t + 8 * n
  | SELFDESTRUCT, [b] =>
      5000 + (if decide (address_of b ∈ e_accessed_addresses e) then 0 else 2600)
      + (if dead w (address_of b) && negb (balance (get_account (st w) (self e)) =? 0)
         then 25000 else 0)
  | _, _ => alu_price o args
  end.
Definition price (o : op) (args : list N) (e : evm) (w : world) : N :=
  base_price o args e w + growth (lenN (e_memory e)) (touches o args).

(** Conditions that stop the frame besides stack and gas. *)
Definition forbidden (o : op) (args : list N) (e : evm) : Prop :=
  match o, args with
  | JUMP, [d] => d ∉ e_valid_jump_destinations e
  | JUMPI, [d; c] => c <> 0 /\ d ∉ e_valid_jump_destinations e
  | RETURNDATACOPY, [_; s; n] => lenN (e_return_data e) < s + n
  | SSTORE, _ => m_is_static (e_message e) = true \/ e_gas_left e <= 2300
  | (TSTORE | LOG _ | SELFDESTRUCT), _ => m_is_static (e_message e) = true
  | _, _ => False
  end.
Definition operands (o : op) (e : evm) : list N := firstn (takes o) (e_stack e).
Definition below (o : op) (e : evm) : list N := skipn (takes o) (e_stack e).
Definition halts (o : op) (e : evm) (w : world) : Prop :=
  (length (e_stack e) < takes o)%nat \/
  (1024 < length (e_stack e) - takes o + leaves o)%nat \/
  e_gas_left e < price o (operands o e) e w \/
  forbidden o (operands o e) e.

(** Reading [n] bytes at [s], zeros beyond the end; overwriting at [s]. *)
Definition padded (b : bytes) (s n : N) : bytes := takeN n (dropN s b ++ zeros n).
Definition splice (b : bytes) (s : N) (v : bytes) : bytes :=
  match v with [] => b | _ => takeN s b ++ v ++ dropN (s + lenN v) b end.
(** Memory after the expansion. *)
Definition memory_of (o : op) (args : list N) (e : evm) : bytes :=
  e_memory e ++ zeros (grown (lenN (e_memory e)) (touches o args) - lenN (e_memory e)).
Definition exchange (l : list N) : list N :=
  match l with
  | x :: t => match rev t with y :: r => y :: rev r ++ [x] | [] => l end
  | [] => []
  end.

(** Whether SELFDESTRUCT removes the account: always before Cancun, and since
    Cancun (EIP-6780) only if it was created in the same transaction. *)
Definition removes (f : pos_fork) (e : evm) (w : world) : bool :=
  match f with
  | Paris | Shanghai => true
  | Cancun | Prague | Osaka => bool_decide (self e ∈ created_accounts (st w))
  end.

Section Table.
  Context (cr : crypto) (be : block_env) (te : tx_env).

  (** Values left on the stack. *)
  Definition results (o : op) (args : list N) (e : evm) (w : world) : list N :=
    let mem := memory_of o args e in
    let acc a := get_account (st w) (address_of a) in
    match o, args with
    | KECCAK, [p; n] => [from_be_bytes (keccak256 cr (takeN n (dropN p mem)))]
    | ADDRESS, _ => [self e]
    | BALANCE, [a] => [balance (acc a)]
    | ORIGIN, _ => [t_origin te]
    | CALLER, _ => [m_caller (e_message e)]
    | CALLVALUE, _ => [m_value (e_message e)]
    | CALLDATALOAD, [p] => [from_be_bytes (padded (m_data (e_message e)) p 32)]
    | CALLDATASIZE, _ => [lenN (m_data (e_message e))]
    | CODESIZE, _ => [lenN (e_code e)]
    | GASPRICE, _ => [t_gas_price te]
    | EXTCODESIZE, [a] => [lenN (code (acc a))]
    | RETURNDATASIZE, _ => [lenN (e_return_data e)]
    | EXTCODEHASH, [a] =>
        [if dead w (address_of a) then 0 else from_be_bytes (keccak256 cr (code (acc a)))]
    | BLOCKHASH, [n] =>
        [if (n <? b_number be) && (b_number be <=? n + 256)
         then default 0 (nthN (b_block_hashes be)
                (lenN (b_block_hashes be) - (b_number be - n)))
         else 0]
    | COINBASE, _ => [b_coinbase be]
    | TIMESTAMP, _ => [b_time be]
    | NUMBER, _ => [b_number be]
    | PREVRANDAO, _ => [b_prev_randao be]
    | GASLIMIT, _ => [b_block_gas_limit be]
    | CHAINID, _ => [b_chain_id be]
    | SELFBALANCE, _ => [balance (get_account (st w) (self e))]
    | BASEFEE, _ => [b_base_fee_per_gas be]
    | BLOBHASH, [i] => [default 0 (nthN (t_blob_versioned_hashes te) i)]
    | BLOBBASEFEE, _ => [default 0 (fork_blob_gas_price (b_fork be) (b_excess_blob_gas be))]
    | MLOAD, [p] => [from_be_bytes (takeN 32 (dropN p mem))]
    | SLOAD, [k] => [get_storage (st w) (self e) k]
    | PC, _ => [e_pc e]
    | MSIZE, _ => [lenN (e_memory e)]
    | GAS, _ => [e_gas_left e - 2]
    | TLOAD, [k] => [get_transient_storage (ts w) (self e) k]
    | PUSH n, _ => [from_be_bytes (padded (e_code e) (e_pc e + 1) n)]
    | DUP _, _ => match last args with Some x => x :: args | None => args end
    | SWAP _, _ => exchange args
    | _, _ => match alu_spec o args with Some v => [v] | None => [] end
    end.

  (** Memory after the instruction. *)
  Definition new_memory (o : op) (args : list N) (e : evm) (w : world) : bytes :=
    let mem := memory_of o args e in
    match o, args with
    | MSTORE, [p; v] => splice mem p (to_be_bytes32 v)
    | MSTORE8, [p; v] => splice mem p [byte_of_N v]
    | CALLDATACOPY, [p; s; n] => splice mem p (padded (m_data (e_message e)) s n)
    | CODECOPY, [p; s; n] => splice mem p (padded (e_code e) s n)
    | EXTCODECOPY, [a; p; s; n] =>
        splice mem p (padded (code (get_account (st w) (address_of a))) s n)
    | RETURNDATACOPY, [p; s; n] => splice mem p (takeN n (dropN s (e_return_data e)))
    | MCOPY, [d; s; n] => splice mem d (takeN n (dropN s mem))
    | _, _ => mem
    end.

  (** Program counter after the instruction. *)
  Definition new_pc (o : op) (args : list N) (e : evm) : N :=
    match o, args with
    | JUMP, [d] => d
    | JUMPI, [d; c] => if c =? 0 then e_pc e + 1 else d
    | (RETURN | REVERT | SELFDESTRUCT), _ => e_pc e
    | PUSH n, _ => e_pc e + 1 + n
    | _, _ => e_pc e + 1
    end.

  (** The frame after the instruction. *)
  Definition frame_after (o : op) (e : evm) (w : world) : evm :=
    let args := operands o e in
    let mem := memory_of o args e in
    {| e_pc := new_pc o args e;
       e_stack := results o args e w ++ below o e;
       e_memory := new_memory o args e w;
       e_code := e_code e;
       e_gas_left := e_gas_left e - price o args e w;
       e_valid_jump_destinations := e_valid_jump_destinations e;
       e_logs := e_logs e ++
         match o, args with
         | LOG _, p :: n :: topics => [Log (self e) topics (takeN n (dropN p mem))]
         | _, _ => []
         end;
       e_refund_counter := (e_refund_counter e +
         match o, args with
         | SSTORE, [k; v] =>
             store_refund (first_value w (self e) k) (get_storage (st w) (self e) k) v
         | _, _ => 0
         end)%Z;
       e_running := match o with STOP | RETURN | SELFDESTRUCT => false | _ => true end;
       e_message := e_message e;
       e_output :=
         match o, args with
         | (RETURN | REVERT), [p; n] => takeN n (dropN p mem)
         | _, _ => e_output e
         end;
       e_accounts_to_delete :=
         match o with
         | SELFDESTRUCT =>
             if removes (b_fork be) e w
             then {[ self e ]} ∪ e_accounts_to_delete e else e_accounts_to_delete e
         | _ => e_accounts_to_delete e
         end;
       e_return_data := e_return_data e;
       e_error := e_error e;
       e_accessed_addresses :=
         match o, args with
         | (BALANCE | EXTCODESIZE | EXTCODEHASH | EXTCODECOPY | SELFDESTRUCT), a :: _ =>
             {[ address_of a ]} ∪ e_accessed_addresses e
         | _, _ => e_accessed_addresses e
         end;
       e_accessed_storage_keys :=
         match o, args with
         | (SLOAD | SSTORE), k :: _ => {[ (self e, k) ]} ∪ e_accessed_storage_keys e
         | _, _ => e_accessed_storage_keys e
         end |}.
End Table.

(** The world after the instruction: only SSTORE, TSTORE and SELFDESTRUCT
    change it. *)
Definition world_after (f : pos_fork) (o : op) (e : evm) (w w' : world) : Prop :=
  match o, operands o e with
  | SSTORE, [k; v] =>
      ts w' = ts w /\ main_trie (st w') = main_trie (st w) /\
      forall a i, get_storage (st w') a i =
        if decide (a = self e /\ i = k) then v else get_storage (st w) a i
  | TSTORE, [k; v] =>
      st w' = st w /\
      forall a i, get_transient_storage (ts w') a i =
        if decide (a = self e /\ i = k) then v else get_transient_storage (ts w) a i
  | SELFDESTRUCT, [b] =>
      ts w' = ts w /\
      forall a, let acc := get_account (st w) a in let acc' := get_account (st w') a in
        nonce acc' = nonce acc /\ code acc' = code acc /\
        balance acc' =
          (if decide (a = self e)
           then if decide (a = address_of b /\ removes f e w = false)
                then balance acc else 0
           else if decide (a = address_of b)
           then balance acc + balance (get_account (st w) (self e)) else balance acc)
  | _, _ => w' = w
  end.

(** Instructions that start no other frame. *)
Definition alone (o : op) : bool :=
  match o with
  | CREATE | CREATE2 | CALL | CALLCODE | DELEGATECALL | STATICCALL => false
  | _ => true
  end.
