(** * PowTx: transactions of the proof-of-work forks.

    Models, for src/ethereum/{frontier, homestead, dao_fork, tangerine_whistle,
    spurious_dragon, byzantium, constantinople, istanbul, muir_glacier, berlin,
    london, arrow_glacier, gray_glacier}, transactions.py, the part of fork.py
    that executes transactions, utils/message.py, the receipts of blocks.py and
    the account functions of state.py they use.

    - The functions are textually the same in all 13 forks up to the cases in
      [tx_rules] below; lines are those of gray_glacier unless another fork is
      named.
    - [process_message_call] of vm/interpreter.py is a parameter [evm]: it
      takes the block, the transaction and the message and returns the output
      and the state.
    - Before Berlin the entries of a block are transactions, not [Bytes]; an
      entry [EBytes] then stands for an object without the attributes of a
      transaction.
    - [index_in_block] and [tx_hash] of the transaction environment are only
      used for tracing and are left out. *)
From Verif Require Import Base State Rlp Vm Instructions Precompiles Interpreter Bloom Transactions Trie Blocks Requests Fork Ethash Pow.

(** ** The forks *)
Inductive pow_name :=
| Frontier | Homestead | DaoFork | TangerineWhistle | SpuriousDragon | Byzantium | Constantinople
| Istanbul | MuirGlacier | Berlin | London | ArrowGlacier | GrayGlacier.

Record tx_rules := TxRules {
  (** [TX_DATA_COST_PER_NON_ZERO] *)
  tr_non_zero_cost : N;
  (** [TX_CREATE_COST], 0 where a creation has no price *)
  tr_create_cost : N;
  (** [s] is compared with half the group order *)
  tr_low_s : bool;
  (** signatures may be bound to a chain *)
  tr_chain_bound : bool;
  (** touched empty accounts are destroyed *)
  tr_state_clearing : bool;
  (** receipts hold the state root instead of a status *)
  tr_post_state : bool;
  (** the largest transaction type *)
  tr_last_type : N;
  (** at most this fraction of the gas used is refunded *)
  tr_refund_quotient : N;
  (** blocks have a base fee *)
  tr_base_fee : bool;
}.

(** frontier/transactions.py:23-34, homestead/transactions.py:39,187,
    spurious_dragon/transactions.py:168-200, spurious_dragon/fork.py:658-672,
    byzantium/fork.py:393-423, istanbul/transactions.py:29,
    berlin/transactions.py:212-242, london/transactions.py:290-325,
    london/fork.py:474-509,786-803 *)
Definition rules_of (n : pow_name) : tx_rules :=
  match n with
  | Frontier => TxRules 68 0 false false false true 0 2 false
  | Homestead | DaoFork | TangerineWhistle => TxRules 68 32000 true false false true 0 2 false
  | SpuriousDragon => TxRules 68 32000 true true true true 0 2 false
  | Byzantium | Constantinople => TxRules 68 32000 true true true false 0 2 false
  | Istanbul | MuirGlacier => TxRules 16 32000 true true true false 0 2 false
  | Berlin => TxRules 16 32000 true true true false 1 2 false
  | London | ArrowGlacier | GrayGlacier => TxRules 16 32000 true true true false 2 5 true
  end.
(** The block rules of [Pow] *)
Definition fork_of (n : pow_name) : pow_fork :=
  match n with
  | Frontier => frontier | Homestead => homestead | DaoFork => dao_fork
  | TangerineWhistle => tangerine_whistle | SpuriousDragon => spurious_dragon
  | Byzantium => byzantium | Constantinople => constantinople | Istanbul => istanbul
  | MuirGlacier => muir_glacier | Berlin => berlin | London => london
  | ArrowGlacier => arrow_glacier | GrayGlacier => gray_glacier
  end.

(** ** State *)

(** src/ethereum/gray_glacier/state.py:472-491 *)
Definition pow_set_account_balance (s : state) (a : address) (amount : N) : result state :=
  modify_account s a (fun acc => Ok (Account (nonce acc) amount (code acc))).
(** src/ethereum/gray_glacier/state.py:510-526 *)
Definition pow_increment_nonce (s : state) (a : address) : result state :=
  modify_account s a (fun acc => Ok (Account (nonce acc + 1) (balance acc) (code acc))).
Definition destroy_if_empty (s : state) (a : address) : state :=
  if account_exists_and_is_empty s a then destroy_account s a else s.
(** src/ethereum/gray_glacier/state.py:604-618; Python iterates over the set in
    an unspecified order *)
Definition destroy_touched_empty_accounts (s : state) (touched_accounts : gset address) : state :=
  fold_left destroy_if_empty (elements touched_accounts) s.

(** ** Receipts *)

(** frontier/blocks.py:236-262, gray_glacier/blocks.py:262-289 *)
Inductive receipt_outcome := PostState (root : bytes) | Succeeded (succeeded : bool).
Record pow_receipt := PowReceipt {
  pr_outcome : receipt_outcome;
  pr_cumulative_gas_used : N;
  pr_bloom : bytes;
  pr_logs : list log;
}.
Definition outcome_rlp (o : receipt_outcome) : rlp :=
  match o with PostState root => RBytes root | Succeeded b => RBool b end.
Definition pow_receipt_rlp (r : pow_receipt) : rlp :=
  RList [outcome_rlp (pr_outcome r); RUint (pr_cumulative_gas_used r); RBytes (pr_bloom r);
         RList (map log_rlp (pr_logs r))].
(** [Bytes | Receipt] *)
Inductive pow_encoded_receipt := PrLegacy (r : pow_receipt) | PrBytes (b : bytes).
(** src/ethereum/gray_glacier/blocks.py:292-306 *)
Definition pow_encode_receipt (tx : transaction) (r : pow_receipt) : pow_encoded_receipt :=
  match tx with
  | AccessList _ => PrBytes (Byte.x01 :: encode (pow_receipt_rlp r))
  | FeeMarket _ => PrBytes (Byte.x02 :: encode (pow_receipt_rlp r))
  | _ => PrLegacy r
  end.
Global Instance receipt_outcome_eq_dec : EqDecision receipt_outcome.
Proof. solve_decision. Defined.
Global Instance pow_receipt_eq_dec : EqDecision pow_receipt.
Proof. solve_decision. Defined.
Global Instance pow_encoded_receipt_eq_dec : EqDecision pow_encoded_receipt.
Proof. solve_decision. Defined.
(** src/ethereum/gray_glacier/trie.py:173-187 *)
Definition pow_encode_receipt_node (_ : bytes) (v : option pow_encoded_receipt) : bytes :=
  match v with
  | Some (PrLegacy r) => encode (pow_receipt_rlp r)
  | Some (PrBytes b) => b
  | None => []
  end.

(** ** Environments *)

(** src/ethereum/gray_glacier/vm/__init__.py:36-49; before London there is no
    base fee (0 here, never read) *)
Record pow_env := PowEnv {
  pe_chain_id : N;
  pe_block_gas_limit : N;
  pe_block_hashes : list bytes;
  pe_coinbase : address;
  pe_number : N;
  pe_base_fee_per_gas : N;
  pe_time : N;
  pe_difficulty : N;
}.
(** src/ethereum/gray_glacier/vm/__init__.py:53-80 *)
Record pow_block_output := PowBlockOutput {
  pbo_block_gas_used : N;
  pbo_transactions_trie : trie (option encoded_tx);
  pbo_receipts_trie : trie (option pow_encoded_receipt);
  pbo_receipt_keys : list bytes;
  pbo_block_logs : list log;
}.
Definition empty_pow_block_output : pow_block_output :=
  PowBlockOutput 0 (Trie false None []) (Trie false None []) [] [].
(** src/ethereum/gray_glacier/vm/interpreter.py:67-89; before Spurious Dragon
    there are no touched accounts *)
Record call_output := CallOutput {
  co_gas_left : N;
  co_refund_counter : N;
  co_logs : list log;
  co_accounts_to_delete : gset address;
  co_touched_accounts : gset address;
  co_error : option exn;
}.

Section PowTx.
  Context (cr : crypto) (rules : tx_rules).

  (** ** Transactions *)

  (** src/ethereum/gray_glacier/transactions.py:308-324, berlin:228-241 *)
  Definition pow_decode_transaction (tx : encoded_tx) : outcome transaction :=
    match tx with
    | ELegacy t => Done (Legacy t)
    | EBytes data =>
        if tr_last_type rules =? 0 then Fail (FCrash AttributeError)
        else match data with
        | [] => Fail (FCrash IndexError)
        | b :: data =>
            if Byte.to_N b =? 1 then t <~ decode_to d_access_list data ;; Done (AccessList t)
            else if (Byte.to_N b =? 2) && (2 <=? tr_last_type rules)
            then t <~ decode_to d_fee_market data ;; Done (FeeMarket t)
            else invalid (TransactionTypeError (Byte.to_N b))
        end
    end.

  (** src/ethereum/gray_glacier/transactions.py:358-401,
      homestead/transactions.py:131-165, frontier/transactions.py:126-154 *)
  Definition pow_intrinsic_cost (tx : transaction) : N :=
    let data_cost :=
      fold_left (fun c b => if Byte.to_N b =? 0 then c + 4 else c + tr_non_zero_cost rules)
        (tx_data tx) 0 in
    let create_cost := match tx_to tx with None => tr_create_cost rules | Some _ => 0 end in
    let access_list_cost :=
      match tx_access_list tx with
      | Some l => fold_left (fun c a =>
          c + TX_ACCESS_LIST_ADDRESS_COST + lenN (ac_slots a) * TX_ACCESS_LIST_STORAGE_KEY_COST) l 0
      | None => 0
      end in
    TX_BASE_COST + data_cost + create_cost + access_list_cost.

  (** src/ethereum/gray_glacier/transactions.py:327-355 *)
  Definition pow_validate_transaction (tx : transaction) : outcome N :=
    let intrinsic_gas := pow_intrinsic_cost tx in
    if tx_gas tx <? intrinsic_gas then invalid InsufficientTransactionGasError
    else if U64_MAX <=? tx_nonce tx then invalid NonceOverflowError
    else Done intrinsic_gas.

  (** src/ethereum/gray_glacier/transactions.py:404-453,
      spurious_dragon/transactions.py:168-200, homestead/transactions.py:168-191,
      frontier/transactions.py:157-180. The last case cannot occur: no other
      types are decoded. *)
  Definition pow_recover_sender (chain_id : N) (tx : transaction) : outcome address :=
    let r := tx_r tx in
    let s := tx_s tx in
    if (r <=? 0) || (SECP256K1N <=? r) then invalid InvalidSignatureError
    else if (s <=? 0) || (if tr_low_s rules then SECP256K1N / 2 <? s else SECP256K1N <=? s)
    then invalid InvalidSignatureError
    else
      public_key <~ match tx with
        | Legacy t =>
            let v := lt_v t in
            if (v =? 27) || (v =? 28) then recover_with cr r s (v - 27) (signing_hash_pre155 cr t)
            else if tr_chain_bound rules then
              let chain_id_x2 := chain_id * 2 in
              if negb (v =? 35 + chain_id_x2) && negb (v =? 36 + chain_id_x2)
              then invalid InvalidSignatureError
              else recover_with cr r s (v - 35 - chain_id_x2) (signing_hash_155 cr t chain_id)
            else invalid InvalidSignatureError
        | AccessList t =>
            if negb ((at_y_parity t =? 0) || (at_y_parity t =? 1)) then invalid InvalidSignatureError
            else recover_with cr r s (at_y_parity t) (signing_hash_2930 cr t)
        | FeeMarket t =>
            if negb ((ft_y_parity t =? 0) || (ft_y_parity t =? 1)) then invalid InvalidSignatureError
            else recover_with cr r s (ft_y_parity t) (signing_hash_1559 cr t)
        | _ => Fail (FCrash AttributeError)
        end ;;
      Done (from_be_bytes (sliceN 12 32 (keccak256 cr public_key))).

  Section Block.
    Context (env : pow_env) (evm : pow_env -> tx_env -> message -> sm call_output).

    (** [tx.gas_price] *)
    Definition gas_price_of (tx : transaction) : outcome N :=
      match tx with
      | Legacy t => Done (lt_gas_price t)
      | AccessList t => Done (at_gas_price t)
      | _ => Fail (FCrash AttributeError)
      end.
    (** fork.py:471-491, berlin/fork.py:384: (effective_gas_price, max_gas_fee) *)
    Definition pow_prices (tx : transaction) : outcome (N * N) :=
      if tr_base_fee rules then
        match tx with
        | FeeMarket t =>
            if ft_max_fee_per_gas t <? ft_max_priority_fee_per_gas t
            then invalid PriorityFeeGreaterThanMaxFeeError
            else if ft_max_fee_per_gas t <? pe_base_fee_per_gas env
            then invalid InsufficientMaxFeePerGasError
            else
              let priority_fee_per_gas := N.min (ft_max_priority_fee_per_gas t)
                (ft_max_fee_per_gas t - pe_base_fee_per_gas env) in
              Done (priority_fee_per_gas + pe_base_fee_per_gas env, ft_gas t * ft_max_fee_per_gas t)
        | _ =>
            gas_price <~ gas_price_of tx ;;
            if gas_price <? pe_base_fee_per_gas env then Fail FInvalidBlock
            else Done (gas_price, tx_gas tx * gas_price)
        end
      else
        gas_price <~ gas_price_of tx ;;
        Done (gas_price, tx_gas tx * gas_price).

    (** src/ethereum/gray_glacier/fork.py:424-502, frontier/fork.py:335-385:
        (sender, effective gas price) *)
    Definition pow_check_transaction (bo : pow_block_output) (tx : transaction) (s : state)
      : outcome (address * N) :=
      gas_available <~ usub (pe_block_gas_limit env) (pbo_block_gas_used bo) ;;
      _ <~ (if gas_available <? tx_gas tx then invalid GasUsedExceedsLimitError else Done tt) ;;
      sender_address <~ pow_recover_sender (pe_chain_id env) tx ;;
      let sender_account := get_account s sender_address in
      '(effective_gas_price, max_gas_fee) <~ pow_prices tx ;;
      _ <~ (if negb (nonce sender_account =? tx_nonce tx) then invalid NonceMismatchError
            else Done tt) ;;
      _ <~ (if balance sender_account <? max_gas_fee + tx_value tx
            then invalid InsufficientBalanceError else Done tt) ;;
      _ <~ (if negb (bytes_eqb (code sender_account) []) then invalid InvalidSenderError
            else Done tt) ;;
      Done (sender_address, effective_gas_price).

    (** src/ethereum/gray_glacier/fork.py:505-538, frontier/fork.py:388-418 *)
    Definition pow_make_receipt (tx : transaction) (o : receipt_outcome) (cumulative_gas_used : N)
        (logs : list log) : pow_encoded_receipt :=
      pow_encode_receipt tx (PowReceipt o cumulative_gas_used (logs_bloom cr logs) logs).

    (** fork.py:758-764: the access lists of the transaction environment *)
    Definition pow_access_list_of (tx : transaction) : gset address * gset (address * N) :=
      let l := default [] (tx_access_list tx) in
      (list_to_set (map ac_account l),
       list_to_set (concat (map (fun a => map (fun slot => (ac_account a, slot)) (ac_slots a)) l))).

    (** src/ethereum/gray_glacier/utils/message.py:26-88,
        frontier/utils/message.py:24-76; the addresses of the nine precompiled
        contracts are 1 to 9. Before Berlin a message has no warm addresses. *)
    Definition pow_prepare_message (te : tx_env) (tx : transaction) (s : state) : outcome message :=
      let accessed (current_target : address) : gset address :=
        if tr_last_type rules =? 0 then ∅
        else {[ current_target ]} ∪ ({[ t_origin te ]} ∪ list_to_set [1; 2; 3; 4; 5; 6; 7; 8; 9]
                                     ∪ t_access_list_addresses te) in
      match tx_to tx with
      | None =>
          n <~ usub (nonce (get_account s (t_origin te))) 1 ;;
          let current_target := compute_contract_address cr (t_origin te) n in
          Done {| m_caller := t_origin te; m_target := None; m_current_target := current_target;
                  m_gas := t_gas te; m_value := tx_value tx; m_data := [];
                  m_code_address := None; m_code := tx_data tx; m_depth := 0;
                  m_should_transfer_value := true; m_is_static := false;
                  m_accessed_addresses := accessed current_target;
                  m_accessed_storage_keys := t_access_list_storage_keys te;
                  m_disable_precompiles := false |}
      | Some to =>
          Done {| m_caller := t_origin te; m_target := Some to; m_current_target := to;
                  m_gas := t_gas te; m_value := tx_value tx; m_data := tx_data tx;
                  m_code_address := Some to; m_code := code (get_account s to); m_depth := 0;
                  m_should_transfer_value := true; m_is_static := false;
                  m_accessed_addresses := accessed to;
                  m_accessed_storage_keys := t_access_list_storage_keys te;
                  m_disable_precompiles := false |}
      end.

    (** fork.py:748-756: increment the nonce and take the fee *)
    Definition pow_charge_sender (sender : address) (sender_account : account) (fee : N) : sm unit :=
      _ <<- modifies (fun s => pow_increment_nonce s sender) ;;
      b1 <<- lift (usub (balance sender_account) fee) ;;
      b2 <<- lift (u256 b1) ;;
      modifies (fun s => pow_set_account_balance s sender b2).

    (** fork.py:780-785, berlin/fork.py:667-671: the gas charged *)
    Definition pow_charged_gas (tx_gas gas_left refund_counter : N) : outcome N :=
      used_before_refund <~ usub tx_gas gas_left ;;
      usub used_before_refund
        (N.min (used_before_refund / tr_refund_quotient rules) refund_counter).

    (** fork.py:792-796: the refund to the sender *)
    Definition pow_refund_sender (sender : address) (amount : N) : sm unit :=
      a <<- lift (u256 amount) ;;
      b <<- gets (fun s => balance (get_account s sender)) ;;
      b' <<- lift (u256 (b + a)) ;;
      modifies (fun s => pow_set_account_balance s sender b').

    (** fork.py:798-809, frontier/fork.py:655-661: the fee of the coinbase *)
    Definition pow_pay_coinbase (fee : N) : sm unit :=
      f <<- lift (u256 fee) ;;
      b <<- gets (fun s => balance (get_account s (pe_coinbase env))) ;;
      b' <<- lift (u256 (b + f)) ;;
      if negb (tr_state_clearing rules) || negb (b' =? 0)
      then modifies (fun s => pow_set_account_balance s (pe_coinbase env) b')
      else modifies (fun s => Ok (destroy_if_empty s (pe_coinbase env))).

    (** fork.py:811-814, frontier/fork.py:663-664 *)
    Definition pow_delete_accounts (l touched : gset address) : sm unit :=
      modifies (fun s =>
        let s := fold_left destroy_account (elements l) s in
        Ok (if tr_state_clearing rules then destroy_touched_empty_accounts s touched else s)).

    (** byzantium/fork.py:680-682, frontier/fork.py:668-672 *)
    Definition pow_receipt_outcome (error : option exn) (s : state) : outcome receipt_outcome :=
      if tr_post_state rules then
        post_state <~ of_option (FCrash AssertionError) (state_root cr s) ;;
        Done (PostState post_state)
      else Done (Succeeded (match error with None => true | Some _ => false end)).

    (** src/ethereum/gray_glacier/fork.py:698-832, berlin/fork.py:591-713,
        frontier/fork.py:578-685 *)
    Definition pow_process_transaction (bo : pow_block_output) (tx : transaction) (index : N)
      : sm pow_block_output :=
      let transactions_trie := trie_set (pbo_transactions_trie bo) (encode (RUint index))
                                 (Some (encode_transaction tx)) in
      intrinsic_gas <<- lift (pow_validate_transaction tx) ;;
      checked <<- gets (pow_check_transaction bo tx) ;;
      '(sender, effective_gas_price) <<- lift checked ;;
      sender_account <<- gets (fun s => get_account s sender) ;;
      let effective_gas_fee := tx_gas tx * effective_gas_price in
      gas <<- lift (usub (tx_gas tx) intrinsic_gas) ;;
      _ <<- pow_charge_sender sender sender_account effective_gas_fee ;;
      let '(access_list_addresses, access_list_storage_keys) := pow_access_list_of tx in
      let te := {| t_origin := sender; t_gas_price := effective_gas_price; t_gas := gas;
                   t_access_list_addresses := access_list_addresses;
                   t_access_list_storage_keys := access_list_storage_keys;
                   t_blob_versioned_hashes := []; t_authorizations := [] |} in
      prepared <<- gets (pow_prepare_message te tx) ;;
      message <<- lift prepared ;;
      tx_output <<- evm env te message ;;
      tx_gas_used <<- lift (pow_charged_gas (tx_gas tx) (co_gas_left tx_output)
                              (co_refund_counter tx_output)) ;;
      tx_gas_left <<- lift (usub (tx_gas tx) tx_gas_used) ;;
      let gas_refund_amount := tx_gas_left * effective_gas_price in
      priority_fee_per_gas <<- lift (if tr_base_fee rules
                                     then usub effective_gas_price (pe_base_fee_per_gas env)
                                     else Done effective_gas_price) ;;
      let transaction_fee := tx_gas_used * priority_fee_per_gas in
      _ <<- pow_refund_sender sender gas_refund_amount ;;
      _ <<- pow_pay_coinbase transaction_fee ;;
      _ <<- pow_delete_accounts (co_accounts_to_delete tx_output) (co_touched_accounts tx_output) ;;
      let block_gas_used := pbo_block_gas_used bo + tx_gas_used in
      made <<- gets (pow_receipt_outcome (co_error tx_output)) ;;
      result <<- lift made ;;
      let receipt := pow_make_receipt tx result block_gas_used (co_logs tx_output) in
      let receipt_key := encode (RUint index) in
      sret (PowBlockOutput block_gas_used transactions_trie
              (trie_set (pbo_receipts_trie bo) receipt_key (Some receipt))
              (pbo_receipt_keys bo ++ [receipt_key])
              (pbo_block_logs bo ++ co_logs tx_output)).

    (** fork.py:573-574; the transactions are decoded lazily *)
    Fixpoint pow_process_transactions (bo : pow_block_output) (txs : list encoded_tx) (i : N)
      : sm pow_block_output :=
      match txs with
      | [] => sret bo
      | etx :: rest =>
          tx <<- lift (pow_decode_transaction etx) ;;
          bo' <<- pow_process_transaction bo tx i ;;
          pow_process_transactions bo' rest (i + 1)
      end.
  End Block.

  (** src/ethereum/gray_glacier/fork.py:111-148 *)
  Definition pow_last_256_block_hashes (chain : pow_chain encoded_tx) : list bytes :=
    let recent_blocks := lastN 255 (pc_blocks chain) in
    match last recent_blocks with
    | None => []
    | Some most_recent =>
        map (fun b => ph_parent_hash (pb_header b)) recent_blocks
        ++ [pow_hash cr (pb_header most_recent)]
    end.

  (** fork.py:176-186 *)
  Definition pow_env_of (chain : pow_chain encoded_tx) (h : pow_header) : outcome pow_env :=
    base_fee_per_gas <~ (if tr_base_fee rules then base_fee_of h else Done 0) ;;
    Done {| pe_chain_id := pc_chain_id chain;
            pe_block_gas_limit := ph_gas_limit h;
            pe_block_hashes := pow_last_256_block_hashes chain;
            pe_coinbase := ph_coinbase h;
            pe_number := ph_number h;
            pe_base_fee_per_gas := base_fee_per_gas;
            pe_time := ph_timestamp h;
            pe_difficulty := ph_difficulty h |}.

  (** The parameter [execute] of [Pow]: the loop of [apply_body] and the roots
      of fork.py:194-196. Python computes the roots after the rewards are paid,
      which do not change the tries. *)
  Definition pow_execute (evm : pow_env -> tx_env -> message -> sm call_output)
      (chain : pow_chain encoded_tx) (h : pow_header) (txs : list encoded_tx) : sm pow_output :=
    env <<- lift (pow_env_of chain h) ;;
    bo <<- pow_process_transactions env evm empty_pow_block_output txs 0 ;;
    transactions_root <<- lift (of_option (FCrash AssertionError)
                                  (root cr encode_tx_node (pbo_transactions_trie bo))) ;;
    receipt_root <<- lift (of_option (FCrash AssertionError)
                             (root cr pow_encode_receipt_node (pbo_receipts_trie bo))) ;;
    sret (PowOutput (pbo_block_gas_used bo) transactions_root receipt_root
            (logs_bloom cr (pbo_block_logs bo))).
End PowTx.

(** [state_transition] of a fork, given its virtual machine *)
Definition pow_state_transition (cr : crypto) (keccak512 : bytes -> bytes) (n : pow_name)
    (evm : pow_env -> tx_env -> message -> sm call_output)
  : pow_chain encoded_tx -> pow_block encoded_tx -> outcome unit * pow_chain encoded_tx :=
  state_transition cr keccak512 (fork_of n) (pow_execute cr (rules_of n) evm).
