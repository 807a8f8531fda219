(** * Fork: header validation, transaction processing and the state
    transition.

    Models src/ethereum/osaka/fork.py, utils/message.py, the blob and excess
    gas functions of vm/gas.py and BlockOutput of vm/__init__.py, and the same
    files of the packages paris, shanghai, cancun and prague.  The fork of a
    block is that of its header ([h_fork], [b_fork]).

    - The blocks of a chain may belong to different forks; an execution of
      [state_transition] is one of the package its block belongs to.  A parent
      that belongs to a fork before Paris is not modelled here.
    - Fields that a BlockOutput of an earlier fork does not have keep their
      initial value.
    - Computations that change the state and may raise have type
      [sm A := state -> outcome A * state]; the state is returned also on
      failure, because Python mutates it in place. *)
From Verif Require Import Base State Rlp Vm Instructions Precompiles Interpreter Trie Bloom
  Transactions Blocks Requests.

(** src/ethereum/osaka/fork.py:91-116 *)
Definition BASE_FEE_MAX_CHANGE_DENOMINATOR : N := 8.
Definition ELASTICITY_MULTIPLIER : N := 2.
Definition GAS_LIMIT_ADJUSTMENT_FACTOR : N := 1024.
Definition GAS_LIMIT_MINIMUM : N := 5000.
Definition SYSTEM_ADDRESS : address := 0xfffffffffffffffffffffffffffffffffffffffe.
Definition BEACON_ROOTS_ADDRESS : address := 0x000F3df6D732807Ef1319fB7B8bB8522d0Beac02.
Definition SYSTEM_TRANSACTION_GAS : N := 30000000.
(** cancun fork.py:90, prague fork.py:100 *)
Definition MAX_BLOB_GAS_PER_BLOCK (f : pos_fork) : N :=
  if at_least Prague f then 1179648 else 786432.
Definition VERSIONED_HASH_VERSION_KZG : N := 1.
Definition WITHDRAWAL_REQUEST_PREDEPLOY_ADDRESS : address :=
  0x00000961Ef480Eb55e80D19ad83579A64c007002.
Definition CONSOLIDATION_REQUEST_PREDEPLOY_ADDRESS : address :=
  0x0000BBdDc7CE488642fb579F8B00f3a590007251.
Definition HISTORY_STORAGE_ADDRESS : address := 0x0000F90827F1C53a10cb7A02335B175320002935.
Definition MAX_RLP_BLOCK_SIZE : N := 10485760 - 2097152.
Definition BLOB_COUNT_LIMIT : N := 6.

(** ** Checked arithmetic *)
(** [a - b] on Uint or U64: OverflowError when negative *)
Definition usub (a b : N) : outcome N :=
  if a <? b then Fail (FCrash OverflowError) else Done (a - b).
Definition u64 (x : N) : outcome N :=
  if x <? 2 ^ 64 then Done x else Fail (FCrash OverflowError).
Definition u256 (x : N) : outcome N := of_result (to_u256 x).
Definition udiv (a b : N) : outcome N :=
  if b =? 0 then Fail (FCrash ZeroDivisionError) else Done (a / b).

(** ** Computations on the state *)
Definition sm (A : Type) := state -> outcome A * state.
Definition sret {A} (a : A) : sm A := fun s => (Done a, s).
Definition sbind {A B} (m : sm A) (f : A -> sm B) : sm B := fun s =>
  match m s with
  | (Done a, s') => f a s'
  | (Fail e, s') => (Fail e, s')
  end.
Notation "x <<- m ;; k" := (sbind m (fun x => k)) (at level 80, m at next level, right associativity).
Notation "' p <<- m ;; k" := (sbind m (fun x => let 'p := x in k))
  (at level 80, p pattern, m at next level, right associativity).
Definition lift {A} (o : outcome A) : sm A := fun s => (o, s).
Definition gets {A} (f : state -> A) : sm A := fun s => (Done (f s), s).
(** A state function that may raise; when it does the state is unchanged. *)
Definition modifies (f : state -> result state) : sm unit := fun s =>
  match f s with
  | Ok s' => (Done tt, s')
  | Raise c => (Fail (FCrash c), s)
  end.

(** ** Headers *)

(** src/ethereum/osaka/fork.py:1017-1053 *)
Definition check_gas_limit (gas_limit parent_gas_limit : N) : bool :=
  let max_adjustment_delta := parent_gas_limit / GAS_LIMIT_ADJUSTMENT_FACTOR in
  if parent_gas_limit + max_adjustment_delta <=? gas_limit then false
  else if gas_limit <=? parent_gas_limit - max_adjustment_delta then false
  else if gas_limit <? GAS_LIMIT_MINIMUM then false
  else true.

(** src/ethereum/osaka/fork.py:273-332 *)
Definition calculate_base_fee_per_gas
    (block_gas_limit parent_gas_limit parent_gas_used parent_base_fee_per_gas : N) : outcome N :=
  let parent_gas_target := parent_gas_limit / ELASTICITY_MULTIPLIER in
  if negb (check_gas_limit block_gas_limit parent_gas_limit) then Fail FInvalidBlock
  else if parent_gas_used =? parent_gas_target then Done parent_base_fee_per_gas
  else if parent_gas_target <? parent_gas_used then
    let gas_used_delta := parent_gas_used - parent_gas_target in
    let parent_fee_gas_delta := parent_base_fee_per_gas * gas_used_delta in
    target_fee_gas_delta <~ udiv parent_fee_gas_delta parent_gas_target ;;
    let base_fee_per_gas_delta :=
      N.max (target_fee_gas_delta / BASE_FEE_MAX_CHANGE_DENOMINATOR) 1 in
    Done (parent_base_fee_per_gas + base_fee_per_gas_delta)
  else
    let gas_used_delta := parent_gas_target - parent_gas_used in
    let parent_fee_gas_delta := parent_base_fee_per_gas * gas_used_delta in
    target_fee_gas_delta <~ udiv parent_fee_gas_delta parent_gas_target ;;
    let base_fee_per_gas_delta := target_fee_gas_delta / BASE_FEE_MAX_CHANGE_DENOMINATOR in
    usub parent_base_fee_per_gas base_fee_per_gas_delta.

(** [calculate_blob_gas_price] never runs out of its bound
    ([NumericProofs.v]); the failure branch is unreachable. *)
Definition blob_gas_price (f : pos_fork) (excess_blob_gas : N) : outcome N :=
  of_option (FEvm EOutOfFuel) (fork_blob_gas_price f excess_blob_gas).

(** vm/gas.py: cancun :70 393216, prague :73 786432, osaka :76 *)
Definition target_blob_gas_per_block (f : pos_fork) : N :=
  if at_least Prague f then TARGET_BLOB_GAS_PER_BLOCK else 393216.

(** src/ethereum/osaka/vm/gas.py:284-325; prague :280-309, cancun :271-300.
    [isinstance(parent_header, Header)] asks for the class of the same package:
    the parent of the first block of a fork is not an instance. *)
Definition calculate_excess_blob_gas (f : pos_fork) (parent : header) : outcome N :=
  let same_class := fork_rank (h_fork parent) =? fork_rank f in
  let excess_blob_gas := if same_class then h_excess_blob_gas parent else 0 in
  let blob_gas_used := if same_class then h_blob_gas_used parent else 0 in
  parent_blob_gas <~ u64 (excess_blob_gas + blob_gas_used) ;;
  if parent_blob_gas <? target_blob_gas_per_block f then Done 0
  else if negb (at_least Osaka f) then usub parent_blob_gas (target_blob_gas_per_block f)
  else
    price <~ blob_gas_price f excess_blob_gas ;;
    let target_blob_gas_price := GAS_PER_BLOB * price in
    let base_blob_tx_price := BLOB_BASE_COST * h_base_fee_per_gas parent in
    if target_blob_gas_price <? base_blob_tx_price then
      blob_schedule_delta <~ usub BLOB_SCHEDULE_MAX BLOB_SCHEDULE_TARGET ;;
      scaled <~ u64 (blob_gas_used * blob_schedule_delta) ;;
      u64 (excess_blob_gas + scaled / BLOB_SCHEDULE_MAX)
    else usub parent_blob_gas (target_blob_gas_per_block f).

(** src/ethereum/osaka/vm/gas.py:328-345 *)
Definition calculate_total_blob_gas (tx : transaction) : outcome N :=
  match tx with
  | Blob t => n <~ u64 (lenN (bt_blob_versioned_hashes t)) ;; u64 (GAS_PER_BLOB * n)
  | _ => Done 0
  end.

(** src/ethereum/osaka/vm/gas.py:369-387 *)
Definition calculate_data_fee (f : pos_fork) (excess_blob_gas : N) (tx : transaction) : outcome N :=
  total <~ calculate_total_blob_gas tx ;;
  price <~ blob_gas_price f excess_blob_gas ;;
  Done (total * price).

(** src/ethereum/osaka/fork.py:119-127 *)
Record block_chain := BlockChain {
  bc_blocks : list block;
  bc_state : state;
  bc_chain_id : N;
}.

(** [l[-n:]] *)
Definition lastN {A} (n : N) (l : list A) : list A := dropN (lenN l - n) l.

(** src/ethereum/osaka/vm/__init__.py:56-92 *)
Record block_output := BlockOutput {
  bo_block_gas_used : N;
  bo_transactions_trie : trie (option encoded_tx);
  bo_receipts_trie : trie (option encoded_receipt);
  bo_receipt_keys : list bytes;
  bo_block_logs : list log;
  bo_withdrawals_trie : trie (option bytes);
  bo_blob_gas_used : N;
  bo_requests : list bytes;
}.
Definition empty_block_output : block_output :=
  BlockOutput 0 (Trie false None []) (Trie false None []) [] [] (Trie false None []) 0 [].

Section Fork.
  Context (cr : crypto).

  (** src/ethereum/osaka/fork.py:96 *)
  Definition EMPTY_OMMER_HASH : bytes := keccak256 cr (encode (RList [])).

  Definition header_hash (h : header) : bytes := keccak256 cr (encode (header_rlp h)).

  (** src/ethereum/osaka/fork.py:152-189 *)
  Definition get_last_256_block_hashes (chain : block_chain) : list bytes :=
    let recent_blocks := lastN 255 (bc_blocks chain) in
    match last recent_blocks with
    | None => []
    | Some most_recent =>
        map (fun b => h_parent_hash (bl_header b)) recent_blocks
        ++ [header_hash (bl_header most_recent)]
    end.

  (** src/ethereum/osaka/fork.py:335-388; cancun :301-353, shanghai and paris
      without the excess blob gas *)
  Definition validate_header (chain : block_chain) (h : header) : outcome unit :=
    _ <~ check (1 <=? h_number h) ;;
    parent_block <~ of_option (FCrash IndexError) (last (bc_blocks chain)) ;;
    let parent := bl_header parent_block in
    _ <~ (if at_least Cancun (h_fork h) then
            excess_blob_gas <~ calculate_excess_blob_gas (h_fork h) parent ;;
            check (h_excess_blob_gas h =? excess_blob_gas)
          else Done tt) ;;
    _ <~ check (h_gas_used h <=? h_gas_limit h) ;;
    expected_base_fee_per_gas <~ calculate_base_fee_per_gas (h_gas_limit h)
      (h_gas_limit parent) (h_gas_used parent) (h_base_fee_per_gas parent) ;;
    _ <~ check (expected_base_fee_per_gas =? h_base_fee_per_gas h) ;;
    _ <~ check (h_timestamp parent <? h_timestamp h) ;;
    _ <~ check (h_number h =? h_number parent + 1) ;;
    _ <~ check (lenN (h_extra_data h) <=? 32) ;;
    _ <~ check (h_difficulty h =? 0) ;;
    _ <~ check (bytes_eqb (h_nonce h) (zeros 8)) ;;
    _ <~ check (bytes_eqb (h_ommers_hash h) EMPTY_OMMER_HASH) ;;
    check (bytes_eqb (h_parent_hash h) (header_hash parent)).

  Section Block.
    Context (be : block_env).

    (** ** Transactions *)

    (** fork.py:455-482: (effective_gas_price, max_gas_fee) *)
    Definition fee_market_prices (max_fee max_priority_fee gas : N) : outcome (N * N) :=
      if max_fee <? max_priority_fee then invalid PriorityFeeGreaterThanMaxFeeError
      else if max_fee <? b_base_fee_per_gas be then invalid InsufficientMaxFeePerGasError
      else
        let priority_fee_per_gas := N.min max_priority_fee (max_fee - b_base_fee_per_gas be) in
        Done (priority_fee_per_gas + b_base_fee_per_gas be, gas * max_fee).
    Definition legacy_prices (gas_price gas : N) : outcome (N * N) :=
      if gas_price <? b_base_fee_per_gas be then Fail FInvalidBlock
      else Done (gas_price, gas * gas_price).
    Definition tx_prices (tx : transaction) : outcome (N * N) :=
      match tx with
      | Legacy t => legacy_prices (lt_gas_price t) (lt_gas t)
      | AccessList t => legacy_prices (at_gas_price t) (at_gas t)
      | FeeMarket t =>
          fee_market_prices (ft_max_fee_per_gas t) (ft_max_priority_fee_per_gas t) (ft_gas t)
      | Blob t =>
          fee_market_prices (bt_max_fee_per_gas t) (bt_max_priority_fee_per_gas t) (bt_gas t)
      | SetCode t =>
          fee_market_prices (ct_max_fee_per_gas t) (ct_max_priority_fee_per_gas t) (ct_gas t)
      end.

    (** fork.py:484-510: (maximum blob fee, versioned hashes) *)
    Definition check_blobs (tx : transaction) : outcome (N * list N) :=
      match tx with
      | Blob t =>
          let hashes := bt_blob_versioned_hashes t in
          if lenN hashes =? 0 then invalid NoBlobDataError
          else if at_least Osaka (b_fork be) && (BLOB_COUNT_LIMIT <? lenN hashes)
          then invalid BlobCountExceededError
          else if negb (forallb (fun h => h / 2 ^ 248 =? VERSIONED_HASH_VERSION_KZG) hashes)
          then invalid InvalidBlobVersionedHashError
          else
            price <~ blob_gas_price (b_fork be) (b_excess_blob_gas be) ;;
            if bt_max_fee_per_blob_gas t <? price then invalid InsufficientMaxFeePerBlobGasError
            else
              total <~ calculate_total_blob_gas tx ;;
              Done (total * bt_max_fee_per_blob_gas t, hashes)
      | _ => Done (0, [])
      end.

    (** src/ethereum/osaka/fork.py:391-540; the result is (sender, effective
        gas price, versioned hashes, blob gas used). The types rule out a
        blob or set-code transaction without a target address.  prague
        :405-525, cancun :360-489, paris :320-398: there is no blob gas before
        Cancun, so that nothing is compared or subtracted; no delegated account
        sends before Prague. *)
    Definition check_transaction (bo : block_output) (tx : transaction) (s : state)
      : outcome (address * N * list N * N) :=
      gas_available <~ usub (b_block_gas_limit be) (bo_block_gas_used bo) ;;
      blob_gas_available <~ usub (MAX_BLOB_GAS_PER_BLOCK (b_fork be)) (bo_blob_gas_used bo) ;;
      _ <~ (if gas_available <? tx_gas tx then invalid GasUsedExceedsLimitError else Done tt) ;;
      tx_blob_gas_used <~ calculate_total_blob_gas tx ;;
      _ <~ (if blob_gas_available <? tx_blob_gas_used then invalid BlobGasLimitExceededError
            else Done tt) ;;
      sender_address <~ recover_sender cr (b_chain_id be) tx ;;
      let sender_account := get_account s sender_address in
      '(effective_gas_price, max_gas_fee) <~ tx_prices tx ;;
      '(max_blob_fee, blob_versioned_hashes) <~ check_blobs tx ;;
      _ <~ match tx with
           | SetCode t => match ct_authorizations t with
                          | [] => invalid EmptyAuthorizationListError
                          | _ => Done tt
                          end
           | _ => Done tt
           end ;;
      _ <~ (if negb (nonce sender_account =? tx_nonce tx) then invalid NonceMismatchError
            else Done tt) ;;
      _ <~ (if balance sender_account <? max_gas_fee + max_blob_fee + tx_value tx
            then invalid InsufficientBalanceError else Done tt) ;;
      _ <~ (if negb (bytes_eqb (code sender_account) [])
               && negb (at_least Prague (b_fork be) && is_valid_delegation (code sender_account))
            then invalid InvalidSenderError else Done tt) ;;
      Done (sender_address, effective_gas_price, blob_versioned_hashes, tx_blob_gas_used).

    (** src/ethereum/osaka/fork.py:543-576 *)
    Definition make_receipt (tx : transaction) (error : option exn) (cumulative_gas_used : N)
        (logs : list log) : encoded_receipt :=
      encode_receipt tx (Receipt (match error with None => true | Some _ => false end)
                           cumulative_gas_used (logs_bloom cr logs) logs).

    (** fork.py:885-903: the access lists of the transaction environment; the
        coinbase is in it since Shanghai (shanghai fork.py:550, paris :536-542) *)
    Definition access_list_of (tx : transaction) : gset address * gset (address * N) :=
      let l := default [] (tx_access_list tx) in
      ((if at_least Shanghai (b_fork be) then {[ b_coinbase be ]} else ∅)
       ∪ list_to_set (map ac_account l),
       list_to_set (concat (map (fun a => map (fun slot => (ac_account a, slot)) (ac_slots a)) l))).

    (** src/ethereum/osaka/utils/message.py:28-90 *)
    Definition prepare_message (te : tx_env) (tx : transaction) (s : state) : outcome message :=
      let accessed := {[ t_origin te ]} ∪ list_to_set (precompile_addresses (b_fork be))
                      ∪ t_access_list_addresses te in
      match tx_to tx with
      | None =>
          n <~ usub (nonce (get_account s (t_origin te))) 1 ;;
          let current_target := compute_contract_address cr (t_origin te) n in
          Done {| m_caller := t_origin te; m_target := None; m_current_target := current_target;
                  m_gas := t_gas te; m_value := tx_value tx; m_data := [];
                  m_code_address := None; m_code := tx_data tx; m_depth := 0;
                  m_should_transfer_value := true; m_is_static := false;
                  m_accessed_addresses := {[ current_target ]} ∪ accessed;
                  m_accessed_storage_keys := t_access_list_storage_keys te;
                  m_disable_precompiles := false |}
      | Some to =>
          Done {| m_caller := t_origin te; m_target := Some to; m_current_target := to;
                  m_gas := t_gas te; m_value := tx_value tx; m_data := tx_data tx;
                  m_code_address := Some to; m_code := code (get_account s to); m_depth := 0;
                  m_should_transfer_value := true; m_is_static := false;
                  m_accessed_addresses := {[ to ]} ∪ accessed;
                  m_accessed_storage_keys := t_access_list_storage_keys te;
                  m_disable_precompiles := false |}
      end.

    (** [process_message_call] with the state as the only world left over: the
        transient storage is new for every transaction. *)
    Definition call_message (te : tx_env) (m : message) : sm message_call_output := fun s =>
      match process_message_call cr be te m (World s empty_transient) with
      | MCRet o w => (Done o, st w)
      | MCExc x w => (Fail (FEvm x), st w)
      end.

    (** fork.py:849-884: increment the nonce and take the fees *)
    Definition charge_sender (sender : address) (sender_account : account) (fee blob_fee : N)
      : sm unit :=
      _ <<- modifies (fun s => increment_nonce s sender) ;;
      b1 <<- lift (usub (balance sender_account) fee) ;;
      b2 <<- lift (usub b1 blob_fee) ;;
      b3 <<- lift (u256 b2) ;;
      modifies (fun s => set_account_balance s sender b3).

    (** fork.py:924-939: the gas charged for a transaction whose execution left
        [gas_left] and earned [refund_counter] *)
    Definition charged_gas (tx_gas gas_left refund_counter floor : N) : outcome N :=
      used_before_refund <~ usub tx_gas gas_left ;;
      let tx_gas_refund := N.min (used_before_refund / 5) refund_counter in
      used_after_refund <~ usub used_before_refund tx_gas_refund ;;
      Done (N.max used_after_refund floor).

    (** fork.py:949-954: the refund to the sender *)
    Definition refund_sender (sender : address) (amount : N) : sm unit :=
      a <<- lift (u256 amount) ;;
      b <<- gets (fun s => balance (get_account s sender)) ;;
      b' <<- lift (u256 (b + a)) ;;
      modifies (fun s => set_account_balance s sender b').

    (** fork.py:956-968: the fee of the coinbase *)
    Definition pay_coinbase (fee : N) : sm unit :=
      f <<- lift (u256 fee) ;;
      b <<- gets (fun s => balance (get_account s (b_coinbase be))) ;;
      b' <<- lift (u256 (b + f)) ;;
      if negb (b' =? 0) then modifies (fun s => set_account_balance s (b_coinbase be) b')
      else modifies (fun s => Ok (if account_exists_and_is_empty s (b_coinbase be)
                                  then destroy_account s (b_coinbase be) else s)).

    (** fork.py:970-971; Python iterates over the set in an unspecified order *)
    Definition delete_accounts (l : gset address) : sm unit :=
      modifies (fun s => Ok (fold_left destroy_account (elements l) s)).

    (** src/ethereum/osaka/fork.py:825-989; prague :810-974, cancun :669-813,
        shanghai :488-620, paris :476-607 *)
    Definition process_transaction (bo : block_output) (tx : transaction) (index : N)
      : sm block_output :=
      let transactions_trie := trie_set (bo_transactions_trie bo) (encode (RUint index))
                                 (Some (encode_transaction tx)) in
      '(intrinsic_gas, calldata_floor_gas_cost) <<- lift (validate_transaction (b_fork be) tx) ;;
      checked <<- gets (check_transaction bo tx) ;;
      '(sender, effective_gas_price, blob_versioned_hashes, tx_blob_gas_used) <<- lift checked ;;
      sender_account <<- gets (fun s => get_account s sender) ;;
      blob_gas_fee <<- lift match tx with
                            | Blob _ => calculate_data_fee (b_fork be) (b_excess_blob_gas be) tx
                            | _ => Done 0
                            end ;;
      let effective_gas_fee := tx_gas tx * effective_gas_price in
      gas <<- lift (usub (tx_gas tx) intrinsic_gas) ;;
      _ <<- charge_sender sender sender_account effective_gas_fee blob_gas_fee ;;
      let '(access_list_addresses, access_list_storage_keys) := access_list_of tx in
      let te := {| t_origin := sender; t_gas_price := effective_gas_price; t_gas := gas;
                   t_access_list_addresses := access_list_addresses;
                   t_access_list_storage_keys := access_list_storage_keys;
                   t_blob_versioned_hashes := blob_versioned_hashes;
                   t_authorizations :=
                     match tx with SetCode t => ct_authorizations t | _ => [] end |} in
      prepared <<- gets (prepare_message te tx) ;;
      message <<- lift prepared ;;
      tx_output <<- call_message te message ;;
      tx_gas_used <<- lift (charged_gas (tx_gas tx) (o_gas_left tx_output)
                              (o_refund_counter tx_output) calldata_floor_gas_cost) ;;
      tx_gas_left <<- lift (usub (tx_gas tx) tx_gas_used) ;;
      let gas_refund_amount := tx_gas_left * effective_gas_price in
      priority_fee_per_gas <<- lift (usub effective_gas_price (b_base_fee_per_gas be)) ;;
      let transaction_fee := tx_gas_used * priority_fee_per_gas in
      _ <<- refund_sender sender gas_refund_amount ;;
      _ <<- pay_coinbase transaction_fee ;;
      _ <<- delete_accounts (o_accounts_to_delete tx_output) ;;
      let block_gas_used := bo_block_gas_used bo + tx_gas_used in
      blob_gas_used <<- lift (u64 (bo_blob_gas_used bo + tx_blob_gas_used)) ;;
      let receipt := make_receipt tx (o_error tx_output) block_gas_used (o_logs tx_output) in
      let receipt_key := encode (RUint index) in
      sret (BlockOutput block_gas_used transactions_trie
              (trie_set (bo_receipts_trie bo) receipt_key (Some receipt))
              (bo_receipt_keys bo ++ [receipt_key])
              (bo_block_logs bo ++ o_logs tx_output)
              (bo_withdrawals_trie bo) blob_gas_used (bo_requests bo)).

    (** ** System transactions *)

    (** src/ethereum/osaka/fork.py:579-643 *)
    Definition process_system_transaction (target : address) (system_contract_code data : bytes)
      : sm message_call_output :=
      let te := {| t_origin := SYSTEM_ADDRESS; t_gas_price := b_base_fee_per_gas be;
                   t_gas := SYSTEM_TRANSACTION_GAS; t_access_list_addresses := ∅;
                   t_access_list_storage_keys := ∅; t_blob_versioned_hashes := [];
                   t_authorizations := [] |} in
      call_message te
        {| m_caller := SYSTEM_ADDRESS; m_target := Some target; m_current_target := target;
           m_gas := SYSTEM_TRANSACTION_GAS; m_value := 0; m_data := data;
           m_code_address := Some target; m_code := system_contract_code; m_depth := 0;
           m_should_transfer_value := false; m_is_static := false;
           m_accessed_addresses := ∅; m_accessed_storage_keys := ∅;
           m_disable_precompiles := false |}.

    (** src/ethereum/osaka/fork.py:646-691 *)
    Definition process_checked_system_transaction (target : address) (data : bytes)
      : sm message_call_output :=
      system_contract_code <<- gets (fun s => code (get_account s target)) ;;
      _ <<- lift (check (negb (lenN system_contract_code =? 0))) ;;
      output <<- process_system_transaction target system_contract_code data ;;
      _ <<- lift (check (match o_error output with None => true | Some _ => false end)) ;;
      sret output.

    (** src/ethereum/osaka/fork.py:694-722 *)
    Definition process_unchecked_system_transaction (target : address) (data : bytes)
      : sm message_call_output :=
      system_contract_code <<- gets (fun s => code (get_account s target)) ;;
      process_system_transaction target system_contract_code data.

    (** ** The block body *)

    (** fork.py:1000-1001; the U256 multiplication and addition may overflow *)
    Definition credit_withdrawal (amount : N) (acc : account) : result account :=
      match to_u256 (amount * 10 ^ 9) with
      | Raise c => Raise c
      | Ok wei => increase_recipient_balance wei acc
      end.

    (** src/ethereum/osaka/fork.py:992-1014; [i] counts from 0 *)
    Fixpoint process_withdrawals (bo : block_output) (withdrawals : list withdrawal) (i : N)
      : sm block_output :=
      match withdrawals with
      | [] => sret bo
      | wd :: rest =>
          let bo := BlockOutput (bo_block_gas_used bo) (bo_transactions_trie bo)
                      (bo_receipts_trie bo) (bo_receipt_keys bo) (bo_block_logs bo)
                      (trie_set (bo_withdrawals_trie bo) (encode (RUint i))
                         (Some (encode (withdrawal_rlp wd))))
                      (bo_blob_gas_used bo) (bo_requests bo) in
          _ <<- modifies (fun s => modify_state s (wd_address wd)
                                     (credit_withdrawal (wd_amount wd))) ;;
          _ <<- modifies (fun s => Ok (if account_exists_and_is_empty s (wd_address wd)
                                       then destroy_account s (wd_address wd) else s)) ;;
          process_withdrawals bo rest (i + 1)
      end.

    (** src/ethereum/osaka/requests.py:150-169 *)
    Definition parse_deposit_requests (bo : block_output) : outcome bytes :=
      deposits_of_receipts (map (trie_get (bo_receipts_trie bo)) (bo_receipt_keys bo)) [].

    Definition add_request (type data : bytes) (bo : block_output) : block_output :=
      if lenN data =? 0 then bo
      else BlockOutput (bo_block_gas_used bo) (bo_transactions_trie bo) (bo_receipts_trie bo)
             (bo_receipt_keys bo) (bo_block_logs bo) (bo_withdrawals_trie bo)
             (bo_blob_gas_used bo) (bo_requests bo ++ [type ++ data]).

    (** src/ethereum/osaka/fork.py:781-822 *)
    Definition process_general_purpose_requests (bo : block_output) : sm block_output :=
      deposit_requests <<- lift (parse_deposit_requests bo) ;;
      let bo := add_request DEPOSIT_REQUEST_TYPE deposit_requests bo in
      withdrawal_output <<-
        process_checked_system_transaction WITHDRAWAL_REQUEST_PREDEPLOY_ADDRESS [] ;;
      let bo := add_request WITHDRAWAL_REQUEST_TYPE (o_return_data withdrawal_output) bo in
      consolidation_output <<-
        process_checked_system_transaction CONSOLIDATION_REQUEST_PREDEPLOY_ADDRESS [] ;;
      sret (add_request CONSOLIDATION_REQUEST_TYPE (o_return_data consolidation_output) bo).

    (** fork.py:767-768: the loop over the transactions, decoded lazily *)
    Fixpoint process_transactions (bo : block_output) (txs : list encoded_tx) (i : N)
      : sm block_output :=
      match txs with
      | [] => sret bo
      | etx :: rest =>
          tx <<- lift (decode_transaction (b_fork be) etx) ;;
          bo' <<- process_transaction bo tx i ;;
          process_transactions bo' rest (i + 1)
      end.

    (** src/ethereum/osaka/fork.py:725-778; prague :710-763, cancun :624-666,
        shanghai :447-485, paris :442-473: the root of the beacon chain is stored
        since Cancun, the parent hash since Prague; withdrawals are processed
        since Shanghai and requests since Prague *)
    Definition apply_body (txs : list encoded_tx) (withdrawals : list withdrawal)
      : sm block_output :=
      _ <<- (if at_least Cancun (b_fork be) then
               _ <<- process_unchecked_system_transaction BEACON_ROOTS_ADDRESS
                       (to_be_bytes32 (b_parent_beacon_block_root be)) ;; sret tt
             else sret tt) ;;
      _ <<- (if at_least Prague (b_fork be) then
               parent_hash <<- lift (of_option (FCrash IndexError) (last (b_block_hashes be))) ;;
               _ <<- process_unchecked_system_transaction HISTORY_STORAGE_ADDRESS
                       (to_be_bytes32 parent_hash) ;; sret tt
             else sret tt) ;;
      bo <<- process_transactions empty_block_output txs 0 ;;
      bo <<- (if at_least Shanghai (b_fork be) then process_withdrawals bo withdrawals 0
              else sret bo) ;;
      if at_least Prague (b_fork be) then process_general_purpose_requests bo else sret bo.
  End Block.

  (** ** The state transition *)

  (** trie.py:183-197, the values of the block tries *)
  Definition encode_tx_node (_ : bytes) (v : option encoded_tx) : bytes :=
    match v with
    | Some (ELegacy t) => encode (legacy_rlp t)
    | Some (EBytes b) => b
    | None => []
    end.
  Definition encode_receipt_node (_ : bytes) (v : option encoded_receipt) : bytes :=
    match v with
    | Some (RcLegacy r) => encode (receipt_rlp r)
    | Some (RcBytes b) => b
    | None => []
    end.
  Definition encode_bytes_node (_ : bytes) (v : option bytes) : bytes := default [] v.

  (** fork.py:221-233 *)
  Definition block_env_of (chain : block_chain) (h : header) : block_env := {|
    b_fork := h_fork h;
    b_chain_id := bc_chain_id chain;
    b_block_gas_limit := h_gas_limit h;
    b_block_hashes := map from_be_bytes (get_last_256_block_hashes chain);
    b_coinbase := h_coinbase h;
    b_number := h_number h;
    b_base_fee_per_gas := h_base_fee_per_gas h;
    b_time := h_timestamp h;
    b_prev_randao := h_prev_randao h;
    b_excess_blob_gas := h_excess_blob_gas h;
    b_parent_beacon_block_root := h_parent_beacon_block_root h |}.

  (** fork.py:240-264: the comparison of the results with the header; an
      error while computing a root is an AssertionError.  The withdrawals root
      is compared since Shanghai (shanghai :206), the blob gas since Cancun
      (cancun :232), the requests hash since Prague (prague :255); before Shanghai
      the trie of the withdrawals is empty. *)
  Definition check_output (h : header) (bo : block_output) (s : state) : outcome unit :=
    block_state_root <~ of_option (FCrash AssertionError) (state_root cr s) ;;
    transactions_root <~ of_option (FCrash AssertionError)
                           (root cr encode_tx_node (bo_transactions_trie bo)) ;;
    receipt_root <~ of_option (FCrash AssertionError)
                      (root cr encode_receipt_node (bo_receipts_trie bo)) ;;
    let block_logs_bloom := logs_bloom cr (bo_block_logs bo) in
    withdrawals_root <~ (if at_least Shanghai (h_fork h)
                         then of_option (FCrash AssertionError)
                                (root cr encode_bytes_node (bo_withdrawals_trie bo))
                         else Done []) ;;
    let requests_hash := compute_requests_hash cr (bo_requests bo) in
    _ <~ check (bo_block_gas_used bo =? h_gas_used h) ;;
    _ <~ check (bytes_eqb transactions_root (h_transactions_root h)) ;;
    _ <~ check (bytes_eqb block_state_root (h_state_root h)) ;;
    _ <~ check (bytes_eqb receipt_root (h_receipt_root h)) ;;
    _ <~ check (bytes_eqb block_logs_bloom (h_bloom h)) ;;
    _ <~ check (negb (at_least Shanghai (h_fork h))
                || bytes_eqb withdrawals_root (h_withdrawals_root h)) ;;
    _ <~ check (negb (at_least Cancun (h_fork h)) || (bo_blob_gas_used bo =? h_blob_gas_used h)) ;;
    check (negb (at_least Prague (h_fork h)) || bytes_eqb requests_hash (h_requests_hash h)).

  (** src/ethereum/osaka/fork.py:192-270; the chain object is returned also
      when an exception is raised.  The size of the block is limited since
      Osaka. *)
  Definition state_transition (chain : block_chain) (b : block) : outcome unit * block_chain :=
    let h := bl_header b in
    if at_least Osaka (h_fork h) && (MAX_RLP_BLOCK_SIZE <? lenN (encode (block_rlp b))) then (Fail FInvalidBlock, chain)
    else match validate_header chain h with
    | Fail e => (Fail e, chain)
    | Done _ =>
        match bl_ommers b with
        | _ :: _ => (Fail FInvalidBlock, chain)
        | [] =>
            match apply_body (block_env_of chain h) (bl_transactions b) (bl_withdrawals b)
                    (bc_state chain) with
            | (Fail e, s) => (Fail e, BlockChain (bc_blocks chain) s (bc_chain_id chain))
            | (Done bo, s) =>
                match check_output h bo s with
                | Fail e => (Fail e, BlockChain (bc_blocks chain) s (bc_chain_id chain))
                | Done _ =>
                    let blocks := bc_blocks chain ++ [b] in
                    (Done tt, BlockChain (if 255 <? lenN blocks then lastN 255 blocks else blocks)
                                s (bc_chain_id chain))
                end
            end
        end
    end.
End Fork.
