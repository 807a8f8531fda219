(** * Genesis: reading a genesis configuration and adding the first block.

    Models src/ethereum/genesis.py, for the forks since the merge and for the
    proof-of-work forks.

    - Reading the file and parsing its JSON are left out: [genesis_json] has
      the values which [get_genesis_configuration] and [add_genesis_block] look
      up, every one of them a string except [chainId]. The top-level values are
      all present; those of an account are optional.
    - The functions return the new chain or the exception. On an exception
      Python leaves a chain with some of the accounts behind. *)
From Verif Require Import Base State Rlp Vm Trie Transactions Blocks Requests Fork Pow Hexadecimal.
From Coq Require Import Strings.String.
Local Close Scope string_scope.

(** The values of one account in ["alloc"]; the slots of the absent and of the
    empty ["storage"] are the same. *)
Record genesis_account := GenesisAccount {
  ga_nonce : option str;
  ga_balance : option str;
  ga_code : option str;
  ga_storage : list (str * str);
}.
Record genesis_json := GenesisJson {
  gj_chain_id : Z;
  gj_difficulty : str;
  gj_extra_data : str;
  gj_gas_limit : str;
  gj_nonce : str;
  gj_timestamp : str;
  gj_alloc : list (str * genesis_account);
}.

(** Lines 36-89 *)
Record genesis_configuration := GenesisConfiguration {
  g_chain_id : N;
  g_difficulty : N;
  g_extra_data : bytes;
  g_gas_limit : N;
  g_nonce : bytes;
  g_timestamp : N;
  g_initial_accounts : list (str * genesis_account);
}.

(** Lines 116-123 *)
Definition hex_or_base_10_str_to_u256 (balance : str) : result N :=
  if has_hex_prefix balance then hex_to_u256 balance
  else z <-- py_int 10 balance ;; to_bounded U256_CEIL z.

(** Lines 92-113 *)
Definition get_genesis_configuration (j : genesis_json) : result genesis_configuration :=
  chain_id <-- to_bounded U64_CEIL (gj_chain_id j) ;;
  difficulty <-- hex_to_uint (gj_difficulty j) ;;
  extra_data <-- hex_to_bytes (gj_extra_data j) ;;
  gas_limit <-- hex_to_uint (gj_gas_limit j) ;;
  nonce <-- hex_to_bytes8 (gj_nonce j) ;;
  timestamp <-- hex_or_base_10_str_to_u256 (gj_timestamp j) ;;
  Ok (GenesisConfiguration chain_id difficulty extra_data gas_limit nonce timestamp (gj_alloc j)).

(** Lines 210-214. [account.get("balance", 0)] is the number zero when there
    is no balance, which has no [startswith]. *)
Definition genesis_read_account (j : genesis_account) : result account :=
  z <-- py_int 10 (default (list_byte_of_string "0") (ga_nonce j)) ;;
  nonce <-- to_uint z ;;
  balance <-- match ga_balance j with
              | Some b => hex_or_base_10_str_to_u256 b
              | None => Raise AttributeError
              end ;;
  code <-- hex_to_bytes (default (list_byte_of_string "0x") (ga_code j)) ;;
  Ok (Account nonce balance code).

(** Lines 216-219; a slot is represented by its number *)
Fixpoint genesis_storage (s : state) (a : address) (l : list (str * str)) : result state :=
  match l with
  | [] => Ok s
  | (key, value) :: l =>
      k <-- hex_to_bytes32 key ;;
      v <-- hex_to_u256 value ;;
      s <-- set_storage s a (from_be_bytes k) v ;;
      genesis_storage s a l
  end.

(** Lines 205-219 *)
Fixpoint genesis_state (s : state) (l : list (str * genesis_account)) : result state :=
  match l with
  | [] => Ok s
  | (hex_address, j) :: l =>
      a <-- hex_to_address hex_address ;;
      acc <-- genesis_read_account j ;;
      s <-- genesis_storage (set_account s a (Some acc)) a (ga_storage j) ;;
      genesis_state s l
  end.

Definition INITIAL_GENESIS_FEE : N := 10 ^ 9.

Section Genesis.
  Context (cr : crypto).

  (** [hardfork.root(hardfork.Trie(False, None))]; [None] is an AssertionError. *)
  Definition empty_root : result bytes :=
    match root cr (fun _ (v : option bytes) => default [] v) (Trie false None []) with
    | Some r => Ok r
    | None => Raise AssertionError
    end.
  Definition genesis_state_root (s : state) : result bytes :=
    match state_root cr s with Some r => Ok r | None => Raise AssertionError end.

  (** Lines 158-278 with the types of a fork since the merge; the fields which
      its class Header does not have are not read *)
  Definition add_genesis_block (f : pos_fork) (chain : block_chain) (g : genesis_configuration) : result block_chain :=
    s <-- genesis_state (bc_state chain) (g_initial_accounts g) ;;
    state_root <-- genesis_state_root s ;;
    empty <-- empty_root ;;
    let header := Header f (zeros 32) (keccak256 cr (encode (RList []))) 0 state_root empty empty (zeros 256)
      (g_difficulty g) 0 (g_gas_limit g) 0 (g_timestamp g) (g_extra_data g) 0 (g_nonce g)
      INITIAL_GENESIS_FEE empty 0 0 0 (zeros 32) in
    Ok (BlockChain (bc_blocks chain ++ [Block header [] [] []]) s (g_chain_id g)).

  (** The same with the types of a proof-of-work fork *)
  Definition pow_add_genesis_block {tx} (f : pow_fork) (chain : pow_chain tx) (g : genesis_configuration)
    : result (pow_chain tx) :=
    s <-- genesis_state (pc_state chain) (g_initial_accounts g) ;;
    state_root <-- genesis_state_root s ;;
    empty <-- empty_root ;;
    let header := PowHeader (zeros 32) (keccak256 cr (encode (RList []))) 0 state_root empty empty (zeros 256)
      (g_difficulty g) 0 (g_gas_limit g) 0 (g_timestamp g) (g_extra_data g) (zeros 32) (g_nonce g)
      (if pf_base_fee f then Some INITIAL_GENESIS_FEE else None) in
    Ok (PowChain (pc_blocks chain ++ [PowBlock header [] []]) s (g_chain_id g)).
End Genesis.
