(** * EvmExamples: concrete programs used in the non-vacuity examples. *)
From Verif Require Import Base State Vm Instructions Precompiles Interpreter.

Definition bs (l : list N) : bytes := map (fun n => default Byte.x00 (Byte.of_N n)) l.

(** A stand-in for the hash functions and the curve operations: the examples
    do not depend on what they compute. *)
Definition toy_hash (b : bytes) : bytes := takeN 32 (b ++ zeros 32).
Definition toy_crypto : crypto := {|
  keccak256 := toy_hash; sha256_digest := toy_hash; ripemd160_digest := toy_hash;
  secp256k1_recover := fun _ _ _ _ => None; secp256r1_verify := fun _ _ _ _ _ => false;
  bn128_add := fun p _ => p; bn128_mul := fun p _ => p;
  bn128_g2_mul := fun p _ => p; bn128_pairing_is_one := fun _ => true;
  bls_g1_add := fun p _ => p; bls_g1_mul := fun p _ => p; bls_g2_add := fun p _ => p;
  bls_g2_mul := fun p _ => p; bls_g2_neg := fun p => p; bls_map_to_g1 := fun x => (x, x);
  bls_map_to_g2 := fun x => (x, x); bls_pairing_is_one := fun _ => true;
  bls_g1_generator := (1, 2); bls_g2_generator := ((1, 2), (3, 4));
  bls_pubkey_to_g1 := fun _ => None; bls_signature_to_g2 := fun _ => None;
  bls_key_validate := fun _ => false |}.

Definition toy_block : block_env := {|
  b_fork := Osaka; b_chain_id := 1; b_block_gas_limit := 30000000; b_block_hashes := [7; 8; 9];
  b_coinbase := 0xc0; b_number := 3; b_base_fee_per_gas := 10; b_time := 1000;
  b_prev_randao := 5; b_excess_blob_gas := 0; b_parent_beacon_block_root := 0 |}.
Definition toy_tx : tx_env := {|
  t_origin := 0xaa; t_gas_price := 12; t_gas := 1000000;
  t_access_list_addresses := ∅; t_access_list_storage_keys := ∅;
  t_blob_versioned_hashes := []; t_authorizations := [] |}.

Definition toy_state (l : list (N * account)) (sto : storages) : state :=
  State (list_to_map l) sto [] ∅.
(** The world inside a transaction (one snapshot open). *)
Definition toy_world (l : list (N * account)) (sto : storages) : world :=
  begin_transaction (World (toy_state l sto) empty_transient).

Definition toy_message (target : address) (gas value : N) (data c : bytes) : message := {|
  m_caller := 0xaa; m_target := Some target; m_current_target := target; m_gas := gas;
  m_value := value; m_data := data; m_code_address := Some target; m_code := c; m_depth := 0;
  m_should_transfer_value := true; m_is_static := false;
  m_accessed_addresses := {[ target; 0xaa ]}; m_accessed_storage_keys := ∅;
  m_disable_precompiles := false |}.

Notation toy_run m w := (process_message toy_crypto toy_block toy_tx m w).
Notation toy_create m w := (process_create_message toy_crypto toy_block toy_tx m w).

(** SSTORE(1, 5); LOG0(0, 0); CALL(0x300 with all gas, value 3); SSTORE(2, success) *)
Definition code_parent : bytes := bs
  [0x60;5; 0x60;1; 0x55;  0x60;0; 0x60;0; 0xA0;
   0x60;0; 0x60;0; 0x60;0; 0x60;0; 0x60;3; 0x61;3;0; 0x62;1;0;0; 0xF1;
   0x60;2; 0x55; 0x00].
(** SSTORE(1, 9); TSTORE(1, 9); LOG0(0, 0); REVERT(0, 32) *)
Definition code_reverts : bytes := bs
  [0x60;9; 0x60;1; 0x55; 0x60;9; 0x60;1; 0x5D; 0x60;0; 0x60;0; 0xA0;
   0x60;32; 0x60;0; 0xFD].
(** SSTORE(1, 9); TSTORE(1, 9); LOG0(0, 0); STOP *)
Definition code_succeeds : bytes := bs
  [0x60;9; 0x60;1; 0x55; 0x60;9; 0x60;1; 0x5D; 0x60;0; 0x60;0; 0xA0; 0x00].
(** JUMPDEST; JUMP(0): runs until out of gas *)
Definition code_loops : bytes := bs [0x5B; 0x60;0; 0x56].
