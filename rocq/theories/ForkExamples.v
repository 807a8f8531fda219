(** * ForkExamples: a small chain used in the non-vacuity examples. *)
From Verif Require Import Base State Rlp Vm Instructions Precompiles Interpreter Trie Bloom
  Transactions Blocks Requests Fork EvmExamples.

(** A stand-in for the cryptography: the hash is the first 32 bytes and the
    sender of a transaction is the [r] of its signature. *)
Definition ex_crypto : crypto := {|
  keccak256 := toy_hash; sha256_digest := toy_hash;
  ripemd160_digest := fun b => takeN 20 (toy_hash b);
  secp256k1_recover := fun r _ _ _ => Some (zeros 12 ++ to_be_bytes20 r);
  secp256r1_verify := fun _ _ _ _ _ => false;
  bn128_add := fun p _ => p; bn128_mul := fun p _ => p;
  bn128_g2_mul := fun p _ => p; bn128_pairing_is_one := fun _ => true;
  bls_g1_add := fun p _ => p; bls_g1_mul := fun p _ => p; bls_g2_add := fun p _ => p;
  bls_g2_mul := fun p _ => p; bls_g2_neg := fun p => p; bls_map_to_g1 := fun x => (x, x);
  bls_map_to_g2 := fun x => (x, x); bls_pairing_is_one := fun _ => true;
  bls_g1_generator := (1, 2); bls_g2_generator := ((1, 2), (3, 4));
  bls_pubkey_to_g1 := fun _ => None; bls_signature_to_g2 := fun _ => None;
  bls_key_validate := fun _ => false |}.

(** A sender, a contract, and two system contracts that just stop. *)
Definition ex_accounts : list (N * account) :=
  [(0xaaaa, Account 0 100000000 []); (0xbbbb, Account 1 0 code_succeeds);
   (WITHDRAWAL_REQUEST_PREDEPLOY_ADDRESS, Account 1 0 [Byte.x00]);
   (CONSOLIDATION_REQUEST_PREDEPLOY_ADDRESS, Account 1 0 [Byte.x00])].
Definition ex_state : state := toy_state ex_accounts ∅.

Definition ex_genesis : block :=
  Block (Header Osaka (zeros 32) (zeros 32) 0 (zeros 32) (zeros 32) (zeros 32) (zeros 256) 0 0 30000000
           15000000 100 [] 0 (zeros 8) 7 (zeros 32) 0 0 0 (zeros 32)) [] [] [].
Definition ex_chain : block_chain := BlockChain [ex_genesis] ex_state 1.

Definition ex_tx1 : transaction :=
  Legacy (LegacyTx 0 10 100000 (Some 0xbbbb) 5 [] 27 0xaaaa 1).
Definition ex_tx2 : transaction :=
  FeeMarket (FeeMarketTx 1 1 2 20 50000 (Some 0xcccc) 3 [Byte.x01; Byte.x00] [] 0 0xaaaa 1).
Definition ex_withdrawals : list withdrawal := [Withdrawal 0 1 0xdddd 5].

(** A header on top of [parent] with the fields that depend on execution left
    open, and the same header with these fields filled in. *)
Definition ex_open_header (parent : header) (time : N) : header :=
  Header Osaka (header_hash ex_crypto parent) (EMPTY_OMMER_HASH ex_crypto) 0xc0 [] [] [] [] 0
    (h_number parent + 1) (h_gas_limit parent) 0 time [] 9 (zeros 8) 7 [] 0 0 11 [].
Definition ex_seal (chain : block_chain) (b : block) : option block :=
  let h := bl_header b in
  match apply_body ex_crypto (block_env_of ex_crypto chain h) (bl_transactions b) (bl_withdrawals b)
          (bc_state chain) with
  | (Done bo, s) =>
      sr ← state_root ex_crypto s;
      tr ← root ex_crypto encode_tx_node (bo_transactions_trie bo);
      rr ← root ex_crypto encode_receipt_node (bo_receipts_trie bo);
      wr ← root ex_crypto encode_bytes_node (bo_withdrawals_trie bo);
      Some (Block (Header (h_fork h) (h_parent_hash h) (h_ommers_hash h) (h_coinbase h) sr tr rr
        (logs_bloom ex_crypto (bo_block_logs bo)) 0 (h_number h) (h_gas_limit h) (bo_block_gas_used bo)
        (h_timestamp h) [] (h_prev_randao h) (h_nonce h) (h_base_fee_per_gas h) wr (bo_blob_gas_used bo)
        0 (h_parent_beacon_block_root h) (compute_requests_hash ex_crypto (bo_requests bo)))
        (bl_transactions b) [] (bl_withdrawals b))
  | _ => None
  end.
Definition ex_open_block : block :=
  Block (ex_open_header (bl_header ex_genesis) 112)
    [encode_transaction ex_tx1; encode_transaction ex_tx2] [] ex_withdrawals.
Definition ex_block : block := default ex_genesis (ex_seal ex_chain ex_open_block).
