(** * Merge: the first block of Paris.

    The class [Header] of Paris (src/ethereum/paris/blocks.py:28-181) has the
    fields of that of Gray Glacier (src/ethereum/gray_glacier/blocks.py:28-190)
    in the same order; only [mix_digest] is called [prev_randao].  Python reads
    the attributes of whatever object it is given, so that the code of Paris
    sees the last blocks of proof of work as blocks of its own.  [apply_fork]
    (src/ethereum/paris/fork.py:82-101) returns the chain as it is. *)
From Verif Require Import Base State Rlp Vm Bloom Transactions Trie Blocks Requests Fork Ethash Pow PowTx.

(** A header of London to Gray Glacier as the code of Paris reads it.  The
    fields of later forks are not read. *)
Definition merged_header (h : pow_header) : header := {|
  h_fork := Paris;
  h_parent_hash := ph_parent_hash h;
  h_ommers_hash := ph_ommers_hash h;
  h_coinbase := ph_coinbase h;
  h_state_root := ph_state_root h;
  h_transactions_root := ph_transactions_root h;
  h_receipt_root := ph_receipt_root h;
  h_bloom := ph_bloom h;
  h_difficulty := ph_difficulty h;
  h_number := ph_number h;
  h_gas_limit := ph_gas_limit h;
  h_gas_used := ph_gas_used h;
  h_timestamp := ph_timestamp h;
  h_extra_data := ph_extra_data h;
  h_prev_randao := from_be_bytes (ph_mix_digest h);
  h_nonce := ph_nonce h;
  h_base_fee_per_gas := default 0 (ph_base_fee_per_gas h);
  h_withdrawals_root := [];
  h_blob_gas_used := 0;
  h_excess_blob_gas := 0;
  h_parent_beacon_block_root := 0;
  h_requests_hash := [];
|}.
Definition merged_block (b : pow_block encoded_tx) : block :=
  Block (merged_header (pb_header b)) (pb_transactions b) (map merged_header (pb_ommers b)) [].
(** src/ethereum/paris/fork.py:82-101 *)
Definition apply_fork (old : pow_chain encoded_tx) : block_chain :=
  BlockChain (map merged_block (pc_blocks old)) (pc_state old) (pc_chain_id old).
