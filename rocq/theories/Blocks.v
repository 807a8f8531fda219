(** * Blocks: withdrawals, headers, blocks and receipts.

    Models src/ethereum/osaka/blocks.py and the blocks.py of the packages paris,
    shanghai, cancun and prague.  [h_fork] is the package whose class Header the
    object is an instance of; the fields that class does not have are not read
    (paris blocks.py:29-204 ends with base_fee_per_gas, shanghai :64-217 with
    withdrawals_root, cancun :64-232 with parent_beacon_block_root).  Hashes and roots are byte strings;
    addresses, [Bytes32] words that are not compared with hashes
    ([prev_randao], [parent_beacon_block_root]) and log topics are numbers. *)
From Verif Require Import Base State Rlp Vm Transactions.

(** src/ethereum/osaka/blocks.py:31-62 *)
Record withdrawal := Withdrawal {
  wd_index : N; wd_validator_index : N; wd_address : address; wd_amount : N;
}.

(** src/ethereum/osaka/blocks.py:65-242 *)
Record header := Header {
  h_fork : pos_fork;
  h_parent_hash : bytes;
  h_ommers_hash : bytes;
  h_coinbase : address;
  h_state_root : bytes;
  h_transactions_root : bytes;
  h_receipt_root : bytes;
  h_bloom : bytes;
  h_difficulty : N;
  h_number : N;
  h_gas_limit : N;
  h_gas_used : N;
  h_timestamp : N;
  h_extra_data : bytes;
  h_prev_randao : N;
  h_nonce : bytes;
  h_base_fee_per_gas : N;
  h_withdrawals_root : bytes;
  h_blob_gas_used : N;
  h_excess_blob_gas : N;
  h_parent_beacon_block_root : N;
  h_requests_hash : bytes;
}.

(** src/ethereum/osaka/blocks.py:245-294 *)
Record block := Block {
  bl_header : header;
  bl_transactions : list encoded_tx;
  bl_ommers : list header;
  bl_withdrawals : list withdrawal;
}.

(** src/ethereum/osaka/blocks.py:329-358 *)
Record receipt := Receipt {
  rc_succeeded : bool;
  rc_cumulative_gas_used : N;
  rc_bloom : bytes;
  rc_logs : list log;
}.

(** ** [rlp.encode] of these dataclasses *)
Definition withdrawal_rlp (w : withdrawal) : rlp :=
  RList [RUint (wd_index w); RUint (wd_validator_index w); RAddress (wd_address w);
         RUint (wd_amount w)].
Definition header_rlp (h : header) : rlp :=
  RList $ [RBytes (h_parent_hash h); RBytes (h_ommers_hash h); RAddress (h_coinbase h);
         RBytes (h_state_root h); RBytes (h_transactions_root h); RBytes (h_receipt_root h);
         RBytes (h_bloom h); RUint (h_difficulty h); RUint (h_number h); RUint (h_gas_limit h);
         RUint (h_gas_used h); RUint (h_timestamp h); RBytes (h_extra_data h);
         RBytes32 (h_prev_randao h); RBytes (h_nonce h); RUint (h_base_fee_per_gas h)]
        ++ (if at_least Shanghai (h_fork h) then [RBytes (h_withdrawals_root h)] else [])
        ++ (if at_least Cancun (h_fork h)
            then [RUint (h_blob_gas_used h); RUint (h_excess_blob_gas h);
                  RBytes32 (h_parent_beacon_block_root h)] else [])
        ++ (if at_least Prague (h_fork h) then [RBytes (h_requests_hash h)] else []).
Definition encoded_tx_rlp (t : encoded_tx) : rlp :=
  match t with ELegacy t => legacy_rlp t | EBytes b => RBytes b end.
(** shanghai blocks.py:220-269; paris :207-248 has no withdrawals *)
Definition block_rlp (b : block) : rlp :=
  RList $ [header_rlp (bl_header b); RList (map encoded_tx_rlp (bl_transactions b));
           RList (map header_rlp (bl_ommers b))]
          ++ (if at_least Shanghai (h_fork (bl_header b))
              then [RList (map withdrawal_rlp (bl_withdrawals b))] else []).
(** A [bool] is encoded as the empty string or the byte 1. *)
Definition RBool (b : bool) : rlp := RBytes (if b then [Byte.x01] else []).
Definition log_rlp (l : log) : rlp :=
  RList [RAddress (log_address l); RList (map RBytes32 (log_topics l)); RBytes (log_data l)].
Definition receipt_rlp (r : receipt) : rlp :=
  RList [RBool (rc_succeeded r); RUint (rc_cumulative_gas_used r); RBytes (rc_bloom r);
         RList (map log_rlp (rc_logs r))].

(** ** Receipts *)

(** [Bytes | Receipt] *)
Inductive encoded_receipt := RcLegacy (r : receipt) | RcBytes (b : bytes).

(** src/ethereum/osaka/blocks.py:361-381 *)
Definition encode_receipt (tx : transaction) (r : receipt) : encoded_receipt :=
  match tx with
  | AccessList _ => RcBytes (Byte.x01 :: encode (receipt_rlp r))
  | FeeMarket _ => RcBytes (Byte.x02 :: encode (receipt_rlp r))
  | Blob _ => RcBytes (Byte.x03 :: encode (receipt_rlp r))
  | SetCode _ => RcBytes (Byte.x04 :: encode (receipt_rlp r))
  | Legacy _ => RcLegacy r
  end.

(** Field decoders, as in [Transactions.v] *)
Definition d_bool (r : rlp) : option bool :=
  match r with
  | RBytes [] => Some false
  | RBytes [b] => if Byte.to_N b =? 1 then Some true else None
  | _ => None
  end.
Definition d_exact_bytes (n : N) (r : rlp) : option bytes :=
  match r with
  | RBytes b => if lenN b =? n then Some b else None
  | RList _ => None
  end.
Definition d_log (r : rlp) : option log :=
  match r with
  | RList [a; t; d] =>
      a ← d_exact 20 a; t ← d_list (d_exact 32) t; d ← d_bytes d; Some (Log a t d)
  | _ => None
  end.
Definition d_receipt (r : rlp) : option receipt :=
  match r with
  | RList [s; g; b; l] =>
      s ← d_bool s; g ← d_uint g; b ← d_exact_bytes 256 b; l ← d_list d_log l;
      Some (Receipt s g b l)
  | _ => None
  end.

(** src/ethereum/osaka/blocks.py:384-403 *)
Definition decode_receipt (r : encoded_receipt) : outcome receipt :=
  match r with
  | RcLegacy r => Done r
  | RcBytes [] => Fail (FCrash IndexError)
  | RcBytes (b :: data) =>
      if (1 <=? Byte.to_N b) && (Byte.to_N b <=? 4) then decode_to d_receipt data
      else Fail (FCrash AssertionError)
  end.

(** Equality of the values stored in the transactions and receipts tries
    ([trie_set] compares with the default). *)
Global Instance pos_fork_eq_dec : EqDecision pos_fork.
Proof. solve_decision. Defined.
Global Instance legacy_tx_eq_dec : EqDecision legacy_tx.
Proof. solve_decision. Defined.
Global Instance encoded_tx_eq_dec : EqDecision encoded_tx.
Proof. solve_decision. Defined.
Global Instance log_eq_dec : EqDecision log.
Proof. solve_decision. Defined.
Global Instance receipt_eq_dec : EqDecision receipt.
Proof. solve_decision. Defined.
Global Instance encoded_receipt_eq_dec : EqDecision encoded_receipt.
Proof. solve_decision. Defined.
