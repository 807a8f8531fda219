(** * Transactions: the five transaction types, their encodings, validation,
    intrinsic gas, signing hashes and sender recovery.

    Models src/ethereum/osaka/transactions.py and, of the external package
    [ethereum_rlp], [decode_to] on dataclasses.  The functions that differ in
    the packages paris, shanghai, cancun and prague take the fork as their
    first argument. *)
From Verif Require Import Base State Rlp Vm Instructions Precompiles Interpreter.

(** ** Errors outside the EVM *)

(** src/ethereum/exceptions.py and src/ethereum/osaka/exceptions.py:
    subclasses of InvalidTransaction *)
Inductive invalid_transaction :=
| InvalidSenderError | InvalidSignatureError | InsufficientBalanceError
| NonceMismatchError | GasUsedExceedsLimitError | InsufficientTransactionGasError
| NonceOverflowError | TransactionTypeError (b : N) | TransactionTypeContractCreationError
| BlobGasLimitExceededError | InsufficientMaxFeePerBlobGasError
| InsufficientMaxFeePerGasError | InvalidBlobVersionedHashError | NoBlobDataError
| BlobCountExceededError | PriorityFeeGreaterThanMaxFeeError
| EmptyAuthorizationListError | InitCodeTooLargeError | TransactionGasLimitExceededError.

(** Everything block processing can raise. [FEvm] is an exception leaving
    process_message_call. *)
Inductive failure :=
| FInvalidTransaction (e : invalid_transaction)
| FInvalidBlock
| FDecodingError
| FCrash (c : crash)
| FEvm (e : exn).

Inductive outcome (A : Type) := Done (a : A) | Fail (e : failure).
Arguments Done {A}. Arguments Fail {A}.

Definition obind {A B} (m : outcome A) (f : A -> outcome B) : outcome B :=
  match m with Done a => f a | Fail e => Fail e end.
Notation "x <~ m ;; k" := (obind m (fun x => k)) (at level 80, m at next level, right associativity).
Notation "' p <~ m ;; k" := (obind m (fun x => let 'p := x in k))
  (at level 80, p pattern, m at next level, right associativity).
Definition invalid {A} (e : invalid_transaction) : outcome A := Fail (FInvalidTransaction e).
Definition of_result {A} (r : result A) : outcome A :=
  match r with Ok a => Done a | Raise c => Fail (FCrash c) end.
Definition of_option {A} (e : failure) (o : option A) : outcome A :=
  match o with Some a => Done a | None => Fail e end.

(** ** Transaction types *)

(** src/ethereum/osaka/transactions.py:131-148 *)
Record access := Access { ac_account : address; ac_slots : list N }.

(** src/ethereum/osaka/transactions.py:69-128; [to] is [None] for Bytes0 *)
Record legacy_tx := LegacyTx {
  lt_nonce : N; lt_gas_price : N; lt_gas : N; lt_to : option address;
  lt_value : N; lt_data : bytes; lt_v : N; lt_r : N; lt_s : N;
}.

(** src/ethereum/osaka/transactions.py:150-220 *)
Record access_list_tx := AccessListTx {
  at_chain_id : N; at_nonce : N; at_gas_price : N; at_gas : N; at_to : option address;
  at_value : N; at_data : bytes; at_access_list : list access;
  at_y_parity : N; at_r : N; at_s : N;
}.

(** src/ethereum/osaka/transactions.py:222-297 *)
Record fee_market_tx := FeeMarketTx {
  ft_chain_id : N; ft_nonce : N; ft_max_priority_fee_per_gas : N; ft_max_fee_per_gas : N;
  ft_gas : N; ft_to : option address; ft_value : N; ft_data : bytes;
  ft_access_list : list access; ft_y_parity : N; ft_r : N; ft_s : N;
}.

(** src/ethereum/osaka/transactions.py:299-385 *)
Record blob_tx := BlobTx {
  bt_chain_id : N; bt_nonce : N; bt_max_priority_fee_per_gas : N; bt_max_fee_per_gas : N;
  bt_gas : N; bt_to : address; bt_value : N; bt_data : bytes;
  bt_access_list : list access; bt_max_fee_per_blob_gas : N;
  bt_blob_versioned_hashes : list N; bt_y_parity : N; bt_r : N; bt_s : N;
}.

(** src/ethereum/osaka/transactions.py:387-469 *)
Record set_code_tx := SetCodeTx {
  ct_chain_id : N; ct_nonce : N; ct_max_priority_fee_per_gas : N; ct_max_fee_per_gas : N;
  ct_gas : N; ct_to : address; ct_value : N; ct_data : bytes;
  ct_access_list : list access; ct_authorizations : list authorization;
  ct_y_parity : N; ct_r : N; ct_s : N;
}.

Inductive transaction :=
| Legacy (t : legacy_tx)
| AccessList (t : access_list_tx)
| FeeMarket (t : fee_market_tx)
| Blob (t : blob_tx)
| SetCode (t : set_code_tx).

(** Attribute access on [Transaction]. *)
Definition tx_nonce (tx : transaction) : N :=
  match tx with Legacy t => lt_nonce t | AccessList t => at_nonce t | FeeMarket t => ft_nonce t
  | Blob t => bt_nonce t | SetCode t => ct_nonce t end.
Definition tx_gas (tx : transaction) : N :=
  match tx with Legacy t => lt_gas t | AccessList t => at_gas t | FeeMarket t => ft_gas t
  | Blob t => bt_gas t | SetCode t => ct_gas t end.
Definition tx_to (tx : transaction) : option address :=
  match tx with Legacy t => lt_to t | AccessList t => at_to t | FeeMarket t => ft_to t
  | Blob t => Some (bt_to t) | SetCode t => Some (ct_to t) end.
Definition tx_value (tx : transaction) : N :=
  match tx with Legacy t => lt_value t | AccessList t => at_value t | FeeMarket t => ft_value t
  | Blob t => bt_value t | SetCode t => ct_value t end.
Definition tx_data (tx : transaction) : bytes :=
  match tx with Legacy t => lt_data t | AccessList t => at_data t | FeeMarket t => ft_data t
  | Blob t => bt_data t | SetCode t => ct_data t end.
Definition tx_r (tx : transaction) : N :=
  match tx with Legacy t => lt_r t | AccessList t => at_r t | FeeMarket t => ft_r t
  | Blob t => bt_r t | SetCode t => ct_r t end.
Definition tx_s (tx : transaction) : N :=
  match tx with Legacy t => lt_s t | AccessList t => at_s t | FeeMarket t => ft_s t
  | Blob t => bt_s t | SetCode t => ct_s t end.
(** The access list, of the types that have one. *)
Definition tx_access_list (tx : transaction) : option (list access) :=
  match tx with Legacy t => None | AccessList t => Some (at_access_list t)
  | FeeMarket t => Some (ft_access_list t) | Blob t => Some (bt_access_list t)
  | SetCode t => Some (ct_access_list t) end.

(** ** Encoding: [rlp.encode] of a dataclass is that of the sequence of its
    fields *)
Definition r_to (to : option address) : rlp :=
  match to with None => RBytes [] | Some a => RAddress a end.
Definition r_access (a : access) : rlp :=
  RList [RAddress (ac_account a); RList (map RBytes32 (ac_slots a))].
Definition r_authorization (a : authorization) : rlp :=
  RList [RUint (a_chain_id a); RAddress (a_address a); RUint (a_nonce a);
         RUint (a_y_parity a); RUint (a_r a); RUint (a_s a)].

Definition legacy_rlp (t : legacy_tx) : rlp :=
  RList [RUint (lt_nonce t); RUint (lt_gas_price t); RUint (lt_gas t); r_to (lt_to t);
         RUint (lt_value t); RBytes (lt_data t); RUint (lt_v t); RUint (lt_r t); RUint (lt_s t)].
Definition access_list_rlp (t : access_list_tx) : rlp :=
  RList [RUint (at_chain_id t); RUint (at_nonce t); RUint (at_gas_price t); RUint (at_gas t);
         r_to (at_to t); RUint (at_value t); RBytes (at_data t);
         RList (map r_access (at_access_list t));
         RUint (at_y_parity t); RUint (at_r t); RUint (at_s t)].
Definition fee_market_rlp (t : fee_market_tx) : rlp :=
  RList [RUint (ft_chain_id t); RUint (ft_nonce t); RUint (ft_max_priority_fee_per_gas t);
         RUint (ft_max_fee_per_gas t); RUint (ft_gas t); r_to (ft_to t); RUint (ft_value t);
         RBytes (ft_data t); RList (map r_access (ft_access_list t));
         RUint (ft_y_parity t); RUint (ft_r t); RUint (ft_s t)].
Definition blob_rlp (t : blob_tx) : rlp :=
  RList [RUint (bt_chain_id t); RUint (bt_nonce t); RUint (bt_max_priority_fee_per_gas t);
         RUint (bt_max_fee_per_gas t); RUint (bt_gas t); RAddress (bt_to t); RUint (bt_value t);
         RBytes (bt_data t); RList (map r_access (bt_access_list t));
         RUint (bt_max_fee_per_blob_gas t); RList (map RBytes32 (bt_blob_versioned_hashes t));
         RUint (bt_y_parity t); RUint (bt_r t); RUint (bt_s t)].
Definition set_code_rlp (t : set_code_tx) : rlp :=
  RList [RUint (ct_chain_id t); RUint (ct_nonce t); RUint (ct_max_priority_fee_per_gas t);
         RUint (ct_max_fee_per_gas t); RUint (ct_gas t); RAddress (ct_to t); RUint (ct_value t);
         RBytes (ct_data t); RList (map r_access (ct_access_list t));
         RList (map r_authorization (ct_authorizations t));
         RUint (ct_y_parity t); RUint (ct_r t); RUint (ct_s t)].

(** [LegacyTransaction | Bytes], the entries of a block body. *)
Inductive encoded_tx := ELegacy (t : legacy_tx) | EBytes (b : bytes).

(** src/ethereum/osaka/transactions.py:482-501 *)
Definition encode_transaction (tx : transaction) : encoded_tx :=
  match tx with
  | Legacy t => ELegacy t
  | AccessList t => EBytes (Byte.x01 :: encode (access_list_rlp t))
  | FeeMarket t => EBytes (Byte.x02 :: encode (fee_market_rlp t))
  | Blob t => EBytes (Byte.x03 :: encode (blob_rlp t))
  | SetCode t => EBytes (Byte.x04 :: encode (set_code_rlp t))
  end.

(** ** Decoding: ethereum_rlp.deserialize_to by field type; [None] is
    DecodingError. Leading zeros of numbers are accepted here; no theorem
    depends on whether they are. *)
Definition d_bytes (r : rlp) : option bytes :=
  match r with RBytes b => Some b | RList _ => None end.
Definition d_uint (r : rlp) : option N := from_be_bytes <$> d_bytes r.
(** [U8], [U64], [U256]: at most [n] bytes *)
Definition d_fixed (n : N) (r : rlp) : option N :=
  match r with
  | RBytes b => if lenN b <=? n then Some (from_be_bytes b) else None
  | RList _ => None
  end.
(** [Address], [Bytes32], [VersionedHash]: exactly [n] bytes *)
Definition d_exact (n : N) (r : rlp) : option N :=
  match r with
  | RBytes b => if lenN b =? n then Some (from_be_bytes b) else None
  | RList _ => None
  end.
(** [Bytes0 | Address] *)
Definition d_to (r : rlp) : option (option address) :=
  match r with
  | RBytes [] => Some None
  | RBytes b => if lenN b =? 20 then Some (Some (from_be_bytes b)) else None
  | RList _ => None
  end.
Definition d_list {A} (f : rlp -> option A) (r : rlp) : option (list A) :=
  match r with RList l => mapM f l | RBytes _ => None end.
Definition d_access (r : rlp) : option access :=
  match r with
  | RList [a; l] => a ← d_exact 20 a; l ← d_list (d_exact 32) l; Some (Access a l)
  | _ => None
  end.
Definition d_authorization (r : rlp) : option authorization :=
  match r with
  | RList [c; a; n; y; r; s] =>
      c ← d_fixed 32 c; a ← d_exact 20 a; n ← d_fixed 8 n; y ← d_fixed 1 y;
      r ← d_fixed 32 r; s ← d_fixed 32 s; Some (Authorization c a n y r s)
  | _ => None
  end.
Definition d_legacy (r : rlp) : option legacy_tx :=
  match r with
  | RList [n; p; g; to; value; data; v; r; s] =>
      n ← d_fixed 32 n; p ← d_uint p; g ← d_uint g; to ← d_to to; value ← d_fixed 32 value;
      data ← d_bytes data; v ← d_fixed 32 v; r ← d_fixed 32 r; s ← d_fixed 32 s;
      Some (LegacyTx n p g to value data v r s)
  | _ => None
  end.
Definition d_access_list (r : rlp) : option access_list_tx :=
  match r with
  | RList [c; n; p; g; to; value; data; al; y; r; s] =>
      c ← d_fixed 8 c; n ← d_fixed 32 n; p ← d_uint p; g ← d_uint g; to ← d_to to;
      value ← d_fixed 32 value; data ← d_bytes data; al ← d_list d_access al;
      y ← d_fixed 32 y; r ← d_fixed 32 r; s ← d_fixed 32 s;
      Some (AccessListTx c n p g to value data al y r s)
  | _ => None
  end.
Definition d_fee_market (r : rlp) : option fee_market_tx :=
  match r with
  | RList [c; n; pf; mf; g; to; value; data; al; y; r; s] =>
      c ← d_fixed 8 c; n ← d_fixed 32 n; pf ← d_uint pf; mf ← d_uint mf; g ← d_uint g;
      to ← d_to to; value ← d_fixed 32 value; data ← d_bytes data; al ← d_list d_access al;
      y ← d_fixed 32 y; r ← d_fixed 32 r; s ← d_fixed 32 s;
      Some (FeeMarketTx c n pf mf g to value data al y r s)
  | _ => None
  end.
Definition d_blob (r : rlp) : option blob_tx :=
  match r with
  | RList [c; n; pf; mf; g; to; value; data; al; bf; bh; y; r; s] =>
      c ← d_fixed 8 c; n ← d_fixed 32 n; pf ← d_uint pf; mf ← d_uint mf; g ← d_uint g;
      to ← d_exact 20 to; value ← d_fixed 32 value; data ← d_bytes data;
      al ← d_list d_access al; bf ← d_fixed 32 bf; bh ← d_list (d_exact 32) bh;
      y ← d_fixed 32 y; r ← d_fixed 32 r; s ← d_fixed 32 s;
      Some (BlobTx c n pf mf g to value data al bf bh y r s)
  | _ => None
  end.
Definition d_set_code (r : rlp) : option set_code_tx :=
  match r with
  | RList [c; n; pf; mf; g; to; value; data; al; au; y; r; s] =>
      c ← d_fixed 8 c; n ← d_fixed 8 n; pf ← d_uint pf; mf ← d_uint mf; g ← d_uint g;
      to ← d_exact 20 to; value ← d_fixed 32 value; data ← d_bytes data;
      al ← d_list d_access al; au ← d_list d_authorization au;
      y ← d_fixed 32 y; r ← d_fixed 32 r; s ← d_fixed 32 s;
      Some (SetCodeTx c n pf mf g to value data al au y r s)
  | _ => None
  end.

(** [rlp.decode_to(class, data)] *)
Definition decode_to {A} (f : rlp -> option A) (data : bytes) : outcome A :=
  of_option FDecodingError (r ← decode data; f r).

(** src/ethereum/osaka/transactions.py:504-524; prague :500-520, cancun
    :405-423, paris :308-324 *)
Definition decode_transaction (f : pos_fork) (tx : encoded_tx) : outcome transaction :=
  match tx with
  | EBytes [] => Fail (FCrash IndexError)
  | EBytes (b :: data) =>
      if Byte.to_N b =? 1 then t <~ decode_to d_access_list data;; Done (AccessList t)
      else if Byte.to_N b =? 2 then t <~ decode_to d_fee_market data;; Done (FeeMarket t)
      else if at_least Cancun f && (Byte.to_N b =? 3)
      then t <~ decode_to d_blob data;; Done (Blob t)
      else if at_least Prague f && (Byte.to_N b =? 4)
      then t <~ decode_to d_set_code data;; Done (SetCode t)
      else invalid (TransactionTypeError (Byte.to_N b))
  | ELegacy t => Done (Legacy t)
  end.

(** ** Intrinsic gas *)

(** src/ethereum/osaka/transactions.py:30-67 *)
Definition TX_BASE_COST : N := 21000.
Definition FLOOR_CALLDATA_COST : N := 10.
Definition STANDARD_CALLDATA_TOKEN_COST : N := 4.
Definition TX_CREATE_COST : N := 32000.
Definition TX_ACCESS_LIST_ADDRESS_COST : N := 2400.
Definition TX_ACCESS_LIST_STORAGE_KEY_COST : N := 1900.
Definition TX_MAX_GAS_LIMIT : N := 16777216.

(** src/ethereum/osaka/transactions.py:571-646: (intrinsic, floor); prague
    :565-640, cancun :469-515, shanghai :370-414, paris :358-400.  Before Prague
    there is no floor; it is 0 here.  The price of the data was written as 4 for
    a zero byte and 16 for another one. *)
Definition calculate_intrinsic_cost (f : pos_fork) (tx : transaction) : N * N :=
  let zero_bytes :=
    fold_left (fun n b => if Byte.to_N b =? 0 then n + 1 else n) (tx_data tx) 0 in
  let tokens_in_calldata := zero_bytes + (lenN (tx_data tx) - zero_bytes) * 4 in
  let calldata_floor_gas_cost :=
    if at_least Prague f then tokens_in_calldata * FLOOR_CALLDATA_COST + TX_BASE_COST else 0 in
  let data_cost := tokens_in_calldata * STANDARD_CALLDATA_TOKEN_COST in
  let create_cost :=
    match tx_to tx with
    | None => TX_CREATE_COST
              + (if at_least Shanghai f then init_code_cost (lenN (tx_data tx)) else 0)
    | Some _ => 0
    end in
  let access_list_cost :=
    match tx_access_list tx with
    | Some l => fold_left (fun c a =>
        c + TX_ACCESS_LIST_ADDRESS_COST + lenN (ac_slots a) * TX_ACCESS_LIST_STORAGE_KEY_COST) l 0
    | None => 0
    end in
  let auth_cost :=
    match tx with
    | SetCode t => PER_EMPTY_ACCOUNT_COST * lenN (ct_authorizations t)
    | _ => 0
    end in
  (TX_BASE_COST + data_cost + create_cost + access_list_cost + auth_cost,
   calldata_floor_gas_cost).

(** src/ethereum/osaka/transactions.py:527-568; prague :522-562, cancun
    :426-466, shanghai :328-367, paris :327-355 *)
Definition validate_transaction (f : pos_fork) (tx : transaction) : outcome (N * N) :=
  let '(intrinsic_gas, calldata_floor_gas_cost) := calculate_intrinsic_cost f tx in
  if tx_gas tx <? N.max intrinsic_gas calldata_floor_gas_cost
  then invalid InsufficientTransactionGasError
  else if U64_MAX <=? tx_nonce tx then invalid NonceOverflowError
  else if at_least Shanghai f && (match tx_to tx with None => true | Some _ => false end)
          && (MAX_INIT_CODE_SIZE <? lenN (tx_data tx))
  then invalid InitCodeTooLargeError
  else if at_least Osaka f && (TX_MAX_GAS_LIMIT <? tx_gas tx)
  then invalid TransactionGasLimitExceededError
  else Done (intrinsic_gas, calldata_floor_gas_cost).

(** ** Signatures *)
Section Signatures.
  Context (cr : crypto).

  (** The preimages of the signing hashes:
      transactions.py:713-734 (pre155), 737-760 (155) *)
  Definition preimage_pre155 (t : legacy_tx) : bytes :=
    encode (RList [RUint (lt_nonce t); RUint (lt_gas_price t); RUint (lt_gas t); r_to (lt_to t);
                   RUint (lt_value t); RBytes (lt_data t)]).
  Definition preimage_155 (t : legacy_tx) (chain_id : N) : bytes :=
    encode (RList [RUint (lt_nonce t); RUint (lt_gas_price t); RUint (lt_gas t); r_to (lt_to t);
                   RUint (lt_value t); RBytes (lt_data t); RUint chain_id; RUint 0; RUint 0]).
  (** transactions.py:763-786 *)
  Definition preimage_2930 (t : access_list_tx) : bytes :=
    Byte.x01 :: encode (RList
      [RUint (at_chain_id t); RUint (at_nonce t); RUint (at_gas_price t); RUint (at_gas t);
       r_to (at_to t); RUint (at_value t); RBytes (at_data t);
       RList (map r_access (at_access_list t))]).
  (** transactions.py:789-813 *)
  Definition preimage_1559 (t : fee_market_tx) : bytes :=
    Byte.x02 :: encode (RList
      [RUint (ft_chain_id t); RUint (ft_nonce t); RUint (ft_max_priority_fee_per_gas t);
       RUint (ft_max_fee_per_gas t); RUint (ft_gas t); r_to (ft_to t); RUint (ft_value t);
       RBytes (ft_data t); RList (map r_access (ft_access_list t))]).
  (** transactions.py:816-842 *)
  Definition preimage_4844 (t : blob_tx) : bytes :=
    Byte.x03 :: encode (RList
      [RUint (bt_chain_id t); RUint (bt_nonce t); RUint (bt_max_priority_fee_per_gas t);
       RUint (bt_max_fee_per_gas t); RUint (bt_gas t); RAddress (bt_to t); RUint (bt_value t);
       RBytes (bt_data t); RList (map r_access (bt_access_list t));
       RUint (bt_max_fee_per_blob_gas t); RList (map RBytes32 (bt_blob_versioned_hashes t))]).
  (** transactions.py:845-870 *)
  Definition preimage_7702 (t : set_code_tx) : bytes :=
    Byte.x04 :: encode (RList
      [RUint (ct_chain_id t); RUint (ct_nonce t); RUint (ct_max_priority_fee_per_gas t);
       RUint (ct_max_fee_per_gas t); RUint (ct_gas t); RAddress (ct_to t); RUint (ct_value t);
       RBytes (ct_data t); RList (map r_access (ct_access_list t));
       RList (map r_authorization (ct_authorizations t))]).

  Definition signing_hash_pre155 (t : legacy_tx) : bytes := keccak256 cr (preimage_pre155 t).
  Definition signing_hash_155 (t : legacy_tx) (chain_id : N) : bytes :=
    keccak256 cr (preimage_155 t chain_id).
  Definition signing_hash_2930 (t : access_list_tx) : bytes := keccak256 cr (preimage_2930 t).
  Definition signing_hash_1559 (t : fee_market_tx) : bytes := keccak256 cr (preimage_1559 t).
  Definition signing_hash_4844 (t : blob_tx) : bytes := keccak256 cr (preimage_4844 t).
  Definition signing_hash_7702 (t : set_code_tx) : bytes := keccak256 cr (preimage_7702 t).

  (** src/ethereum/osaka/transactions.py:649-710 *)
  Definition recover_with (r s v : N) (h : bytes) : outcome bytes :=
    of_option (FInvalidTransaction InvalidSignatureError) (secp256k1_recover cr r s v h).
  Definition recover_sender (chain_id : N) (tx : transaction) : outcome address :=
    let r := tx_r tx in
    let s := tx_s tx in
    if (r <=? 0) || (SECP256K1N <=? r) then invalid InvalidSignatureError
    else if (s <=? 0) || (SECP256K1N / 2 <? s) then invalid InvalidSignatureError
    else
      public_key <~ match tx with
        | Legacy t =>
            let v := lt_v t in
            if (v =? 27) || (v =? 28) then recover_with r s (v - 27) (signing_hash_pre155 t)
            else
              let chain_id_x2 := chain_id * 2 in
              if negb (v =? 35 + chain_id_x2) && negb (v =? 36 + chain_id_x2)
              then invalid InvalidSignatureError
              else recover_with r s (v - 35 - chain_id_x2) (signing_hash_155 t chain_id)
        | AccessList t =>
            if negb ((at_y_parity t =? 0) || (at_y_parity t =? 1)) then invalid InvalidSignatureError
            else recover_with r s (at_y_parity t) (signing_hash_2930 t)
        | FeeMarket t =>
            if negb ((ft_y_parity t =? 0) || (ft_y_parity t =? 1)) then invalid InvalidSignatureError
            else recover_with r s (ft_y_parity t) (signing_hash_1559 t)
        | Blob t =>
            if negb ((bt_y_parity t =? 0) || (bt_y_parity t =? 1)) then invalid InvalidSignatureError
            else recover_with r s (bt_y_parity t) (signing_hash_4844 t)
        | SetCode t =>
            if negb ((ct_y_parity t =? 0) || (ct_y_parity t =? 1)) then invalid InvalidSignatureError
            else recover_with r s (ct_y_parity t) (signing_hash_7702 t)
        end ;;
      Done (from_be_bytes (sliceN 12 32 (keccak256 cr public_key))).

  (** src/ethereum/osaka/transactions.py:873-887 *)
  Definition get_transaction_hash (tx : encoded_tx) : bytes :=
    match tx with
    | ELegacy t => keccak256 cr (encode (legacy_rlp t))
    | EBytes b => keccak256 cr b
    end.
End Signatures.
