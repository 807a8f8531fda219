(** * Requests: deposit requests and the requests hash
    (src/ethereum/osaka/requests.py). *)
From Verif Require Import Base State Rlp Vm Transactions Blocks.

(** src/ethereum/osaka/requests.py:26-51 *)
Definition DEPOSIT_CONTRACT_ADDRESS : address := 0x00000000219ab540356cbb839cbe05303d7705fa.
Definition DEPOSIT_EVENT_SIGNATURE_HASH : N :=
  0x649bbc62d0e31342afea4e5cd82d4049e7e1ee912fc0889aa790803be39038c5.
Definition DEPOSIT_REQUEST_TYPE : bytes := [Byte.x00].
Definition WITHDRAWAL_REQUEST_TYPE : bytes := [Byte.x01].
Definition CONSOLIDATION_REQUEST_TYPE : bytes := [Byte.x02].
Definition DEPOSIT_EVENT_LENGTH : N := 576.
Definition PUBKEY_OFFSET : N := 160.
Definition WITHDRAWAL_CREDENTIALS_OFFSET : N := 256.
Definition AMOUNT_OFFSET : N := 320.
Definition SIGNATURE_OFFSET : N := 384.
Definition INDEX_OFFSET : N := 512.
Definition PUBKEY_SIZE : N := 48.
Definition WITHDRAWAL_CREDENTIALS_SIZE : N := 32.
Definition AMOUNT_SIZE : N := 8.
Definition SIGNATURE_SIZE : N := 96.
Definition INDEX_SIZE : N := 8.

(** [if x != y: raise InvalidBlock] *)
Definition check (ok : bool) : outcome unit := if ok then Done tt else Fail FInvalidBlock.

(** src/ethereum/osaka/requests.py:54-147 *)
Definition extract_deposit_data (data : bytes) : outcome bytes :=
  _ <~ check (lenN data =? DEPOSIT_EVENT_LENGTH) ;;
  let pubkey_offset := from_be_bytes (sliceN 0 32 data) in
  _ <~ check (pubkey_offset =? PUBKEY_OFFSET) ;;
  let withdrawal_credentials_offset := from_be_bytes (sliceN 32 64 data) in
  _ <~ check (withdrawal_credentials_offset =? WITHDRAWAL_CREDENTIALS_OFFSET) ;;
  let amount_offset := from_be_bytes (sliceN 64 96 data) in
  _ <~ check (amount_offset =? AMOUNT_OFFSET) ;;
  let signature_offset := from_be_bytes (sliceN 96 128 data) in
  _ <~ check (signature_offset =? SIGNATURE_OFFSET) ;;
  let index_offset := from_be_bytes (sliceN 128 160 data) in
  _ <~ check (index_offset =? INDEX_OFFSET) ;;
  let pubkey_size := from_be_bytes (sliceN pubkey_offset (pubkey_offset + 32) data) in
  _ <~ check (pubkey_size =? PUBKEY_SIZE) ;;
  let pubkey := sliceN (pubkey_offset + 32) (pubkey_offset + 32 + PUBKEY_SIZE) data in
  let withdrawal_credentials_size := from_be_bytes
    (sliceN withdrawal_credentials_offset (withdrawal_credentials_offset + 32) data) in
  _ <~ check (withdrawal_credentials_size =? WITHDRAWAL_CREDENTIALS_SIZE) ;;
  let withdrawal_credentials := sliceN (withdrawal_credentials_offset + 32)
    (withdrawal_credentials_offset + 32 + WITHDRAWAL_CREDENTIALS_SIZE) data in
  let amount_size := from_be_bytes (sliceN amount_offset (amount_offset + 32) data) in
  _ <~ check (amount_size =? AMOUNT_SIZE) ;;
  let amount := sliceN (amount_offset + 32) (amount_offset + 32 + AMOUNT_SIZE) data in
  let signature_size := from_be_bytes (sliceN signature_offset (signature_offset + 32) data) in
  _ <~ check (signature_size =? SIGNATURE_SIZE) ;;
  let signature := sliceN (signature_offset + 32) (signature_offset + 32 + SIGNATURE_SIZE) data in
  let index_size := from_be_bytes (sliceN index_offset (index_offset + 32) data) in
  _ <~ check (index_size =? INDEX_SIZE) ;;
  let index := sliceN (index_offset + 32) (index_offset + 32 + INDEX_SIZE) data in
  Done (pubkey ++ withdrawal_credentials ++ amount ++ signature ++ index).

(** src/ethereum/osaka/requests.py:159-167: the loop over the logs of one
    receipt *)
Fixpoint deposits_of_logs (logs : list log) (deposit_requests : bytes) : outcome bytes :=
  match logs with
  | [] => Done deposit_requests
  | l :: rest =>
      if (log_address l =? DEPOSIT_CONTRACT_ADDRESS)
         && match log_topics l with t :: _ => t =? DEPOSIT_EVENT_SIGNATURE_HASH | [] => false end
      then request <~ extract_deposit_data (log_data l) ;;
           deposits_of_logs rest (deposit_requests ++ request)
      else deposits_of_logs rest deposit_requests
  end.

(** src/ethereum/osaka/requests.py:150-169: [receipts] are the entries of
    [receipts_trie] under [receipt_keys], in order. *)
Fixpoint deposits_of_receipts (receipts : list (option encoded_receipt)) (deposit_requests : bytes)
  : outcome bytes :=
  match receipts with
  | [] => Done deposit_requests
  | None :: _ => Fail (FCrash AssertionError)
  | Some r :: rest =>
      decoded_receipt <~ decode_receipt r ;;
      deposit_requests <~ deposits_of_logs (rc_logs decoded_receipt) deposit_requests ;;
      deposits_of_receipts rest deposit_requests
  end.

(** src/ethereum/osaka/requests.py:172-190 *)
Definition compute_requests_hash (cr : crypto) (requests : list bytes) : bytes :=
  sha256_digest cr (concat (map (sha256_digest cr) requests)).
