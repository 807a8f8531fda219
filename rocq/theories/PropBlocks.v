(** * PropBlocks: properties C30 (receipts), C42 (deposit requests) and C47
    (header hashes). *)
From Verif Require Import Base State Rlp Vm NumericProofs RlpProofs Bloom Transactions PropTx Blocks
  Requests Fork EvmExamples.
From Coq Require Import ZifyBool ZifyN ZifyNat.
Ltac Zify.zify_post_hook ::= idtac.

(** ** Ranges of the Python field types *)
Definition typed_log (l : log) : Prop :=
  log_address l < 2 ^ 160 /\ Forall (fun t => t < 2 ^ 256) (log_topics l).
Definition typed_receipt (r : receipt) : Prop :=
  lenN (rc_bloom r) = 256 /\ Forall typed_log (rc_logs r).

(** The bytes of a receipt: the value stored in the receipts trie. *)
Definition receipt_wire (r : encoded_receipt) : bytes :=
  match r with
  | RcLegacy r => encode (receipt_rlp r)
  | RcBytes b => b
  end.

Lemma d_bool_ok b : d_bool (RBool b) = Some b.
Proof. by destruct b. Qed.
Lemma d_log_ok l : typed_log l -> d_log (log_rlp l) = Some l.
Proof. intros (?&?). unfold d_log, log_rlp. decode_fields. by destruct l. Qed.
Lemma d_receipt_ok r : typed_receipt r -> d_receipt (receipt_rlp r) = Some r.
Proof.
  intros (H1 & H2). unfold d_receipt, receipt_rlp. rewrite d_bool_ok. decode_fields.
  cbn [d_exact_bytes]. rewrite H1. cbn [N.eqb Pos.eqb].
  rewrite d_list_ok; [by destruct r|]. eapply Forall_impl; [exact H2|]. apply d_log_ok.
Qed.

(** ** C30 *)

(** Encoding then decoding gives the receipt back, for every transaction
    type. *)
Theorem C30_roundtrip tx r : typed_receipt r -> lenN (receipt_wire (encode_receipt tx r)) < 2 ^ 64 ->
  decode_receipt (encode_receipt tx r) = Done r.
Proof.
  intros HT HL. destruct tx; cbn [encode_receipt decode_receipt receipt_wire] in *; [done|..];
    rewrite lenN_cons in HL; cbn -[decode_to encode receipt_rlp N.pow];
    (apply decode_to_ok; [unfold fits; lia|by apply d_receipt_ok]).
Qed.

(** The bytes of a legacy receipt decode as well. *)
Theorem C30_legacy_wire r : typed_receipt r -> lenN (receipt_wire (RcLegacy r)) < 2 ^ 64 ->
  decode_to d_receipt (receipt_wire (RcLegacy r)) = Done r.
Proof. intros HT HL. apply decode_to_ok; [exact HL|by apply d_receipt_ok]. Qed.

(** The type byte of a transaction (EIP-2718); none for a legacy one. *)
Definition tx_type (tx : transaction) : N :=
  match tx with Legacy _ => 0 | AccessList _ => 1 | FeeMarket _ => 2 | Blob _ => 3 | SetCode _ => 4 end.

(** The bytes put in the receipts trie determine the receipt and the type of
    the transaction it is for. *)
Theorem C30_injective tx1 tx2 r1 r2 : typed_receipt r1 -> typed_receipt r2 ->
  lenN (receipt_wire (encode_receipt tx1 r1)) < 2 ^ 64 ->
  lenN (receipt_wire (encode_receipt tx2 r2)) < 2 ^ 64 ->
  receipt_wire (encode_receipt tx1 r1) = receipt_wire (encode_receipt tx2 r2) ->
  r1 = r2 /\ tx_type tx1 = tx_type tx2.
Proof.
  intros T1 T2 L1 L2 E.
  assert (HH : forall r b l, fits (receipt_rlp r) -> encode (receipt_rlp r) = b :: l -> Byte.to_N b < 192 -> False).
  { intros r b l F Eb Hb. destruct (encode_list_head _ F) as (b' & l' & E' & H').
    unfold receipt_rlp in Eb. rewrite E' in Eb. injection Eb as -> _. lia. }
  assert (HE : forall r b l, fits (receipt_rlp r) -> b :: l = encode (receipt_rlp r) -> Byte.to_N b < 192 -> False).
  { intros r b l F Eb. by eapply HH. }
  destruct tx1, tx2; cbn [encode_receipt receipt_wire tx_type] in *;
    try (by exfalso; eapply (HH r1); [exact L1|exact E|]);
    try (by exfalso; eapply (HE r2); [exact L2|exact E|]); try discriminate E;
    (split; [|done]); try injection E as E; rewrite ?lenN_cons in L1, L2;
    (assert (ER : receipt_rlp r1 = receipt_rlp r2) by (apply encode_inj; [unfold fits; lia..|done]));
    pose proof (d_receipt_ok r1 T1) as D1; pose proof (d_receipt_ok r2 T2) as D2; congruence.
Qed.

(** Only the four known type bytes are decoded; the assertion of the code
    fails for any other. *)
Theorem C30_unknown_type b data : Byte.to_N b < 1 \/ 4 < Byte.to_N b ->
  decode_receipt (RcBytes (b :: data)) = Fail (FCrash AssertionError).
Proof.
  intros H. cbn [decode_receipt].
  destruct (N.leb_spec 1 (Byte.to_N b)), (N.leb_spec (Byte.to_N b) 4); cbn; try done; lia.
Qed.

Definition ex_log : log := Log 0x1234 [1; 2] [Byte.x07; Byte.x08].
Definition ex_receipt : receipt := Receipt true 21000 (zeros 256) [ex_log; Log 5 [] []].
Definition ex_fee_market : transaction :=
  FeeMarket (FeeMarketTx 1 2 3 4 21000 (Some 5) 6 [] [] 0 1 1).

Example C30_nonvacuous :
  typed_receipt ex_receipt /\
  lenN (receipt_wire (encode_receipt ex_fee_market ex_receipt)) < 2 ^ 64 /\
  decode_receipt (encode_receipt ex_fee_market ex_receipt) = Done ex_receipt.
Proof.
  split; [|split]; [|done|by vm_compute]. split; [done|].
  constructor; [split; [done|by repeat constructor]|].
  constructor; [split; [done|constructor]|constructor].
Qed.

(** ** C42 *)

(** The ABI encoding of the event
    [DepositEvent(bytes pubkey, bytes withdrawal_credentials, bytes amount,
    bytes signature, bytes index)]: five offsets, then for each field its
    length and its bytes padded to a multiple of 32. The padding is [p1],
    [p2], [p3] (the other two fields need none). *)
Definition deposit_event (pubkey credentials amount signature index p1 p2 p3 : bytes) : bytes :=
  to_be_bytes32 160 ++ to_be_bytes32 256 ++ to_be_bytes32 320 ++ to_be_bytes32 384 ++ to_be_bytes32 512
  ++ to_be_bytes32 48 ++ pubkey ++ p1
  ++ to_be_bytes32 32 ++ credentials
  ++ to_be_bytes32 8 ++ amount ++ p2
  ++ to_be_bytes32 96 ++ signature
  ++ to_be_bytes32 8 ++ index ++ p3.
Definition deposit_sizes (pubkey credentials amount signature index p1 p2 p3 : bytes) : Prop :=
  lenN pubkey = 48 /\ lenN credentials = 32 /\ lenN amount = 8 /\ lenN signature = 96 /\
  lenN index = 8 /\ lenN p1 = 16 /\ lenN p2 = 24 /\ lenN p3 = 24.

Lemma sliceN_left {A} a b (x y : list A) : b <= lenN x -> sliceN a b (x ++ y) = sliceN a b x.
Proof.
  intros H. unfold sliceN. rewrite !takeN_firstn, !dropN_skipn.
  destruct (N.le_gt_cases a b) as [L|L].
  - rewrite skipn_app, firstn_app.
    replace (N.to_nat (b - a) - length (skipn (N.to_nat a) x))%nat with 0%nat;
      [by rewrite firstn_O, app_nil_r|]. rewrite skipn_length. unfold lenN in H. lia.
  - replace (N.to_nat (b - a)) with 0%nat by lia. by rewrite !firstn_O.
Qed.
Lemma sliceN_right {A} a b (x y : list A) : lenN x <= a ->
  sliceN a b (x ++ y) = sliceN (a - lenN x) (b - lenN x) y.
Proof.
  intros H. unfold sliceN. rewrite !takeN_firstn, !dropN_skipn. rewrite skipn_app.
  rewrite skipn_all2 by (unfold lenN in H; lia). cbn [app]. f_equal; [unfold lenN in *; lia|].
  f_equal. unfold lenN in *. lia.
Qed.
Lemma sliceN_whole {A} (l : list A) n : n = lenN l -> sliceN 0 n l = l.
Proof.
  intros ->. unfold sliceN. rewrite takeN_firstn, dropN_skipn. cbn [N.to_nat skipn].
  apply firstn_all2. unfold lenN. lia.
Qed.
Lemma sliceN_join {A} a b c (l : list A) : a <= b -> b <= c ->
  sliceN a b l ++ sliceN b c l = sliceN a c l.
Proof.
  intros H1 H2. unfold sliceN. rewrite !takeN_firstn, !dropN_skipn.
  replace (drop (N.to_nat b) l) with (drop (N.to_nat (b - a)) (drop (N.to_nat a) l))
    by (rewrite drop_drop; f_equal; lia).
  replace (N.to_nat (c - a)) with (N.to_nat (b - a) + N.to_nat (c - b))%nat by lia.
  generalize (skipn (N.to_nat a) l). intros m. generalize (N.to_nat (b - a)) as i, (N.to_nat (c - b)) as j.
  intros i. revert m. induction i as [|i IH]; intros m j; [done|]. destruct m as [|x m].
  - cbn. by destruct j.
  - cbn. f_equal. apply IH.
Qed.
Lemma sliceN_len {A} a b (l : list A) : b <= lenN l -> lenN (sliceN a b l) = b - a.
Proof.
  intros H. unfold sliceN. rewrite takeN_firstn, dropN_skipn. unfold lenN in *.
  rewrite firstn_length, skipn_length. lia.
Qed.

Lemma word_of_slice x y : lenN x = 32 -> from_be_bytes x = y -> x = to_be_bytes32 y.
Proof.
  intros L <-. unfold to_be_bytes32. replace 32%nat with (length x) by (unfold lenN in L; lia).
  symmetry. apply to_from_be_fixed.
Qed.

Ltac deposit_slice :=
  repeat (rewrite sliceN_right by (rewrite ?lenN_to_be_bytes32; lia)); rewrite ?lenN_to_be_bytes32;
  try (rewrite sliceN_left by (rewrite ?lenN_to_be_bytes32; lia));
  repeat match goal with H : lenN _ = _ |- _ => rewrite H end;
  rewrite sliceN_whole by (rewrite ?lenN_to_be_bytes32; lia).

(** Exactly the payloads with the ABI layout are accepted, and the result is
    the concatenation of the five fields. (The padding bytes are not looked
    at.) *)
Theorem C42_extract data result :
  extract_deposit_data data = Done result <->
  exists pubkey credentials amount signature index p1 p2 p3,
    deposit_sizes pubkey credentials amount signature index p1 p2 p3 /\
    data = deposit_event pubkey credentials amount signature index p1 p2 p3 /\
    result = pubkey ++ credentials ++ amount ++ signature ++ index.
Proof.
  split.
  - unfold extract_deposit_data, check, obind.
    destruct (N.eqb_spec (lenN data) DEPOSIT_EVENT_LENGTH) as [HL|]; [|done].
    destruct (N.eqb_spec (from_be_bytes (sliceN 0 32 data)) PUBKEY_OFFSET) as [H1|]; [|done].
    destruct (N.eqb_spec (from_be_bytes (sliceN 32 64 data)) WITHDRAWAL_CREDENTIALS_OFFSET) as [H2|]; [|done].
    destruct (N.eqb_spec (from_be_bytes (sliceN 64 96 data)) AMOUNT_OFFSET) as [H3|]; [|done].
    destruct (N.eqb_spec (from_be_bytes (sliceN 96 128 data)) SIGNATURE_OFFSET) as [H4|]; [|done].
    destruct (N.eqb_spec (from_be_bytes (sliceN 128 160 data)) INDEX_OFFSET) as [H5|]; [|done].
    rewrite H1, H2, H3, H4, H5.
    change (PUBKEY_OFFSET + 32 + PUBKEY_SIZE) with 240. change (PUBKEY_OFFSET + 32) with 192.
    change (WITHDRAWAL_CREDENTIALS_OFFSET + 32 + WITHDRAWAL_CREDENTIALS_SIZE) with 320.
    change (WITHDRAWAL_CREDENTIALS_OFFSET + 32) with 288.
    change (AMOUNT_OFFSET + 32 + AMOUNT_SIZE) with 360. change (AMOUNT_OFFSET + 32) with 352.
    change (SIGNATURE_OFFSET + 32 + SIGNATURE_SIZE) with 512. change (SIGNATURE_OFFSET + 32) with 416.
    change (INDEX_OFFSET + 32 + INDEX_SIZE) with 552. change (INDEX_OFFSET + 32) with 544.
    unfold PUBKEY_OFFSET, WITHDRAWAL_CREDENTIALS_OFFSET, AMOUNT_OFFSET, SIGNATURE_OFFSET, INDEX_OFFSET,
      PUBKEY_SIZE, WITHDRAWAL_CREDENTIALS_SIZE, AMOUNT_SIZE, SIGNATURE_SIZE, INDEX_SIZE,
      DEPOSIT_EVENT_LENGTH in *.
    destruct (N.eqb_spec (from_be_bytes (sliceN 160 192 data)) 48) as [H6|]; [|done].
    destruct (N.eqb_spec (from_be_bytes (sliceN 256 288 data)) 32) as [H7|]; [|done].
    destruct (N.eqb_spec (from_be_bytes (sliceN 320 352 data)) 8) as [H8|]; [|done].
    destruct (N.eqb_spec (from_be_bytes (sliceN 384 416 data)) 96) as [H9|]; [|done].
    destruct (N.eqb_spec (from_be_bytes (sliceN 512 544 data)) 8) as [H10|]; [|done].
    intros [= <-].
    exists (sliceN 192 240 data), (sliceN 288 320 data), (sliceN 352 360 data), (sliceN 416 512 data),
      (sliceN 544 552 data), (sliceN 240 256 data), (sliceN 360 384 data), (sliceN 552 576 data).
    split; [|split; [|done]].
    { unfold deposit_sizes. rewrite !sliceN_len by lia. done. }
    unfold deposit_event.
    rewrite <- (word_of_slice _ _ (sliceN_len 0 32 data ltac:(lia)) H1).
    rewrite <- (word_of_slice _ _ (sliceN_len 32 64 data ltac:(lia)) H2).
    rewrite <- (word_of_slice _ _ (sliceN_len 64 96 data ltac:(lia)) H3).
    rewrite <- (word_of_slice _ _ (sliceN_len 96 128 data ltac:(lia)) H4).
    rewrite <- (word_of_slice _ _ (sliceN_len 128 160 data ltac:(lia)) H5).
    rewrite <- (word_of_slice _ _ (sliceN_len 160 192 data ltac:(lia)) H6).
    rewrite <- (word_of_slice _ _ (sliceN_len 256 288 data ltac:(lia)) H7).
    rewrite <- (word_of_slice _ _ (sliceN_len 320 352 data ltac:(lia)) H8) at 1.
    rewrite <- (word_of_slice _ _ (sliceN_len 384 416 data ltac:(lia)) H9).
    rewrite <- (word_of_slice _ _ (sliceN_len 512 544 data ltac:(lia)) H10).
    rewrite !sliceN_join by lia. rewrite <- HL. symmetry. by apply sliceN_whole.
  - intros (pk & wc & am & sg & ix & p1 & p2 & p3 & (L1 & L2 & L3 & L4 & L5 & L6 & L7 & L8) & -> & ->).
    set (data := deposit_event pk wc am sg ix p1 p2 p3).
    assert (HL : lenN data = 576).
    { unfold data, deposit_event. rewrite !lenN_app, !lenN_to_be_bytes32. lia. }
    assert (S1 : sliceN 0 32 data = to_be_bytes32 160) by (unfold data, deposit_event; by deposit_slice).
    assert (S2 : sliceN 32 64 data = to_be_bytes32 256) by (unfold data, deposit_event; by deposit_slice).
    assert (S3 : sliceN 64 96 data = to_be_bytes32 320) by (unfold data, deposit_event; by deposit_slice).
    assert (S4 : sliceN 96 128 data = to_be_bytes32 384) by (unfold data, deposit_event; by deposit_slice).
    assert (S5 : sliceN 128 160 data = to_be_bytes32 512) by (unfold data, deposit_event; by deposit_slice).
    assert (S6 : sliceN 160 192 data = to_be_bytes32 48) by (unfold data, deposit_event; by deposit_slice).
    assert (S7 : sliceN 192 240 data = pk) by (unfold data, deposit_event; by deposit_slice).
    assert (S8 : sliceN 256 288 data = to_be_bytes32 32) by (unfold data, deposit_event; by deposit_slice).
    assert (S9 : sliceN 288 320 data = wc) by (unfold data, deposit_event; by deposit_slice).
    assert (S10 : sliceN 320 352 data = to_be_bytes32 8) by (unfold data, deposit_event; by deposit_slice).
    assert (S11 : sliceN 352 360 data = am) by (unfold data, deposit_event; by deposit_slice).
    assert (S12 : sliceN 384 416 data = to_be_bytes32 96) by (unfold data, deposit_event; by deposit_slice).
    assert (S13 : sliceN 416 512 data = sg) by (unfold data, deposit_event; by deposit_slice).
    assert (S14 : sliceN 512 544 data = to_be_bytes32 8) by (unfold data, deposit_event; by deposit_slice).
    assert (S15 : sliceN 544 552 data = ix) by (unfold data, deposit_event; by deposit_slice).
    clearbody data. unfold extract_deposit_data.
    rewrite HL, S1, S2, S3, S4, S5, !from_to_be_bytes32 by done.
    change (160 + 32 + PUBKEY_SIZE) with 240. change (160 + 32) with 192.
    change (256 + 32 + WITHDRAWAL_CREDENTIALS_SIZE) with 320. change (256 + 32) with 288.
    change (320 + 32 + AMOUNT_SIZE) with 360. change (320 + 32) with 352.
    change (384 + 32 + SIGNATURE_SIZE) with 512. change (384 + 32) with 416.
    change (512 + 32 + INDEX_SIZE) with 552. change (512 + 32) with 544.
    rewrite S6, S7, S8, S9, S10, S11, S12, S13, S14, S15, !from_to_be_bytes32 by done. done.
Qed.

(** Encoding any five fields of the right sizes and extracting gives them
    back, as 192 bytes; the result determines the fields. *)
Theorem C42_roundtrip pubkey credentials amount signature index :
  deposit_sizes pubkey credentials amount signature index (zeros 16) (zeros 24) (zeros 24) ->
  exists r, extract_deposit_data (deposit_event pubkey credentials amount signature index
                                    (zeros 16) (zeros 24) (zeros 24)) = Done r /\
    lenN r = 192 /\ sliceN 0 48 r = pubkey /\ sliceN 48 80 r = credentials /\
    sliceN 80 88 r = amount /\ sliceN 88 184 r = signature /\ sliceN 184 192 r = index.
Proof.
  intros Hs. exists (pubkey ++ credentials ++ amount ++ signature ++ index).
  pose proof Hs as (L1 & L2 & L3 & L4 & L5 & _).
  split; [apply C42_extract; by eexists _, _, _, _, _, _, _, _|].
  split; [rewrite !lenN_app; lia|].
  split_and!; by deposit_slice.
Qed.

(** Anything else is an invalid block, never another exception. *)
Theorem C42_reject data e : extract_deposit_data data = Fail e -> e = FInvalidBlock.
Proof.
  unfold extract_deposit_data, check, obind.
  repeat (match goal with |- context [if ?b then _ else _] => destruct b end; try by intros [= <-]).
Qed.

(** A log is a deposit iff it is emitted by the deposit contract and its first
    topic is the hash of the event signature. *)
Definition deposit_log (l : log) : Prop :=
  log_address l = DEPOSIT_CONTRACT_ADDRESS /\ head (log_topics l) = Some DEPOSIT_EVENT_SIGNATURE_HASH.
Global Instance deposit_log_dec l : Decision (deposit_log l).
Proof. unfold deposit_log. apply _. Defined.

(** The requests of a list of logs are those of its deposit logs, in order;
    every deposit log must have a valid payload. *)
Theorem C42_logs logs acc result :
  deposits_of_logs logs acc = Done result <->
  exists requests,
    Forall2 (fun l r => extract_deposit_data (log_data l) = Done r) (filter deposit_log logs) requests /\
    result = acc ++ concat requests.
Proof.
  revert acc. induction logs as [|l logs IH]; intros acc; cbn [deposits_of_logs].
  - rewrite filter_nil. split.
    + intros [= <-]. exists []. split; [constructor|]. cbn. by rewrite app_nil_r.
    + intros (rs & H & ->). inversion H; subst. cbn. by rewrite app_nil_r.
  - assert (HB : (log_address l =? DEPOSIT_CONTRACT_ADDRESS)
       && match log_topics l with t :: _ => t =? DEPOSIT_EVENT_SIGNATURE_HASH | [] => false end = true
       <-> deposit_log l).
    { unfold deposit_log. rewrite andb_true_iff, N.eqb_eq. destruct (log_topics l) as [|t ts]; cbn.
      - split; by intros [? [=]].
      - rewrite N.eqb_eq. split; intros [? H]; split; congruence. }
    destruct ((log_address l =? DEPOSIT_CONTRACT_ADDRESS) && _) eqn:E.
    + rewrite filter_cons_True by (by apply HB).
      destruct (extract_deposit_data (log_data l)) as [r|f] eqn:Er; cbn [obind].
      * rewrite IH. split.
        -- intros (rs & H & ->). exists (r :: rs). split; [by constructor|]. cbn. by rewrite app_assoc.
        -- intros (rs & H & ->). inversion H as [|? r' ? rs' H1 H2]; subst. exists rs'. split; [done|].
           rewrite Er in H1. injection H1 as ->. cbn. by rewrite app_assoc.
      * split; [done|]. intros (rs & H & _). inversion H as [|? r' ? rs' H1 H2]; subst. congruence.
    + rewrite filter_cons_False; [apply IH|]. intros H%HB. congruence.
Qed.

Definition ex_deposit : bytes :=
  deposit_event (repeat Byte.x11 48) (repeat Byte.x22 32) (repeat Byte.x33 8) (repeat Byte.x44 96)
    (repeat Byte.x55 8) (zeros 16) (zeros 24) (zeros 24).
Definition ex_deposit_logs : list log :=
  [Log 7 [DEPOSIT_EVENT_SIGNATURE_HASH] [];
   Log DEPOSIT_CONTRACT_ADDRESS [DEPOSIT_EVENT_SIGNATURE_HASH] ex_deposit;
   Log DEPOSIT_CONTRACT_ADDRESS [] [Byte.x01]].
Example C42_nonvacuous :
  deposits_of_logs ex_deposit_logs [] =
    Done (repeat Byte.x11 48 ++ repeat Byte.x22 32 ++ repeat Byte.x33 8 ++ repeat Byte.x44 96
          ++ repeat Byte.x55 8) /\
  extract_deposit_data (Byte.x00 :: ex_deposit) = Fail FInvalidBlock.
Proof. vm_compute. repeat split. Qed.

(** ** C47 *)

(** Ranges of the header fields: hashes and roots of 32 bytes and so on are
    not needed; only the words and the address.  The fields which the class of
    the header does not have are blank. *)
Definition typed_header (h : header) : Prop :=
  h_coinbase h < 2 ^ 160 /\ h_prev_randao h < 2 ^ 256 /\ h_parent_beacon_block_root h < 2 ^ 256 /\
  match h_fork h with
  | Paris => h_withdrawals_root h = []
  | _ => True
  end /\
  match h_fork h with
  | Paris | Shanghai =>
      h_blob_gas_used h = 0 /\ h_excess_blob_gas h = 0 /\ h_parent_beacon_block_root h = 0
  | _ => True
  end /\
  match h_fork h with
  | Paris | Shanghai | Cancun => h_requests_hash h = []
  | _ => True
  end.

(** The headers of Prague and Osaka have the same fields: they are told apart by
    the package only.  [as_read h] is the header with the first fork whose class
    has the fields of [h]. *)
Definition with_fork (f : pos_fork) (h : header) : header :=
  Header f (h_parent_hash h) (h_ommers_hash h) (h_coinbase h) (h_state_root h) (h_transactions_root h)
    (h_receipt_root h) (h_bloom h) (h_difficulty h) (h_number h) (h_gas_limit h) (h_gas_used h)
    (h_timestamp h) (h_extra_data h) (h_prev_randao h) (h_nonce h) (h_base_fee_per_gas h)
    (h_withdrawals_root h) (h_blob_gas_used h) (h_excess_blob_gas h) (h_parent_beacon_block_root h)
    (h_requests_hash h).
Definition as_read (h : header) : header :=
  with_fork match h_fork h with Osaka => Prague | f => f end h.

(** A left inverse of [header_rlp]. *)
Definition d_header (r : rlp) : option header :=
  match r with
  | RList (RBytes f1 :: RBytes f2 :: f3 :: RBytes f4 :: RBytes f5 :: RBytes f6 :: RBytes f7 :: f8 :: f9 :: f10 :: f11
           :: f12 :: RBytes f13 :: f14 :: RBytes f15 :: f16 :: more) =>
      f3 ← d_exact 20 f3; f8 ← d_uint f8; f9 ← d_uint f9; f10 ← d_uint f10; f11 ← d_uint f11;
      f12 ← d_uint f12; f14 ← d_exact 32 f14; f16 ← d_uint f16;
      let made f := Header f f1 f2 f3 f4 f5 f6 f7 f8 f9 f10 f11 f12 f13 f14 f15 f16 in
      match more with
      | [] => Some (made Paris [] 0 0 0 [])
      | [RBytes f17] => Some (made Shanghai f17 0 0 0 [])
      | [RBytes f17; f18; f19; f20] =>
          f18 ← d_uint f18; f19 ← d_uint f19; f20 ← d_exact 32 f20; Some (made Cancun f17 f18 f19 f20 [])
      | [RBytes f17; f18; f19; f20; RBytes f21] =>
          f18 ← d_uint f18; f19 ← d_uint f19; f20 ← d_exact 32 f20; Some (made Prague f17 f18 f19 f20 f21)
      | _ => None
      end
  | _ => None
  end.
Lemma d_header_ok h : typed_header h -> d_header (header_rlp h) = Some (as_read h).
Proof.
  intros (H1 & H2 & H3 & H4 & H5 & H6). destruct h as [fk]. cbn in H1, H2, H3, H4, H5, H6.
  destruct fk; repeat match goal with H : _ /\ _ |- _ => destruct H end; subst;
    unfold d_header, header_rlp, as_read, with_fork, h_fork;
    unfold at_least, fork_rank, N.leb, N.compare, Pos.compare, Pos.compare_cont; cbn [app];
    rewrite !d_bytes32_ok by done; decode_fields; done.
Qed.

(** The hash of a header identifies every one of its fields (and its class, but
    for the classes of Prague and Osaka, which have the same fields), or the two
    encodings are a collision of keccak256. *)
Theorem C47_header_hash cr h1 h2 : typed_header h1 -> typed_header h2 ->
  lenN (encode (header_rlp h1)) < 2 ^ 64 -> lenN (encode (header_rlp h2)) < 2 ^ 64 ->
  header_hash cr h1 = header_hash cr h2 ->
  as_read h1 = as_read h2 \/
  (encode (header_rlp h1) <> encode (header_rlp h2) /\
   keccak256 cr (encode (header_rlp h1)) = keccak256 cr (encode (header_rlp h2))).
Proof.
  intros T1 T2 F1 F2 E. destruct (decide (encode (header_rlp h1) = encode (header_rlp h2))) as [Ee|Ee].
  - left. apply encode_inj in Ee; [|done..]. pose proof (d_header_ok _ T1). pose proof (d_header_ok _ T2).
    congruence.
  - right. by split.
Qed.
(** Headers of the same fork are the same. *)
Theorem C47_as_read h1 h2 : as_read h1 = as_read h2 -> h_fork h1 = h_fork h2 -> h1 = h2.
Proof. destruct h1, h2. unfold as_read, with_fork. cbn. intros [= _ -> -> -> -> -> -> -> -> -> -> -> -> -> -> -> -> -> -> -> -> ->]. by intros ->. Qed.

Definition ex_header (number : N) : header :=
  Header Osaka (repeat Byte.x01 32) (repeat Byte.x02 32) 0xabc (repeat Byte.x03 32) (repeat Byte.x04 32)
    (repeat Byte.x05 32) (zeros 256) 0 number 30000000 21000 1000 [Byte.x68; Byte.x69] 77 (zeros 8) 7
    (repeat Byte.x06 32) 0 0 88 (repeat Byte.x07 32).
Example C47_nonvacuous :
  typed_header (ex_header 5) /\ lenN (encode (header_rlp (ex_header 5))) < 2 ^ 64 /\
  bytes_eqb (encode (header_rlp (ex_header 5))) (encode (header_rlp (ex_header 6))) = false.
Proof. vm_compute. repeat split. Qed.

Definition PropBlocks_theorems :=
  (@C30_roundtrip, @C30_legacy_wire, @C30_injective, @C30_unknown_type, @C42_extract, @C42_roundtrip,
   @C42_reject, @C42_logs, @C47_header_hash, @C47_as_read).
Print Assumptions PropBlocks_theorems.
