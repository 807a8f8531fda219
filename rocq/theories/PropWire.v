(** * PropWire: C89, the layout of everything that is hashed or signed.

    The encodings of transactions, signed messages, receipts, headers,
    withdrawals and blocks, field by field and in order.  C28, C29 and C47 show
    that encodings determine what they encode; this fixes which encodings they
    are. *)
From Verif Require Import Base State Rlp Vm Instructions Precompiles Interpreter NumericProofs RlpProofs PropRlp
  Bloom Transactions Trie Blocks Requests Fork PropTx PropBlocks EvmExamples ForkExamples.
From Coq Require Import ZifyBool ZifyN ZifyNat.
Ltac Zify.zify_post_hook ::= idtac.

(** ** Strings *)

(** A number is a string of bytes without leading zero byte, most significant
    byte first; zero is the empty string. *)
Definition shortest (x : N) (b : bytes) : Prop :=
  from_be_bytes b = x /\ match b with [] => True | c :: _ => c <> Byte.x00 end.
(** A value of exactly [k] bytes *)
Definition padded (k x : N) (b : bytes) : Prop := from_be_bytes b = x /\ lenN b = k.

Theorem C89_strings x :
  (forall r, r = RUint x <-> exists b, r = RBytes b /\ shortest x b) /\
  (x < 2 ^ 160 -> forall r, r = RAddress x <-> exists b, r = RBytes b /\ padded 20 x b) /\
  (x < 2 ^ 256 -> forall r, r = RBytes32 x <-> exists b, r = RBytes b /\ padded 32 x b).
Proof.
  split; [|split].
  - intros r. split.
    + intros ->. exists (to_be_bytes x). split; [done|]. split; [apply from_to_be_bytes|].
      destruct (decide (x = 0)) as [->|Hx]; [done|]. destruct (to_be_bytes_head x Hx) as (c & l & -> & Hc).
      by intros ->.
    + intros (b & -> & <- & H). destruct b as [|c l]; [done|]. unfold RUint. rewrite to_from_be_bytes; [done|].
      intros E. apply H. by apply byte_to_N_inj.
  - intros Hx r. split.
    + intros ->. exists (to_be_bytes20 x). split; [done|]. split; [by apply from_to_be_bytes20|].
      unfold to_be_bytes20. by rewrite to_be_fixed_len.
    + intros (b & -> & <- & L). unfold RAddress, to_be_bytes20.
      replace 20%nat with (length b) by (unfold lenN in L; lia). by rewrite to_from_be_fixed.
  - intros Hx r. split.
    + intros ->. exists (to_be_bytes32 x). split; [done|]. split; [by apply from_to_be_bytes32|].
      apply lenN_to_be_bytes32.
    + intros (b & -> & <- & L). unfold RBytes32. f_equal. by apply word_of_slice.
Qed.

(** ** Transactions *)

(** The type byte of EIP-2718 *)
Definition kind (tx : transaction) : bytes :=
  match tx with
  | Legacy _ => [] | AccessList _ => [Byte.x01] | FeeMarket _ => [Byte.x02]
  | Blob _ => [Byte.x03] | SetCode _ => [Byte.x04]
  end.
(** What the sender agrees to: the chain (typed transactions), nonce, prices,
    gas, destination, value and data, the access list (typed transactions) and
    what is particular to the type. *)
Definition chain (tx : transaction) : list rlp :=
  match tx with
  | Legacy _ => []
  | AccessList t => [RUint (at_chain_id t)]
  | FeeMarket t => [RUint (ft_chain_id t)]
  | Blob t => [RUint (bt_chain_id t)]
  | SetCode t => [RUint (ct_chain_id t)]
  end.
Definition prices (tx : transaction) : list N :=
  match tx with
  | Legacy t => [lt_gas_price t]
  | AccessList t => [at_gas_price t]
  | FeeMarket t => [ft_max_priority_fee_per_gas t; ft_max_fee_per_gas t]
  | Blob t => [bt_max_priority_fee_per_gas t; bt_max_fee_per_gas t]
  | SetCode t => [ct_max_priority_fee_per_gas t; ct_max_fee_per_gas t]
  end.
Definition destination (to : option address) : rlp :=
  match to with Some a => RAddress a | None => RBytes [] end.
Definition announced_accesses (tx : transaction) : list rlp :=
  match tx_access_list tx with
  | None => []
  | Some l => [RList (map (fun a => RList [RAddress (ac_account a); RList (map RBytes32 (ac_slots a))]) l)]
  end.
(** The message of an authorization of EIP-7702 *)
Definition authorized (a : authorization) : list rlp :=
  [RUint (a_chain_id a); RAddress (a_address a); RUint (a_nonce a)].
Definition particular (tx : transaction) : list rlp :=
  match tx with
  | Blob t => [RUint (bt_max_fee_per_blob_gas t); RList (map RBytes32 (bt_blob_versioned_hashes t))]
  | SetCode t =>
      [RList (map (fun a => RList (authorized a ++ [RUint (a_y_parity a); RUint (a_r a); RUint (a_s a)]))
         (ct_authorizations t))]
  | _ => []
  end.
Definition message (tx : transaction) : list rlp :=
  chain tx ++ [RUint (tx_nonce tx)] ++ map RUint (prices tx) ++
  [RUint (tx_gas tx); destination (tx_to tx); RUint (tx_value tx); RBytes (tx_data tx)] ++
  announced_accesses tx ++ particular tx.
(** [v] of a legacy transaction, the parity of the others *)
Definition sign (tx : transaction) : N :=
  match tx with
  | Legacy t => lt_v t | AccessList t => at_y_parity t | FeeMarket t => ft_y_parity t
  | Blob t => bt_y_parity t | SetCode t => ct_y_parity t
  end.
Definition signature (tx : transaction) : list rlp := [RUint (sign tx); RUint (tx_r tx); RUint (tx_s tx)].

(** A transaction on the wire is its type, and the list of the message and the
    signature; its hash is that of these bytes. *)
Theorem C89_transaction tx :
  wire tx = kind tx ++ encode (RList (message tx ++ signature tx)).
Proof. destruct tx as [t|t|t|t|t]; reflexivity. Qed.
Theorem C89_transaction_hash cr tx :
  get_transaction_hash cr (encode_transaction tx) =
  keccak256 cr (kind tx ++ encode (RList (message tx ++ signature tx))).
Proof. destruct tx as [t|t|t|t|t]; reflexivity. Qed.

(** The sender of an accepted transaction signed its type and message, without
    the signature; a legacy transaction with another [v] than 27 and 28 is
    signed with the chain and two zeros at the end (EIP-155), and its [v] names
    the chain. *)
Theorem C89_sender cr chain_id tx a : recover_sender cr chain_id tx = Done a ->
  exists parity tail key,
    secp256k1_recover cr (tx_r tx) (tx_s tx) parity
      (keccak256 cr (kind tx ++ encode (RList (message tx ++ tail)))) = Some key /\
    a = from_be_bytes (sliceN 12 32 (keccak256 cr key)) /\
    ((kind tx <> [] /\ sign tx = parity /\ tail = []) \/
     (kind tx = [] /\ sign tx = 27 + parity /\ tail = []) \/
     (kind tx = [] /\ sign tx = 35 + 2 * chain_id + parity /\ tail = [RUint chain_id; RUint 0; RUint 0])) /\
    parity <= 1.
Proof.
  unfold recover_sender.
  destruct ((tx_r tx <=? 0) || (SECP256K1N <=? tx_r tx)); [done|].
  destruct ((tx_s tx <=? 0) || (SECP256K1N / 2 <? tx_s tx)); [done|].
  assert (P : forall y, negb ((y =? 0) || (y =? 1)) = false -> y <= 1) by (intros y; lia).
  assert (G : forall p q v b, p = q ->
    obind (recover_with cr (tx_r tx) (tx_s tx) v (keccak256 cr p))
      (fun key => Done (from_be_bytes (sliceN 12 32 (keccak256 cr key)))) = Done b ->
    exists key, secp256k1_recover cr (tx_r tx) (tx_s tx) v (keccak256 cr q) = Some key /\
      b = from_be_bytes (sliceN 12 32 (keccak256 cr key))).
  { intros p q v b ->. unfold recover_with. destruct secp256k1_recover as [k|]; [|done].
    cbn [of_option obind]. intros [= <-]. by exists k. }
  destruct tx as [t|t|t|t|t].
  2-5: match goal with |- context [negb ?b] => destruct (negb b) eqn:E end; [done|]; apply P in E;
    intros H; eapply G in H as (k & H1 & H2); [|shelve];
    eexists _, [], k; (split; [exact H1|]); (split; [exact H2|]); (split; [left|exact E]); by repeat split.
  Unshelve. 2-5: rewrite app_nil_r; reflexivity.
  destruct (N.eqb_spec (lt_v t) 27) as [E1|E1].
  { cbn [orb]. intros H. eapply (G _ (kind (Legacy t) ++ encode (RList (message (Legacy t) ++ [])))) in H as (k & H1 & H2);
      [|rewrite app_nil_r; reflexivity].
    eexists _, [], k. split; [exact H1|]. split; [exact H2|]. cbn [sign kind]. split; [|lia]. right. left.
    repeat split. lia. }
  destruct (N.eqb_spec (lt_v t) 28) as [E2|E2].
  { cbn [orb]. intros H. eapply (G _ (kind (Legacy t) ++ encode (RList (message (Legacy t) ++ [])))) in H as (k & H1 & H2);
      [|rewrite app_nil_r; reflexivity].
    eexists _, [], k. split; [exact H1|]. split; [exact H2|]. cbn [sign kind]. split; [|lia]. right. left.
    repeat split. lia. }
  cbn [orb].
  destruct (negb (lt_v t =? 35 + chain_id * 2) && negb (lt_v t =? 36 + chain_id * 2)) eqn:E; [done|].
  intros H. eapply (G _ (kind (Legacy t) ++ encode (RList (message (Legacy t) ++ [RUint chain_id; RUint 0; RUint 0])))) in H
    as (k & H1 & H2); [|reflexivity].
  eexists _, _, k. split; [exact H1|]. split; [exact H2|]. cbn [sign kind]. split; [|lia]. right. right.
  repeat split. lia.
Qed.

(** An authority signed the byte 5 and the message of its authorization. *)
Theorem C89_authority cr au a : recover_authority cr au = Some a ->
  exists key,
    secp256k1_recover cr (a_r au) (a_s au) (a_y_parity au)
      (keccak256 cr (Byte.x05 :: encode (RList (authorized au)))) = Some key /\
    a = from_be_bytes (sliceN 12 32 (keccak256 cr key)).
Proof. intros H. apply C29_authority in H as (k & _ & _ & _ & H & ->). by exists k. Qed.

(** ** Receipts *)

(** A receipt on the wire is the type byte of its transaction and a list of
    the outcome (the number 1 or 0), the gas used so far in the block, the
    bloom filter and the logs. *)
Theorem C89_receipt tx r :
  receipt_wire (encode_receipt tx r) =
  kind tx ++ encode (RList
    [RUint (if rc_succeeded r then 1 else 0); RUint (rc_cumulative_gas_used r); RBytes (rc_bloom r);
     RList (map (fun l => RList [RAddress (log_address l); RList (map RBytes32 (log_topics l)); RBytes (log_data l)])
       (rc_logs r))]).
Proof. destruct tx, r as [[]]; reflexivity. Qed.

(** ** Headers and blocks *)

(** The fields of a header.  Each fork adds some at the end and keeps the
    others where they are. *)
Definition header_fields (h : header) : list rlp :=
  [RBytes (h_parent_hash h); RBytes (h_ommers_hash h); RAddress (h_coinbase h); RBytes (h_state_root h);
   RBytes (h_transactions_root h); RBytes (h_receipt_root h); RBytes (h_bloom h); RUint (h_difficulty h);
   RUint (h_number h); RUint (h_gas_limit h); RUint (h_gas_used h); RUint (h_timestamp h);
   RBytes (h_extra_data h); RBytes32 (h_prev_randao h); RBytes (h_nonce h); RUint (h_base_fee_per_gas h);
   RBytes (h_withdrawals_root h);
   RUint (h_blob_gas_used h); RUint (h_excess_blob_gas h); RBytes32 (h_parent_beacon_block_root h);
   RBytes (h_requests_hash h)].
Definition field_count (f : pos_fork) : nat :=
  match f with Paris => 16 | Shanghai => 17 | Cancun => 20 | Prague | Osaka => 21 end.
Theorem C89_header h :
  header_rlp h = RList (firstn (field_count (h_fork h)) (header_fields h)).
Proof. unfold header_rlp. destruct (h_fork h); reflexivity. Qed.

Theorem C89_withdrawal w :
  withdrawal_rlp w = RList [RUint (wd_index w); RUint (wd_validator_index w); RAddress (wd_address w); RUint (wd_amount w)].
Proof. reflexivity. Qed.

(** A block is a list of its header, transactions, ommers and, since Shanghai,
    withdrawals.  A legacy transaction stands in it as a list, the others as
    strings. *)
Theorem C89_block b txs : bl_transactions b = map encode_transaction txs ->
  block_rlp b = RList (firstn (if decide (h_fork (bl_header b) = Paris) then 3 else 4)
    [RList (firstn (field_count (h_fork (bl_header b))) (header_fields (bl_header b)));
     RList (map (fun tx => match tx with
              | Legacy _ => RList (message tx ++ signature tx)
              | _ => RBytes (wire tx)
              end) txs);
     RList (map header_rlp (bl_ommers b));
     RList (map withdrawal_rlp (bl_withdrawals b))]).
Proof.
  intros E. unfold block_rlp. rewrite C89_header, E, map_map.
  assert (EM : map (fun x => encoded_tx_rlp (encode_transaction x)) txs = map (fun tx => match tx with
              | Legacy _ => RList (message tx ++ signature tx)
              | _ => RBytes (wire tx)
              end) txs).
  { apply map_ext. intros tx. by destruct tx as [t|t|t|t|t]. }
  rewrite EM. destruct (h_fork (bl_header b)); reflexivity.
Qed.

(** ** A concrete case *)

(** The bytes of a small legacy transaction and of its signed message *)
Definition ex_wire : legacy_tx := LegacyTx 9 1000 21000 (Some 0x3535) 5 [Byte.xab] 37 7 8.
Example C89_nonvacuous :
  wire (Legacy ex_wire) =
    [Byte.xe2; Byte.x09; Byte.x82; Byte.x03; Byte.xe8; Byte.x82; Byte.x52; Byte.x08; Byte.x94] ++ zeros 18 ++
    [Byte.x35; Byte.x35; Byte.x05; Byte.x81; Byte.xab; Byte.x25; Byte.x07; Byte.x08] /\
  encode (RList (message (Legacy ex_wire) ++ [RUint 1; RUint 0; RUint 0])) =
    [Byte.xe2; Byte.x09; Byte.x82; Byte.x03; Byte.xe8; Byte.x82; Byte.x52; Byte.x08; Byte.x94] ++ zeros 18 ++
    [Byte.x35; Byte.x35; Byte.x05; Byte.x81; Byte.xab; Byte.x01; Byte.x80; Byte.x80] /\
  (exists a, recover_sender ex_crypto 1 (Legacy ex_wire) = Done a) /\
  shortest 1000 [Byte.x03; Byte.xe8] /\
  (forall f, lenN (header_fields (ex_header 5)) = 21 /\ (field_count f <= 21)%nat).
Proof.
  split; [vm_compute; reflexivity|]. split; [vm_compute; reflexivity|].
  split; [eexists; vm_compute; reflexivity|]. split; [done|]. intros f. split; [done|]. destruct f; cbn; lia.
Qed.

Definition PropWire_theorems :=
  (@C89_strings, @C89_transaction, @C89_transaction_hash, @C89_sender, @C89_authority, @C89_receipt, @C89_header,
   @C89_withdrawal, @C89_block).
Print Assumptions PropWire_theorems.
