(** * PropTx: properties C28 (transaction encoding), C29 (signing hashes) and
    C43 (intrinsic gas). *)
From Verif Require Import Base State Rlp Vm Instructions Precompiles Interpreter NumericProofs RlpProofs
  Transactions EvmExamples.
From Coq Require Import ZifyBool ZifyN ZifyNat.
Ltac Zify.zify_post_hook ::= idtac.

(** ** Ranges of the Python field types *)
Definition typed_to (to : option address) : Prop :=
  match to with None => True | Some a => a < 2 ^ 160 end.
Definition typed_access (a : access) : Prop :=
  ac_account a < 2 ^ 160 /\ Forall (fun k => k < 2 ^ 256) (ac_slots a).
Definition typed_authorization (a : authorization) : Prop :=
  a_chain_id a < 2 ^ 256 /\ a_address a < 2 ^ 160 /\ a_nonce a < 2 ^ 64 /\
  a_y_parity a < 2 ^ 8 /\ a_r a < 2 ^ 256 /\ a_s a < 2 ^ 256.
Definition typed_legacy (t : legacy_tx) : Prop :=
  lt_nonce t < 2 ^ 256 /\ typed_to (lt_to t) /\ lt_value t < 2 ^ 256 /\
  lt_v t < 2 ^ 256 /\ lt_r t < 2 ^ 256 /\ lt_s t < 2 ^ 256.
Definition typed_access_list (t : access_list_tx) : Prop :=
  at_chain_id t < 2 ^ 64 /\ at_nonce t < 2 ^ 256 /\ typed_to (at_to t) /\ at_value t < 2 ^ 256 /\
  Forall typed_access (at_access_list t) /\
  at_y_parity t < 2 ^ 256 /\ at_r t < 2 ^ 256 /\ at_s t < 2 ^ 256.
Definition typed_fee_market (t : fee_market_tx) : Prop :=
  ft_chain_id t < 2 ^ 64 /\ ft_nonce t < 2 ^ 256 /\ typed_to (ft_to t) /\ ft_value t < 2 ^ 256 /\
  Forall typed_access (ft_access_list t) /\
  ft_y_parity t < 2 ^ 256 /\ ft_r t < 2 ^ 256 /\ ft_s t < 2 ^ 256.
Definition typed_blob (t : blob_tx) : Prop :=
  bt_chain_id t < 2 ^ 64 /\ bt_nonce t < 2 ^ 256 /\ bt_to t < 2 ^ 160 /\ bt_value t < 2 ^ 256 /\
  Forall typed_access (bt_access_list t) /\ bt_max_fee_per_blob_gas t < 2 ^ 256 /\
  Forall (fun h => h < 2 ^ 256) (bt_blob_versioned_hashes t) /\
  bt_y_parity t < 2 ^ 256 /\ bt_r t < 2 ^ 256 /\ bt_s t < 2 ^ 256.
Definition typed_set_code (t : set_code_tx) : Prop :=
  ct_chain_id t < 2 ^ 64 /\ ct_nonce t < 2 ^ 64 /\ ct_to t < 2 ^ 160 /\ ct_value t < 2 ^ 256 /\
  Forall typed_access (ct_access_list t) /\ Forall typed_authorization (ct_authorizations t) /\
  ct_y_parity t < 2 ^ 256 /\ ct_r t < 2 ^ 256 /\ ct_s t < 2 ^ 256.
Definition typed_tx (tx : transaction) : Prop :=
  match tx with
  | Legacy t => typed_legacy t | AccessList t => typed_access_list t
  | FeeMarket t => typed_fee_market t | Blob t => typed_blob t | SetCode t => typed_set_code t
  end.

(** The bytes of a transaction: what its hash is taken of, and what appears
    (for a typed one, as a string) in a block. *)
Definition wire (tx : transaction) : bytes :=
  match encode_transaction tx with
  | ELegacy t => encode (legacy_rlp t)
  | EBytes b => b
  end.

(** ** Decoding of fields *)
Lemma d_uint_ok x : d_uint (RUint x) = Some x.
Proof. unfold d_uint, RUint. cbn [d_bytes]. cbn. by rewrite from_to_be_bytes. Qed.
Lemma d_fixed_ok n x : x < 256 ^ n -> d_fixed n (RUint x) = Some x.
Proof.
  intros H. unfold d_fixed, RUint. rewrite from_to_be_bytes.
  destruct (N.leb_spec (lenN (to_be_bytes x)) n) as [|L]; [done|].
  pose proof (to_be_bytes_len_le x n H). lia.
Qed.
Lemma d_address_ok a : a < 2 ^ 160 -> d_exact 20 (RAddress a) = Some a.
Proof.
  intros H. unfold d_exact, RAddress. unfold to_be_bytes20 at 1. rewrite to_be_fixed_len.
  by rewrite from_to_be_bytes20.
Qed.
Lemma d_bytes32_ok x : x < 2 ^ 256 -> d_exact 32 (RBytes32 x) = Some x.
Proof.
  intros H. unfold d_exact, RBytes32. rewrite lenN_to_be_bytes32. by rewrite from_to_be_bytes32.
Qed.
Lemma d_to_ok to : typed_to to -> d_to (r_to to) = Some to.
Proof.
  destruct to as [a|]; [|done]. cbn [typed_to r_to]. intros H. unfold RAddress, d_to.
  assert (L : lenN (to_be_bytes20 a) = 20) by (unfold to_be_bytes20; by rewrite to_be_fixed_len).
  assert (E : from_be_bytes (to_be_bytes20 a) = a) by (by apply from_to_be_bytes20).
  revert L E. generalize (to_be_bytes20 a). intros [|x b] L E; [done|]. rewrite L, E. done.
Qed.
Lemma d_list_ok {A} (f : rlp -> option A) g l :
  Forall (fun x => f (g x) = Some x) l -> d_list f (RList (map g l)) = Some l.
Proof.
  intros H. cbn [d_list]. induction H as [|x l Hx H IH]; [done|].
  cbn [map]. cbn. rewrite Hx. cbn. by rewrite IH.
Qed.
Lemma d_access_ok a : typed_access a -> d_access (r_access a) = Some a.
Proof.
  intros [H1 H2]. unfold d_access, r_access. rewrite d_address_ok by done. unfold mbind, option_bind.
  rewrite d_list_ok; [by destruct a|]. eapply Forall_impl; [exact H2|]. intros x. apply d_bytes32_ok.
Qed.
Lemma d_authorization_ok a : typed_authorization a -> d_authorization (r_authorization a) = Some a.
Proof.
  intros (H1 & H2 & H3 & H4 & H5 & H6). unfold d_authorization, r_authorization.
  rewrite !d_fixed_ok by done. rewrite d_address_ok by done. unfold mbind, option_bind. by destruct a.
Qed.
Lemma d_accesses_ok l : Forall typed_access l -> d_list d_access (RList (map r_access l)) = Some l.
Proof. intros H. apply d_list_ok. eapply Forall_impl; [exact H|]. apply d_access_ok. Qed.
Lemma d_authorizations_ok l : Forall typed_authorization l ->
  d_list d_authorization (RList (map r_authorization l)) = Some l.
Proof. intros H. apply d_list_ok. eapply Forall_impl; [exact H|]. apply d_authorization_ok. Qed.
Lemma d_hashes_ok l : Forall (fun h => h < 2 ^ 256) l ->
  d_list (d_exact 32) (RList (map RBytes32 l)) = Some l.
Proof. intros H. apply d_list_ok. eapply Forall_impl; [exact H|]. intros x. apply d_bytes32_ok. Qed.

Ltac decode_fields :=
  repeat (first [rewrite d_uint_ok | rewrite d_fixed_ok by done | rewrite d_to_ok by done
    | rewrite d_address_ok by done | rewrite d_accesses_ok by done
    | rewrite d_authorizations_ok by done | rewrite d_hashes_ok by done ]);
  cbn [d_bytes]; unfold mbind, option_bind.

Lemma d_legacy_ok t : typed_legacy t -> d_legacy (legacy_rlp t) = Some t.
Proof. intros (?&?&?&?&?&?). unfold d_legacy, legacy_rlp. decode_fields. by destruct t. Qed.
Lemma d_access_list_ok t : typed_access_list t -> d_access_list (access_list_rlp t) = Some t.
Proof. intros (?&?&?&?&?&?&?&?). unfold d_access_list, access_list_rlp. decode_fields. by destruct t. Qed.
Lemma d_fee_market_ok t : typed_fee_market t -> d_fee_market (fee_market_rlp t) = Some t.
Proof. intros (?&?&?&?&?&?&?&?). unfold d_fee_market, fee_market_rlp. decode_fields. by destruct t. Qed.
Lemma d_blob_ok t : typed_blob t -> d_blob (blob_rlp t) = Some t.
Proof. intros (?&?&?&?&?&?&?&?&?&?). unfold d_blob, blob_rlp. decode_fields. by destruct t. Qed.
Lemma d_set_code_ok t : typed_set_code t -> d_set_code (set_code_rlp t) = Some t.
Proof. intros (?&?&?&?&?&?&?&?&?). unfold d_set_code, set_code_rlp. decode_fields. by destruct t. Qed.

Lemma decode_to_ok {A} (f : rlp -> option A) r x : fits r -> f r = Some x ->
  decode_to f (encode r) = Done x.
Proof. intros Hr Hx. unfold decode_to. rewrite decode_encode by done. cbn. by rewrite Hx. Qed.

(** ** C28 *)

(** The transaction types of a fork: blob transactions came with Cancun,
    set-code transactions with Prague. *)
Definition known_in (f : pos_fork) (tx : transaction) : Prop :=
  match tx, f with
  | Blob _, (Paris | Shanghai) => False
  | SetCode _, (Paris | Shanghai | Cancun) => False
  | _, _ => True
  end.

(** Encoding then decoding gives the transaction back, for all types of the
    fork. *)
Theorem C28_roundtrip f tx : typed_tx tx -> known_in f tx -> lenN (wire tx) < 2 ^ 64 ->
  decode_transaction f (encode_transaction tx) = Done tx.
Proof.
  unfold wire. destruct tx as [t|t|t|t|t]; cbn [typed_tx encode_transaction decode_transaction];
    intros HT HK HL; [done|..]; rewrite lenN_cons in HL; cbn -[decode_to encode access_list_rlp
    fee_market_rlp blob_rlp set_code_rlp N.pow at_least]; unfold known_in in HK;
    try (assert (at_least Cancun f = true) as -> by (by destruct f));
    try (assert (at_least Prague f = true) as -> by (by destruct f));
    rewrite ?andb_false_r; cbn [andb].
  - rewrite (decode_to_ok _ _ t); [done|unfold fits; lia|by apply d_access_list_ok].
  - rewrite (decode_to_ok _ _ t); [done|unfold fits; lia|by apply d_fee_market_ok].
  - rewrite (decode_to_ok _ _ t); [done|unfold fits; lia|by apply d_blob_ok].
  - rewrite (decode_to_ok _ _ t); [done|unfold fits; lia|by apply d_set_code_ok].
Qed.

(** A legacy transaction inside the RLP of a block. *)
Theorem C28_legacy_wire t : typed_legacy t -> lenN (wire (Legacy t)) < 2 ^ 64 ->
  decode_to d_legacy (wire (Legacy t)) = Done t.
Proof. intros HT HL. apply decode_to_ok; [exact HL|by apply d_legacy_ok]. Qed.

(** The first byte of an encoded sequence. *)
Lemma encode_list_head l : fits (RList l) ->
  exists b r, encode (RList l) = b :: r /\ 192 <= Byte.to_N b.
Proof.
  unfold fits. cbn [encode]. intros H. rewrite lenN_app in H.
  pose proof (encode_length_header 192 (lenN (concat (map encode l))) ltac:(lia) ltac:(lia)) as Hh.
  destruct Hh as [c H1 H2|c b1 r H1 H2 H3 H4 H5]; cbn [app]; eexists _, _; (split; [done|]); lia.
Qed.

(** Different transactions, of the same type or not, have different bytes. *)
Theorem C28_injective tx1 tx2 :
  typed_tx tx1 -> typed_tx tx2 -> lenN (wire tx1) < 2 ^ 64 -> lenN (wire tx2) < 2 ^ 64 ->
  wire tx1 = wire tx2 -> tx1 = tx2.
Proof.
  intros T1 T2 L1 L2 E.
  assert (HL : forall t tx, typed_tx tx -> lenN (wire (Legacy t)) < 2 ^ 64 -> wire (Legacy t) = wire tx ->
    exists t', tx = Legacy t').
  { intros t tx _ L Ew. destruct tx as [t'|t'|t'|t'|t']; [by eexists|..]; exfalso;
      (assert (F : fits (legacy_rlp t)) by exact L);
      destruct (encode_list_head _ F) as (b & r & Eb & Hb); unfold wire in Ew;
      cbn [encode_transaction] in Ew; unfold legacy_rlp in Ew; rewrite Eb in Ew; injection Ew as -> _;
      vm_compute in Hb; by destruct Hb. }
  destruct tx1 as [t1|t1|t1|t1|t1].
  { destruct (HL t1 tx2 T2 L1 E) as [t2 ->].
    pose proof (C28_legacy_wire t1 T1 L1) as D1. pose proof (C28_legacy_wire t2 T2 L2) as D2. congruence. }
  all: pose proof (C28_roundtrip Osaka _ T1 I L1) as D1;
    assert (K2 : known_in Osaka tx2) by (by destruct tx2);
    pose proof (C28_roundtrip Osaka _ T2 K2 L2) as D2;
    destruct tx2 as [t2|t2|t2|t2|t2];
    [destruct (HL t2 _ T1 L2 (eq_sym E)) as [? [=]]|..];
    cbn [encode_transaction] in D1, D2; unfold wire in E; cbn [encode_transaction] in E; congruence.
Qed.

(** The transaction hash identifies the transaction, or the two byte strings
    hashed are a collision. *)
Theorem C28_transaction_hash cr tx1 tx2 :
  typed_tx tx1 -> typed_tx tx2 -> lenN (wire tx1) < 2 ^ 64 -> lenN (wire tx2) < 2 ^ 64 ->
  get_transaction_hash cr (encode_transaction tx1) = get_transaction_hash cr (encode_transaction tx2) ->
  tx1 = tx2 \/ (wire tx1 <> wire tx2 /\ keccak256 cr (wire tx1) = keccak256 cr (wire tx2)).
Proof.
  intros T1 T2 L1 L2 E.
  assert (H : forall tx, get_transaction_hash cr (encode_transaction tx) = keccak256 cr (wire tx))
    by (by intros []).
  rewrite !H in E. destruct (decide (wire tx1 = wire tx2)) as [Ew|Ew]; [left|by right].
  by apply C28_injective.
Qed.

(** Only the type bytes of the fork decode. *)
Theorem C28_unknown_type f b data tx :
  decode_transaction f (EBytes (b :: data)) = Done tx ->
  known_in f tx /\
  match tx with
  | Legacy _ => False | AccessList _ => b = Byte.x01 | FeeMarket _ => b = Byte.x02
  | Blob _ => b = Byte.x03 | SetCode _ => b = Byte.x04
  end.
Proof.
  assert (HB : forall n, Byte.to_N b = n -> byte_of_N n = b) by (intros n <-; apply byte_to_N_of_N).
  cbn [decode_transaction].
  destruct (N.eqb_spec (Byte.to_N b) 1) as [E|E1].
  { destruct (decode_to _ _); intros [= <-]. split; [done|]. symmetry. by apply (HB 1). }
  destruct (N.eqb_spec (Byte.to_N b) 2) as [E|E2].
  { destruct (decode_to _ _); intros [= <-]. split; [done|]. symmetry. by apply (HB 2). }
  destruct (N.eqb_spec (Byte.to_N b) 3) as [E|E3].
  { rewrite andb_true_r. assert (E4 : Byte.to_N b =? 4 = false) by (apply N.eqb_neq; lia). rewrite E4, andb_false_r.
    destruct (at_least Cancun f) eqn:Ef; [|done].
    destruct (decode_to _ _); intros [= <-]. split; [by destruct f|]. symmetry. by apply (HB 3). }
  rewrite andb_false_r. destruct (N.eqb_spec (Byte.to_N b) 4) as [E|E4]; [|by rewrite andb_false_r].
  rewrite andb_true_r. destruct (at_least Prague f) eqn:Ef; [|done].
  destruct (decode_to _ _); intros [= <-]. split; [by destruct f|]. symmetry. by apply (HB 4).
Qed.

(** ** C29 *)

(** Everything an Ethereum key signs for this fork: the two legacy forms, the
    four typed transactions and EIP-7702 authorizations. *)
Inductive signable :=
| SgPre155 (t : legacy_tx) | Sg155 (t : legacy_tx) (chain_id : N)
| Sg2930 (t : access_list_tx) | Sg1559 (t : fee_market_tx)
| Sg4844 (t : blob_tx) | Sg7702 (t : set_code_tx) | SgAuthorization (a : authorization).

(** The bytes hashed for the signature. *)
Definition preimage (x : signable) : bytes :=
  match x with
  | SgPre155 t => preimage_pre155 t | Sg155 t c => preimage_155 t c
  | Sg2930 t => preimage_2930 t | Sg1559 t => preimage_1559 t
  | Sg4844 t => preimage_4844 t | Sg7702 t => preimage_7702 t
  | SgAuthorization a => SET_CODE_TX_MAGIC ++
      encode (RList [RUint (a_chain_id a); RAddress (a_address a); RUint (a_nonce a)])
  end.

(** The same value with the signature fields blanked: all that is signed. *)
Definition unsigned_legacy (t : legacy_tx) : legacy_tx :=
  LegacyTx (lt_nonce t) (lt_gas_price t) (lt_gas t) (lt_to t) (lt_value t) (lt_data t) 0 0 0.
Definition unsigned (x : signable) : signable :=
  match x with
  | SgPre155 t => SgPre155 (unsigned_legacy t)
  | Sg155 t c => Sg155 (unsigned_legacy t) c
  | Sg2930 t => Sg2930 (AccessListTx (at_chain_id t) (at_nonce t) (at_gas_price t) (at_gas t)
      (at_to t) (at_value t) (at_data t) (at_access_list t) 0 0 0)
  | Sg1559 t => Sg1559 (FeeMarketTx (ft_chain_id t) (ft_nonce t) (ft_max_priority_fee_per_gas t)
      (ft_max_fee_per_gas t) (ft_gas t) (ft_to t) (ft_value t) (ft_data t) (ft_access_list t) 0 0 0)
  | Sg4844 t => Sg4844 (BlobTx (bt_chain_id t) (bt_nonce t) (bt_max_priority_fee_per_gas t)
      (bt_max_fee_per_gas t) (bt_gas t) (bt_to t) (bt_value t) (bt_data t) (bt_access_list t)
      (bt_max_fee_per_blob_gas t) (bt_blob_versioned_hashes t) 0 0 0)
  | Sg7702 t => Sg7702 (SetCodeTx (ct_chain_id t) (ct_nonce t) (ct_max_priority_fee_per_gas t)
      (ct_max_fee_per_gas t) (ct_gas t) (ct_to t) (ct_value t) (ct_data t) (ct_access_list t)
      (ct_authorizations t) 0 0 0)
  | SgAuthorization a => SgAuthorization (Authorization (a_chain_id a) (a_address a) (a_nonce a) 0 0 0)
  end.

Definition typed_signable (x : signable) : Prop :=
  match x with
  | SgPre155 t => typed_legacy t | Sg155 t c => typed_legacy t /\ c < 2 ^ 64
  | Sg2930 t => typed_access_list t | Sg1559 t => typed_fee_market t
  | Sg4844 t => typed_blob t | Sg7702 t => typed_set_code t
  | SgAuthorization a => typed_authorization a
  end.

Lemma RUint_inj x y : RUint x = RUint y -> x = y.
Proof. intros H. apply (f_equal d_uint) in H. rewrite !d_uint_ok in H. congruence. Qed.
Lemma r_to_inj x y : typed_to x -> typed_to y -> r_to x = r_to y -> x = y.
Proof. intros Hx Hy H. apply (f_equal d_to) in H. rewrite !d_to_ok in H by done. congruence. Qed.
Lemma RAddress_inj x y : x < 2 ^ 160 -> y < 2 ^ 160 -> RAddress x = RAddress y -> x = y.
Proof. intros Hx Hy H. apply (f_equal (d_exact 20)) in H. rewrite !d_address_ok in H by done. congruence. Qed.
Lemma accesses_inj x y : Forall typed_access x -> Forall typed_access y ->
  RList (map r_access x) = RList (map r_access y) -> x = y.
Proof.
  intros Hx Hy H. apply (f_equal (d_list d_access)) in H. rewrite !d_accesses_ok in H by done. congruence.
Qed.
Lemma authorizations_inj x y : Forall typed_authorization x -> Forall typed_authorization y ->
  RList (map r_authorization x) = RList (map r_authorization y) -> x = y.
Proof.
  intros Hx Hy H. apply (f_equal (d_list d_authorization)) in H.
  rewrite !d_authorizations_ok in H by done. congruence.
Qed.
Lemma hashes_inj x y : Forall (fun h => h < 2 ^ 256) x -> Forall (fun h => h < 2 ^ 256) y ->
  RList (map RBytes32 x) = RList (map RBytes32 y) -> x = y.
Proof.
  intros Hx Hy H. apply (f_equal (d_list (d_exact 32))) in H.
  rewrite !d_hashes_ok in H by done. congruence.
Qed.

Lemma cons_eq {A} (a b : A) l m : a :: l = b :: m -> a = b /\ l = m.
Proof. by intros [= -> ->]. Qed.
Lemma RList_eq l m : RList l = RList m -> l = m.
Proof. by intros [= ->]. Qed.

(** The sequence in a preimage and the byte before it. *)
Definition prefix_byte (x : signable) : option byte :=
  match x with
  | SgPre155 _ | Sg155 _ _ => None
  | Sg2930 _ => Some Byte.x01 | Sg1559 _ => Some Byte.x02 | Sg4844 _ => Some Byte.x03
  | Sg7702 _ => Some Byte.x04 | SgAuthorization _ => Some Byte.x05
  end.
Definition seq_of (x : signable) : list rlp :=
  match x with
  | SgPre155 t => [RUint (lt_nonce t); RUint (lt_gas_price t); RUint (lt_gas t); r_to (lt_to t);
      RUint (lt_value t); RBytes (lt_data t)]
  | Sg155 t c => [RUint (lt_nonce t); RUint (lt_gas_price t); RUint (lt_gas t); r_to (lt_to t);
      RUint (lt_value t); RBytes (lt_data t); RUint c; RUint 0; RUint 0]
  | Sg2930 t => [RUint (at_chain_id t); RUint (at_nonce t); RUint (at_gas_price t); RUint (at_gas t);
      r_to (at_to t); RUint (at_value t); RBytes (at_data t); RList (map r_access (at_access_list t))]
  | Sg1559 t => [RUint (ft_chain_id t); RUint (ft_nonce t); RUint (ft_max_priority_fee_per_gas t);
      RUint (ft_max_fee_per_gas t); RUint (ft_gas t); r_to (ft_to t); RUint (ft_value t);
      RBytes (ft_data t); RList (map r_access (ft_access_list t))]
  | Sg4844 t => [RUint (bt_chain_id t); RUint (bt_nonce t); RUint (bt_max_priority_fee_per_gas t);
      RUint (bt_max_fee_per_gas t); RUint (bt_gas t); RAddress (bt_to t); RUint (bt_value t);
      RBytes (bt_data t); RList (map r_access (bt_access_list t));
      RUint (bt_max_fee_per_blob_gas t); RList (map RBytes32 (bt_blob_versioned_hashes t))]
  | Sg7702 t => [RUint (ct_chain_id t); RUint (ct_nonce t); RUint (ct_max_priority_fee_per_gas t);
      RUint (ct_max_fee_per_gas t); RUint (ct_gas t); RAddress (ct_to t); RUint (ct_value t);
      RBytes (ct_data t); RList (map r_access (ct_access_list t));
      RList (map r_authorization (ct_authorizations t))]
  | SgAuthorization a => [RUint (a_chain_id a); RAddress (a_address a); RUint (a_nonce a)]
  end.
Lemma preimage_seq x : preimage x =
  (match prefix_byte x with None => [] | Some b => [b] end) ++ encode (RList (seq_of x)).
Proof. by destruct x. Qed.

Lemma preimage_parts x y : lenN (preimage x) < 2 ^ 64 -> lenN (preimage y) < 2 ^ 64 ->
  preimage x = preimage y -> prefix_byte x = prefix_byte y /\ seq_of x = seq_of y.
Proof.
  rewrite !preimage_seq. intros L1 L2 E.
  assert (F1 : fits (RList (seq_of x))) by (unfold fits; rewrite lenN_app in L1; lia).
  assert (F2 : fits (RList (seq_of y))) by (unfold fits; rewrite lenN_app in L2; lia).
  assert (HP : forall z b, prefix_byte z = Some b -> Byte.to_N b < 192)
    by (intros [] b; cbn; try done; by intros [= <-]).
  destruct (prefix_byte x) as [b|] eqn:E1, (prefix_byte y) as [c|] eqn:E2; cbn [app] in E.
  - injection E as -> E. split; [done|]. apply RList_eq. by apply encode_inj.
  - destruct (encode_list_head _ F2) as (h & r & Eh & Hh). rewrite Eh in E. injection E as -> _.
    specialize (HP x h E1). lia.
  - destruct (encode_list_head _ F1) as (h & r & Eh & Hh). rewrite Eh in E. injection E as -> _.
    specialize (HP y c E2). lia.
  - split; [done|]. apply RList_eq. by apply encode_inj.
Qed.

Ltac split_seq H :=
  repeat (apply cons_eq in H; let E := fresh "E" in destruct H as [E H];
    first [apply RUint_inj in E | apply r_to_inj in E; [|done|done]
          | apply RAddress_inj in E; [|done|done] | apply accesses_inj in E; [|done|done]
          | apply authorizations_inj in E; [|done|done] | apply hashes_inj in E; [|done|done]
          | injection E as E ]).

(** Equal preimages mean the same kind (transaction type, replay-protected or
    not, authorization), the same chain id and the same value of every field
    other than the signature. *)
Theorem C29_preimages_bind x y :
  typed_signable x -> typed_signable y ->
  lenN (preimage x) < 2 ^ 64 -> lenN (preimage y) < 2 ^ 64 ->
  preimage x = preimage y -> unsigned x = unsigned y.
Proof.
  intros T1 T2 L1 L2 E. apply preimage_parts in E as [Ep Es]; [|done|done]. clear L1 L2.
  destruct x as [t|t c|t|t|t|t|a], y as [u|u d|u|u|u|u|b]; cbn [prefix_byte] in Ep; try discriminate Ep;
    cbn [typed_signable] in T1, T2; cbn [seq_of] in Es.
  - destruct T1 as (?&?&?&?&?&?), T2 as (?&?&?&?&?&?). split_seq Es.
    cbn. unfold unsigned_legacy. congruence.
  - exfalso. apply (f_equal length) in Es. done.
  - exfalso. apply (f_equal length) in Es. done.
  - destruct T1 as ((?&?&?&?&?&?)&?), T2 as ((?&?&?&?&?&?)&?). split_seq Es.
    cbn. unfold unsigned_legacy. congruence.
  - destruct T1 as (?&?&?&?&?&?&?&?), T2 as (?&?&?&?&?&?&?&?). split_seq Es. cbn. congruence.
  - destruct T1 as (?&?&?&?&?&?&?&?), T2 as (?&?&?&?&?&?&?&?). split_seq Es. cbn. congruence.
  - destruct T1 as (?&?&?&?&?&?&?&?&?&?), T2 as (?&?&?&?&?&?&?&?&?&?). split_seq Es. cbn. congruence.
  - destruct T1 as (?&?&?&?&?&?&?&?&?), T2 as (?&?&?&?&?&?&?&?&?). split_seq Es. cbn. congruence.
  - destruct T1 as (?&?&?&?&?&?), T2 as (?&?&?&?&?&?). split_seq Es. cbn. congruence.
Qed.

(** The same for the hashes, up to a collision of exactly these two strings. *)
Theorem C29_signing_hashes_bind cr x y :
  typed_signable x -> typed_signable y ->
  lenN (preimage x) < 2 ^ 64 -> lenN (preimage y) < 2 ^ 64 ->
  keccak256 cr (preimage x) = keccak256 cr (preimage y) ->
  unsigned x = unsigned y \/
  (preimage x <> preimage y /\ keccak256 cr (preimage x) = keccak256 cr (preimage y)).
Proof.
  intros T1 T2 L1 L2 H. destruct (decide (preimage x = preimage y)) as [E|E]; [left|by right].
  by apply C29_preimages_bind.
Qed.

(** What the sender of a transaction signed: for a legacy transaction the
    replay-protected form, unless [v] is 27 or 28. *)
Definition signed_by_sender (chain_id : N) (tx : transaction) : signable :=
  match tx with
  | Legacy t => if decide (lt_v t = 27 \/ lt_v t = 28) then SgPre155 t else Sg155 t chain_id
  | AccessList t => Sg2930 t | FeeMarket t => Sg1559 t | Blob t => Sg4844 t | SetCode t => Sg7702 t
  end.

(** The sender is the address of the key recovered from the signature over
    the hash of exactly that; [r], [s] and the parity are in range (and [s] in
    the lower half, so signatures are not malleable). *)
Theorem C29_sender cr chain_id tx a : recover_sender cr chain_id tx = Done a ->
  exists parity key,
    parity <= 1 /\ 0 < tx_r tx < SECP256K1N /\ 0 < tx_s tx <= SECP256K1N / 2 /\
    secp256k1_recover cr (tx_r tx) (tx_s tx) parity
      (keccak256 cr (preimage (signed_by_sender chain_id tx))) = Some key /\
    a = from_be_bytes (sliceN 12 32 (keccak256 cr key)).
Proof.
  unfold recover_sender. set (r := tx_r tx). set (s := tx_s tx).
  destruct (N.leb_spec r 0) as [|Hr]; [done|].
  destruct (N.leb_spec SECP256K1N r) as [|Hr']; [done|]. cbn [orb].
  destruct (N.leb_spec s 0) as [|Hs]; [done|].
  destruct (N.ltb_spec (SECP256K1N / 2) s) as [|Hs']; [done|]. cbn [orb].
  assert (G : forall v h b, v <= 1 ->
    obind (recover_with cr r s v h) (fun public_key => Done (from_be_bytes (sliceN 12 32 (keccak256 cr public_key)))) = Done b ->
    exists parity key, parity <= 1 /\ 0 < r < SECP256K1N /\ 0 < s <= SECP256K1N / 2 /\
      secp256k1_recover cr r s parity h = Some key /\ b = from_be_bytes (sliceN 12 32 (keccak256 cr key))).
  { intros v h b Hv. unfold recover_with. destruct (secp256k1_recover cr r s v h) as [k|] eqn:E; [|done].
    cbn [of_option obind]. intros [= <-]. exists v, k. done. }
  assert (P : forall y, negb ((y =? 0) || (y =? 1)) = false -> y <= 1).
  { intros y. destruct (N.eqb_spec y 0), (N.eqb_spec y 1); cbn; try done; lia. }
  destruct tx as [t|t|t|t|t]; cbn [signed_by_sender].
  2-5: match goal with |- context [negb ?b] => destruct (negb b) eqn:E end; [done|]; apply P in E;
    intros H; by apply (G _ _) in H.
  destruct (N.eqb_spec (lt_v t) 27) as [E1|E1].
  { rewrite decide_True by (by left). cbn [orb]. intros H.
    apply (G _ _) in H; [done|lia]. }
  destruct (N.eqb_spec (lt_v t) 28) as [E2|E2].
  { rewrite decide_True by (by right). cbn [orb]. intros H.
    apply (G _ _) in H; [done|lia]. }
  rewrite decide_False by (by intros [?|?]). cbn [orb].
  destruct (N.eqb_spec (lt_v t) (35 + chain_id * 2)) as [E3|E3];
    [|destruct (N.eqb_spec (lt_v t) (36 + chain_id * 2)) as [E4|E4]]; cbn [negb andb]; [| |done].
  - intros H. apply (G _ _) in H; [done|lia].
  - intros H. apply (G _ _) in H; [done|lia].
Qed.

(** Likewise the authority of an EIP-7702 authorization. *)
Theorem C29_authority cr au a : recover_authority cr au = Some a ->
  exists key, a_y_parity au <= 1 /\ 0 < a_r au < SECP256K1N /\ 0 < a_s au <= SECP256K1N / 2 /\
    secp256k1_recover cr (a_r au) (a_s au) (a_y_parity au)
      (keccak256 cr (preimage (SgAuthorization au))) = Some key /\
    a = from_be_bytes (sliceN 12 32 (keccak256 cr key)).
Proof.
  unfold recover_authority. change (preimage (SgAuthorization au)) with (SET_CODE_TX_MAGIC ++
    encode (RList [RUint (a_chain_id au); RAddress (a_address au); RUint (a_nonce au)])).
  generalize (SET_CODE_TX_MAGIC ++
    encode (RList [RUint (a_chain_id au); RAddress (a_address au); RUint (a_nonce au)])). intros p.
  set (r := a_r au). set (s := a_s au).
  destruct (N.eqb_spec (a_y_parity au) 0), (N.eqb_spec (a_y_parity au) 1); cbn [orb negb]; try done.
  all: destruct (N.leb_spec r 0) as [|Hr]; [done|];
    destruct (N.leb_spec SECP256K1N r) as [|Hr']; [done|]; cbn [orb];
    destruct (N.leb_spec s 0) as [|Hs]; [done|];
    destruct (N.ltb_spec (SECP256K1N / 2) s) as [|Hs']; [done|]; cbn [orb];
    destruct (secp256k1_recover cr r s (a_y_parity au) (keccak256 cr p)) as [k|] eqn:E; [|done];
    intros [= <-]; exists k; repeat split; try done; lia.
Qed.

(** The replay-protected legacy form of another chain is rejected: if [v]
    encodes chain id [c], the sender can only be recovered on chain [c]. *)
Theorem C40_legacy cr chain_id t c : lt_v t = 35 + 2 * c \/ lt_v t = 36 + 2 * c -> c <> chain_id ->
  recover_sender cr chain_id (Legacy t) = Fail (FInvalidTransaction InvalidSignatureError).
Proof.
  intros Hv Hc. unfold recover_sender.
  destruct ((tx_r (Legacy t) <=? 0) || (SECP256K1N <=? tx_r (Legacy t))); [done|].
  destruct ((tx_s (Legacy t) <=? 0) || (SECP256K1N / 2 <? tx_s (Legacy t))); [done|].
  destruct (N.eqb_spec (lt_v t) 27); [lia|]. destruct (N.eqb_spec (lt_v t) 28); [lia|]. cbn [orb].
  destruct (N.eqb_spec (lt_v t) (35 + chain_id * 2)); [lia|].
  destruct (N.eqb_spec (lt_v t) (36 + chain_id * 2)); [lia|]. done.
Qed.

(** ** C43 *)
Definition zero_bytes (d : bytes) : N := lenN (filter (fun b => b = Byte.x00) d).
Definition nonzero_bytes (d : bytes) : N := lenN (filter (fun b => b <> Byte.x00) d).
Definition words (n : N) : N := (n + 31) / 32.
Definition sumN {A} (f : A -> N) (l : list A) : N := fold_right (fun x n => f x + n) 0 l.
Definition is_creation (tx : transaction) : bool := match tx_to tx with None => true | Some _ => false end.
Definition access_of (tx : transaction) : list access := default [] (tx_access_list tx).
Definition authorizations_of (tx : transaction) : list authorization :=
  match tx with SetCode t => ct_authorizations t | _ => [] end.

Lemma count_zero_bytes d :
  fold_left (fun n b => if Byte.to_N b =? 0 then n + 1 else n) d 0 = zero_bytes d /\
  lenN d = zero_bytes d + nonzero_bytes d.
Proof.
  assert (G : forall n, fold_left (fun n b => if Byte.to_N b =? 0 then n + 1 else n) d n = n + zero_bytes d /\
    lenN d = zero_bytes d + nonzero_bytes d).
  { unfold zero_bytes, nonzero_bytes. induction d as [|b d IH]; intros n; [split; [symmetry; apply N.add_0_r|done]|].
    cbn [fold_left]. destruct (IH n) as [_ IH2].
    assert (Hb : Byte.to_N b = 0 <-> b = Byte.x00).
    { split; [|by intros ->]. intros H. rewrite <- (byte_to_N_of_N b), H. done. }
    rewrite !filter_cons. destruct (decide (b = Byte.x00)) as [E|E].
    - destruct (N.eqb_spec (Byte.to_N b) 0) as [E'|E']; [|tauto].
      rewrite (decide_False (P := b <> Byte.x00)) by tauto. rewrite !lenN_cons.
      destruct (IH (n + 1)) as [-> _]. lia.
    - destruct (N.eqb_spec (Byte.to_N b) 0) as [E'|E']; [tauto|].
      rewrite (decide_True (P := b <> Byte.x00)) by tauto. rewrite !lenN_cons.
      destruct (IH n) as [-> _]. lia. }
  destruct (G 0) as [-> G2]. split; [lia|done].
Qed.

Lemma init_code_cost_words n : init_code_cost n = 2 * words n.
Proof.
  unfold init_code_cost, words, GAS_INIT_CODE_WORD_COST. destruct (ceil32_spec n) as (H1 & H2 & H3).
  apply N.mod_divide in H3 as [q Hq]; [|lia]. rewrite Hq in *.
  replace ((n + 31) / 32) with q by (apply (N.div_unique _ _ _ (n + 31 - 32 * q)); lia).
  replace (2 * (q * 32)) with (2 * q * 32) by lia. apply N.div_mul. lia.
Qed.

(** The price of a word of init code (EIP-3860, Shanghai) and the floor price
    of the data (EIP-7623, Prague). *)
Definition init_word_price (f : pos_fork) : N := match f with Paris => 0 | _ => 2 end.
Definition data_floor (f : pos_fork) (tx : transaction) : N :=
  match f with
  | Paris | Shanghai | Cancun => 0
  | _ => 21000 + 10 * zero_bytes (tx_data tx) + 40 * nonzero_bytes (tx_data tx)
  end.

Theorem C43_intrinsic_exact f tx :
  fst (calculate_intrinsic_cost f tx) =
    21000 + 4 * zero_bytes (tx_data tx) + 16 * nonzero_bytes (tx_data tx)
    + (if is_creation tx then 32000 + init_word_price f * words (lenN (tx_data tx)) else 0)
    + 2400 * lenN (access_of tx) + 1900 * sumN (fun a => lenN (ac_slots a)) (access_of tx)
    + 25000 * lenN (authorizations_of tx) /\
  snd (calculate_intrinsic_cost f tx) = data_floor f tx.
Proof.
  unfold calculate_intrinsic_cost. destruct (count_zero_bytes (tx_data tx)) as [-> Hl]. rewrite Hl.
  assert (HA : forall l n, fold_left (fun c a =>
      c + TX_ACCESS_LIST_ADDRESS_COST + lenN (ac_slots a) * TX_ACCESS_LIST_STORAGE_KEY_COST) l n
    = n + 2400 * lenN l + 1900 * sumN (fun a => lenN (ac_slots a)) l).
  { induction l as [|a l IH]; intros n; cbn [fold_left sumN fold_right]; [change (lenN []) with 0; lia|].
    rewrite IH, lenN_cons. fold (sumN (fun a => lenN (ac_slots a)) l).
    unfold TX_ACCESS_LIST_ADDRESS_COST, TX_ACCESS_LIST_STORAGE_KEY_COST. lia. }
  assert (HA' : match tx_access_list tx with
    | Some l => fold_left (fun c a =>
        c + TX_ACCESS_LIST_ADDRESS_COST + lenN (ac_slots a) * TX_ACCESS_LIST_STORAGE_KEY_COST) l 0
    | None => 0 end = 2400 * lenN (access_of tx) + 1900 * sumN (fun a => lenN (ac_slots a)) (access_of tx)).
  { unfold access_of. destruct (tx_access_list tx); cbn [default]; [rewrite HA; unfold id; lia|done]. }
  rewrite HA'.
  assert (HC : match tx_to tx with
    | None => TX_CREATE_COST
        + (if at_least Shanghai f then init_code_cost (zero_bytes (tx_data tx) + nonzero_bytes (tx_data tx)) else 0)
    | Some _ => 0 end = if is_creation tx
        then 32000 + init_word_price f * words (zero_bytes (tx_data tx) + nonzero_bytes (tx_data tx)) else 0).
  { unfold is_creation. destruct (tx_to tx); [done|]. rewrite init_code_cost_words. by destruct f. }
  rewrite HC.
  assert (HU : match tx with SetCode t => PER_EMPTY_ACCOUNT_COST * lenN (ct_authorizations t) | _ => 0 end
    = 25000 * lenN (authorizations_of tx)) by (by destruct tx).
  rewrite HU. cbn [fst snd].
  unfold TX_BASE_COST, STANDARD_CALLDATA_TOKEN_COST, FLOOR_CALLDATA_COST. split; [lia|].
  unfold data_floor. destruct f; [by vm_compute..| |];
    match goal with |- context [if ?b then _ else _] => change b with true end; cbv iota; lia.
Qed.

(** Both costs grow with every part of the transaction. *)
Theorem C43_monotone f tx tx' :
  zero_bytes (tx_data tx) <= zero_bytes (tx_data tx') ->
  nonzero_bytes (tx_data tx) <= nonzero_bytes (tx_data tx') ->
  (is_creation tx = true -> is_creation tx' = true) ->
  lenN (access_of tx) <= lenN (access_of tx') ->
  sumN (fun a => lenN (ac_slots a)) (access_of tx) <= sumN (fun a => lenN (ac_slots a)) (access_of tx') ->
  lenN (authorizations_of tx) <= lenN (authorizations_of tx') ->
  fst (calculate_intrinsic_cost f tx) <= fst (calculate_intrinsic_cost f tx') /\
  snd (calculate_intrinsic_cost f tx) <= snd (calculate_intrinsic_cost f tx').
Proof.
  intros Hz Hn Hc Ha Hs Hu.
  destruct (C43_intrinsic_exact f tx) as [-> ->]. destruct (C43_intrinsic_exact f tx') as [-> ->].
  split; [|unfold data_floor; destruct f; lia].
  assert (words (lenN (tx_data tx)) <= words (lenN (tx_data tx'))).
  { unfold words. apply N.div_le_mono; [lia|].
    destruct (count_zero_bytes (tx_data tx)) as [_ ->]. destruct (count_zero_bytes (tx_data tx')) as [_ ->]. lia. }
  assert (init_word_price f * words (lenN (tx_data tx)) <= init_word_price f * words (lenN (tx_data tx')))
    by (by apply N.mul_le_mono_l).
  destruct (is_creation tx); [rewrite Hc by done|destruct (is_creation tx')]; lia.
Qed.

(** Validation accepts exactly the transactions whose gas limit covers both
    costs and, since Osaka, is at most 2^24, whose nonce is below 2^64 - 1 and
    whose init code (if any) is, since Shanghai, at most 49152 bytes; it returns
    the two costs. *)
Theorem C43_validate fk tx x :
  validate_transaction fk tx = Done x <->
  x = calculate_intrinsic_cost fk tx /\
  fst x <= tx_gas tx /\ snd x <= tx_gas tx /\ (fk = Osaka -> tx_gas tx <= 2 ^ 24) /\ tx_nonce tx < 2 ^ 64 - 1 /\
  (fk <> Paris -> is_creation tx = true -> lenN (tx_data tx) <= 49152).
Proof.
  unfold validate_transaction. destruct (calculate_intrinsic_cost fk tx) as [i f] eqn:E.
  change U64_MAX with (2 ^ 64 - 1). change TX_MAX_GAS_LIMIT with (2 ^ 24). change MAX_INIT_CODE_SIZE with 49152.
  destruct (N.ltb_spec (tx_gas tx) (N.max i f)) as [H1|H1].
  { split; [done|]. intros (-> & ? & ? & _). cbn [fst snd] in *. lia. }
  destruct (N.leb_spec (2 ^ 64 - 1) (tx_nonce tx)) as [H2|H2].
  { split; [done|]. intros (_ & _ & _ & _ & ? & _). lia. }
  change (match tx_to tx with None => true | Some _ => false end) with (is_creation tx).
  assert (S : at_least Shanghai fk = true <-> fk <> Paris) by (by destruct fk).
  assert (O : at_least Osaka fk = true <-> fk = Osaka) by (by destruct fk).
  destruct (at_least Shanghai fk && is_creation tx && (49152 <? lenN (tx_data tx))) eqn:E3.
  { apply andb_true_iff in E3 as [[E3 E4]%andb_true_iff E5%N.ltb_lt].
    split; [done|]. intros (_ & _ & _ & _ & _ & H). apply S in E3. specialize (H E3 E4). lia. }
  assert (L : fk <> Paris -> is_creation tx = true -> lenN (tx_data tx) <= 49152).
  { intros A%S B. rewrite A, B in E3. by apply N.ltb_ge in E3. }
  destruct (at_least Osaka fk && (2 ^ 24 <? tx_gas tx)) eqn:E4.
  { apply andb_true_iff in E4 as [E4%O E5%N.ltb_lt].
    split; [done|]. intros (_ & _ & _ & H & _). specialize (H E4). lia. }
  split; [|by intros (-> & _)]. intros [= <-]. cbn [fst snd]. repeat split; try done; try lia.
  intros A%O. rewrite A in E4. by apply N.ltb_ge in E4.
Qed.

(** ** Concrete cases *)
Definition ex_al : list access := [Access 0xaa [1; 2]; Access 0xbb []].
Definition ex_legacy : legacy_tx := LegacyTx 5 10 100000 (Some 0xaa) 7 (bs [0; 1; 2]) 37 11 12.
Definition ex_create : legacy_tx := LegacyTx 5 10 100000 None 7 (bs [0x60; 0; 0; 5]) 27 11 12.
Definition ex_2930 : access_list_tx := AccessListTx 1 5 10 100000 (Some 0xaa) 7 (bs [0; 1; 2]) ex_al 1 11 12.
Definition ex_1559 : fee_market_tx := FeeMarketTx 1 5 1 10 100000 None 7 (bs [0; 1; 2]) ex_al 0 11 12.
Definition ex_4844 : blob_tx :=
  BlobTx 1 5 1 10 100000 0xaa 7 (bs [0; 1; 2]) ex_al 3 [2 ^ 248; 2 ^ 248 + 1] 0 11 12.
Definition ex_7702 : set_code_tx :=
  SetCodeTx 1 5 1 10 100000 0xaa 7 (bs [0; 1; 2]) ex_al [Authorization 0 0xcc 3 1 11 12] 0 11 12.
Example C28_nonvacuous :
  Forall (fun tx => typed_tx tx /\ lenN (wire tx) < 2 ^ 64 /\
                    decode_transaction Osaka (encode_transaction tx) = Done tx)
    [Legacy ex_legacy; Legacy ex_create; AccessList ex_2930; FeeMarket ex_1559; Blob ex_4844; SetCode ex_7702].
Proof.
  repeat apply Forall_cons_2; [..|apply Forall_nil_2];
    (split; [unfold typed_tx, typed_legacy, typed_access_list, typed_fee_market, typed_blob, typed_set_code,
              typed_authorization, typed_to; cbn;
             repeat first [split | apply Forall_cons_2 | apply Forall_nil_2]; done|]);
    (split; [vm_compute; done|vm_compute; done]).
Qed.

(** A hash under which the recovered key is found. *)
Definition sig_crypto : crypto := {|
  keccak256 := toy_hash; sha256_digest := toy_hash; ripemd160_digest := toy_hash;
  secp256k1_recover := fun r s v h => Some (h ++ bs [v]); secp256r1_verify := fun _ _ _ _ _ => false;
  bn128_add := fun p _ => p; bn128_mul := fun p _ => p;
  bn128_g2_mul := fun p _ => p; bn128_pairing_is_one := fun _ => true;
  bls_g1_add := fun p _ => p; bls_g1_mul := fun p _ => p; bls_g2_add := fun p _ => p;
  bls_g2_mul := fun p _ => p; bls_g2_neg := fun p => p; bls_map_to_g1 := fun x => (x, x);
  bls_map_to_g2 := fun x => (x, x); bls_pairing_is_one := fun _ => true;
  bls_g1_generator := (1, 2); bls_g2_generator := ((1, 2), (3, 4));
  bls_pubkey_to_g1 := fun _ => None; bls_signature_to_g2 := fun _ => None;
  bls_key_validate := fun _ => false |}.
Example C29_nonvacuous :
  (forall x, In x [SgPre155 ex_legacy; Sg155 ex_legacy 1; Sg2930 ex_2930; Sg1559 ex_1559; Sg4844 ex_4844;
     Sg7702 ex_7702; SgAuthorization (Authorization 0 0xcc 3 1 11 12)] ->
     typed_signable x /\ lenN (preimage x) < 2 ^ 64) /\
  (exists a, recover_sender sig_crypto 1 (Legacy ex_legacy) = Done a) /\
  recover_sender sig_crypto 2 (Legacy ex_legacy) = Fail (FInvalidTransaction InvalidSignatureError) /\
  (exists a, recover_sender sig_crypto 2 (Legacy ex_create) = Done a) /\
  (exists a, recover_sender sig_crypto 1 (Blob ex_4844) = Done a) /\
  (exists a, recover_authority sig_crypto (Authorization 0 0xcc 3 1 11 12) = Some a).
Proof.
  split.
  - intros x Hx. cbn [In] in Hx.
    repeat (destruct Hx as [<-|Hx];
      [split; [unfold typed_signable, typed_legacy, typed_access_list, typed_fee_market, typed_blob, typed_set_code,
              typed_authorization, typed_to; cbn;
             repeat first [split | apply Forall_cons_2 | apply Forall_nil_2]; done|vm_compute; done]|]).
    destruct Hx.
  - refine (conj _ (conj _ (conj _ (conj _ _)))); [eexists; vm_compute; reflexivity|vm_compute; done|
      eexists; vm_compute; reflexivity|eexists; vm_compute; reflexivity|eexists; vm_compute; reflexivity].
Qed.

Example C43_nonvacuous :
  calculate_intrinsic_cost Prague (SetCode ex_7702) = (21000 + 36 + 4800 + 3800 + 25000, 21000 + 90) /\
  calculate_intrinsic_cost Prague (Legacy ex_create) = (21000 + 40 + 32000 + 2, 21000 + 100) /\
  validate_transaction Osaka (Legacy ex_create) = Done (53042, 21100) /\
  validate_transaction Cancun (Legacy ex_create) = Done (53042, 0) /\
  validate_transaction Paris (Legacy ex_create) = Done (53040, 0).
Proof. vm_compute. repeat split. Qed.

Definition PropTx_theorems :=
  (@C28_roundtrip, @C28_legacy_wire, @C28_injective, @C28_transaction_hash, @C28_unknown_type,
   @C29_preimages_bind, @C29_signing_hashes_bind, @C29_sender, @C29_authority, @C40_legacy,
   @C43_intrinsic_exact, @C43_monotone, @C43_validate).
Print Assumptions PropTx_theorems.
