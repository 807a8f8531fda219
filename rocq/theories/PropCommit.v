(** * PropCommit: the header describes the block.

    C47 (the block hash commits to the whole block), C49 (the header of an
    accepted block agrees with its execution), and C23 and C42 for whole
    blocks. *)
From Verif Require Import Base State Rlp Vm Instructions Precompiles Interpreter StateSpec StateProofs
  NumericProofs RlpProofs PropTx Trie TrieProofs PropTrie Bloom PropBloom Transactions Blocks Requests Fork
  PropBlocks ForkProofs PropWithdrawals TxProofs PropTransaction PropChain EvmExamples ForkExamples
  PropHeader.
From Coq Require Import ZifyBool ZifyN ZifyNat.
Ltac Zify.zify_post_hook ::= idtac.

Local Opaque to_u256 from_be_bytes.

(** ** Decoded fields are in range *)
Lemma d_fixed_range n r x : d_fixed n r = Some x -> x < 256 ^ n.
Proof.
  destruct r as [b|]; cbn [d_fixed]; [|done]. destruct (N.leb_spec (lenN b) n); [|done].
  intros [= <-]. by apply from_be_lt_n.
Qed.
Lemma d_exact_range n r x : d_exact n r = Some x -> x < 256 ^ n.
Proof.
  destruct r as [b|]; cbn [d_exact]; [|done]. destruct (N.eqb_spec (lenN b) n); [|done].
  intros [= <-]. apply from_be_lt_n. lia.
Qed.
Lemma d_to_range r x : d_to r = Some x -> typed_to x.
Proof.
  destruct r as [b|]; cbn [d_to]; [|done]. destruct b as [|y b]; [by intros [= <-]|].
  destruct (N.eqb_spec (lenN (y :: b)) 20) as [L|]; [|done]. intros [= <-]. cbn [typed_to].
  change (2 ^ 160) with (256 ^ 20). apply from_be_lt_n. lia.
Qed.
Lemma d_list_range {A} (f : rlp -> option A) (P : A -> Prop) r l :
  (forall r x, f r = Some x -> P x) -> d_list f r = Some l -> Forall P l.
Proof.
  intros HP. destruct r as [|rs]; cbn [d_list]; [done|]. revert l.
  induction rs as [|r rs IH]; intros l H; cbn in H.
  - injection H as <-. constructor.
  - destruct (f r) as [x|] eqn:Ex; [|done]. cbn in H. destruct (mapM f rs) as [xs|] eqn:Es; [|done].
    cbn in H. injection H as <-. constructor; [by eapply HP|by apply IH].
Qed.
Ltac in_range :=
  lazymatch goal with
  | H : d_fixed 32 _ = Some ?x |- ?x < 2 ^ 256 => exact (d_fixed_range 32 _ _ H)
  | H : d_fixed 8 _ = Some ?x |- ?x < 2 ^ 64 => exact (d_fixed_range 8 _ _ H)
  | H : d_fixed 8 _ = Some ?x |- ?x < 2 ^ 256 =>
      exact (N.lt_trans _ _ _ (d_fixed_range 8 _ _ H) eq_refl)
  | H : d_fixed 1 _ = Some ?x |- ?x < 2 ^ 8 => exact (d_fixed_range 1 _ _ H)
  | H : d_exact 20 _ = Some ?x |- ?x < 2 ^ 160 => exact (d_exact_range 20 _ _ H)
  | H : d_exact 32 _ = Some ?x |- ?x < 2 ^ 256 => exact (d_exact_range 32 _ _ H)
  | H : d_to _ = Some ?x |- typed_to ?x => exact (d_to_range _ _ H)
  end.
Ltac decoded H :=
  repeat (lazymatch type of H with
    | (?o ≫= _) = Some _ =>
        let x := fresh "x" in let Hx := fresh "Hx" in apply bind_Some in H as (x & Hx & H)
    end); injection H as <-.
Lemma d_access_range r a : d_access r = Some a -> typed_access a.
Proof.
  intros H. unfold d_access in H. destruct r as [|[|a0 [|l0 [|]]]]; try done.
  decoded H. split; cbn; [in_range|]. eapply d_list_range; [|eassumption]. intros; by in_range.
Qed.
Lemma d_authorization_range r a : d_authorization r = Some a -> typed_authorization a.
Proof.
  intros H. unfold d_authorization in H. destruct r as [|[|? [|? [|? [|? [|? [|? [|]]]]]]]]; try done.
  decoded H. unfold typed_authorization; cbn. split_and!; in_range.
Qed.

(** Whatever decodes is in the ranges of the Python types. *)
Lemma decode_typed fk b tx : decode_transaction fk (EBytes b) = Done tx -> typed_tx tx.
Proof.
  assert (HD : forall A (f : rlp -> option A) data t, decode_to f data = Done t ->
    exists r, f r = Some t).
  { intros A f data t H. unfold decode_to in H. destruct (decode data) as [r|]; [|done]. cbn in H.
    exists r. destruct (f r); cbn in H; congruence. }
  destruct b as [|t data]; [done|]. cbn [decode_transaction].
  assert (HA : forall r l, d_list d_access r = Some l -> Forall typed_access l)
    by (intros r l; apply d_list_range, d_access_range).
  destruct (_ =? 1); [|destruct (_ =? 2); [|destruct (_ && (_ =? 3)); [|destruct (_ && (_ =? 4)); [|done]]]];
    (destruct (decode_to _ _) as [x|] eqn:E; [|done]); cbn [obind]; intros [= <-];
    apply HD in E as [r E]; cbn [typed_tx].
  - unfold d_access_list in E.
    destruct r as [|[|? [|? [|? [|? [|? [|? [|? [|? [|? [|? [|? [|]]]]]]]]]]]]]; try done.
    decoded E. unfold typed_access_list. cbn. split_and!; try in_range. by eapply HA.
  - unfold d_fee_market in E.
    destruct r as [|[|? [|? [|? [|? [|? [|? [|? [|? [|? [|? [|? [|? [|]]]]]]]]]]]]]]; try done.
    decoded E. unfold typed_fee_market. cbn. split_and!; try in_range. by eapply HA.
  - unfold d_blob in E.
    destruct r as [|[|? [|? [|? [|? [|? [|? [|? [|? [|? [|? [|? [|? [|? [|? [|]]]]]]]]]]]]]]]]; try done.
    decoded E. unfold typed_blob. cbn. split_and!; try in_range; [by eapply HA|].
    eapply d_list_range; [|eassumption]. intros; by in_range.
  - unfold d_set_code in E.
    destruct r as [|[|? [|? [|? [|? [|? [|? [|? [|? [|? [|? [|? [|? [|? [|]]]]]]]]]]]]]]]; try done.
    decoded E. unfold typed_set_code. cbn. split_and!; try in_range; [by eapply HA|].
    eapply d_list_range; [|eassumption]. apply d_authorization_range.
Qed.

(** ** Tries indexed by position *)
Definition index_key (j : nat) : bytes := encode (RUint (N.of_nat j)).

(** [t] maps the RLP of [0], [1], ... to the elements of [l], and nothing else. *)
Record holds {V} `{EqDecision V} (t : trie (option V)) (l : list V) : Prop := {
  ho_ok : trie_ok t;
  ho_secured : t_secured t = false;
  ho_default : t_default t = None;
  ho_in j v : nth_error l j = Some v -> trie_get t (index_key j) = Some v;
  ho_out k : (forall j, (j < length l)%nat -> k <> index_key j) -> trie_get t k = None;
}.

Lemma index_key_small (j : nat) : (N.of_nat j < 2 ^ 256) -> lenN (index_key j) < 2 ^ 58.
Proof.
  intros H. unfold index_key, RUint. pose proof (to_be_bytes_len_le _ 32 H) as L.
  clear H. eapply N.le_lt_trans; [apply encode_bytes_len|]; lia.
Qed.

Lemma same_nth {A} (l1 l2 : list A) : (forall j, nth_error l1 j = nth_error l2 j) -> l1 = l2.
Proof.
  revert l2. induction l1 as [|x l1 IH]; intros [|y l2] H; [done|by specialize (H 0%nat)..|].
  pose proof (H 0%nat) as [= ->]. f_equal. apply IH. intros j. apply (H (S j)).
Qed.

Lemma index_key_dec (n : nat) k : (exists j, (j < n)%nat /\ k = index_key j) \/
  (forall j, (j < n)%nat -> k <> index_key j).
Proof.
  induction n as [|n [(j & Hj & ->)|IH]].
  - right. intros j Hj. lia.
  - left. exists j. split; [lia|done].
  - destruct (decide (k = index_key n)) as [->|Hn]; [left; exists n; split; [lia|done]|].
    right. intros j Hj. destruct (decide (j = n)) as [->|]; [done|]. apply IH. lia.
Qed.

(** There are at most as many elements as bytes. *)
Lemma list_len_le l : lenN l <= lenN (encode (RList l)).
Proof.
  cbn [encode]. rewrite lenN_app. enough (lenN l <= lenN (concat (map encode l))) by lia.
  induction l as [|x l IH]; [done|]. cbn [map concat]. rewrite lenN_app, lenN_cons.
  destruct (encode_nonempty x) as (y & r & ->). rewrite lenN_cons. lia.
Qed.
Lemma in_list_le l x : In x l -> lenN (encode x) <= lenN (encode (RList l)).
Proof.
  cbn [encode]. rewrite lenN_app. intros H.
  enough (lenN (encode x) <= lenN (concat (map encode l))) by lia.
  induction l as [|y l IH]; [done|]. cbn [map concat]. rewrite lenN_app.
  destruct H as [<-|H]; [lia|]. specialize (IH H). lia.
Qed.

Section Commit.
  Context (cr : crypto) (keccak_32 : forall x, length (keccak256 cr x) = 32%nat).

  (** Two such tries with the same root hold the same encodings. *)
  Lemma holds_commit {V} `{EqDecision V} (enc : bytes -> option V -> bytes) (e : V -> bytes)
      (t1 t2 : trie (option V)) l1 l2 r :
    (forall k v, enc k (Some v) = e v) ->
    holds t1 l1 -> holds t2 l2 -> lenN l1 < 2 ^ 256 -> lenN l2 < 2 ^ 256 ->
    Forall (fun v => e v <> [] /\ lenN (e v) < 2 ^ 58) l1 ->
    Forall (fun v => e v <> [] /\ lenN (e v) < 2 ^ 58) l2 ->
    root cr enc t1 = Some r -> root cr enc t2 = Some r ->
    map e l1 = map e l2 \/ collides cr (fun x => hashes cr enc t1 x \/ hashes cr enc t2 x).
  Proof.
    intros He H1 H2 N1 N2 S1 S2 R1 R2.
    assert (HG : forall (t : trie (option V)) l k v, holds t l -> dict_get (t_data t) k = Some v ->
      exists j w, nth_error l j = Some w /\ v = Some w /\ k = index_key j).
    { intros t l k v [[O1 O2] Hs Hd Hi Ho] Hk.
      assert (Hg : trie_get t k = v) by (unfold trie_get; by rewrite Hk).
      destruct (index_key_dec (length l) k) as [(j & Hj & ->)|Hn].
      - destruct (nth_error l j) as [w|] eqn:Ew; [|apply nth_error_None in Ew; lia].
        exists j, w. split; [done|]. split; [|done]. rewrite <- Hg. by apply Hi.
      - exfalso. rewrite (Ho k Hn) in Hg. subst v. rewrite <- Hd in Hk. by apply (O2 k). }
    assert (HI : forall (t : trie (option V)) l j w, holds t l -> nth_error l j = Some w ->
      dict_get (t_data t) (index_key j) = Some (Some w)).
    { intros t l j w [[O1 O2] Hs Hd Hi Ho] Hj. pose proof (Hi j w Hj) as G. unfold trie_get in G.
      rewrite Hd in G. revert G. destruct (dict_get (t_data t) (index_key j)); [cbn; by intros ->|done]. }
    assert (HS : forall (t : trie (option V)) l, holds t l -> lenN l < 2 ^ 256 ->
      Forall (fun v => e v <> [] /\ lenN (e v) < 2 ^ 58) l -> trie_small enc t).
    { intros t l H HN HS k v Hk. destruct (HG t l k v H Hk) as (j & w & Hj & -> & ->).
      rewrite He. rewrite Forall_forall in HS. destruct (HS w) as [A B].
      { apply elem_of_list_In. by eapply nth_error_In. }
      split; [|done]. apply index_key_small.
      assert (j < length l)%nat by (apply nth_error_Some; congruence). unfold lenN in HN. lia. }
    destruct (C26_root_commits cr keccak_32 enc enc t1 t2 r) as [HE|HC];
      [apply H1|apply H2|by rewrite (ho_secured _ _ H1), (ho_secured _ _ H2)|by eapply HS|by eapply HS|done|done| |by right].
    left. apply same_nth. intros j. rewrite !nth_error_map. specialize (HE (index_key j)).
    destruct (N.lt_ge_cases (N.of_nat j) (2 ^ 256)) as [Hj|Hj].
    2:{ unfold lenN in N1, N2.
        rewrite (proj2 (nth_error_None l1 j)), (proj2 (nth_error_None l2 j)) by lia. done. }
    assert (HD : forall (t : trie (option V)) l, holds t l -> lenN l < 2 ^ 256 ->
      enc (index_key j) <$> dict_get (t_data t) (index_key j) = option_map e (nth_error l j)).
    { intros t l H HN. destruct (nth_error l j) as [w|] eqn:Ew.
      - rewrite (HI t l j w H Ew). cbn. by rewrite He.
      - destruct (dict_get (t_data t) (index_key j)) as [v|] eqn:Ev; [|done]. exfalso.
        destruct (HG t l _ v H Ev) as (i & w & Hi & -> & Ek).
        assert (Hl : (i < length l)%nat) by (apply nth_error_Some; congruence).
        apply nth_error_None in Ew. unfold lenN in HN.
        apply index_key_inj in Ek; lia. }
    rewrite (HD t1 l1 H1 N1), (HD t2 l2 H2 N2) in HE. done.
  Qed.

  (** ** What a block leaves in its tries *)
  Lemma holds_of {V} `{EqDecision V} (t0 t : trie (option V)) l :
    t0 = Trie false None [] -> trie_ok t -> t_secured t = t_secured t0 -> t_default t = t_default t0 ->
    (forall j v, nth_error l j = Some v -> trie_get t (encode (RUint (0 + N.of_nat j))) = Some v) ->
    (forall k, (forall j, (j < length l)%nat -> k <> encode (RUint (0 + N.of_nat j))) ->
       trie_get t k = trie_get t0 k) -> holds t l.
  Proof.
    intros -> H1 H2 H3 H4 H5. by constructor.
  Qed.

  Lemma transactions_tries be bo txs i s bo' s' :
    process_transactions cr be bo txs i s = (Done bo', s') ->
    trie_ok (bo_transactions_trie bo) -> trie_ok (bo_receipts_trie bo) ->
    t_secured (bo_transactions_trie bo') = t_secured (bo_transactions_trie bo) /\
    t_default (bo_transactions_trie bo') = t_default (bo_transactions_trie bo) /\
    t_secured (bo_receipts_trie bo') = t_secured (bo_receipts_trie bo) /\
    t_default (bo_receipts_trie bo') = t_default (bo_receipts_trie bo).
  Proof.
    revert bo i s. induction txs as [|etx txs IH]; intros bo i s H H1 H2.
    { apply sret_inv in H as [-> ->]. done. }
    cbn [process_transactions] in H. sm_step H. sm_step H.
    destruct (process_transaction_run _ _ _ _ _ _ _ _ E0) as [t R].
    pose proof (tr_out _ _ _ _ _ _ _ _ _ R) as Ho. clear R E0.
    destruct (trie_set_ok (bo_transactions_trie bo) (encode (RUint i)) (Some (encode_transaction v)) H1)
      as (A1 & A2 & A3).
    match type of Ho with _ = BlockOutput _ _ (trie_set _ _ ?r) _ _ _ _ _ =>
      destruct (trie_set_ok (bo_receipts_trie bo) (encode (RUint i)) r H2) as (B1 & B2 & B3) end.
    apply IH in H; rewrite ?Ho in *; cbn [bo_transactions_trie bo_receipts_trie] in *; [|done|done].
    destruct H as (-> & -> & -> & ->). done.
  Qed.
  Lemma withdrawals_trie bo wds i s bo' s' :
    process_withdrawals bo wds i s = (Done bo', s') -> trie_ok (bo_withdrawals_trie bo) ->
    t_secured (bo_withdrawals_trie bo') = t_secured (bo_withdrawals_trie bo) /\
    t_default (bo_withdrawals_trie bo') = t_default (bo_withdrawals_trie bo).
  Proof.
    revert bo i s. induction wds as [|w wds IH]; intros bo i s H H1.
    { apply sret_inv in H as [-> ->]. done. }
    apply withdrawal_step in H as (s1 & _ & H).
    destruct (trie_set_ok (bo_withdrawals_trie bo) (encode (RUint i)) (Some (encode (withdrawal_rlp w))) H1)
      as (A1 & A2 & A3).
    apply IH in H; cbn [bo_withdrawals_trie] in *; [|done]. destruct H as [-> ->]. done.
  Qed.
  Lemma decoded_list be bo txs i s bo' s' :
    process_transactions cr be bo txs i s = (Done bo', s') ->
    exists l, map (decode_transaction (b_fork be)) txs = map Done l /\
      bo_blob_gas_used bo' = bo_blob_gas_used bo + PropWithdrawals.sumN (map blob_gas l).
  Proof.
    revert bo i s. induction txs as [|etx txs IH]; intros bo i s H.
    { apply sret_inv in H as [-> ->]. exists []. split; [done|]. cbn. lia. }
    cbn [process_transactions] in H. sm_step H. sm_step H.
    apply IH in H as (l & Hl & Hb). destruct (C34_transaction _ _ _ _ _ _ _ _ E0) as (_ & _ & _ & Eb).
    exists (v :: l). cbn [map]. rewrite E, Hl. split; [done|]. rewrite Hb, Eb.
    change (PropWithdrawals.sumN (blob_gas v :: map blob_gas l))
      with (blob_gas v + PropWithdrawals.sumN (map blob_gas l)). lia.
  Qed.

  (** A request list: the type byte in front of the data, left out when there
      is no data. *)
  Definition request (type : bytes) (data : bytes) : list bytes :=
    match data with [] => [] | _ => [type ++ data] end.
  Lemma add_request_spec type data bo :
    add_request type data bo =
    BlockOutput (bo_block_gas_used bo) (bo_transactions_trie bo) (bo_receipts_trie bo)
      (bo_receipt_keys bo) (bo_block_logs bo) (bo_withdrawals_trie bo) (bo_blob_gas_used bo)
      (bo_requests bo ++ request type data).
  Proof. destruct bo, data; cbn; [by rewrite app_nil_r|done]. Qed.

  (** There are no withdrawals before Shanghai. *)
  Definition withdrawals_of (b : block) : list withdrawal :=
    match h_fork (bl_header b) with Paris => [] | _ => bl_withdrawals b end.
  (** The block can be serialized: RLP has no more than 2^64 bytes.  The size of
      a block of Osaka is limited. *)
  Definition sized (b : block) : Prop :=
    h_fork (bl_header b) = Osaka \/ lenN (encode (block_rlp b)) < 2 ^ 58.
  Lemma sized_spec b : sized b ->
    (h_fork (bl_header b) = Osaka -> lenN (encode (block_rlp b)) <= MAX_RLP_BLOCK_SIZE) ->
    lenN (encode (block_rlp b)) < 2 ^ 58.
  Proof. intros [Ho|?] HS; [|done]. eapply N.le_lt_trans; [by apply HS|done]. Qed.

  (** The result of executing a block: its decoded transactions, one receipt
      for each, and the three kinds of requests. *)
  Record executed (b : block) (bo : block_output) (txs : list transaction)
      (rs : list receipt) (deposits withdrawals consolidations : bytes) : Prop := {
    ex_txs : map (decode_transaction (h_fork (bl_header b))) (bl_transactions b) = map Done txs;
    ex_length : length rs = length txs;
    ex_txs_trie : holds (bo_transactions_trie bo) (map encode_transaction txs);
    ex_receipts_trie : holds (bo_receipts_trie bo) (zip_with encode_receipt txs rs);
    ex_withdrawals_trie :
      holds (bo_withdrawals_trie bo) (map (fun w => encode (withdrawal_rlp w)) (withdrawals_of b));
    ex_gas : cumulates (least_gas (h_fork (bl_header b))) 0 rs (bo_block_gas_used bo);
    ex_blob_gas : bo_blob_gas_used bo = PropWithdrawals.sumN (map blob_gas txs);
    ex_blob_limit : bo_blob_gas_used bo <= blob_limit (h_fork (bl_header b));
    ex_logs : bo_block_logs bo = concat (map rc_logs rs);
    ex_blooms : Forall (fun r => rc_bloom r = logs_bloom cr (rc_logs r)) rs;
    ex_deposits : has_requests (h_fork (bl_header b)) ->
      deposits_of_receipts (map Some (zip_with encode_receipt txs rs)) [] = Done deposits;
    ex_requests : has_requests (h_fork (bl_header b)) ->
      bo_requests bo = request [Byte.x00] deposits ++ request [Byte.x01] withdrawals
                                   ++ request [Byte.x02] consolidations;
  }.
  (** The parts of a block are no longer than the block. *)
  Lemma block_parts b p : In p [header_rlp (bl_header b); RList (map encoded_tx_rlp (bl_transactions b));
      RList (map header_rlp (bl_ommers b)); RList (map withdrawal_rlp (withdrawals_of b))] ->
    lenN (encode p) <= lenN (encode (block_rlp b)) \/ p = RList [].
  Proof.
    intros H. unfold block_rlp, withdrawals_of in *.
    destruct (h_fork (bl_header b)) eqn:E; rewrite ?E in H |- *.
    { destruct H as [H|[H|[H|[H|[]]]]]; [left; apply in_list_le; rewrite <- H; cbn; tauto..|by right]. }
    all: left; apply in_list_le; exact H.
  Qed.
  Lemma block_parts_fit b p : lenN (encode (block_rlp b)) < 2 ^ 58 ->
    In p [header_rlp (bl_header b); RList (map encoded_tx_rlp (bl_transactions b));
      RList (map header_rlp (bl_ommers b)); RList (map withdrawal_rlp (withdrawals_of b))] ->
    lenN (encode p) < 2 ^ 58.
  Proof.
    intros HS [Hp| ->]%block_parts; [|done]. eapply N.le_lt_trans; [exact Hp|exact HS].
  Qed.
  Lemma block_lengths b : lenN (encode (block_rlp b)) < 2 ^ 58 ->
    lenN (bl_transactions b) < 2 ^ 256 /\ lenN (withdrawals_of b) < 2 ^ 256.
  Proof.
    intros HS.
    pose proof (list_len_le (map encoded_tx_rlp (bl_transactions b))) as A1.
    pose proof (list_len_le (map withdrawal_rlp (withdrawals_of b))) as A2.
    pose proof (block_parts_fit b _ HS (or_intror (or_introl eq_refl))) as A4.
    pose proof (block_parts_fit b _ HS (or_intror (or_intror (or_intror (or_introl eq_refl))))) as A5.
    assert (L : forall A (f : A -> rlp) l, lenN (map f l) = lenN l) by (intros; unfold lenN; by rewrite map_length).
    rewrite L in A1, A2. clear - A1 A2 A4 A5.
    split; (eapply N.le_lt_trans; [eassumption|eapply N.lt_trans; [eassumption|done]]).
  Qed.
  Lemma parts_executed be b s2 v2 s3 v3 s4 dep wr cs bo :
    lenN (encode (block_rlp b)) < 2 ^ 58 -> b_fork be = h_fork (bl_header b) ->
    process_transactions cr be empty_block_output (bl_transactions b) 0 s2 = (Done v2, s3) ->
    process_withdrawals v2 (withdrawals_of b) 0 s3 = (Done v3, s4) ->
    (if at_least Prague (b_fork be) then parse_deposit_requests v3 = Done dep /\
       bo = add_request CONSOLIDATION_REQUEST_TYPE cs (add_request WITHDRAWAL_REQUEST_TYPE wr
         (add_request DEPOSIT_REQUEST_TYPE dep v3))
     else bo = v3) ->
    exists txs rs, executed b bo txs rs dep wr cs.
  Proof.
    clear keccak_32. intros HS Hfk E2 E3 ED.
    destruct (block_lengths b HS) as [HT HW].
    destruct (decoded_list _ _ _ _ _ _ _ E2) as (txs & Htx & Hblob).
    destruct (transactions_tries _ _ _ _ _ _ _ E2) as (TS & TD & RS & RD);
      [split; [apply NoDup_nil_2|done]..|].
    destruct (C34_transactions _ _ _ _ _ _ _ _ E2) as ([_ HBL] & Hrt & Htt & rs & R1 & R2 & R3 & R4 & R5 & R6 & R7 & R8 & R9);
      [split; cbn; lia|split; [apply NoDup_nil_2|done]..|by rewrite N.add_0_l|].
    destruct (withdrawals_trie _ _ _ _ _ _ E3) as (WS & WD);
      [rewrite R8; split; [apply NoDup_nil_2|done]|].
    destruct (C41_trie _ _ _ _ _ _ ltac:(rewrite R8; split; [apply NoDup_nil_2|done]) ltac:(by rewrite N.add_0_l) E3)
      as (W1 & W2 & W3 & W4 & W5 & W6 & W7 & W8 & W9 & W10).
    assert (HL : length txs = length (bl_transactions b)).
    { apply (f_equal length) in Htx. rewrite !map_length in Htx. lia. }
    assert (HN : forall j etx tx, nth_error (bl_transactions b) j = Some etx -> nth_error txs j = Some tx ->
      decode_transaction (b_fork be) etx = Done tx).
    { intros j etx tx A B. apply (map_nth_error (decode_transaction (b_fork be))) in A. apply (map_nth_error Done) in B.
      rewrite Htx in A. congruence. }
    assert (HG : forall j tx r, nth_error txs j = Some tx -> nth_error rs j = Some r ->
      trie_get (bo_transactions_trie v2) (encode (RUint (0 + N.of_nat j))) = Some (encode_transaction tx) /\
      trie_get (bo_receipts_trie v2) (encode (RUint (0 + N.of_nat j))) = Some (encode_receipt tx r)).
    { intros j tx r A B. destruct (nth_error (bl_transactions b) j) as [etx|] eqn:Ee.
      - destruct (R3 j etx r Ee B) as (tx' & D & G). specialize (HN j etx tx Ee A). congruence.
      - exfalso. apply nth_error_None in Ee.
        assert (j < length txs)%nat by (apply nth_error_Some; congruence). lia. }
    assert (HT1 : holds (bo_transactions_trie v2) (map encode_transaction txs)).
    { eapply holds_of; [| |exact TS|exact TD| |]; [done|done| |].
      - intros j v' Hv. rewrite nth_error_map in Hv. destruct (nth_error txs j) as [tx|] eqn:Et; [|done].
        injection Hv as <-. destruct (nth_error rs j) as [r|] eqn:Er; [by apply (HG j tx r)|].
        exfalso. apply nth_error_None in Er.
        assert (j < length txs)%nat by (apply nth_error_Some; congruence). lia.
      - intros k Hk. apply R4. intros j Hj. apply Hk. rewrite map_length. lia. }
    assert (HZ : forall j v', nth_error (zip_with encode_receipt txs rs) j = Some v' ->
      exists tx r, nth_error txs j = Some tx /\ nth_error rs j = Some r /\ v' = encode_receipt tx r).
    { clear. revert rs. induction txs as [|tx txs IH]; intros [|r rs] [|j] v'; cbn; try done.
      - intros [= <-]. by exists tx, r.
      - apply IH. }
    assert (HZL : length (zip_with encode_receipt txs rs) = length (bl_transactions b)).
    { rewrite zip_with_length. lia. }
    assert (HT2 : holds (bo_receipts_trie v2) (zip_with encode_receipt txs rs)).
    { eapply holds_of; [| |exact RS|exact RD| |]; [done|done| |].
      - intros j v' (tx & r & A & B & ->)%HZ. by apply (HG j tx r).
      - intros k Hk. apply R4. intros j Hj. apply Hk. lia. }
    rewrite R8 in WS, WD, W3.
    assert (HT3 : holds (bo_withdrawals_trie v3) (map (fun w => encode (withdrawal_rlp w)) (withdrawals_of b))).
    { eapply holds_of; [| |exact WS|exact WD| |]; [done|done| |].
      - intros j v' Hv. rewrite nth_error_map in Hv. destruct (nth_error _ j) as [w|] eqn:Ew; [|done].
        injection Hv as <-. by apply W2.
      - intros k Hk. apply W3. intros j Hj. apply Hk. rewrite map_length. lia. }
    exists txs, rs. rewrite Hfk in *.
    destruct (at_least Prague (h_fork (bl_header b))) eqn:Hpr.
    2:{ assert (Hno : has_requests (h_fork (bl_header b)) -> False).
        { intros E%has_requests_spec. congruence. }
        subst bo. constructor; try done; try (intros []%Hno).
        - lia.
        - by rewrite W5.
        - by rewrite W6.
        - by rewrite W4.
        - rewrite W9, Hblob. cbn. lia.
        - by rewrite W9.
        - by rewrite W8, R6. }
    destruct ED as [ED ->].
    rewrite !add_request_spec. cbn [bo_block_gas_used bo_transactions_trie bo_receipts_trie bo_receipt_keys
      bo_block_logs bo_withdrawals_trie bo_blob_gas_used bo_requests].
    assert (HD : deposits_of_receipts (map Some (zip_with encode_receipt txs rs)) [] = Done dep).
    { rewrite <- ED. unfold parse_deposit_requests. f_equal. rewrite W6, W7, R7. cbn [bo_receipt_keys empty_block_output app].
      rewrite map_map. apply same_nth. intros j. rewrite !nth_error_map.
      destruct (nth_error (zip_with encode_receipt txs rs) j) as [v'|] eqn:Ez.
      - rewrite (nth_error_nth' _ 0%nat) by (rewrite seq_length, <- HZL; apply nth_error_Some; congruence).
        rewrite seq_nth by (rewrite <- HZL; apply nth_error_Some; congruence). cbn [option_map Nat.add].
        destruct (HZ j v' Ez) as (tx & r & A & B & ->). f_equal. symmetry. by apply (HG j tx r).
      - rewrite (proj2 (nth_error_None _ j)); [done|]. rewrite seq_length, <- HZL. by apply nth_error_None. }
    constructor; cbn; try done.
    - lia.
    - by rewrite W5.
    - by rewrite W6.
    - by rewrite W4.
    - rewrite W9, Hblob. cbn. lia.
    - by rewrite W9.
    - by rewrite W8, R6.
    - intros _. rewrite W10, R9. cbn. by rewrite app_assoc.
  Qed.
  Lemma withdrawals_of_step be b v2 s3 v3 s4 : b_fork be = h_fork (bl_header b) ->
    (if at_least Shanghai (b_fork be) then process_withdrawals v2 (bl_withdrawals b) 0 s3 = (Done v3, s4)
     else v3 = v2 /\ s4 = s3) ->
    process_withdrawals v2 (withdrawals_of b) 0 s3 = (Done v3, s4).
  Proof.
    intros ->. unfold withdrawals_of. destruct (h_fork (bl_header b)); try done. by intros [-> ->].
  Qed.
  Lemma body_executed chain b bo s' :
    lenN (encode (block_rlp b)) < 2 ^ 58 ->
    apply_body cr (block_env_of cr chain (bl_header b)) (bl_transactions b) (bl_withdrawals b)
      (bc_state chain) = (Done bo, s') ->
    exists txs rs d w c, executed b bo txs rs d w c.
  Proof.
    intros HS H. apply apply_body_inv in H as (s1 & s2 & v2 & s3 & v3 & s4 & _ & _ & E2 & E3 & E5).
    apply withdrawals_of_step in E3; [|done].
    assert (exists d w c, if at_least Prague (b_fork (block_env_of cr chain (bl_header b)))
      then parse_deposit_requests v3 = Done d /\
       bo = add_request CONSOLIDATION_REQUEST_TYPE c (add_request WITHDRAWAL_REQUEST_TYPE w
         (add_request DEPOSIT_REQUEST_TYPE d v3))
      else bo = v3) as (d & w & c & Hq).
    { destruct (at_least Prague _); [|exists [], [], []; tauto].
      unfold process_general_purpose_requests in E5. sm_step E5. sm_step E5. sm_step E5. apply sret_inv in E5 as [<- _].
      do 3 eexists. split; done. }
    destruct (parts_executed (block_env_of cr chain (bl_header b)) _ _ _ _ _ _ _ _ _ _ HS eq_refl E2 E3 Hq) as (txs & rs & He).
    by exists txs, rs, d, w, c.
  Qed.

  (** ** C49 *)

  (** The header of block [b] describes these results: the final state [s'],
      the transactions [txs] of the body, their receipts [rs] and the requests. *)
  Definition described (b : block) (s' : state) (txs : list transaction) (rs : list receipt)
      (tx_trie : trie (option encoded_tx)) (receipt_trie : trie (option encoded_receipt))
      (withdrawal_trie : trie (option bytes)) (deposits withdrawals consolidations : bytes) : Prop :=
    let h := bl_header b in
    map (decode_transaction (h_fork h)) (bl_transactions b) = map Done txs /\ length rs = length txs /\
    (* roots *)
    state_root cr s' = Some (h_state_root h) /\
    holds tx_trie (map encode_transaction txs) /\
    root cr encode_tx_node tx_trie = Some (h_transactions_root h) /\
    holds receipt_trie (zip_with encode_receipt txs rs) /\
    root cr encode_receipt_node receipt_trie = Some (h_receipt_root h) /\
    (has_withdrawals (h_fork h) ->
     holds withdrawal_trie (map (fun w => encode (withdrawal_rlp w)) (bl_withdrawals b)) /\
     root cr encode_bytes_node withdrawal_trie = Some (h_withdrawals_root h)) /\
    (* logs and gas *)
    Forall (fun r => rc_bloom r = logs_bloom cr (rc_logs r)) rs /\
    h_bloom h = logs_bloom cr (concat (map rc_logs rs)) /\
    cumulates (least_gas (h_fork h)) 0 rs (h_gas_used h) /\ h_gas_used h <= h_gas_limit h /\
    (has_blobs (h_fork h) -> h_blob_gas_used h = PropWithdrawals.sumN (map blob_gas txs) /\
       h_blob_gas_used h <= blob_limit (h_fork h)) /\
    (* requests *)
    (has_requests (h_fork h) ->
     deposits_of_receipts (map Some (zip_with encode_receipt txs rs)) [] = Done deposits /\
     h_requests_hash h = sha256_digest cr (concat (map (sha256_digest cr)
       (request [Byte.x00] deposits ++ request [Byte.x01] withdrawals ++ request [Byte.x02] consolidations)))).
  Lemma header_described chain b bo s' txs rs d w c :
    validate_header cr chain (bl_header b) = Done tt -> executed b bo txs rs d w c ->
    check_output cr (bl_header b) bo s' = Done tt ->
    described b s' txs rs (bo_transactions_trie bo) (bo_receipts_trie bo) (bo_withdrawals_trie bo) d w c.
  Proof.
    intros HV [] HC. destruct (validate_header_inv _ _ _ _ HV) as (p & _ & HF).
    unfold described. cbv zeta. apply check_output_iff in HC as [C1 C2 C3 C4 C5 C6 C7 C8].
    split_and!; try done.
    - intros Hw. split; [|by apply C5]. unfold withdrawals_of in ex_withdrawals_trie0.
      by destruct (h_fork (bl_header b)).
    - by rewrite <- C7, ex_logs0.
    - by rewrite <- C1.
    - apply (fo_gas _ _ _ HF).
    - intros Hb. by rewrite <- (C2 Hb).
    - intros Hq. split; [by apply ex_deposits0|]. by rewrite <- (C8 Hq), (ex_requests0 Hq).
  Qed.
  (** The header of an accepted block describes the results of executing it. *)
  Theorem C49_header chain b u chain' : sized b ->
    state_transition cr chain b = (Done u, chain') ->
    exists txs rs tx_trie receipt_trie withdrawal_trie deposits withdrawals consolidations,
      described b (bc_state chain') txs rs tx_trie receipt_trie withdrawal_trie
        deposits withdrawals consolidations.
  Proof.
    intros Hsz H. destruct (transition_done _ _ _ _ _ H) as (HV & _ & HS & (bo & HB & HC) & _ & _).
    destruct (body_executed _ _ _ _ (sized_spec _ Hsz HS) HB) as (txs & rs & d & w & c & He).
    do 8 eexists. by eapply header_described.
  Qed.

  (** The bloom filter of the header misses no log of the block. *)
  Theorem C23_block chain b u chain' : sized b ->
    state_transition cr chain b = (Done u, chain') ->
    exists rs receipt_trie txs,
      holds receipt_trie (zip_with encode_receipt txs rs) /\ length rs = length txs /\
      root cr encode_receipt_node receipt_trie = Some (h_receipt_root (bl_header b)) /\
      forall r l entry i, In r rs -> In l (rc_logs r) -> entry_of l entry -> i < 3 ->
        has_bit (h_bloom (bl_header b)) (position cr entry i) /\ has_bit (rc_bloom r) (position cr entry i).
  Proof.
    intros Hsz H. destruct (C49_header _ _ _ _ Hsz H)
      as (txs & rs & tt' & rt & wt & d & w & c & _ & HL & _ & _ & _ & HR & RR & _ & HB & HH & _).
    exists rs, rt, txs. split; [done|]. split; [done|]. split; [done|].
    intros r l entry i Hr Hl He Hi. split.
    - rewrite HH. apply C23_exact_bits. exists l, entry, i. split; [|done].
      apply in_concat. exists (rc_logs r). split; [by apply in_map|done].
    - rewrite Forall_forall in HB. rewrite (HB r) by (by apply elem_of_list_In).
      apply C23_exact_bits. by exists l, entry, i.
  Qed.

  (** ** C42 for blocks *)
  Lemma deposits_of_receipts_spec txs rs acc : length rs = length txs ->
    Forall typed_receipt rs ->
    Forall (fun r => lenN (receipt_wire r) < 2 ^ 64) (zip_with encode_receipt txs rs) ->
    deposits_of_receipts (map Some (zip_with encode_receipt txs rs)) acc
    = deposits_of_logs (concat (map rc_logs rs)) acc.
  Proof.
    revert txs acc. induction rs as [|r rs IH]; intros [|tx txs] acc HL HT HS; try done.
    cbn [zip_with map deposits_of_receipts concat] in *. inversion_clear HT as [|? ? T1 T2].
    inversion_clear HS as [|? ? S1 S2]. rewrite C30_roundtrip by done. cbn [obind].
    assert (HA : forall l1 l2 a, deposits_of_logs (l1 ++ l2) a = obind (deposits_of_logs l1 a) (deposits_of_logs l2)).
    { induction l1 as [|x l1 IHl]; intros l2 a; [done|]. cbn [app deposits_of_logs].
      destruct (_ && _); [|apply IHl]. destruct (extract_deposit_data _); cbn [obind]; [apply IHl|done]. }
    rewrite HA. destruct (deposits_of_logs (rc_logs r) acc) as [a|]; cbn [obind]; [|done].
    apply IH; [by injection HL|done|done].
  Qed.

  (** The deposit requests of an accepted block are those of all deposit
      events logged in it, in order; each has a valid payload. *)
  Theorem C42_block chain b u chain' : sized b -> has_requests (h_fork (bl_header b)) ->
    state_transition cr chain b = (Done u, chain') ->
    exists txs rs withdrawals consolidations,
      length rs = length txs /\
      (exists receipt_trie, holds receipt_trie (zip_with encode_receipt txs rs) /\
         root cr encode_receipt_node receipt_trie = Some (h_receipt_root (bl_header b))) /\
      (Forall typed_receipt rs ->
       Forall (fun r => lenN (receipt_wire r) < 2 ^ 64) (zip_with encode_receipt txs rs) ->
       exists requests,
         Forall2 (fun l r => extract_deposit_data (log_data l) = Done r)
           (filter deposit_log (concat (map rc_logs rs))) requests /\
         h_requests_hash (bl_header b) = sha256_digest cr (concat (map (sha256_digest cr)
           (request [Byte.x00] (concat requests) ++ request [Byte.x01] withdrawals
            ++ request [Byte.x02] consolidations)))).
  Proof.
    intros Hsz Hq H. destruct (C49_header _ _ _ _ Hsz H)
      as (txs & rs & tt' & rt & wt & d & w & c & _ & HL & _ & _ & _ & HR & RR & _ & _ & _ & _ & _ & _ & HDQ).
    destruct (HDQ Hq) as [HD HQ].
    exists txs, rs, w, c. split; [done|]. split; [by exists rt|]. intros HT HS.
    rewrite deposits_of_receipts_spec in HD by done. apply C42_logs in HD as (rq & HF & ->).
    exists rq. split; [done|]. exact HQ.
  Qed.

  (** ** C47 *)

  (** Ranges of the field types of a block, and a bound on the sizes of its
      decoded transactions (RLP cannot express more than 2^64 bytes). *)
  Definition typed_block (b : block) : Prop :=
    typed_header (bl_header b) /\
    Forall (fun w => wd_address w < 2 ^ 160) (bl_withdrawals b) /\
    (h_fork (bl_header b) = Paris -> bl_withdrawals b = []) /\
    Forall (fun etx => match etx with ELegacy t => typed_legacy t | EBytes _ => True end) (bl_transactions b) /\
    Forall (fun etx => forall tx, decode_transaction (h_fork (bl_header b)) etx = Done tx ->
        lenN (wire tx) < 2 ^ 58) (bl_transactions b).

  (** The strings hashed for the block hash and for the two roots that commit
      to the body. *)
  Definition block_strings (chain : block_chain) (b : block) (x : bytes) : Prop :=
    x = encode (header_rlp (bl_header b)) \/
    exists bo s, apply_body cr (block_env_of cr chain (bl_header b)) (bl_transactions b) (bl_withdrawals b)
                   (bc_state chain) = (Done bo, s) /\
      (hashes cr encode_tx_node (bo_transactions_trie bo) x \/
       hashes cr encode_bytes_node (bo_withdrawals_trie bo) x).

  Definition d_withdrawal (r : rlp) : option withdrawal :=
    match r with
    | RList [i; v; a; m] =>
        i ← d_uint i; v ← d_uint v; a ← d_exact 20 a; m ← d_uint m; Some (Withdrawal i v a m)
    | _ => None
    end.
  Lemma d_withdrawal_ok w : wd_address w < 2 ^ 160 -> d_withdrawal (withdrawal_rlp w) = Some w.
  Proof. intros H. unfold d_withdrawal, withdrawal_rlp. decode_fields. by destruct w. Qed.
  Lemma map_inj_in {A B} (f : A -> B) l1 l2 :
    (forall x y, In x l1 -> In y l2 -> f x = f y -> x = y) -> map f l1 = map f l2 -> l1 = l2.
  Proof.
    revert l2. induction l1 as [|x l1 IH]; intros [|y l2] H E; try done. injection E as E1 E2.
    rewrite (H x y); [|by left|by left|done]. f_equal. apply IH; [|done].
    intros a b Ha Hb. apply H; by right.
  Qed.
  Lemma collides_mono (P Q : bytes -> Prop) : (forall x, P x -> Q x) -> collides cr P -> collides cr Q.
  Proof. intros H (x & y & Hx & Hy & R). exists x, y. split; [by apply H|]. split; [by apply H|done]. Qed.

  Theorem C47_block chain1 chain2 b1 b2 chain1' chain2' :
    state_transition cr chain1 b1 = (Done tt, chain1') ->
    state_transition cr chain2 b2 = (Done tt, chain2') ->
    sized b1 -> sized b2 -> typed_block b1 -> typed_block b2 ->
    header_hash cr (bl_header b1) = header_hash cr (bl_header b2) ->
    (as_read (bl_header b1) = as_read (bl_header b2) /\
     map (decode_transaction (h_fork (bl_header b1))) (bl_transactions b1)
     = map (decode_transaction (h_fork (bl_header b2))) (bl_transactions b2) /\
     bl_ommers b1 = bl_ommers b2 /\ bl_withdrawals b1 = bl_withdrawals b2) \/
    collides cr (fun x => block_strings chain1 b1 x \/ block_strings chain2 b2 x).
  Proof.
    intros H1 H2 HZ1 HZ2 (T1 & W1 & P1 & X1 & Z1) (T2 & W2 & P2 & X2 & Z2) EH.
    destruct (transition_done _ _ _ _ _ H1) as (_ & O1 & S1' & (bo1 & B1 & C1) & _ & _).
    destruct (transition_done _ _ _ _ _ H2) as (_ & O2 & S2' & (bo2 & B2 & C2) & _ & _).
    pose proof (sized_spec _ HZ1 S1') as S1. pose proof (sized_spec _ HZ2 S2') as S2. clear S1' S2' HZ1 HZ2.
    destruct (body_executed _ _ _ _ S1 B1) as (txs1 & rs1 & d1 & w1 & c1 & Ex1).
    destruct (body_executed _ _ _ _ S2 B2) as (txs2 & rs2 & d2 & w2 & c2 & Ex2).
    pose proof block_parts_fit as HP.
    destruct (C47_header_hash cr _ _ T1 T2) as [E|[E1 E2]].
    { eapply N.lt_trans; [apply (HP b1 _ S1); cbn; tauto|done]. }
    { eapply N.lt_trans; [apply (HP b2 _ S2); cbn; tauto|done]. }
    { done. }
    2:{ right. eexists _, _. split; [left; by left|]. split; [right; by left|]. done. }
    assert (HTx : forall b txs, map (decode_transaction (h_fork (bl_header b))) (bl_transactions b) = map Done txs ->
      Forall (fun etx => match etx with ELegacy t => typed_legacy t | EBytes _ => True end) (bl_transactions b) ->
      Forall (fun etx => forall tx, decode_transaction (h_fork (bl_header b)) etx = Done tx -> lenN (wire tx) < 2 ^ 58)
        (bl_transactions b) -> Forall (fun tx => typed_tx tx /\ lenN (wire tx) < 2 ^ 58) txs).
    { intros b. generalize (bl_transactions b). intros l. induction l as [|etx l IH]; intros [|tx txs] Hm HG HF; try done.
      injection Hm as Hd Hm. inversion_clear HF as [|? ? F1 F2]. inversion_clear HG as [|? ? G1 G2].
      constructor; [|by apply IH]. split; [|by apply F1]. destruct etx; [|by eapply decode_typed].
      injection Hd as <-. done. }
    pose proof (HTx b1 txs1 (ex_txs _ _ _ _ _ _ _ Ex1) X1 Z1) as Y1.
    pose proof (HTx b2 txs2 (ex_txs _ _ _ _ _ _ _ Ex2) X2 Z2) as Y2. clear HTx.
    assert (HW : forall tx, wire tx <> []).
    { intros []; unfold wire; cbn [encode_transaction]; try done.
      destruct (encode_nonempty (legacy_rlp t)) as (x & l & ->). done. }
    set (e := fun etx => match etx with ELegacy t => encode (legacy_rlp t) | EBytes b => b end).
    assert (HR : forall b bo s, check_output cr (bl_header b) bo s = Done tt ->
      root cr encode_tx_node (bo_transactions_trie bo) = Some (h_transactions_root (bl_header b)) /\
      (has_withdrawals (h_fork (bl_header b)) ->
       root cr encode_bytes_node (bo_withdrawals_trie bo) = Some (h_withdrawals_root (bl_header b)))).
    { intros b bo s HC. apply check_output_iff in HC as []. done. }
    destruct (HR _ _ _ C1) as [RT1 RW1]. destruct (HR _ _ _ C2) as [RT2 RW2].
    assert (E1 : h_transactions_root (bl_header b1) = h_transactions_root (bl_header b2) /\
      h_withdrawals_root (bl_header b1) = h_withdrawals_root (bl_header b2) /\
      (has_withdrawals (h_fork (bl_header b1)) <-> has_withdrawals (h_fork (bl_header b2)))).
    { split; [exact (f_equal h_transactions_root E)|]. split; [exact (f_equal h_withdrawals_root E)|].
      pose proof (f_equal h_fork E) as EF. unfold as_read, with_fork in EF. cbn in EF.
      destruct (h_fork (bl_header b1)), (h_fork (bl_header b2)); try done. }
    destruct E1 as (E1 & E2 & E3). rewrite <- E1 in RT2. rewrite <- E2 in RW2.
    assert (HLt : forall b txs, map (decode_transaction (h_fork (bl_header b))) (bl_transactions b) = map Done txs ->
      lenN (encode (block_rlp b)) < 2 ^ 58 ->
      lenN (map encode_transaction txs) < 2 ^ 256 /\
      lenN (map (fun w => encode (withdrawal_rlp w)) (withdrawals_of b)) < 2 ^ 256).
    { intros b txs Hm HS.
      assert (L : forall A B (f : A -> B) l, lenN (map f l) = lenN l) by (intros; unfold lenN; by rewrite map_length).
      apply (f_equal lenN) in Hm. rewrite !L in Hm. rewrite !L. rewrite <- Hm.
      pose proof (list_len_le (map encoded_tx_rlp (bl_transactions b))) as A1.
      pose proof (list_len_le (map withdrawal_rlp (withdrawals_of b))) as A2. rewrite L in A1, A2.
      split; (eapply N.le_lt_trans; [eassumption|]); (eapply N.lt_trans; [apply (HP b _ HS); cbn; tauto|done]). }
    destruct (HLt b1 txs1 (ex_txs _ _ _ _ _ _ _ Ex1) S1) as [L1 M1].
    destruct (HLt b2 txs2 (ex_txs _ _ _ _ _ _ _ Ex2) S2) as [L2 M2]. clear HLt.
    assert (HB : forall chain b bo s x, apply_body cr (block_env_of cr chain (bl_header b)) (bl_transactions b)
        (bl_withdrawals b) (bc_state chain) = (Done bo, s) ->
      hashes cr encode_tx_node (bo_transactions_trie bo) x \/
      hashes cr encode_bytes_node (bo_withdrawals_trie bo) x -> block_strings chain b x).
    { intros chain b bo s x Hb Hx. right. by exists bo, s. }
    destruct (holds_commit encode_tx_node e _ _ _ _ (h_transactions_root (bl_header b1)) ltac:(by intros k []) (ex_txs_trie _ _ _ _ _ _ _ Ex1)
      (ex_txs_trie _ _ _ _ _ _ _ Ex2) L1 L2) as [ET|HC];
      [..|done|done| |right; eapply collides_mono; [|exact HC]; intros x [Hx|Hx]; [left|right]; eapply HB; eauto].
    { apply Forall_map. eapply Forall_impl; [exact Y1|]. intros tx [_ Hs]. split; [apply HW|exact Hs]. }
    { apply Forall_map. eapply Forall_impl; [exact Y2|]. intros tx [_ Hs]. split; [apply HW|exact Hs]. }
    assert (HWd : forall b, (h_fork (bl_header b) = Paris -> bl_withdrawals b = []) -> withdrawals_of b = bl_withdrawals b).
    { intros b Hb. unfold withdrawals_of. destruct (h_fork (bl_header b)); try done. symmetry. by apply Hb. }
    pose proof (HWd _ P1) as V1. pose proof (HWd _ P2) as V2. clear HWd.
    assert (EWD : (map (fun w => encode (withdrawal_rlp w)) (bl_withdrawals b1)
      = map (fun w => encode (withdrawal_rlp w)) (bl_withdrawals b2)) \/
      collides cr (fun x => block_strings chain1 b1 x \/ block_strings chain2 b2 x)).
    { destruct (decide (h_fork (bl_header b1) = Paris)) as [Hp|Hp].
      { left. assert (Hp2 : h_fork (bl_header b2) = Paris).
        { rewrite Hp in E3. destruct (h_fork (bl_header b2)); cbn in E3; tauto. }
        by rewrite (P1 Hp), (P2 Hp2). }
      assert (Hw1 : has_withdrawals (h_fork (bl_header b1))) by (by destruct (h_fork (bl_header b1))).
      pose proof (ex_withdrawals_trie _ _ _ _ _ _ _ Ex1) as X5. pose proof (ex_withdrawals_trie _ _ _ _ _ _ _ Ex2) as X6.
      rewrite V1 in X5, M1. rewrite V2 in X6, M2.
      destruct (holds_commit encode_bytes_node id _ _ _ _ (h_withdrawals_root (bl_header b1)) ltac:(done) X5 X6 M1 M2) as [EW|HC];
        [| |by apply RW1|by apply RW2, E3|left; by rewrite !map_id in EW
        |right; eapply collides_mono; [|exact HC]; intros x [Hx|Hx]; [left|right]; eapply HB; eauto].
    { apply Forall_map, Forall_forall. intros w Hw. split.
      - destruct (encode_nonempty (withdrawal_rlp w)) as (x & l & E'). unfold id. by rewrite E'.
      - eapply N.le_lt_trans; [apply (in_list_le (map withdrawal_rlp (bl_withdrawals b1)))|apply (HP b1 _ S1); rewrite V1; cbn; tauto].
        apply in_map. by apply elem_of_list_In. }
    { apply Forall_map, Forall_forall. intros w Hw. split.
      - destruct (encode_nonempty (withdrawal_rlp w)) as (x & l & E'). unfold id. by rewrite E'.
      - eapply N.le_lt_trans; [apply (in_list_le (map withdrawal_rlp (bl_withdrawals b2)))|apply (HP b2 _ S2); rewrite V2; cbn; tauto].
        apply in_map. by apply elem_of_list_In. } }
    destruct EWD as [EW|HC]; [|by right].
    left. split; [done|]. rewrite O1, O2. split; [|split; [done|]].
    - rewrite (ex_txs _ _ _ _ _ _ _ Ex1), (ex_txs _ _ _ _ _ _ _ Ex2). f_equal.
      rewrite !map_map in ET. eapply (map_inj_in (fun tx => e (encode_transaction tx))); [|exact ET].
      intros x y Hx Hy Exy. rewrite Forall_forall in Y1, Y2.
      destruct (Y1 x) as [A1 A2]; [by apply elem_of_list_In|].
      destruct (Y2 y) as [A3 A4]; [by apply elem_of_list_In|].
      apply C28_injective; [done|done| | |exact Exy]; (eapply N.lt_trans; [eassumption|done]).
    - eapply (map_inj_in (fun w => encode (withdrawal_rlp w))); [|exact EW].
      intros x y Hx Hy Exy.
      assert (F : forall b w, lenN (encode (block_rlp b)) < 2 ^ 58 -> withdrawals_of b = bl_withdrawals b ->
        In w (bl_withdrawals b) -> fits (withdrawal_rlp w)).
      { intros b w HS Hwd Hw. unfold fits. eapply N.le_lt_trans;
          [apply (in_list_le (map withdrawal_rlp (bl_withdrawals b))); by apply in_map|].
        eapply N.lt_trans; [apply (HP b _ HS); rewrite Hwd; cbn; tauto|done]. }
      apply encode_inj in Exy; [|by apply (F b1)|by apply (F b2)].
      rewrite Forall_forall in W1, W2.
      pose proof (d_withdrawal_ok x (W1 x ltac:(by apply elem_of_list_In))) as D1.
      pose proof (d_withdrawal_ok y (W2 y ltac:(by apply elem_of_list_In))) as D2. congruence.
  Qed.

  (** On the same chain, the resulting state is then also the same. *)
  Lemma transactions_decoded be bo txs1 txs2 i s :
    map (decode_transaction (b_fork be)) txs1 = map (decode_transaction (b_fork be)) txs2 ->
    process_transactions cr be bo txs1 i s = process_transactions cr be bo txs2 i s.
  Proof.
    revert txs2 bo i s. induction txs1 as [|e1 l1 IH]; intros [|e2 l2] bo i s E; try done.
    injection E as E1 E2. cbn [process_transactions]. unfold sbind, lift. rewrite E1.
    destruct (decode_transaction _ e2); [|done]. destruct (process_transaction cr be bo a i s) as [[bo1|] s1]; [|done].
    by apply IH.
  Qed.
  Theorem C47_state chain b1 b2 chain1 chain2 :
    state_transition cr chain b1 = (Done tt, chain1) ->
    state_transition cr chain b2 = (Done tt, chain2) ->
    sized b1 -> sized b2 -> typed_block b1 -> typed_block b2 ->
    h_fork (bl_header b1) = h_fork (bl_header b2) ->
    header_hash cr (bl_header b1) = header_hash cr (bl_header b2) ->
    bc_state chain1 = bc_state chain2 \/
    collides cr (fun x => block_strings chain b1 x \/ block_strings chain b2 x).
  Proof.
    intros H1 H2 Z1 Z2 T1 T2 Ef E.
    destruct (C47_block _ _ _ _ _ _ H1 H2 Z1 Z2 T1 T2 E) as [(Eh & Et & _ & Ew)|HC]; [left|by right].
    apply (C47_as_read _ _) in Eh; [|done]. rewrite Ef in Et.
    destruct (transition_done _ _ _ _ _ H1) as (_ & _ & _ & (bo1 & B1 & _) & _ & _).
    destruct (transition_done _ _ _ _ _ H2) as (_ & _ & _ & (bo2 & B2 & _) & _ & _).
    rewrite Eh, Ew in B1.
    assert (EB : apply_body cr (block_env_of cr chain (bl_header b2)) (bl_transactions b1) (bl_withdrawals b2)
        (bc_state chain) = apply_body cr (block_env_of cr chain (bl_header b2)) (bl_transactions b2)
        (bl_withdrawals b2) (bc_state chain)).
    { unfold apply_body, sbind.
      match goal with |- context [let (_, _) := ?x in _] => destruct x as [[o1|] s1]; [|done] end.
      match goal with |- context [let (_, _) := ?x in _] => destruct x as [[o2|] s3]; [|done] end.
      by rewrite (transactions_decoded (block_env_of cr chain (bl_header b2)) _ _ _ _ _ Et). }
    congruence.
  Qed.
End Commit.

(** ** Non-vacuity *)
Lemma ex_keccak_32 x : length (keccak256 ex_crypto x) = 32%nat.
Proof.
  change (length (toy_hash x) = 32%nat). unfold toy_hash.
  rewrite takeN_firstn, firstn_length, app_length. unfold zeros. rewrite repeat_length. lia.
Qed.

Definition short_tx (etx : encoded_tx) : bool :=
  match decode_transaction Osaka etx with Done tx => lenN (wire tx) <? 2 ^ 58 | Fail _ => true end.
Lemma ex_typed_block : typed_block ex_block.
Proof.
  split; [vm_compute; done|].
  assert (E : bl_withdrawals ex_block = ex_withdrawals) by (vm_compute; done).
  assert (T : bl_transactions ex_block = [encode_transaction ex_tx1; encode_transaction ex_tx2])
    by (vm_compute; done).
  assert (F : h_fork (bl_header ex_block) = Osaka) by (vm_compute; done).
  rewrite E, T, F. split; [repeat constructor; done|]. split; [done|]. split.
  - repeat constructor; done.
  - assert (H : forallb short_tx [encode_transaction ex_tx1; encode_transaction ex_tx2] = true)
      by (vm_compute; done).
    revert H. generalize [encode_transaction ex_tx1; encode_transaction ex_tx2]. intros l.
    induction l as [|e l IH]; intros H; [constructor|]. cbn [forallb] in H.
    apply andb_prop in H as [H1 H2]. constructor; [|by apply IH].
    intros tx Hd. unfold short_tx in H1. rewrite Hd in H1. by apply N.ltb_lt.
Qed.
Example C49_nonvacuous :
  fst (state_transition ex_crypto ex_chain ex_block) = Done tt /\
  h_gas_used (bl_header ex_block) = 64643 /\ length (bl_transactions ex_block) = 2%nat /\
  length (bl_withdrawals ex_block) = 1%nat.
Proof. vm_compute. done. Qed.
Example C47_block_nonvacuous :
  fst (state_transition ex_crypto ex_chain ex_block) = Done tt /\ sized ex_block /\ typed_block ex_block /\
  forall x, length (keccak256 ex_crypto x) = 32%nat.
Proof.
  split; [vm_compute; done|]. split; [left; vm_compute; done|]. split; [apply ex_typed_block|apply ex_keccak_32].
Qed.

Definition PropCommit_theorems :=
  (@C49_header, @C23_block, @C42_block, @C47_block, @C47_state).
Print Assumptions PropCommit_theorems.
