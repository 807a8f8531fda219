(** * PropBody: C56, what executing a block does.

    The system calls, the transactions, the withdrawals and the requests of
    an accepted block, in order, with the receipts and roots of its header. *)
From Verif Require Import Base State Rlp Vm Instructions Precompiles Interpreter StateSpec StateProofs
  NumericProofs EvmStep EvmRule EvmAccounts EvmInv RlpProofs PropFees PropTx PropCalls PropRefund PropDelegation
  Trie TrieProofs PropTrie Bloom Transactions Blocks Requests Fork PropBlocks ForkProofs PropWithdrawals
  TxProofs PropChain EvmExamples ForkExamples PropTransaction PropOuter PropHistory PropAnchored PropCommit.
From Coq Require Import ZifyBool ZifyN ZifyNat.
Ltac Zify.zify_post_hook ::= idtac.

Local Opaque to_u256 from_be_bytes.

(** ** Reference *)

Section Body.
  Context (cr : crypto) (be : block_env).

  (** Delegations exist since Prague. *)
  Definition leads_to (c : bytes) : option address :=
    match b_fork be with Prague | Osaka => designated c | _ => None end.
  (** A message from the system address to [target]: 30 million gas, no
      value, nothing warm, the code of the target read through at most one
      designator. *)
  Record system_message (target : address) (data : bytes) (s : state) (te : tx_env) (m : message)
    : Prop := {
    sy_origin : t_origin te = 2 ^ 160 - 2 /\ t_gas_price te = b_base_fee_per_gas be /\
      t_blob_versioned_hashes te = [];
    sy_caller : m_caller m = 2 ^ 160 - 2;
    sy_target : m_target m = Some target /\ m_current_target m = target;
    sy_gas : m_gas m = 30000000;
    sy_value : m_value m = 0 /\ m_should_transfer_value m = false;
    sy_data : m_data m = data;
    sy_depth : m_depth m = 0 /\ m_is_static m = false;
    sy_code : let source := default target (leads_to (code (get_account s target))) in
      m_code_address m = Some source /\ m_code m = code (get_account s source);
    sy_precompiles : m_disable_precompiles m =
      match leads_to (code (get_account s target)) with Some _ => true | None => false end;
    sy_warm : forall a, a ∈ m_accessed_addresses m <-> leads_to (code (get_account s target)) = Some a;
    sy_slots : m_accessed_storage_keys m = ∅;
  }.
  (** Running it from [s] gives [o] and ends in [s']; nobody pays for the gas. *)
  Definition system_call (target : address) (data : bytes) (s : state) (o : message_call_output)
      (s' : state) : Prop :=
    exists te m e w', system_message target data s te m /\
      process_message cr be te m (World s empty_transient) = PRet e w' /\ s' = st w' /\ reported 0 e o.

  (** The transactions, each as C55 says, when [gas] and [blobs] have been
      used before. *)
  Inductive sequence : N -> N -> state -> list transaction -> list receipt -> state -> Prop :=
  | Sequence_nil gas blobs s : sequence gas blobs s [] [] s
  | Sequence_cons gas blobs s bo tx r s1 txs rs s' :
      bo_block_gas_used bo = gas -> bo_blob_gas_used bo = blobs ->
      transacted cr be bo tx s r s1 ->
      sequence (rc_cumulative_gas_used r) (blobs + blob_gas tx) s1 txs rs s' ->
      sequence gas blobs s (tx :: txs) (r :: rs) s'.

  (** The withdrawals are paid in Gwei and nothing else changes. *)
  Definition withdrawn_from (wds : list withdrawal) (s s' : state) : Prop :=
    (forall a, get_account s' a = let acc := get_account s a in
       Account (nonce acc) (balance acc + 10 ^ 9 * withdrawn a wds) (code acc)) /\
    (forall a k, get_storage s' a k = get_storage s a k).

  (** A step that only some forks have. *)
  Definition step_if (P Q : Prop) (s s' : state) : Prop := (P -> Q) /\ (~ P -> s' = s).

  (** The whole body, for the given parent beacon root and parent hash. *)
  Definition body (root parent : N) (txs : list transaction) (wds : list withdrawal) (s : state)
      (rs : list receipt) (withdrawal_requests consolidation_requests : bytes) (s' : state) : Prop :=
    exists s1 s2 s3 s4,
      (* the calls to the beacon root and block hash contracts may fail *)
      step_if (has_blobs (b_fork be))
        (exists o, system_call 0x000F3df6D732807Ef1319fB7B8bB8522d0Beac02 (to_be_bytes32 root) s o s1) s s1 /\
      step_if (has_requests (b_fork be))
        (exists o, system_call 0x0000F90827F1C53a10cb7A02335B175320002935 (to_be_bytes32 parent) s1 o s2) s1 s2 /\
      sequence 0 0 s2 txs rs s3 /\
      step_if (has_withdrawals (b_fork be)) (withdrawn_from wds s3 s4) s3 s4 /\
      (* the calls to the request contracts may not *)
      step_if (has_requests (b_fork be))
        (exists s5 o3 o4,
           code (get_account s4 0x00000961Ef480Eb55e80D19ad83579A64c007002) <> [] /\
           system_call 0x00000961Ef480Eb55e80D19ad83579A64c007002 [] s4 o3 s5 /\ o_error o3 = None /\
           code (get_account s5 0x0000BBdDc7CE488642fb579F8B00f3a590007251) <> [] /\
           system_call 0x0000BBdDc7CE488642fb579F8B00f3a590007251 [] s5 o4 s' /\ o_error o4 = None /\
           withdrawal_requests = o_return_data o3 /\ consolidation_requests = o_return_data o4) s4 s'.

  (** ** Proofs *)
  Lemma system_spec target data s o s' : anchored s ->
    process_system_transaction cr be target (code (get_account s target)) data s = (Done o, s') ->
    system_call target data s o s'.
  Proof.
    unfold process_system_transaction. intros Ha H.
    eapply call_message_called in H as (w' & Hc & ->);
      [|done|by apply anchored_rooted|by intros to [= <-]].
    unfold called in Hc. cbn [m_target t_authorizations] in Hc.
    destruct Hc as (r & w1 & m' & e & Hau & Hts & [R1 R2 R3 R4] & He & Hrep).
    inversion Hau as [s0 E1 E2 E3| |]. cbn [st ts] in *.
    assert (w1 = World s empty_transient) as ->.
    { destruct w1 as [s2 t2]. cbn in *. congruence. }
    eexists _, m', e, w'. split; [|split; [exact He|split; [done|]]]; [|congruence].
    cbn [m_caller m_target m_current_target m_gas m_value m_data m_depth m_should_transfer_value m_is_static
      m_accessed_storage_keys m_accessed_addresses m_disable_precompiles st] in *.
    destruct R1 as (A1 & A2 & A3 & A4 & A5 & A6 & A7 & A8 & A9 & A10).
    assert (HD : forall c, (if at_least Prague (b_fork be) then designated c else None) = leads_to c).
    { intros c. unfold leads_to. by destruct (b_fork be). }
    unfold code_source, delegate in R2, R3, R4. rewrite !HD in R2, R3, R4. cbn [st] in R2, R3, R4.
    constructor; cbn [t_origin t_gas_price t_blob_versioned_hashes]; try done.
    intros a. rewrite R4. rewrite elem_of_empty. split; [|tauto].
    intros [[]|[(t & Ht & _)|?]]; [|done]. by apply elem_of_nil in Ht.
  Qed.
  Lemma unchecked_spec target data s o s' : anchored s ->
    process_unchecked_system_transaction cr be target data s = (Done o, s') ->
    system_call target data s o s'.
  Proof.
    unfold process_unchecked_system_transaction. intros Ha H. sm_step H. by apply system_spec.
  Qed.
  Lemma checked_spec target data s o s' : anchored s ->
    process_checked_system_transaction cr be target data s = (Done o, s') ->
    code (get_account s target) <> [] /\ system_call target data s o s' /\ o_error o = None.
  Proof.
    unfold process_checked_system_transaction. intros Ha H. sm_step H. sm_step H. sm_step H. sm_step H.
    apply sret_inv in H as [-> ->]. apply check_inv in E, E1. split; [|split; [by apply system_spec|]].
    - intros Hc. by rewrite Hc in E.
    - by destruct (o_error _).
  Qed.
  Lemma withdrawals_spec bo wds i s bo' s' : anchored s ->
    process_withdrawals bo wds i s = (Done bo', s') -> withdrawn_from wds s s'.
  Proof.
    intros Ha H. apply C41_balances in H as (Hb & _ & Hn & Hs). split; [|by apply Hs, anchored_owned].
    intros a. cbv zeta. rewrite <- Hb. destruct (Hn a) as [<- <-]. by destruct (get_account s' a).
  Qed.

  Lemma sequence_spec bo etxs i s bo' s' :
    process_transactions cr be bo etxs i s = (Done bo', s') -> settled s -> anchored s ->
    trie_ok (bo_receipts_trie bo) -> i + lenN etxs < 2 ^ 256 ->
    exists txs rs, map (decode_transaction (b_fork be)) etxs = map Done txs /\ length rs = length txs /\
      sequence (bo_block_gas_used bo) (bo_blob_gas_used bo) s txs rs s' /\
      cumulates (least_gas (b_fork be)) (bo_block_gas_used bo) rs (bo_block_gas_used bo') /\
      Forall (fun r => rc_bloom r = logs_bloom cr (rc_logs r)) rs /\
      bo_block_logs bo' = bo_block_logs bo ++ concat (map rc_logs rs) /\
      (forall j tx r, nth_error txs j = Some tx -> nth_error rs j = Some r ->
         trie_get (bo_receipts_trie bo') (encode (RUint (i + N.of_nat j))) = Some (encode_receipt tx r)) /\
      (forall k, (forall j, (j < length txs)%nat -> k <> encode (RUint (i + N.of_nat j))) ->
         trie_get (bo_receipts_trie bo') k = trie_get (bo_receipts_trie bo) k).
  Proof.
    revert bo i s. induction etxs as [|etx etxs IH]; intros bo i s H Hs Ha Hok Hi.
    { apply sret_inv in H as [-> ->]. exists [], []. cbn. rewrite app_nil_r.
      split_and!; try done; [constructor|]. by intros [|j]. }
    cbn [process_transactions] in H. sm_step H. rename v into tx. sm_step H. rename v into bo1, s0 into s1.
    rewrite lenN_cons in Hi.
    destruct (C34_transaction _ _ _ _ _ _ _ _ E0) as (_ & L2 & _ & L4).
    pose proof (decode_known _ _ _ E) as Hkn.
    destruct (C55_transaction _ _ _ _ _ _ _ _ Hkn E0 Hs (anchored_rooted _ Ha)) as (r & Ht & Ho).
    apply IH in H as (txs & rs & H1 & H2 & H3 & H4 & H5 & H6 & H7 & H8);
      [|by eapply settled_transaction|by eapply C57_transaction|by rewrite Ho; apply trie_set_ok|lia].
    assert (HL : length txs = length etxs).
    { apply (f_equal length) in H1. rewrite !map_length in H1. lia. }
    exists (tx :: txs), (r :: rs).
    assert (Hg : bo_block_gas_used bo1 = rc_cumulative_gas_used r) by (by rewrite Ho).
    set (k0 := encode (RUint i)) in *.
    assert (Hk : forall j, (j < length txs)%nat -> k0 <> encode (RUint (i + 1 + N.of_nat j))).
    { intros j Hj Ek. apply index_key_inj in Ek; unfold lenN in Hi; lia. }
    split; [cbn; congruence|]. split; [cbn; lia|].
    split. { eapply Sequence_cons; [done|done|exact Ht|]. by rewrite <- Hg, <- L4. }
    split. { cbn [cumulates]. rewrite <- Hg. done. }
    split. { constructor; [|done]. destruct Ht as (? & ? & ? & ? & ? & ? & ? & ? & ? & _ & _ & _ & _ & _ & _ & _ & _ & _ & _ & _ & ->). done. }
    split. { rewrite H6, Ho. cbn. by rewrite <- app_assoc. }
    split.
    { intros [|j] tx' r'; cbn [nth_error].
      - intros [= <-] [= <-]. replace (i + N.of_nat 0) with i by lia. fold k0. rewrite (H8 k0 Hk), Ho. cbn.
        rewrite trie_get_set by done. by rewrite decide_True.
      - replace (i + N.of_nat (S j)) with (i + 1 + N.of_nat j) by lia. apply H7. }
    intros k Hkk.
    assert (Hk1 : forall j, (j < length txs)%nat -> k <> encode (RUint (i + 1 + N.of_nat j))).
    { intros j Hj. specialize (Hkk (S j)). replace (i + N.of_nat (S j)) with (i + 1 + N.of_nat j) in Hkk by lia.
      apply Hkk. cbn. lia. }
    assert (Hk2 : k0 <> k).
    { specialize (Hkk 0%nat). replace (i + N.of_nat 0) with i in Hkk by lia. intros <-. apply Hkk; [cbn; lia|done]. }
    rewrite (H8 k Hk1), Ho. cbn. rewrite trie_get_set by done. by rewrite decide_False by done.
  Qed.
End Body.

Section Block.
  Context (cr : crypto).

  Lemma zip_lookup (t : trie (option encoded_receipt)) txs rs0 rs :
    length rs0 = length txs -> length rs = length txs -> holds t (zip_with encode_receipt txs rs0) ->
    (forall j tx r, nth_error txs j = Some tx -> nth_error rs j = Some r ->
       trie_get t (index_key j) = Some (encode_receipt tx r)) ->
    zip_with encode_receipt txs rs0 = zip_with encode_receipt txs rs.
  Proof.
    intros L0 L H Hr. apply same_nth. intros j. specialize (Hr j). pose proof (ho_in _ _ H j) as H0.
    assert (HZ : forall l, length l = length txs -> nth_error (zip_with encode_receipt txs l) j =
      match nth_error txs j, nth_error l j with
      | Some tx, Some r => Some (encode_receipt tx r) | _, _ => None end).
    { clear. revert j. induction txs as [|tx txs IH]; intros [|j] [|r l]; cbn; try done.
      intros HL. apply IH. lia. }
    rewrite (HZ rs0 L0) in H0 |- *. rewrite (HZ rs L).
    assert (HN : forall l : list receipt, length l = length txs -> nth_error l j = None <-> nth_error txs j = None).
    { intros l HL. rewrite !nth_error_None. lia. }
    destruct (nth_error txs j) as [tx|]; [|done].
    destruct (nth_error rs0 j) as [r0|] eqn:E0; [|by apply HN in E0].
    destruct (nth_error rs j) as [r|] eqn:E; [|by apply HN in E].
    rewrite <- (Hr tx r eq_refl eq_refl). symmetry. by apply H0.
  Qed.

  Lemma last_hash chain p h : last (bc_blocks chain) = Some p ->
    last (b_block_hashes (block_env_of cr chain h)) = Some (from_be_bytes (header_hash cr (bl_header p))).
  Proof.
    intros Hp. cbn [b_block_hashes block_env_of]. unfold get_last_256_block_hashes.
    rewrite last_lastN, Hp by done. rewrite map_app. cbn [map]. by rewrite last_snoc.
  Qed.

  (** An accepted block was executed as described, and its header states the
      results of that execution. *)
  Theorem C56_block chain b u chain' : sized b ->
    state_transition cr chain b = (Done u, chain') -> settled (bc_state chain) -> anchored (bc_state chain) ->
    exists txs rs tx_trie receipt_trie withdrawal_trie deposits withdrawals consolidations,
      body cr (block_env_of cr chain (bl_header b)) (h_parent_beacon_block_root (bl_header b))
        (from_be_bytes (h_parent_hash (bl_header b))) txs (bl_withdrawals b) (bc_state chain)
        rs withdrawals consolidations (bc_state chain') /\
      described cr b (bc_state chain') txs rs tx_trie receipt_trie withdrawal_trie
        deposits withdrawals consolidations.
  Proof.
    intros Hsz H Hs Ha. destruct (transition_done _ _ _ _ _ H) as (HV & _ & HS' & (bo & HB & HC) & _ & _).
    pose proof (sized_spec _ Hsz HS') as HS.
    destruct (validate_header_inv _ _ _ _ HV) as (p & Hp & HF).
    set (be := block_env_of cr chain (bl_header b)) in *.
    assert (Hfk : b_fork be = h_fork (bl_header b)) by done.
    apply apply_body_inv in HB as (s1 & s2 & v2 & s3 & v3 & s4 & E1 & E2 & E3 & E4 & E5).
    assert (settled s1 /\ anchored s1) as [Hs1 Ha1].
    { destruct (at_least Cancun (b_fork be)) eqn:Hf; [|by subst s1]. destruct E1 as [o E1].
      split; [by eapply unchecked_grows|by eapply unchecked_anchored]. }
    assert (settled s2 /\ anchored s2) as [Hs2 Ha2].
    { destruct (at_least Prague (b_fork be)) eqn:Hf; [|by subst s2]. destruct E2 as (h & o & _ & E2).
      split; [by eapply unchecked_grows|by eapply unchecked_anchored]. }
    pose proof (transactions_anchored _ _ _ _ _ _ _ _ E3 Hs2 Ha2) as [Hs3 Ha3].
    assert (Ha4 : anchored s4).
    { destruct (at_least Shanghai (b_fork be)) eqn:Hf; [by eapply withdrawals_anchored|by destruct E4 as [_ ->]]. }
    pose proof (withdrawals_of_step be b _ _ _ _ Hfk E4) as E4'.
    assert (exists d w c,
      (if at_least Prague (b_fork be) then parse_deposit_requests v3 = Done d /\
         bo = add_request CONSOLIDATION_REQUEST_TYPE c (add_request WITHDRAWAL_REQUEST_TYPE w
           (add_request DEPOSIT_REQUEST_TYPE d v3))
       else bo = v3) /\
      step_if (has_requests (b_fork be))
        (exists s5 o3 o4,
           code (get_account s4 0x00000961Ef480Eb55e80D19ad83579A64c007002) <> [] /\
           system_call cr be 0x00000961Ef480Eb55e80D19ad83579A64c007002 [] s4 o3 s5 /\ o_error o3 = None /\
           code (get_account s5 0x0000BBdDc7CE488642fb579F8B00f3a590007251) <> [] /\
           system_call cr be 0x0000BBdDc7CE488642fb579F8B00f3a590007251 [] s5 o4 (bc_state chain') /\ o_error o4 = None /\
           w = o_return_data o3 /\ c = o_return_data o4) s4 (bc_state chain')) as (d & w & c & Hq & Hreq).
    { pose proof (has_requests_spec (b_fork be)) as Hsp. destruct (at_least Prague (b_fork be)).
      - unfold process_general_purpose_requests in E5. sm_step E5. sm_step E5. sm_step E5. apply sret_inv in E5 as [HB HE].
        pose proof (checked_anchored _ _ _ _ _ _ _ E0 Ha4) as Ha5.
        exists v, (o_return_data v0), (o_return_data v1). split; [split; [done|by rewrite HB]|].
        apply checked_spec in E0 as (D1 & C1 & S1); [|done].
        apply checked_spec in E6 as (D2 & C2 & S2); [|done]. rewrite <- HE in C2.
        split; [|intros Hn; by destruct Hn; apply Hsp]. intros _. exists s, v0, v1.
        split_and!; done.
      - destruct E5 as [-> E5]. exists [], [], []. split; [done|]. split; [intros Hn; by apply Hsp, eq_sym in Hn|done]. }
    destruct (parts_executed cr be b _ _ _ _ _ d w c bo HS Hfk E3 E4' Hq) as (txs & rs0 & He).
    destruct (sequence_spec cr be _ _ _ _ _ _ E3 Hs2 Ha2) as (txs' & rs & T1 & T2 & T3 & T4 & T5 & T6 & T7 & _);
      [split; [apply NoDup_nil_2|done]|destruct (block_lengths b HS); lia|].
    assert (txs' = txs) as ->.
    { pose proof (ex_txs _ _ _ _ _ _ _ _ He) as T0. rewrite Hfk in T1. rewrite T1 in T0. clear - T0. revert txs T0.
      induction txs' as [|x l IH]; intros [|y l'] [=]; [done|]. f_equal; [done|by apply IH]. }
    assert (HL : lenN (withdrawals_of b) < 2 ^ 256) by apply block_lengths, HS.
    assert (HR : bo_receipts_trie bo = bo_receipts_trie v2 /\ bo_block_logs bo = bo_block_logs v2 /\
      bo_block_gas_used bo = bo_block_gas_used v2).
    { destruct (C34_transactions _ _ _ _ _ _ _ _ E3) as (_ & _ & _ & ? & _ & _ & _ & _ & _ & _ & _ & R8 & _);
        [split; cbn; lia|split; [apply NoDup_nil_2|done]..|destruct (block_lengths b HS); lia|].
      destruct (C41_trie _ _ _ _ _ _ ltac:(rewrite R8; split; [apply NoDup_nil_2|done]) ltac:(by rewrite N.add_0_l) E4')
        as (_ & _ & _ & W4 & _ & W6 & _ & W8 & _ & _).
      destruct (at_least Prague (b_fork be)); [destruct Hq as [_ ->]; by rewrite !add_request_spec|by subst bo]. }
    destruct HR as (HR1 & HR2 & HR3).
    assert (HZ : zip_with encode_receipt txs rs0 = zip_with encode_receipt txs rs).
    { eapply zip_lookup; [apply (ex_length _ _ _ _ _ _ _ _ He)|done|
        exact (ex_receipts_trie _ _ _ _ _ _ _ _ He)|]. rewrite HR1. exact T7. }
    assert (He' : executed cr b bo txs rs d w c).
    { destruct He. constructor; try done.
      - by rewrite <- HZ.
      - rewrite HR3. exact T4.
      - by rewrite HR2, T6.
      - by rewrite <- HZ. }
    exists txs, rs. do 3 eexists. exists d, w, c. split; [|by eapply header_described].
    exists s1, s2, s3, s4. split; [|split; [|split; [exact T3|split; [|exact Hreq]]]].
    - pose proof (has_blobs_spec (b_fork be)) as Hsp. destruct (at_least Cancun (b_fork be)).
      + destruct E1 as [o E1]. split; [|intros Hn; by destruct Hn; apply Hsp]. intros _. exists o. by apply unchecked_spec.
      + split; [intros Hn; by apply Hsp, eq_sym in Hn|done].
    - pose proof (has_requests_spec (b_fork be)) as Hsp. destruct (at_least Prague (b_fork be)).
      + destruct E2 as (h & o & Eh & E2). split; [|intros Hn; by destruct Hn; apply Hsp].
        intros _. exists o. apply unchecked_spec in E2; [|done].
        subst be. rewrite (last_hash _ _ _ Hp) in Eh. injection Eh as <-. by rewrite <- (fo_parent _ _ _ HF) in E2.
      + split; [intros Hn; by apply Hsp, eq_sym in Hn|done].
    - pose proof (has_withdrawals_spec (b_fork be)) as Hsp. destruct (at_least Shanghai (b_fork be)).
      + split; [|intros Hn; by destruct Hn; apply Hsp]. intros _. by eapply withdrawals_spec.
      + split; [intros Hn; by apply Hsp, eq_sym in Hn|by destruct E4].
  Qed.
End Block.

(** ** Example *)

(** A chain whose system contracts store their input, or return one byte. *)
Definition code_stores : bytes := bs [0x60;0; 0x35; 0x60;0; 0x55; 0x00].
Definition code_returns : bytes := bs [0x60;7; 0x60;0; 0x53; 0x60;1; 0x60;0; 0xF3].
Definition ex_body_chain : block_chain :=
  BlockChain [ex_genesis]
    (toy_state [(0xaaaa, Account 0 100000000 []); (0xbbbb, Account 1 0 code_succeeds);
       (BEACON_ROOTS_ADDRESS, Account 1 0 code_stores);
       (HISTORY_STORAGE_ADDRESS, Account 1 0 code_stores);
       (WITHDRAWAL_REQUEST_PREDEPLOY_ADDRESS, Account 1 0 code_returns);
       (CONSOLIDATION_REQUEST_PREDEPLOY_ADDRESS, Account 1 0 [Byte.x00])] ∅) 1.
Definition ex_body_block : block := default ex_genesis (ex_seal ex_body_chain ex_open_block).
Example C56_nonvacuous :
  settled (bc_state ex_body_chain) /\ anchored (bc_state ex_body_chain) /\
  match state_transition ex_crypto ex_body_chain ex_body_block with
  | (Done _, c) =>
      get_storage (bc_state c) BEACON_ROOTS_ADDRESS 0 = h_parent_beacon_block_root (bl_header ex_body_block) /\
      get_storage (bc_state c) HISTORY_STORAGE_ADDRESS 0
        = from_be_bytes (h_parent_hash (bl_header ex_body_block)) /\
      h_requests_hash (bl_header ex_body_block)
        = compute_requests_hash ex_crypto [bs [1; 7]] /\
      balance (get_account (bc_state c) 0xdddd) = 5 * 10 ^ 9 /\
      h_parent_beacon_block_root (bl_header ex_body_block) <> 0 /\
      length (bl_transactions ex_body_block) = 2%nat
  | _ => False
  end.
Proof.
  split; [done|]. split; [|by vm_compute].
  split; [intros a k Hk; exfalso; by apply Hk|].
  intros a. unfold firm, get_account, get_account_optional. cbn [main_trie bc_state ex_body_chain toy_state list_to_map foldr fst snd uncurry].
  intros Ha.
  destruct (decide (a = 0xaaaa)) as [->|]; [by destruct Ha|].
  destruct (decide (a = 0xbbbb)) as [->|]; [by left|].
  destruct (decide (a = BEACON_ROOTS_ADDRESS)) as [->|]; [by left|].
  destruct (decide (a = HISTORY_STORAGE_ADDRESS)) as [->|]; [by left|].
  destruct (decide (a = WITHDRAWAL_REQUEST_PREDEPLOY_ADDRESS)) as [->|]; [by left|].
  destruct (decide (a = CONSOLIDATION_REQUEST_PREDEPLOY_ADDRESS)) as [->|]; [by left|].
  exfalso. apply Ha. rewrite !lookup_insert_ne by congruence. done.
Qed.

Definition PropBody_theorems := (@C56_block).
Print Assumptions PropBody_theorems.
