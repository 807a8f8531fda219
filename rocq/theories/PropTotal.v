(** * PropTotal: C59, processing a block raises no internal error.

    Transactions, blocks and chains are accepted or rejected with one of the
    exceptions meant for that, in all forks since the merge.  Before Osaka the
    virtual machine can also raise OverflowError (C17, C59_overflow_refuted);
    no other arithmetic overflow, failed assertion or exception of the virtual
    machine leaves the state transition. *)
From Verif Require Import Base State Rlp Vm Instructions Precompiles Interpreter StateSpec StateProofs
  NumericProofs ArithProofs EvmStep EvmRule EvmAccounts EvmInv RlpProofs PropRlp PropSafe PropFees PropTx PropCalls
  PropRefund PropDelegation Trie TrieProofs PropTrie Bloom PropBloom Transactions Blocks Requests Fork PropBlocks
  ForkProofs PropWithdrawals TxProofs PropChain PropHeader EvmExamples ForkExamples PropTransaction PropOuter
  PropHistory PropAnchored PropCommit PropBody TotalProofs.
From Coq Require Import ZifyBool ZifyN ZifyNat.
Ltac Zify.zify_post_hook ::= idtac.

Local Opaque to_u256 from_be_bytes.

(** ** Steps that cannot fail *)
Lemma modify_total s a f : (forall acc, exists acc', f acc = Ok acc') -> exists s', modify_state s a f = Ok s'.
Proof. intros H. unfold modify_state. destruct (H (get_account s a)) as [acc ->]. eauto. Qed.
Lemma increment_nonce_done s a : exists s', increment_nonce s a = Ok s'.
Proof. apply modify_total. intros acc. by eexists. Qed.
Lemma set_balance_done s a n : exists s', set_account_balance s a n = Ok s'.
Proof. apply modify_total. intros acc. by eexists. Qed.
Lemma modifies_done f s s' : f s = Ok s' -> modifies f s = (Done tt, s').
Proof. unfold modifies. by intros ->. Qed.
Lemma sbind_done {A B} (m : sm A) (f : A -> sm B) s a s' : m s = (Done a, s') -> sbind m f s = f a s'.
Proof. unfold sbind. by intros ->. Qed.
Lemma sbind_fail {A B} (m : sm A) (f : A -> sm B) s e s' : m s = (Fail e, s') -> sbind m f s = (Fail e, s').
Proof. unfold sbind. by intros ->. Qed.
Lemma lift_done {A B} (o : outcome A) (f : A -> sm B) s a : o = Done a -> sbind (lift o) f s = f a s.
Proof. by intros ->. Qed.
Lemma lift_usub {B} a b (f : N -> sm B) s : b <= a -> sbind (lift (usub a b)) f s = f (a - b) s.
Proof. intros H. by rewrite (usub_le _ _ H). Qed.
Lemma lift_u256 {B} a (f : N -> sm B) s : a < 2 ^ 256 -> sbind (lift (u256 a)) f s = f a s.
Proof. intros H. by rewrite (u256_lt _ H). Qed.
Lemma lift_u64 {B} a (f : N -> sm B) s : a < 2 ^ 64 -> sbind (lift (u64 a)) f s = f a s.
Proof. intros H. by rewrite (u64_lt _ H). Qed.
Lemma gets_done {A B} (g : state -> A) (f : A -> sm B) s : sbind (gets g) f s = f (g s) s.
Proof. done. Qed.

Section Steps.
  Context (cr : crypto) (be : block_env).

  Lemma charge_total a acc fee bfee s : fee + bfee <= balance acc -> balance acc < 2 ^ 256 ->
    exists s', charge_sender a acc fee bfee s = (Done tt, s').
  Proof.
    intros H1 H2. unfold charge_sender.
    destruct (increment_nonce_done s a) as [s1 E]. rewrite (sbind_done _ _ _ tt s1) by by apply modifies_done.
    rewrite lift_usub by lia.
    rewrite lift_usub by lia.
    rewrite lift_u256 by lia.
    destruct (set_balance_done s1 a (balance acc - fee - bfee)) as [s2 E2].
    exists s2. by apply modifies_done.
  Qed.
  Lemma refund_total a n s : total_balance s + n < 2 ^ 256 ->
    exists s', refund_sender a n s = (Done tt, s').
  Proof.
    intros H. unfold refund_sender. pose proof (balance_le_total s a).
    rewrite lift_u256 by lia. rewrite gets_done.
    rewrite lift_u256 by lia.
    destruct (set_balance_done s a (balance (get_account s a) + n)) as [s2 E2].
    exists s2. by apply modifies_done.
  Qed.
  Lemma coinbase_total n s : total_balance s + n < 2 ^ 256 ->
    exists s', pay_coinbase be n s = (Done tt, s').
  Proof.
    intros H. unfold pay_coinbase. pose proof (balance_le_total s (b_coinbase be)).
    rewrite lift_u256 by lia. rewrite gets_done.
    rewrite lift_u256 by lia.
    destruct (negb _).
    - destruct (set_balance_done s (b_coinbase be) (balance (get_account s (b_coinbase be)) + n)) as [s2 E2].
      exists s2. by apply modifies_done.
    - eexists. by apply modifies_done.
  Qed.
End Steps.

(** ** Reference *)
(** The digests have their sizes. *)
Record digests (cr : crypto) : Prop := {
  dg_keccak : forall b, lenN (keccak256 cr b) = 32;
  dg_sha256 : forall b, lenN (sha256_digest cr b) = 32;
  dg_ripemd160 : forall b, lenN (ripemd160_digest cr b) = 20;
}.
(** The numbers of a block environment have their sizes, and the hashes of the
    up to 256 previous blocks are at hand. Before Osaka, which limits the gas of a
    transaction, the block does. *)
Record block_ok (be : block_env) : Prop := {
  bk_coinbase : b_coinbase be < 2 ^ 160;
  bk_time : b_time be < 2 ^ 256;
  bk_number : b_number be < 2 ^ 256;
  bk_randao : b_prev_randao be < 2 ^ 256;
  bk_gaslimit : b_block_gas_limit be < 2 ^ 256;
  bk_room : b_fork be <> Osaka -> b_block_gas_limit be < 2 ^ 60;
  bk_chainid : b_chain_id be < 2 ^ 256;
  bk_basefee : b_base_fee_per_gas be < 2 ^ 256;
  bk_blob : forall p, fork_blob_gas_price (b_fork be) (b_excess_blob_gas be) = Some p -> p < 2 ^ 256;
  bk_hashes : forall n, n < b_number be -> b_number be <= n + 256 ->
      b_number be - n - 1 < lenN (b_block_hashes be);
  bk_hashes_words : Forall (fun x => x < 2 ^ 256) (b_block_hashes be);
}.
Lemma block_env_ok cr be te : digests cr -> block_ok be -> t_origin te < 2 ^ 160 ->
  t_gas_price te < 2 ^ 256 -> Forall (fun x => x < 2 ^ 256) (t_blob_versioned_hashes te) -> env_ok cr be te.
Proof.
  intros [D1 D2 D3] [] H1 H2 H3. assert (H : 2 ^ 160 < 2 ^ 256) by done.
  assert (H' : 32 < 2 ^ 256) by done.
  constructor; try done; try (by eapply N.lt_trans).
  - intros b. by rewrite D1.
  - intros b. by rewrite D2.
  - intros b. by rewrite D3.
Qed.

(** The exceptions that mean the transaction or the block is invalid. *)
Definition rejection (e : failure) : Prop :=
  match e with FInvalidTransaction _ | FInvalidBlock => True | _ => False end.

Section Tx.
  Context (cr : crypto) (be : block_env) (HD : digests cr) (HB : block_ok be).

  Lemma prices_fails tx e : tx_prices be tx = Fail e -> rejection e.
  Proof.
    destruct tx; cbn [tx_prices]; unfold legacy_prices, fee_market_prices, invalid;
      repeat destruct (_ <? _); try done; by intros [= <-].
  Qed.
  Lemma recover_fails c tx e : recover_sender cr c tx = Fail e -> rejection e.
  Proof.
    unfold recover_sender, recover_with, invalid.
    destruct (_ || _); [by intros [= <-]|]. destruct (_ || _); [by intros [= <-]|].
    destruct tx; repeat (match goal with |- context [if ?b then _ else _] => destruct b end);
      cbn [obind]; try (by intros [= <-]); destruct (secp256k1_recover _ _ _ _ _); cbn [of_option obind]; try done;
      by intros [= <-].
  Qed.
  Lemma blobs_fails tx e : lenN (tx_blobs tx) < 2 ^ 40 -> check_blobs be tx = Fail e -> rejection e.
  Proof.
    intros Hl. destruct tx; try done. cbn [check_blobs]. unfold invalid.
    destruct (_ =? _); [by intros [= <-]|]. destruct (_ && _); [by intros [= <-]|].
    destruct (negb _); [by intros [= <-]|].
    destruct (blob_gas_price_done (b_fork be) (b_excess_blob_gas be)) as (p & -> & _). cbn [obind].
    destruct (_ <? _); [by intros [= <-]|].
    rewrite (proj2 (total_blob_gas_spec (Blob t) _ Hl) eq_refl). done.
  Qed.

  (** A transaction is accepted or rejected. *)
  Lemma check_fails bo tx s e : within_limits be bo -> lenN (tx_blobs tx) < 2 ^ 40 ->
    check_transaction cr be bo tx s = Fail e -> rejection e.
  Proof.
    intros [L1 L2] Hl. unfold check_transaction.
    assert (HM : MAX_BLOB_GAS_PER_BLOCK (b_fork be) = blob_limit (b_fork be)) by (by destruct (b_fork be)).
    rewrite HM.
    rewrite (usub_le _ _ L1). cbn [obind]. rewrite (usub_le _ _ L2). cbn [obind].
    destruct (_ <? tx_gas tx); [by intros [= <-]|]. cbn [obind].
    rewrite (proj2 (total_blob_gas_spec tx _ Hl) eq_refl). cbn [obind].
    destruct (_ <? blob_gas tx); [by intros [= <-]|]. cbn [obind].
    destruct (recover_sender _ _ _) as [a|x] eqn:E1; cbn [obind];
      [|intros [= <-]; by eapply recover_fails].
    destruct (tx_prices _ _) as [[p mf]|x] eqn:E2; cbn [obind]; [|intros [= <-]; by eapply prices_fails].
    destruct (check_blobs _ _) as [[bf hs]|x] eqn:E3; cbn [obind]; [|intros [= <-]; by eapply blobs_fails].
    assert (Hc : forall (o : outcome unit) (k : unit -> outcome (address * N * list N * N)),
      (forall x, o = Fail x -> rejection x) -> (k tt = Fail e -> rejection e) ->
      (x <~ o ;; k x) = Fail e -> rejection e).
    { intros [[]|x] k H1 H2; cbn [obind]; [apply H2|]. intros [= <-]. by apply H1. }
    apply Hc; [|apply Hc; [|apply Hc; [|apply Hc; [|done]]]]; unfold invalid.
    - intros x. destruct tx; try done. destruct (ct_authorizations t); [by intros [= <-]|done].
    - intros x. destruct (negb _); [by intros [= <-]|done].
    - intros x. destruct (_ <? _); [by intros [= <-]|done].
    - intros x. destruct (_ && _); [by intros [= <-]|done].
  Qed.
  Lemma validate_fails tx e : validate_transaction (b_fork be) tx = Fail e -> rejection e.
  Proof.
    unfold validate_transaction, invalid. destruct (calculate_intrinsic_cost _ tx).
    repeat (match goal with |- context [if ?b then _ else _] => destruct b end; try by intros [= <-]).
  Qed.

  Lemma typed_parts tx : typed_tx tx ->
    typed_to (tx_to tx) /\ tx_value tx < 2 ^ 256 /\ Forall (fun h => h < 2 ^ 256) (tx_blobs tx).
  Proof.
    destruct tx; cbn [typed_tx tx_to tx_value tx_blobs];
      unfold typed_legacy, typed_access_list, typed_fee_market, typed_blob, typed_set_code;
      intros H; decompose [and] H; repeat split; try done.
  Qed.
  Lemma address_small h : address_of_hash h < 2 ^ 160.
  Proof.
    unfold address_of_hash. change (2 ^ 160) with (256 ^ 20). apply from_be_lt_n.
    rewrite dropN_skipn. unfold lenN. rewrite skipn_length. lia.
  Qed.
  Lemma sender_small c tx a : recover_sender cr c tx = Done a -> a < 2 ^ 160.
  Proof.
    intros (p & k & _ & _ & _ & _ & ->)%C29_sender. change (2 ^ 160) with (256 ^ 20). apply from_be_lt_n.
    unfold sliceN. rewrite takeN_firstn, dropN_skipn. unfold lenN. rewrite firstn_length. lia.
  Qed.

  Definition accepted_logs (bo bo' : block_output) (gas : N) : Prop :=
    exists logs, bo_block_logs bo' = bo_block_logs bo ++ logs /\ Forall typed_log logs /\ logs_gas logs <= gas.

  (** A transaction that passes the checks is executed to the end. *)
  Lemma run_total bo tx i s x sender price hashes bgas :
    good s -> within_limits be bo -> typed_tx tx -> known_in (b_fork be) tx -> validate_transaction (b_fork be) tx = Done x ->
    check_transaction cr be bo tx s = Done (sender, price, hashes, bgas) ->
    (exists bo' s', process_transaction cr be bo tx i s = (Done bo', s') /\ good s' /\
      accepted_logs bo bo' (tx_gas tx)) \/
    (exists e s', process_transaction cr be bo tx i s = (Fail e, s') /\ overflows (b_fork be) e).
  Proof.
    intros Hg HL Ht Hk Hv Hc.
    pose proof Hc as Hacc. apply C36_accepts in Hacc as (Hac & -> & ->).
    pose proof Hv as Hva. apply C43_validate in Hva as (Hx & V1 & V2 & V3 & V4 & V5).
    assert (V6 : tx_gas tx < 2 ^ 60).
    { destruct (decide (b_fork be = Osaka)) as [E|E]; [specialize (V3 E); assert (2 ^ 24 < 2 ^ 60) by done; lia|].
      pose proof (bk_room _ HB E). pose proof (ac_gas _ _ _ _ _ _ _ Hac). lia. }
    destruct (C43_intrinsic_exact (b_fork be) tx) as [X1 X2]. rewrite <- Hx in X1, X2.
    destruct x as [intrinsic floor]. cbn [fst snd] in *.
    destruct (typed_parts _ Ht) as (Hto & Hval & Hbl).
    destruct Hac as [A1 A2 A3 A4 A5 A6 A7 A8 A9 A10 A11].
    pose proof (sender_small _ _ _ A3) as Hsn.
    destruct Hg as [Gs Ga [W1 W2 W3 _]]. cbn [st] in *.
    destruct (blob_gas_price_done (b_fork be) (b_excess_blob_gas be)) as (bp & Hbp & Hbp').
    assert (Hbn : lenN (tx_blobs tx) < 2 ^ 40).
    { assert (blob_limit (b_fork be) <= 1179648) by (by destruct (b_fork be)). unfold blob_gas in A2.
      assert (2 ^ 24 < 2 ^ 40) by done. lia. }
    assert (Hpm : price <= max_fee tx) by lia.
    assert (Hgp : tx_gas tx * price <= tx_gas tx * max_fee tx) by (by apply N.mul_le_mono_l).
    assert (Hbf : blob_gas tx * bp <= blob_gas tx * max_blob_fee tx).
    { destruct tx; try (change (blob_gas _) with 0; lia). apply N.mul_le_mono_l. by apply (proj2 (proj2 (proj2 (A7 I)))). }
    assert (Hfee : (match tx with Blob _ => calculate_data_fee (b_fork be) (b_excess_blob_gas be) tx | _ => Done 0 end)
      = Done (blob_gas tx * bp)).
    { destruct tx; try done. unfold calculate_data_fee.
      rewrite (proj2 (total_blob_gas_spec (Blob t) _ Hbn) eq_refl).
      cbn [obind]. by rewrite Hbp. }
    pose proof (balance_le_total s sender) as Hbt.
    assert (Hprice : price < 2 ^ 256).
    { apply N.le_lt_trans with (tx_gas tx * price); [|lia].
      rewrite <- (N.mul_1_l price) at 1. apply N.mul_le_mono_r. lia. }
    unfold process_transaction.
    rewrite (lift_done _ _ _ _ Hv). cbv beta iota. rewrite gets_done, (lift_done _ _ _ _ Hc). cbv beta iota.
    rewrite gets_done, (lift_done _ _ _ _ Hfee), lift_usub by done.
    destruct (charge_total sender (get_account s sender) (tx_gas tx * price) (blob_gas tx * bp) s)
      as [s1 E1]; [lia|lia|]. rewrite (sbind_done _ _ _ _ _ E1).
    destruct (charge_facts _ _ _ _ _ _ _ eq_refl E1) as (C1 & C2 & C3 & C4 & C5).
    destruct (access_list_of be tx) as [aa ak] eqn:Eal.
    set (te := TxEnv _ _ _ _ _ _ _).
    assert (Hn1 : nonce (get_account s1 sender) = tx_nonce tx + 1).
    { rewrite C2, decide_True by done. cbn. by rewrite A9. }
    assert (Hm : exists m, prepare_message cr be te tx s1 = Done m).
    { unfold prepare_message. destruct (tx_to tx); [by eexists|]. cbn [t_origin te]. rewrite usub_le by lia.
      cbn [obind]. by eexists. }
    destruct Hm as [m Hm]. rewrite gets_done, (lift_done _ _ _ _ Hm).
    assert (Hou : outermost cr be tx sender s1 m).
    { eapply (outermost_spec _ _ _ te _ price); try done.
      - constructor; try done.
        + cbn. unfold execution_gas. by rewrite <- Hx.
      - by rewrite Eal.
      - by rewrite Eal. }
    assert (Henv : env_ok cr be te) by (by apply block_env_ok).
    assert (Hgood1 : good s1).
    { apply good_intro.
      - destruct C4, Gs. split; congruence.
      - eapply anchored_same; [exact Ga|..].
        + intros a. unfold firm, has_real_code. rewrite C2. destruct (decide (sender = a)) as [<-|]; [|done].
          cbn. split; [lia|]. intros _. left. lia.
        + intros a k. rewrite get_storage_slot, C3, <- get_storage_slot. by left.
        + intros a. rewrite C2. destruct (decide _) as [<-|]; by left.
      - lia.
      - intros a. rewrite C2. destruct (decide _) as [<-|]; apply W2.
      - intros a k. rewrite get_storage_slot, C3, <- get_storage_slot. apply W3. }
    destruct (count_zero_bytes (tx_data tx)) as [_ Hlen].
    assert (Hdata : lenN (tx_data tx) < 2 ^ 256).
    { assert (2 ^ 60 < 2 ^ 256) by done. lia. }
    assert (Hst : startable m s1).
    { pose proof (outermost_addressed _ _ _ _ _ _ Hou) as Had. clear Hm. destruct Hou. constructor.
      - rewrite ou_gas. unfold execution_gas. assert (2 ^ 60 < 2 ^ 64) by done. lia.
      - destruct (tx_to tx) as [a|]; decompose [and] ou_kind.
        + replace (m_code m) with (code (get_account s1 a)) by done. rewrite C2.
          destruct (decide _) as [<-|]; apply W2.
        + by replace (m_code m) with (tx_data tx) by done.
      - destruct (tx_to tx) as [a|]; decompose [and] ou_kind.
        + by replace (m_data m) with (tx_data tx) by done.
        + by replace (m_data m) with (@nil byte) by done.
      - by rewrite ou_value.
      - destruct (tx_to tx) as [a|]; decompose [and] ou_kind.
        + by replace (m_current_target m) with a by done.
        + replace (m_current_target m) with (created_by cr sender (tx_nonce tx)) by done.
          apply address_small.
      - by rewrite ou_caller.
      - intros _. rewrite ou_value, ou_caller, C2, decide_True by done. cbn. lia.
      - rewrite ou_depth. lia.
      - done. }
    destruct (call_total cr be te Henv m s1 Hgood1 Hst)
      as [(o & s2 & Hcall & Hgood2 & Hgl & Hlg & Htl)|(e & s2 & Hcall & He)].
    { change (t_authorizations te) with (authorizations_of tx). assert (2 ^ 60 < 2 ^ 255) by done. lia. }
    { change (t_authorizations te) with (authorizations_of tx). unfold authorizations_of, known_in in *.
      destruct tx; auto. destruct (b_fork be); try done; by left. }
    2:{ right. exists e, s2. split; [by apply sbind_fail|done]. }
    left.
    rewrite (sbind_done _ _ _ _ _ Hcall).
    assert (Hmg : m_gas m = tx_gas tx - intrinsic).
    { rewrite (ou_gas _ _ _ _ _ _ Hou). unfold execution_gas. by rewrite <- Hx. }
    pose proof (cf_total _ _ _ _ _ _ (call_message_facts _ _ _ _ _ _ _ Hcall (gd_settled _ Hgood1))) as Htot2.
    set (before := tx_gas tx - o_gas_left o).
    set (used := N.max (before - N.min (before / 5) (o_refund_counter o)) floor).
    assert (Hch : charged_gas (tx_gas tx) (o_gas_left o) (o_refund_counter o) floor = Done used).
    { unfold charged_gas. rewrite usub_le by lia. cbn [obind]. rewrite usub_le; [done|].
      fold before. pose proof (N.div_le_upper_bound before 5 before ltac:(done) ltac:(lia)). lia. }
    rewrite (lift_done _ _ _ _ Hch).
    assert (Hu : used <= tx_gas tx) by lia. clearbody used.
    rewrite lift_usub by done. rewrite lift_usub by lia.
    assert (Hspl : (tx_gas tx - used) * price + used * (price - b_base_fee_per_gas be) <= tx_gas tx * price).
    { replace (tx_gas tx * price) with ((tx_gas tx - used) * price + used * price).
      - apply N.add_le_mono_l, N.mul_le_mono_l. lia.
      - rewrite <- N.mul_add_distr_r. f_equal. lia. }
    destruct (refund_total sender ((tx_gas tx - used) * price) s2) as [s3 E3].
    { clear -W1 C5 Htot2 Hspl. generalize dependent ((tx_gas tx - used) * price).
      generalize dependent (used * (price - b_base_fee_per_gas be)).
      generalize dependent (blob_gas tx * bp). intros. lia. }
    rewrite (sbind_done _ _ _ _ _ E3). pose proof (refund_facts _ _ _ _ _ E3) as (R1 & R2 & R3 & R4).
    destruct (coinbase_total be (used * (price - b_base_fee_per_gas be)) s3) as [s4 E4].
    { rewrite R2. clear -W1 C5 Htot2 Hspl. generalize dependent ((tx_gas tx - used) * price).
      generalize dependent (used * (price - b_base_fee_per_gas be)).
      generalize dependent (blob_gas tx * bp). intros. lia. }
    rewrite (sbind_done _ _ _ _ _ E4). pose proof (coinbase_facts _ _ _ _ _ E4) as (K1 & K2 & K3 & K4).
    unfold delete_accounts. erewrite sbind_done; [|by apply modifies_done].
    rewrite lift_u64 by (assert (blob_limit (b_fork be) < 2 ^ 64) by (by destruct (b_fork be)); lia).
    set (s' := fold_left _ _ _). eexists _, s'. split; [reflexivity|].
    split; [|exists (o_logs o); split; [done|]; split; [done|]; lia].
    destruct Hgood2 as [Gs2 Ga2 [Y1 Y2 Y3 _]]. cbn [st] in *.
    assert (Hn2 : nonce (get_account s2 sender) <> 0).
    { pose proof (cf_nonce _ _ _ _ _ _ (call_message_facts _ _ _ _ _ _ _ Hcall (gd_settled _ Hgood1)) sender). lia. }
    specialize (R4 Hn2).
    assert (A3' : anchored s3).
    { eapply anchored_keeps; [exact Ga2|..].
      - intros a. unfold firm, has_real_code. rewrite R1. by destruct (decide _).
      - intros a k. by rewrite !get_storage_slot, R4.
      - intros a. rewrite R1. by destruct (decide _). }
    specialize (K4 (anchored_owned _ A3')).
    assert (A4' : anchored s4).
    { eapply anchored_keeps; [exact A3'|..].
      - intros a. unfold firm, has_real_code. rewrite K1. by destruct (decide _).
      - exact K4.
      - intros a. rewrite K1. by destruct (decide _). }
    destruct (destroy_accounts_facts (elements (o_accounts_to_delete o)) s4 (NoDup_elements _))
      as (Z1 & Z2 & Z3 & Z4). fold s' in Z1, Z2, Z3, Z4.
    assert (Z5 : forall a k, get_storage s' a k =
      if decide (a ∈ elements (o_accounts_to_delete o)) then 0 else get_storage s4 a k).
    { intros a k. apply destroy_accounts_storage. }
    apply good_intro.
    - destruct K3, R3, Gs2. split; congruence.
    - destruct A4' as [A4a A4b]. split.
      + intros a k. rewrite Z5. unfold firm, has_real_code. rewrite Z1.
        destruct (decide (a ∈ _)); [done|]. apply A4a.
      + intros a. unfold firm, has_real_code. rewrite Z1. destruct (decide (a ∈ _)); [done|]. apply A4b.
    - rewrite K2, R2 in Z2. clear -W1 C5 Htot2 Hspl Z2.
      generalize dependent ((tx_gas tx - used) * price).
      generalize dependent (used * (price - b_base_fee_per_gas be)).
      generalize dependent (blob_gas tx * bp). intros. lia.
    - intros a. rewrite Z1. destruct (decide (a ∈ _)); [done|].
      replace (code (get_account s4 a)) with (code (get_account s2 a)); [done|].
      rewrite K1, R1. by destruct (decide _), (decide _).
    - intros a k. rewrite Z5. destruct (decide (a ∈ _)); [done|].
      rewrite K4, get_storage_slot, R4, <- get_storage_slot. done.
  Qed.


  (** ** C59: a transaction *)
  (** The conditions of C43. *)
  Definition covered (tx : transaction) : Prop :=
    fst (calculate_intrinsic_cost (b_fork be) tx) <= tx_gas tx /\
    snd (calculate_intrinsic_cost (b_fork be) tx) <= tx_gas tx /\
    (b_fork be = Osaka -> tx_gas tx <= 2 ^ 24) /\ tx_nonce tx < 2 ^ 64 - 1 /\
    (b_fork be <> Paris -> is_creation tx = true -> lenN (tx_data tx) <= 49152).

  (** A transaction that meets the conditions of C36 and C43 is executed to the
      end (before Osaka: or ends in an OverflowError), one that does not is
      rejected and leaves no trace in the state. *)
  Theorem C59_transaction bo tx i s :
    good s -> within_limits be bo -> typed_tx tx -> known_in (b_fork be) tx -> lenN (tx_blobs tx) < 2 ^ 40 ->
    ((covered tx /\ exists sender price, acceptable cr be bo tx s sender price) /\
     ((exists bo' s', process_transaction cr be bo tx i s = (Done bo', s') /\ good s' /\
        accepted_logs bo bo' (tx_gas tx)) \/
      (exists e s', process_transaction cr be bo tx i s = (Fail e, s') /\ overflows (b_fork be) e))) \/
    (~ (covered tx /\ exists sender price, acceptable cr be bo tx s sender price) /\
     exists e, process_transaction cr be bo tx i s = (Fail e, s) /\ rejection e).
  Proof.
    intros Hg HL Ht Hkn Hb.
    destruct (validate_transaction (b_fork be) tx) as [x|e] eqn:Hv.
    - destruct (check_transaction cr be bo tx s) as [[[[a p] h] g]|e] eqn:Hc.
      + left. split; [|by eapply run_total]. apply C43_validate in Hv as (-> & V1 & V2 & V3 & V4 & V5).
        apply C36_accepts in Hc as [Hc _]. split; [|by exists a, p]. done.
      + right. split.
        * intros (_ & a & p & Ha). enough (check_transaction cr be bo tx s = Done (a, p, tx_blobs tx, blob_gas tx)) by congruence.
          by apply C36_accepts.
        * exists e. split; [|by eapply check_fails]. unfold process_transaction.
          rewrite (lift_done _ _ _ _ Hv). destruct x. rewrite gets_done, Hc. done.
    - right. split.
      + intros [(V1 & V2 & V3 & V4 & V5) _].
        enough (validate_transaction (b_fork be) tx = Done (calculate_intrinsic_cost (b_fork be) tx)) by congruence.
        by apply C43_validate.
      + exists e. split; [|by eapply validate_fails]. unfold process_transaction. by rewrite Hv.
  Qed.
End Tx.

(** ** Sizes of receipts *)
Lemma uint_len x : x < 2 ^ 256 -> lenN (encode (RUint x)) <= 41.
Proof.
  intros H. pose proof (to_be_bytes_len_le x 32 H) as L. unfold RUint. 
  pose proof (encode_bytes_len (to_be_bytes x) ltac:(clear H; lia)). lia.
Qed.
Lemma list_len l n : lenN (concat (map encode l)) <= n -> n < 2 ^ 64 -> lenN (encode (RList l)) <= 9 + n.
Proof.
  intros H1 H2. cbn [encode]. rewrite lenN_app.
  pose proof (encode_length_len (lenN (concat (map encode l))) 192 ltac:(lia)). lia.
Qed.
Lemma topics_len l : lenN (concat (map encode (map RBytes32 l))) <= 41 * lenN l.
Proof.
  induction l as [|t l IH]; [done|]. cbn [map concat]. rewrite lenN_app, lenN_cons.
  pose proof (encode_bytes_len (to_be_bytes32 t) ltac:(by rewrite lenN_to_be_bytes32)) as H.
  rewrite lenN_to_be_bytes32 in H. unfold RBytes32 at 1. lia.
Qed.
Lemma log_len l : log_gas l < 2 ^ 60 -> lenN (encode (log_rlp l)) <= log_gas l.
Proof.
  unfold log_gas, log_rlp. intros H. pose proof (topics_len (log_topics l)) as HT.
  pose proof (list_len (map RBytes32 (log_topics l)) _ HT ltac:(lia)) as HL.
  pose proof (encode_bytes_len (log_data l) ltac:(lia)) as HD.
  pose proof (encode_bytes_len (to_be_bytes20 (log_address l))
    ltac:(unfold to_be_bytes20, lenN; by rewrite to_be_fixed_length)) as HA.
  replace (lenN (to_be_bytes20 (log_address l))) with 20 in HA
    by (unfold to_be_bytes20, lenN; by rewrite to_be_fixed_length).
  unfold RAddress. eapply N.le_trans; [apply (list_len _ (29 + (9 + 41 * lenN (log_topics l)) + (9 + lenN (log_data l))))|].
  - cbn [map concat]. rewrite !lenN_app. change (lenN []) with 0. lia.
  - lia.
  - lia.
Qed.
Lemma logs_len l : logs_gas l < 2 ^ 60 -> lenN (concat (map encode (map log_rlp l))) <= logs_gas l.
Proof.
  induction l as [|x l IH]; [done|]. cbn [logs_gas fold_right map concat]. fold (logs_gas l). intros H.
  rewrite lenN_app. pose proof (log_len x ltac:(lia)). specialize (IH ltac:(lia)). lia.
Qed.
Lemma receipt_small tx ok used bloom logs : used < 2 ^ 256 -> lenN bloom = 256 -> logs_gas logs < 2 ^ 60 ->
  lenN (receipt_wire (encode_receipt tx (Receipt ok used bloom logs))) < 2 ^ 64.
Proof.
  intros H1 H2 H3.
  assert (H : lenN (encode (receipt_rlp (Receipt ok used bloom logs))) <= 400 + 2 ^ 60).
  { unfold receipt_rlp. cbn [rc_succeeded rc_cumulative_gas_used rc_bloom rc_logs].
    pose proof (uint_len used H1) as HU.
    pose proof (encode_bytes_len bloom ltac:(clear H1; lia)) as HB.
    pose proof (list_len _ _ (logs_len logs H3) ltac:(clear H1; lia)) as HL.
    assert (HS : lenN (encode (RBool ok)) <= 1) by (by destruct ok).
    clear H1.
    eapply N.le_trans; [apply (list_len _ (1 + 41 + 265 + (9 + logs_gas logs)))|]; [|lia|lia].
    cbn [map concat]. rewrite !lenN_app. change (lenN []) with 0. lia. }
  clear H1. destruct tx; cbn [encode_receipt receipt_wire]; rewrite ?lenN_cons; lia.
Qed.

(** ** Roots *)
(** All values of a trie have encodings. *)
Definition full {V} (enc : bytes -> V -> bytes) (t : trie V) : Prop :=
  forall k v, In (k, v) (t_data t) -> enc k v <> [].
Lemma in_dict_set {K V} `{EqDecision K} (d : list (K * V)) k v k' v' :
  In (k', v') (dict_set d k v) -> (k' = k /\ v' = v) \/ In (k', v') d.
Proof.
  induction d as [|[a b] d IH]; cbn [dict_set].
  - intros [[= <- <-]|[]]. by left.
  - destruct (decide (a = k)) as [->|].
    + intros [[= <- <-]|H]; [by left|]. right. by right.
    + intros [[= <- <-]|H]; [right; by left|]. destruct (IH H); [by left|]. right. by right.
Qed.
Lemma full_set {V} `{EqDecision V} (enc : bytes -> option V -> bytes) t k v : t_default t = None ->
  full enc t -> enc k (Some v) <> [] -> full enc (trie_set t k (Some v)).
Proof.
  intros Hd Hf He k' v'. unfold trie_set. rewrite Hd. destruct (decide (Some v = None)); [done|].
  cbn [t_data]. intros [[-> ->]|H]%in_dict_set; [done|by apply Hf].
Qed.

Section Roots.
  Context (cr : crypto).

  Lemma prepare_done {V} (enc : bytes -> V -> bytes) secured data : forall mapped,
    (forall k v, In (k, v) data -> enc k v <> []) -> NoDup (map fst mapped) ->
    (forall k v, In (k, v) mapped -> Forall nibble k) ->
    exists m, prepare_loop cr enc secured data mapped = Some m /\ NoDup (map fst m) /\
      forall k v, In (k, v) m -> Forall nibble k.
  Proof.
    induction data as [|[k v] data IH]; intros mapped He Hn Hb; [by exists mapped|].
    cbn [prepare_loop]. destruct (enc k v) as [|b e] eqn:E; [by destruct (He k v (or_introl eq_refl))|].
    apply IH.
    - intros a c H. apply He. by right.
    - by apply NoDup_set.
    - intros a c [[-> _]|H]%in_dict_set; [apply nibble_list_nibbles|by eapply Hb].
  Qed.
  Lemma root_done {V} (enc : bytes -> V -> bytes) (t : trie V) : full enc t -> exists r, root cr enc t = Some r.
  Proof.
    intros Hf. unfold root, prepare_trie.
    destruct (prepare_done enc (t_secured t) (t_data t) []) as (m & -> & Hn & Hb); [exact Hf|apply NoDup_nil_2|done|].
    destruct (patricialize_spec cr (S (max_key m)) m []) as (p & Ep & _).
    - lia.
    - done.
    - intros k v _. by exists k.
    - intros k v Hin. apply max_key_le in Hin. cbn. lia.
    - exact Hb.
    - change (lenN (@nil N)) with 0 in Ep. rewrite Ep.
      unfold encode_internal_node. destruct (lenN (encode (unencoded_node (shallow cr p))) <? 32) eqn:E; rewrite ?E.
      + by eexists.
      + destruct (lenN (encode (RBytes _)) <? 32); eexists; reflexivity.
  Qed.
  Lemma encode_not_nil r : encode r <> [].
  Proof. by destruct (encode_nonempty r) as (x & l & ->). Qed.
  (** Outside of transactions the state root can be computed. *)
  Lemma state_root_done s : snapshots s = [] -> exists r, state_root cr s = Some r.
  Proof.
    intros H. unfold state_root. rewrite H. apply root_done. intros k v Hin.
    unfold account_trie in Hin. cbn [t_data] in Hin. apply in_map_iff in Hin as ([a acc] & [= <- <-] & _).
    assert (Hs : exists r, storage_root cr s (from_be_bytes (to_be_bytes20 a)) = Some r).
    { unfold storage_root. rewrite H. destruct (storage_tries s !! _); [|by eexists].
      apply root_done. intros ? ? _. apply encode_not_nil. }
    destruct Hs as [r ->]. apply encode_not_nil.
  Qed.
End Roots.

(** ** Blocks *)
(** A transaction as it comes with a block: typed fields, or some bytes. *)
Definition readable (etx : encoded_tx) : Prop :=
  match etx with
  | ELegacy t => typed_legacy t
  | EBytes b => b <> [] /\ lenN b < 2 ^ 32
  end.

Lemma d_list_len {A} (f : rlp -> option A) r l : d_list f r = Some l ->
  exists rs, r = RList rs /\ lenN rs = lenN l.
Proof.
  unfold d_list. destruct r as [|rs]; [done|]. intros H. exists rs. split; [done|].
  apply mapM_Some, Forall2_length in H. unfold lenN. by rewrite H.
Qed.
Lemma decoded_blobs f b tx : lenN b < 2 ^ 32 -> decode_transaction f (EBytes b) = Done tx ->
  lenN (tx_blobs tx) < 2 ^ 40.
Proof.
  intros Hl. destruct b as [|t data]; [done|]. rewrite lenN_cons in Hl. cbn [decode_transaction].
  destruct (_ =? 1); [|destruct (_ =? 2); [|destruct (_ && (_ =? 3)); [|destruct (_ && (_ =? 4)); [|done]]]];
    (destruct (decode_to _ _) as [x|] eqn:E; [|done]); cbn [obind]; intros [= <-]; try done.
  cbn [tx_blobs]. unfold decode_to in E. destruct (decode data) as [r|] eqn:Er; [|done]. cbn in E.
  apply C46_canonical in Er as [rest Er]; [|lia].
  destruct (d_blob r) as [y|] eqn:Ed; [|done]. cbn in E. injection E as ->.
  unfold d_blob in Ed.
  destruct r as [|[|? [|? [|? [|? [|? [|? [|? [|? [|? [|? [|? [|? [|? [|? [|]]]]]]]]]]]]]]]]; try done.
  decoded Ed. cbn.
  match goal with H : d_list (d_exact 32) ?x = Some _ |- _ =>
    apply d_list_len in H as (rs & -> & <-);
    pose proof (list_len_le rs) as H1;
    match type of Er with _ = encode (RList ?l) ++ _ =>
      pose proof (in_list_le l (RList rs) ltac:(cbn; tauto)) as H2 end end.
  rewrite Er, lenN_app in Hl. clear Er. assert (2 ^ 32 < 2 ^ 40) by done. lia.
Qed.

(** Why a block is turned down: it is invalid, or one of its transactions is
    not RLP of the right shape. *)
Definition turned_down (f : pos_fork) (e : failure) (txs : list encoded_tx) : Prop :=
  rejection e \/
  (e = FDecodingError /\ exists etx, In etx txs /\ decode_transaction f etx = Fail FDecodingError).

Section Body.
  Context (cr : crypto) (be : block_env) (HD : digests cr) (HB : block_ok be).

  Lemma decode_cases etx : readable etx ->
    (exists tx, decode_transaction (b_fork be) etx = Done tx /\ typed_tx tx /\ lenN (tx_blobs tx) < 2 ^ 40) \/
    (exists e, decode_transaction (b_fork be) etx = Fail e /\ (rejection e \/ e = FDecodingError)).
  Proof.
    destruct etx as [t|b]; cbn [readable].
    - intros H. left. by exists (Legacy t).
    - intros [Hne Hl]. destruct (decode_transaction (b_fork be) (EBytes b)) as [tx|e] eqn:E.
      + left. exists tx. split; [done|]. split; [by eapply decode_typed|by eapply decoded_blobs].
      + right. exists e. split; [done|]. destruct b as [|t data]; [done|]. cbn [decode_transaction] in E.
        unfold decode_to, invalid in E.
        destruct (_ =? 1); [|destruct (_ =? 2); [|destruct (_ && (_ =? 3)); [|destruct (_ && (_ =? 4))]]];
          try (destruct (decode data ≫= _); cbn in E; [done|injection E as <-; by right]).
        injection E as <-. by left.
  Qed.

  (** What a block has collected is fit for the roots and for the deposits. *)
  Record healthy (bo : block_output) : Prop := {
    he_limits : within_limits be bo;
    he_txs : t_default (bo_transactions_trie bo) = None /\ full encode_tx_node (bo_transactions_trie bo);
    he_receipts : trie_ok (bo_receipts_trie bo) /\ t_default (bo_receipts_trie bo) = None /\
      full encode_receipt_node (bo_receipts_trie bo);
    he_withdrawals : t_default (bo_withdrawals_trie bo) = None /\
      full encode_bytes_node (bo_withdrawals_trie bo);
    he_keys : Forall (fun k => exists er r, trie_get (bo_receipts_trie bo) k = Some er /\
      decode_receipt er = Done r /\ typed_receipt r) (bo_receipt_keys bo);
    he_logs : Forall typed_log (bo_block_logs bo);
    he_wires : forall k er, trie_get (bo_receipts_trie bo) k = Some er -> lenN (receipt_wire er) < 2 ^ 64;
  }.
  Lemma healthy_empty : healthy empty_block_output.
  Proof.
    assert (F : forall V (enc : bytes -> option V -> bytes), full enc (Trie false None [])) by (by intros V enc k v).
    constructor; cbn.
    - split; cbn; lia.
    - split; [done|apply F].
    - split; [split; [apply NoDup_nil_2|done]|split; [done|apply F]].
    - split; [done|apply F].
    - done.
    - done.
    - done.
  Qed.

  Lemma default_set {V} `{EqDecision V} (t : trie V) k v : t_default (trie_set t k v) = t_default t.
  Proof. unfold trie_set. by destruct (decide _). Qed.

  Lemma transaction_healthy bo tx i s bo' s' : process_transaction cr be bo tx i s = (Done bo', s') ->
    accepted_logs bo bo' (tx_gas tx) -> healthy bo -> healthy bo'.
  Proof.
    intros H (logs & Hlg & Htl & Hgl) [].
    pose proof (proj1 (C34_transaction _ _ _ _ _ _ _ _ H)) as HL.
    destruct (process_transaction_run _ _ _ _ _ _ _ _ H) as [t R].
    pose proof (tr_out _ _ _ _ _ _ _ _ _ R) as Ho.
    pose proof (tr_valid _ _ _ _ _ _ _ _ _ R) as Hv. apply C43_validate in Hv as (_ & _ & _ & Hgas & _).
    pose proof (tr_check _ _ _ _ _ _ _ _ _ R) as Hck. apply C36_accepts in Hck as [Hck _]. apply ac_gas in Hck. clear R.
    assert (V6 : tx_gas tx < 2 ^ 60).
    { destruct (decide (b_fork be = Osaka)) as [E|E]; [specialize (Hgas E); assert (2 ^ 24 < 2 ^ 60) by done; lia|].
      pose proof (bk_room _ HB E). lia. }
    rewrite Ho in Hlg. cbn [bo_block_logs] in Hlg. apply app_inv_head in Hlg. rewrite <- Hlg in Htl, Hgl.
    set (er := make_receipt _ _ _ _ _) in Ho.
    assert (Hlog : Forall typed_log (bo_block_logs bo ++ o_logs (tr_output t))) by (by apply Forall_app).
    assert (Her : (exists r, decode_receipt er = Done r /\ typed_receipt r) /\ lenN (receipt_wire er) < 2 ^ 64).
    { subst er. unfold make_receipt. set (r := Receipt _ _ _ _).
      assert (Hb : lenN (logs_bloom cr (o_logs (tr_output t))) = 256).
      { unfold lenN. by rewrite (proj1 (C23_exact_bits cr (o_logs (tr_output t)))). }
      assert (Htr : typed_receipt r) by (by split).
      enough (Hw : lenN (receipt_wire (encode_receipt tx r)) < 2 ^ 64).
      { split; [|done]. exists r. split; [|done]. by apply C30_roundtrip. }
      apply receipt_small; [|done|].
      - destruct HL as [HL _]. rewrite Ho in HL. cbn [bo_block_gas_used] in HL.
        pose proof (bk_gaslimit _ HB). lia.
      - lia. }
    assert (Hen : forall k, encode_receipt_node k (Some er) <> []).
    { intros k. subst er. unfold make_receipt. destruct tx; cbn [encode_receipt encode_receipt_node]; try done. apply encode_not_nil. }
    destruct Her as [Her Hwire]. clearbody er. rewrite Ho in HL |- *. destruct he_receipts0 as (K1 & K2 & K3). destruct he_txs0 as [T1 T2].
    constructor; cbn [bo_transactions_trie bo_receipts_trie bo_withdrawals_trie bo_receipt_keys bo_block_logs]; try done.
    - rewrite default_set. split; [done|]. apply full_set; [done|done|].
      destruct tx; cbn [encode_transaction encode_tx_node]; try done. apply encode_not_nil.
    - rewrite default_set. split; [by apply trie_set_ok|]. split; [done|]. by apply full_set.
    - apply Forall_app. split.
      + eapply Forall_impl; [exact he_keys0|]. intros k (e & r & G1 & G2). rewrite trie_get_set by done.
        destruct (decide _); [|by exists e, r]. destruct Her as [r' ?]. by exists er, r'.
      + constructor; [|done]. rewrite trie_get_set, decide_True by done. destruct Her as [r' ?]. by exists er, r'.
    - intros k e. rewrite trie_get_set by done. destruct (decide _); [by intros [= <-]|apply he_wires0].
  Qed.

  (** Why a block is not appended *)
  Definition stopped (e : failure) (txs : list encoded_tx) : Prop :=
    turned_down (b_fork be) e txs \/ overflows (b_fork be) e.

  Lemma transactions_total txs : forall bo i s, Forall readable txs -> good s -> healthy bo ->
    (exists bo' s', process_transactions cr be bo txs i s = (Done bo', s') /\ good s' /\ healthy bo') \/
    (exists e s', process_transactions cr be bo txs i s = (Fail e, s') /\ stopped e txs).
  Proof.
    induction txs as [|etx txs IH]; intros bo i s Hr Hg Hh; cbn [process_transactions].
    { left. by exists bo, s. }
    apply Forall_cons in Hr as [Hr1 Hr].
    destruct (decode_cases etx Hr1) as [(tx & E & Ht & Hb)|(e & E & He)].
    - rewrite (lift_done _ _ _ _ E).
      destruct (C59_transaction cr be HD HB bo tx i s Hg (he_limits _ Hh) Ht (decode_known _ _ _ E) Hb)
        as [(_ & [(bo1 & s1 & E1 & Hg1 & Hl1)|(e & s1 & E1 & He)])|(_ & e & E1 & He)].
      + rewrite (sbind_done _ _ _ _ _ E1).
        destruct (IH bo1 (i + 1) s1 Hr Hg1 (transaction_healthy _ _ _ _ _ _ E1 Hl1 Hh))
          as [?|(e & s' & H & [[He|(He & x & Hx & Hdx)]|He])].
        * by left.
        * right. exists e, s'. split; [done|by left; left].
        * right. exists e, s'. split; [done|left; right]. split; [done|]. exists x. split; [by right|done].
        * right. exists e, s'. split; [done|by right].
      + right. exists e, s1. split; [by apply sbind_fail|by right].
      + right. exists e, s. split; [by apply sbind_fail|by left; left].
    - right. exists e, s. split; [by rewrite E|]. left. destruct He as [He| ->]; [by left|right].
      split; [done|]. exists etx. split; [by left|done].
  Qed.

  Lemma system_total target data s : target < 2 ^ 160 -> lenN data < 2 ^ 256 -> good s ->
    (exists o s', process_system_transaction cr be target (code (get_account s target)) data s = (Done o, s') /\
      good s' /\ total_balance s' <= total_balance s) \/
    (exists e s', process_system_transaction cr be target (code (get_account s target)) data s = (Fail e, s') /\
      overflows (b_fork be) e).
  Proof.
    intros Ht Hd Hg. unfold process_system_transaction. set (te := TxEnv _ _ _ _ _ _ _). set (m := Message _ _ _ _ _ _ _ _ _ _ _ _ _ _).
    destruct (call_total cr be te) with (m := m) (s := s) as [(o & s' & H & Hg' & _)|(e & s' & H & He)].
    - apply block_env_ok; [done|done|done|apply HB|by constructor].
    - done.
    - constructor; try done.
      + apply (wo_code _ (gd_world _ Hg)).
      + intros to [= <-]. done.
    - done.
    - by right.
    - left. exists o, s'. split; [done|]. split; [done|].
      apply (cf_total _ _ _ _ _ _ (call_message_facts _ _ _ _ _ _ _ H (gd_settled _ Hg))).
    - right. by exists e, s'.
  Qed.
  Lemma unchecked_total target data s : target < 2 ^ 160 -> lenN data < 2 ^ 256 -> good s ->
    (exists o s', process_unchecked_system_transaction cr be target data s = (Done o, s') /\
      good s' /\ total_balance s' <= total_balance s) \/
    (exists e s', process_unchecked_system_transaction cr be target data s = (Fail e, s') /\ overflows (b_fork be) e).
  Proof. intros. unfold process_unchecked_system_transaction. rewrite gets_done. by apply system_total. Qed.
  Lemma checked_total target data s : target < 2 ^ 160 -> lenN data < 2 ^ 256 -> good s ->
    (exists o s', process_checked_system_transaction cr be target data s = (Done o, s') /\ good s') \/
    (exists e s', process_checked_system_transaction cr be target data s = (Fail e, s') /\
      (e = FInvalidBlock \/ overflows (b_fork be) e)).
  Proof.
    intros Ht Hd Hg. unfold process_checked_system_transaction. rewrite gets_done. unfold check.
    destruct (negb _); [|right; eexists _, _; split; [done|by left]].
    rewrite (lift_done _ _ _ tt) by done.
    destruct (system_total target data s Ht Hd Hg) as [(o & s' & H & Hg' & _)|(e & s' & H & He)].
    2:{ right. exists e, s'. split; [by apply sbind_fail|by right]. }
    rewrite (sbind_done _ _ _ _ _ H). destruct (o_error o).
    - right. eexists _, _; split; [done|by left].
    - left. by exists o, s'.
  Qed.

  Lemma deposits_total bo : healthy bo ->
    (exists d, parse_deposit_requests bo = Done d) \/ parse_deposit_requests bo = Fail FInvalidBlock.
  Proof.
    intros []. unfold parse_deposit_requests. generalize (@nil byte). revert he_keys0.
    generalize (bo_receipt_keys bo). intros keys. induction keys as [|k keys IH]; intros Hk acc; [left; by eexists|].
    apply Forall_cons in Hk as [(er & r & E1 & E2 & _) Hk]. cbn [map deposits_of_receipts]. rewrite E1, E2. cbn [obind].
    assert (Hl : forall l acc, (exists d, deposits_of_logs l acc = Done d) \/ deposits_of_logs l acc = Fail FInvalidBlock).
    { induction l as [|x l IHl]; intros a; cbn [deposits_of_logs]; [left; by eexists|].
      destruct (_ && _); [|apply IHl].
      destruct (extract_deposit_data (log_data x)) as [d|e] eqn:E; cbn [obind]; [apply IHl|].
      right. by apply C42_reject in E as ->. }
    destruct (Hl (rc_logs r) acc) as [[d ->]| ->]; cbn [obind]; [by apply IH|by right].
  Qed.

  Lemma withdrawals_healthy wds : forall bo i s bo' s', process_withdrawals bo wds i s = (Done bo', s') ->
    healthy bo -> healthy bo'.
  Proof.
    induction wds as [|w wds IH]; intros bo i s bo' s' H Hh.
    { by apply sret_inv in H as [-> _]. }
    apply withdrawal_step in H as (s1 & _ & H). eapply IH; [exact H|]. destruct Hh.
    destruct he_withdrawals0 as [W1 W2].
    constructor; cbn [bo_transactions_trie bo_receipts_trie bo_withdrawals_trie bo_receipt_keys bo_block_logs]; try done.
    rewrite default_set. split; [done|]. apply full_set; [done|done|]. apply encode_not_nil.
  Qed.
  Lemma request_healthy ty data bo : healthy bo -> healthy (add_request ty data bo).
  Proof. intros []. unfold add_request. destruct (_ =? 0); by constructor. Qed.

  Lemma opening_total s : good s -> b_block_hashes be <> [] ->
    let beacon := if at_least Cancun (b_fork be) then
               _ <<- process_unchecked_system_transaction cr be BEACON_ROOTS_ADDRESS
                       (to_be_bytes32 (b_parent_beacon_block_root be)) ;; sret tt
             else sret tt in
    let history := if at_least Prague (b_fork be) then
               parent_hash <<- lift (of_option (FCrash IndexError) (last (b_block_hashes be))) ;;
               _ <<- process_unchecked_system_transaction cr be HISTORY_STORAGE_ADDRESS
                       (to_be_bytes32 parent_hash) ;; sret tt
             else sret tt in
    forall A (k : sm A),
    (exists s', (_ <<- beacon ;; _ <<- history ;; k) s = k s' /\ good s' /\ total_balance s' <= total_balance s) \/
    (exists e s', (_ <<- beacon ;; _ <<- history ;; k) s = (Fail e, s') /\ overflows (b_fork be) e).
  Proof.
    intros Hg Hh beacon history A k.
    assert (H1 : (exists s', beacon s = (Done tt, s') /\ good s' /\ total_balance s' <= total_balance s) \/
      (exists e s', beacon s = (Fail e, s') /\ overflows (b_fork be) e)).
    { subst beacon. destruct (at_least Cancun _); [|left; by exists s].
      destruct (unchecked_total BEACON_ROOTS_ADDRESS (to_be_bytes32 (b_parent_beacon_block_root be)) s)
        as [(o1 & s1 & E1 & G1 & T1)|(e & s1 & E1 & He)]; [done|by rewrite lenN_to_be_bytes32|done|..].
      - left. exists s1. by rewrite (sbind_done _ _ _ _ _ E1).
      - right. exists e, s1. by rewrite (sbind_fail _ _ _ _ _ E1). }
    destruct H1 as [(s1 & E1 & G1 & T1)|(e & s1 & E1 & He)].
    2:{ right. exists e, s1. by rewrite (sbind_fail _ _ _ _ _ E1). }
    rewrite (sbind_done _ _ _ _ _ E1). clear E1.
    assert (H2 : (exists s', history s1 = (Done tt, s') /\ good s' /\ total_balance s' <= total_balance s1) \/
      (exists e s', history s1 = (Fail e, s') /\ overflows (b_fork be) e)).
    { subst history. destruct (at_least Prague _); [|left; by exists s1].
      destruct (last (b_block_hashes be)) as [h|] eqn:El; [|by apply last_None in El].
      cbn [of_option]. rewrite (lift_done _ _ _ h) by done.
      destruct (unchecked_total HISTORY_STORAGE_ADDRESS (to_be_bytes32 h) s1)
        as [(o2 & s2 & E2 & G2 & T2)|(e & s2 & E2 & He)]; [done|by rewrite lenN_to_be_bytes32|done|..].
      - left. exists s2. by rewrite (sbind_done _ _ _ _ _ E2).
      - right. exists e, s2. by rewrite (sbind_fail _ _ _ _ _ E2). }
    destruct H2 as [(s2 & E2 & G2 & T2)|(e & s2 & E2 & He)].
    - left. exists s2. rewrite (sbind_done _ _ _ _ _ E2). split; [done|]. split; [done|lia].
    - right. exists e, s2. by rewrite (sbind_fail _ _ _ _ _ E2).
  Qed.
  Lemma requests_total bo s : healthy bo -> good s ->
    (exists bo' s', process_general_purpose_requests cr be bo s = (Done bo', s') /\ good s' /\ healthy bo') \/
    (exists e s', process_general_purpose_requests cr be bo s = (Fail e, s') /\
      (e = FInvalidBlock \/ overflows (b_fork be) e)).
  Proof.
    intros H4 G4. unfold process_general_purpose_requests.
    destruct (deposits_total _ H4) as [[d Ed]|Ed].
    2:{ right. exists FInvalidBlock, s. rewrite Ed. split; [done|by left]. }
    rewrite (lift_done _ _ _ _ Ed). cbv zeta.
    destruct (checked_total WITHDRAWAL_REQUEST_PREDEPLOY_ADDRESS [] s) as [(o5 & s5 & E5 & G5)|(e & s5 & E5 & He)]; [done|done|done|..].
    2:{ right. exists e, s5. split; [by apply sbind_fail|done]. }
    rewrite (sbind_done _ _ _ _ _ E5).
    destruct (checked_total CONSOLIDATION_REQUEST_PREDEPLOY_ADDRESS [] s5) as [(o6 & s6 & E6 & G6)|(e & s6 & E6 & He)]; [done|done|done|..].
    2:{ right. exists e, s6. split; [by apply sbind_fail|done]. }
    rewrite (sbind_done _ _ _ _ _ E6). left.
    eexists _, s6. split; [reflexivity|]. split; [done|]. by repeat apply request_healthy.
  Qed.

  (** The body of a block is executed to the end or turned down (before Osaka: or
      ends in an OverflowError). *)
  Theorem C59_body txs wds s : good s -> Forall readable txs -> b_block_hashes be <> [] ->
    total_balance s + 10 ^ 9 * PropWithdrawals.sumN (map wd_amount wds) < 2 ^ 256 ->
    (exists bo s', apply_body cr be txs wds s = (Done bo, s') /\ good s' /\ healthy bo) \/
    (exists e s', apply_body cr be txs wds s = (Fail e, s') /\ stopped e txs).
  Proof.
    intros Hg Hr Hh Hw. unfold apply_body.
    match goal with |- context [sbind _ (fun _ => sbind _ (fun _ => ?k))] =>
      destruct (opening_total s Hg Hh _ k) as [(s2 & -> & G2 & T2)|(e & s' & -> & He)] end.
    2:{ right. exists e, s'. split; [done|by right]. }
    destruct (transactions_total txs empty_block_output 0 s2 Hr G2 healthy_empty)
      as [(bo3 & s3 & E3 & G3 & H3)|(e & s' & E3 & He)].
    2:{ right. exists e, s'. split; [by apply sbind_fail|done]. }
    rewrite (sbind_done _ _ _ _ _ E3).
    destruct (transactions_supply _ _ _ _ _ _ _ _ E3 (gd_settled _ G2)) as (_ & (bp & _ & T3) & _).
    assert (T3' : total_balance s3 <= total_balance s2).
    { clear -T3. etransitivity; [|exact T3]. rewrite <- N.add_assoc. apply N.le_add_r. }
    assert (HX : exists bo4 s4, (if at_least Shanghai (b_fork be) then process_withdrawals bo3 wds 0 else sret bo3) s3
      = (Done bo4, s4) /\ healthy bo4 /\ good s4).
    { destruct (at_least Shanghai _); [|by exists bo3, s3].
      destruct (C41_total bo3 wds 0 s3) as (bo4 & s4 & E4); [lia|]. exists bo4, s4. split; [done|].
      split; [exact (withdrawals_healthy _ _ _ _ _ _ E4 H3)|].
      destruct (withdrawals_grow _ _ _ _ _ _ E4 (gd_settled _ G3)) as ([S4 _ _] & T4 & _).
      pose proof (withdrawals_anchored _ _ _ _ _ _ E4 (gd_anchored _ G3)) as A4.
      destruct (C41_balances _ _ _ _ _ _ E4) as (_ & _ & C4 & K4).
      specialize (K4 (anchored_owned _ (gd_anchored _ G3))).
      destruct (gd_world _ G3) as [_ W2 W3 _]. cbn [st] in *.
      apply good_intro; [done|done|lia|..].
      - intros a. destruct (C4 a) as [_ ->]. apply W2.
      - intros a k. rewrite K4. apply W3. }
    destruct HX as (bo4 & s4 & E4 & H4 & G4). rewrite (sbind_done _ _ _ _ _ E4).
    destruct (at_least Prague _); [|left; by exists bo4, s4].
    destruct (requests_total bo4 s4 H4 G4) as [?|(e & s' & E & [-> |He])]; [by left|right..].
    - exists FInvalidBlock, s'. split; [done|by left; left].
    - exists e, s'. split; [done|by right].
  Qed.
End Body.

(** ** Chains *)
(** Where the numbers of a last block leave room for a next one: its base fee,
    gas limit and number fit in 255 bits, and the excess blob gas keeps the
    blob base fee below 2^231 wei. *)
Record roomy (p : header) : Prop := {
  ro_number : h_number p < 2 ^ 255;
  ro_limit : h_gas_limit p < 2 ^ 255;
  ro_fee : h_base_fee_per_gas p < 2 ^ 255;
  ro_excess : h_excess_blob_gas p + h_blob_gas_used p < 8 * 10 ^ 8;
}.
(** A chain between two blocks: it has kept enough blocks for the hashes of
    the last 256. *)
Record chain_ok (c : block_chain) : Prop := {
  co_state : good (bc_state c);
  co_id : bc_chain_id c < 2 ^ 64;
  co_last : exists p, last (bc_blocks c) = Some p /\ N.min (h_number (bl_header p)) 255 <= lenN (bc_blocks c) /\
    h_gas_used (bl_header p) <= h_gas_limit (bl_header p);
  co_parents : Forall (fun b => lenN (h_parent_hash (bl_header b)) = 32) (bc_blocks c);
}.
(** A block whose fields have their types, and where no transaction is the empty
    string. Osaka limits its size; before, size and gas limit are below 2^32 bytes
    and 2^60, and the excess blob gas keeps the price below 2^231 wei. *)
Record block_typed (b : block) : Prop := {
  bt_room : h_fork (bl_header b) <> Osaka -> lenN (encode (block_rlp b)) < 2 ^ 32 /\
    h_gas_limit (bl_header b) < 2 ^ 60 /\ h_excess_blob_gas (bl_header b) < 5 * 10 ^ 8;
  bt_header : typed_header (bl_header b);
  bt_time : h_timestamp (bl_header b) < 2 ^ 256;
  bt_txs : Forall (fun etx => match etx with ELegacy t => typed_legacy t | EBytes x => x <> [] end)
    (bl_transactions b);
}.

Lemma price_below f top x p : match fork_blob_gas_price f top with Some q => q <? 2 ^ 231 | None => false end = true ->
  x < top -> fork_blob_gas_price f x = Some p -> p < 2 ^ 231.
Proof.
  intros H Hx Hp. destruct (fork_blob_gas_price f top) as [q|] eqn:E; [|done]. apply N.ltb_lt in H.
  assert (Hd : exists d, 0 < d /\ forall y, fork_blob_gas_price f y = taylor_exponential 1 y d).
  { exists (if at_least Prague f then 5007716 else 3338477). split; [by destruct f|]. by destruct f. }
  destruct Hd as (d & Hd & Ey). rewrite Ey in E, Hp.
  pose proof (C33_taylor_monotone 1 x top d p q Hd ltac:(lia) Hp E). lia.
Qed.
Lemma price_small x p : x < 8 * 10 ^ 8 -> fork_blob_gas_price Osaka x = Some p -> p < 2 ^ 231.
Proof. apply price_below. vm_compute. done. Qed.
Lemma price_small_before f x p : x < 5 * 10 ^ 8 -> fork_blob_gas_price f x = Some p -> p < 2 ^ 231.
Proof. apply price_below. destruct f; vm_compute; done. Qed.

Section Chains.
  Context (cr : crypto) (HD : digests cr).

  Lemma encode_bytes_ge x : lenN x <= lenN (encode (RBytes x)).
  Proof.
    cbn [encode]. destruct (encode_bytes_cases x) as [(y & -> & _ & E)|[_ E]]; rewrite E; [done|].
    rewrite lenN_app. lia.
  Qed.
  Lemma readable_block b : block_typed b ->
    (h_fork (bl_header b) = Osaka -> lenN (encode (block_rlp b)) <= MAX_RLP_BLOCK_SIZE) ->
    Forall readable (bl_transactions b).
  Proof.
    intros [Hfk _ _ H] Hs0.
    assert (Hs : lenN (encode (block_rlp b)) < 2 ^ 32).
    { destruct (decide (h_fork (bl_header b) = Osaka)) as [E|E]; [|by apply Hfk].
      specialize (Hs0 E). change MAX_RLP_BLOCK_SIZE with 8388608 in Hs0. assert (8388608 < 2 ^ 32) by done. lia. }
    rewrite Forall_forall in *. intros etx Hin. specialize (H _ Hin).
    destruct etx as [t|x]; [done|]. split; [done|]. apply elem_of_list_In in Hin.
    pose proof (in_list_le (map encoded_tx_rlp (bl_transactions b)) (RBytes x)) as H1.
    pose proof (encode_bytes_ge x) as H3.
    assert (lenN (encode (RBytes x)) <= lenN (encode (RList (map encoded_tx_rlp (bl_transactions b))))).
    { apply H1. apply in_map_iff. by exists (EBytes x). }
    assert (lenN (encode (RList (map encoded_tx_rlp (bl_transactions b)))) <= lenN (encode (block_rlp b))).
    { unfold block_rlp. apply in_list_le. by right; left. }
    lia.
  Qed.

  Lemma child_block_ok c p b : chain_ok c -> last (bc_blocks c) = Some p -> roomy (bl_header p) ->
    block_typed b -> child cr (bl_header p) (bl_header b) -> block_ok (block_env_of cr c (bl_header b)).
  Proof.
    intros [_ Hid (p' & Hp' & Hn & Hu) Hpar] Hp [] [T0 (T1 & T2 & T3) T4 _] [].
    rewrite Hp in Hp'. injection Hp' as <-.
    assert (Hb : 2 ^ 255 + 2 ^ 255 = 2 ^ 256) by done.
    assert (H0 : 1 < 2 ^ 255) by done.
    assert (Hne : bc_blocks c <> []) by (intros E; by rewrite E in Hp).
    constructor; cbn [block_env_of b_fork b_coinbase b_time b_number b_prev_randao b_block_gas_limit b_chain_id
      b_base_fee_per_gas b_excess_blob_gas b_block_hashes].
    - done.
    - done.
    - rewrite ch_number. clear -ro_number0 Hb H0. lia.
    - done.
    - assert (h_gas_limit (bl_header p) / 1024 <= h_gas_limit (bl_header p)) by (apply N.div_le_upper_bound; lia).
      clear -H ch_above ro_limit0 Hb. lia.
    - intros E. by apply T0.
    - assert (2 ^ 64 < 2 ^ 256) by done. clear -H Hid. lia.
    - clear -ch_fee ro_fee0 Hb H0 Hu ch_above ch_minimum. unfold child_base_fee in ch_fee.
      set (q := bl_header p) in *. set (f := h_base_fee_per_gas q) in *. cbv zeta in ch_fee.
      set (t := h_gas_limit q / 2) in *.
      destruct (N.leb_spec (h_gas_used q) t) as [Hle|Hgt]; rewrite ch_fee.
      { eapply N.le_lt_trans; [apply N.le_sub_l|]. clear -ro_fee0 Hb. lia. }
      assert (Hq : f * (h_gas_used q - t) / (8 * t) <= f).
      { pose proof (N.div_mod (h_gas_limit q) 2 ltac:(done)) as Hd. fold t in Hd.
        pose proof (N.mod_lt (h_gas_limit q) 2 ltac:(done)) as Hm.
        assert (Hg : 2500 <= h_gas_limit q).
        { pose proof (N.div_le_upper_bound (h_gas_limit q) 1024 (h_gas_limit q)). lia. }
        apply N.div_le_upper_bound; [lia|]. rewrite N.mul_comm. apply N.mul_le_mono_r. lia. }
      generalize dependent (f * (h_gas_used q - t) / (8 * t)). clear -ro_fee0 Hb H0. intros. lia.
    - intros q Hq. destruct (decide (h_fork (bl_header b) = Osaka)) as [E0|E0].
      2:{ eapply price_small_before in Hq; [assert (2 ^ 231 < 2 ^ 256) by done; lia|]. by apply T0. }
      rewrite E0 in Hq. eapply price_small in Hq; [assert (2 ^ 231 < 2 ^ 256) by done; lia|].
      destruct ch_excess as (price & _ & ->); [by rewrite E0|].
      assert (H1 : parent_excess (h_fork (bl_header b)) (bl_header p) <= h_excess_blob_gas (bl_header p))
        by (unfold parent_excess; destruct (bool_decide _); lia).
      assert (H2 : parent_usage (h_fork (bl_header b)) (bl_header p) <= h_blob_gas_used (bl_header p))
        by (unfold parent_usage; destruct (bool_decide _); lia).
      set (pe := parent_excess _ _) in *. set (pu := parent_usage _ _) in *. clearbody pe pu.
      destruct (_ <? _); [lia|].
      assert (pu * 3 / 9 <= pu) by (apply N.div_le_upper_bound; lia).
      destruct (_ && _); lia.
    - intros n H1 H2. rewrite ch_number in *.
      assert (Hlen : lenN (map from_be_bytes (get_last_256_block_hashes cr c)) = N.min 255 (lenN (bc_blocks c)) + 1).
      { unfold get_last_256_block_hashes. destruct (last (lastN 255 (bc_blocks c))) eqn:E.
        - rewrite lenN_map, lenN_app, lenN_map, lenN_lastN. done.
        - apply last_None in E. pose proof (lenN_lastN 255 (bc_blocks c)) as El. rewrite E in El.
          destruct (bc_blocks c); [done|]. rewrite lenN_cons in El. change (lenN (@nil block)) with 0 in El. lia. }
      rewrite Hlen. lia.
    - apply Forall_map. unfold get_last_256_block_hashes. destruct (last (lastN 255 (bc_blocks c))) as [r|]; [|constructor].
      assert (Hw : forall x, lenN x = 32 -> from_be_bytes x < 2 ^ 256).
      { intros x Hx. apply (from_be_lt_32 x). lia. }
      apply Forall_app. split.
      + apply Forall_map. unfold lastN. rewrite dropN_skipn. eapply Forall_impl; [by apply Forall_drop|].
        intros x Hx. by apply Hw.
      + constructor; [|done]. apply Hw. apply HD.
  Qed.

  Lemma check_output_total h bo s : snapshots s = [] ->
    full encode_tx_node (bo_transactions_trie bo) -> full encode_receipt_node (bo_receipts_trie bo) ->
    full encode_bytes_node (bo_withdrawals_trie bo) ->
    check_output cr h bo s = Done tt \/ check_output cr h bo s = Fail FInvalidBlock.
  Proof.
    intros Hs H1 H2 H3. unfold check_output.
    destruct (state_root_done cr s Hs) as [r0 ->]. destruct (root_done cr _ _ H1) as [r1 ->].
    destruct (root_done cr _ _ H2) as [r2 ->]. destruct (root_done cr _ _ H3) as [r3 ->]. cbn [of_option obind].
    destruct (at_least Shanghai (h_fork h)); cbn [obind].
    all: unfold check; repeat match goal with |- context [if ?b then Done tt else _] => destruct b; cbn [obind] end; tauto.
  Qed.

  Lemma roomy_moderate p : roomy p -> moderate p.
  Proof.
    intros []. assert (8 * 10 ^ 8 < 2 ^ 60) by done. assert (4 * 2 ^ 60 < 2 ^ 64) by done. split; lia.
  Qed.
  Lemma hashes_not_nil c p b : block_ok (block_env_of cr c (bl_header b)) -> child cr p (bl_header b) ->
    b_block_hashes (block_env_of cr c (bl_header b)) <> [].
  Proof.
    intros HB Hch E. pose proof (bk_hashes _ HB) as H. rewrite E in H.
    cbn [block_env_of b_number] in H. specialize (H (h_number (bl_header b) - 1)).
    destruct Hch. change (lenN (@nil N)) with 0 in H. lia.
  Qed.

  (** A block is appended to the chain or turned down. *)
  Theorem C59_block c p b : chain_ok c -> last (bc_blocks c) = Some p -> roomy (bl_header p) -> block_typed b ->
    total_balance (bc_state c) + 10 ^ 9 * PropWithdrawals.sumN (map wd_amount (bl_withdrawals b)) < 2 ^ 256 ->
    (exists c', state_transition cr c b = (Done tt, c') /\ chain_ok c' /\ last (bc_blocks c') = Some b) \/
    (exists e c', state_transition cr c b = (Fail e, c') /\
       (turned_down (h_fork (bl_header b)) e (bl_transactions b) \/ overflows (h_fork (bl_header b)) e)).
  Proof.
    intros Hc Hp Hr Ht Hw.
    assert (Hturn : forall c' : block_chain, (exists e c'', (Fail FInvalidBlock, c') = (@Fail unit e, c'') /\
      (turned_down (h_fork (bl_header b)) e (bl_transactions b) \/ overflows (h_fork (bl_header b)) e)))
      by (intros c'; exists FInvalidBlock, c'; split; [done|by left; left]).
    unfold state_transition. cbv zeta.
    destruct (at_least Osaka (h_fork (bl_header b)) && (MAX_RLP_BLOCK_SIZE <? lenN (encode (block_rlp b)))) eqn:HS0;
      [right; apply Hturn|].
    assert (HS : h_fork (bl_header b) = Osaka -> lenN (encode (block_rlp b)) <= MAX_RLP_BLOCK_SIZE).
    { intros E. rewrite E in HS0. cbn in HS0. by apply N.ltb_ge in HS0. }
    assert (Hm : moderate (bl_header p)) by (by apply roomy_moderate).
    destruct (C54_header cr c p (bl_header b) Hp Hm) as [[Hch ->]|[_ ->]]; [|right; apply Hturn].
    destruct (bl_ommers b); [|right; apply Hturn].
    pose proof (child_block_ok _ _ _ Hc Hp Hr Ht Hch) as HB.
    destruct (C59_body cr _ HD HB (bl_transactions b) (bl_withdrawals b) (bc_state c) (co_state _ Hc))
      as [(bo & s' & -> & Hg & He)|(e' & s' & -> & He)].
    - by apply readable_block.
    - by eapply hashes_not_nil.
    - done.
    - destruct He. destruct (check_output_total (bl_header b) bo s') as [-> | ->]; [..|right; apply Hturn].
      + apply (gd_settled _ Hg).
      + apply he_txs0.
      + apply he_receipts0.
      + apply he_withdrawals0.
      + left. set (l := if _ : bool then _ else _).
        assert (Hl : l = lastN 255 (bc_blocks c ++ [b])).
        { subst l. destruct (N.ltb_spec 255 (lenN (bc_blocks c ++ [b]))); [done|]. symmetry. by apply lastN_short. }
        assert (Hlast : last l = Some b).
        { rewrite Hl, last_lastN by done. apply last_snoc. }
        eexists. split; [reflexivity|]. split; [|exact Hlast].
        destruct Hc as [_ Hid (p' & Hp' & Hn & _) Hpar]. rewrite Hp in Hp'. injection Hp' as <-. destruct Hch.
        constructor; cbn [bc_state bc_blocks bc_chain_id]; try done.
        * exists b. split; [done|]. split; [|done]. rewrite Hl, lenN_lastN, lenN_app, lenN_cons, ch_number. lia.
        * rewrite Hl. unfold lastN. rewrite dropN_skipn. apply Forall_drop, Forall_app. split; [done|].
          constructor; [|done]. rewrite ch_parent. apply HD.
    - right. by exists e', (BlockChain (bc_blocks c) s' (bc_chain_id c)).
  Qed.

  (** The deposit requests of an accepted block are those of all deposit events
      logged in it, in order; its receipts are the ones under its receipt root. *)
  Theorem C42_requests c p b c' : chain_ok c -> last (bc_blocks c) = Some p -> roomy (bl_header p) ->
    block_typed b -> has_requests (h_fork (bl_header b)) ->
    total_balance (bc_state c) + 10 ^ 9 * PropWithdrawals.sumN (map wd_amount (bl_withdrawals b)) < 2 ^ 256 ->
    state_transition cr c b = (Done tt, c') ->
    exists txs rs receipt_trie requests withdrawals consolidations,
      map (decode_transaction (h_fork (bl_header b))) (bl_transactions b) = map Done txs /\ length rs = length txs /\
      holds receipt_trie (zip_with encode_receipt txs rs) /\
      root cr encode_receipt_node receipt_trie = Some (h_receipt_root (bl_header b)) /\
      Forall typed_receipt rs /\
      Forall2 (fun l r => extract_deposit_data (log_data l) = Done r)
        (filter deposit_log (concat (map rc_logs rs))) requests /\
      h_requests_hash (bl_header b) = sha256_digest cr (concat (map (sha256_digest cr)
        (request [Byte.x00] (concat requests) ++ request [Byte.x01] withdrawals
         ++ request [Byte.x02] consolidations))).
  Proof.
    intros Hc Hp Hr Ht Hf Hw H. destruct (transition_done _ _ _ _ _ H) as (HV & _ & HS0 & (bo & HA & HC) & _ & _).
    assert (Hm : moderate (bl_header p)) by (by apply roomy_moderate).
    destruct (C54_header cr c p (bl_header b) Hp Hm) as [[Hch _]|[_ E]]; [|congruence].
    pose proof (child_block_ok _ _ _ Hc Hp Hr Ht Hch) as HB.
    destruct (C59_body cr _ HD HB (bl_transactions b) (bl_withdrawals b) (bc_state c) (co_state _ Hc))
      as [(bo' & s' & HA' & _ & [])|(e' & s' & HA' & _)]; [by apply readable_block|by eapply hashes_not_nil|done| |congruence].
    rewrite HA in HA'. injection HA' as <- <-.
    assert (HZ : h_fork (bl_header b) = Osaka \/ lenN (encode (block_rlp b)) < 2 ^ 58).
    { destruct (decide (h_fork (bl_header b) = Osaka)) as [E|E]; [by left|right].
      destruct (bt_room _ Ht E) as [Hsz _]. assert (2 ^ 32 < 2 ^ 58) by done. lia. }
    destruct (body_executed _ _ _ _ _ (sized_spec _ HZ HS0) HA) as (txs & rs & d & w & cs & He).
    destruct (header_described _ _ _ _ _ _ _ _ _ _ HV He HC)
      as (D1 & D2 & _ & _ & _ & D3 & D4 & _ & D5 & _ & _ & _ & _ & D67).
    destruct (D67 Hf) as [D6 D7].
    assert (HT : Forall typed_receipt rs).
    { rewrite (ex_logs _ _ _ _ _ _ _ _ He) in he_logs0. rewrite Forall_forall in he_logs0.
      apply Forall_forall. intros r Hin. split.
      - rewrite Forall_forall in D5. rewrite (D5 r Hin). unfold lenN. by rewrite (proj1 (C23_exact_bits cr (rc_logs r))).
      - apply Forall_forall. intros l Hl. apply he_logs0. apply elem_of_list_In, in_concat.
        exists (rc_logs r). split; [apply in_map|]; by apply elem_of_list_In. }
    rewrite deposits_of_receipts_spec in D6; [|done|done|].
    2:{ rewrite Forall_forall. intros er [j Hj]%elem_of_list_In%In_nth_error. eapply he_wires0.
        eapply ho_in; [exact D3|exact Hj]. }
    apply C42_logs in D6 as (rq & D6 & ->).
    by exists txs, rs, (bo_receipts_trie bo), rq, w, cs.
  Qed.

  (** Along a chain whose blocks have typed fields and leave room, every next
      block is appended or turned down, as long as the ether that ever existed
      or was withdrawn from the beacon chain is less than 2^256 wei. *)
  Theorem C59_chain c0 c l b : accepted cr c0 c l -> chain_ok c0 ->
    (forall p, last (bc_blocks c0) = Some p -> roomy (bl_header p)) ->
    Forall (fun x => block_typed x /\ roomy (bl_header x)) l -> block_typed b ->
    total_balance (bc_state c0) +
      10 ^ 9 * PropWithdrawals.sumN (map wd_amount (concat (map bl_withdrawals (l ++ [b])))) < 2 ^ 256 ->
    (exists c', state_transition cr c b = (Done tt, c')) \/
    (exists e c', state_transition cr c b = (Fail e, c') /\
       (turned_down (h_fork (bl_header b)) e (bl_transactions b) \/ overflows (h_fork (bl_header b)) e)).
  Proof.
    intros H Hc Hr Hl Hb Hw.
    assert (Hsum : forall l x, PropWithdrawals.sumN (map wd_amount (concat (map bl_withdrawals (l ++ [x])))) =
      PropWithdrawals.sumN (map wd_amount (concat (map bl_withdrawals l))) + PropWithdrawals.sumN (map wd_amount (bl_withdrawals x))).
    { intros l' x. rewrite map_app, concat_app, map_app, sumN_app. cbn [map concat]. by rewrite app_nil_r. }
    assert (G : chain_ok c /\ forall p, last (bc_blocks c) = Some p -> roomy (bl_header p)).
    { rewrite Hsum in Hw. generalize dependent (PropWithdrawals.sumN (map wd_amount (bl_withdrawals b))). intros wb Hw.
      clear Hb b. revert wb Hw. induction H as [|c l x c' H IH E]; [done|]. intros wb Hw.
      apply Forall_app in Hl as [Hl Hx]. apply Forall_cons in Hx as [[Hx1 Hx2] _].
      rewrite Hsum in Hw. destruct (IH Hl 0 ltac:(lia)) as [IH1 IH2].
      destruct (co_last _ IH1) as (p & Hp & _).
      pose proof (C48_chain _ _ _ _ H (gd_settled _ (co_state _ Hc))) as HT.
      destruct (C59_block c p x IH1 Hp (IH2 p Hp) Hx1) as [(c'' & E' & Hc' & Hlast)|(e & c'' & E' & _)].
      - lia.
      - rewrite E in E'. injection E' as <-. split; [done|]. intros q Hq. rewrite Hlast in Hq. by injection Hq as <-.
      - by rewrite E in E'. }
    destruct G as [G1 G2]. destruct (co_last _ G1) as (p & Hp & _).
    pose proof (C48_chain _ _ _ _ H (gd_settled _ (co_state _ Hc))) as HT. rewrite Hsum in Hw.
    destruct (C59_block c p b G1 Hp (G2 p Hp) Hb) as [(c' & E & _)|?]; [lia| |by right].
    left. by exists c'.
  Qed.
End Chains.

(** ** What goes wrong otherwise *)
Lemma toy_hash_32 x : lenN (toy_hash x) = 32.
Proof.
  unfold toy_hash, lenN, zeros. rewrite takeN_firstn, firstn_length, app_length, repeat_length. lia.
Qed.
Lemma ex_digests : digests ex_crypto.
Proof.
  constructor; intros b; cbn; [apply toy_hash_32..|].
  pose proof (toy_hash_32 b). rewrite takeN_firstn. unfold lenN in *. rewrite firstn_length. lia.
Qed.

Lemma ex_chain_ok : chain_ok ex_chain.
Proof.
  constructor.
  - apply good_intro.
    + apply C57_nonvacuous.
    + apply C57_nonvacuous.
    + vm_compute. done.
    + intros a. unfold get_account, get_account_optional. cbn -[N.pow].
      destruct (decide (a = 0xaaaa)) as [->|]; [done|].
      destruct (decide (a = 0xbbbb)) as [->|]; [done|].
      destruct (decide (a = WITHDRAWAL_REQUEST_PREDEPLOY_ADDRESS)) as [->|]; [done|].
      destruct (decide (a = CONSOLIDATION_REQUEST_PREDEPLOY_ADDRESS)) as [->|]; [done|].
      rewrite !lookup_insert_ne by congruence. done.
    + done.
  - done.
  - exists ex_genesis. vm_compute. done.
  - vm_compute. by constructor.
Qed.

(** The hypotheses of C59_block are needed: a block with the empty string for
    a transaction, or with a withdrawal of 2^256 - 1 gwei, raises an exception
    that does not say the block is invalid. *)
Definition with_body (b : block) (txs : list encoded_tx) (wds : list withdrawal) : block :=
  Block (bl_header b) txs [] wds.
Theorem C59_transaction_refuted : exists cr c p b,
  digests cr /\ chain_ok c /\ last (bc_blocks c) = Some p /\ roomy (bl_header p) /\
  typed_header (bl_header b) /\ h_timestamp (bl_header b) < 2 ^ 256 /\
  total_balance (bc_state c) + 10 ^ 9 * PropWithdrawals.sumN (map wd_amount (bl_withdrawals b)) < 2 ^ 256 /\
  bl_transactions b = [EBytes []] /\
  fst (state_transition cr c b) = Fail (FCrash IndexError).
Proof.
  exists ex_crypto, ex_chain, ex_genesis, (with_body ex_block [EBytes []] []).
  split; [apply ex_digests|]. split; [apply ex_chain_ok|]. split; [done|]. split; [by constructor|].
  vm_compute. repeat split.
Qed.
Theorem C59_withdrawal_refuted : exists cr c p b,
  digests cr /\ chain_ok c /\ last (bc_blocks c) = Some p /\ roomy (bl_header p) /\ block_typed b /\
  Forall (fun w => wd_amount w < 2 ^ 256) (bl_withdrawals b) /\
  fst (state_transition cr c b) = Fail (FCrash OverflowError).
Proof.
  exists ex_crypto, ex_chain, ex_genesis, (with_body ex_block [] [Withdrawal 0 1 0xdddd (2 ^ 256 - 1)]).
  split; [apply ex_digests|]. split; [apply ex_chain_ok|]. split; [done|]. split; [by constructor|].
  split; [constructor; [vm_compute; done..|by constructor]|].
  split; [constructor; [done|constructor]|].
  vm_compute. repeat split.
Qed.

(** ** Example *)
(** The example block is accepted; with a transaction that is no list of the
    right length, or with one of its transactions missing, it is turned
    down. *)
Example C59_nonvacuous :
  digests ex_crypto /\ chain_ok ex_chain /\ roomy (bl_header ex_genesis) /\ block_typed ex_block /\
  total_balance (bc_state ex_chain) +
    10 ^ 9 * PropWithdrawals.sumN (map wd_amount (bl_withdrawals ex_block)) < 2 ^ 256 /\
  fst (state_transition ex_crypto ex_chain ex_block) = Done tt /\
  fst (state_transition ex_crypto ex_chain (with_body ex_block [EBytes [Byte.x02; Byte.xc0]] [])) =
    Fail FDecodingError /\
  fst (state_transition ex_crypto ex_chain (with_body ex_block [encode_transaction ex_tx2] [])) =
    Fail (FInvalidTransaction NonceMismatchError).
Proof.
  split; [apply ex_digests|]. split; [apply ex_chain_ok|]. split; [by constructor|]. split.
  { constructor; [vm_compute; done..|].
    assert (T : bl_transactions ex_block = [encode_transaction ex_tx1; encode_transaction ex_tx2])
      by (vm_compute; done).
    rewrite T. by repeat constructor. }
  vm_compute. done.
Qed.

(** The same for the other forks, on a chain that starts with a block of the
    fork; and a block with a transaction that calls MODEXP with a base of 2^256 - 1
    bytes, which before Osaka ends in an OverflowError (see C17). *)
Definition ex_in (f : pos_fork) (h : header) : header :=
  Header f (h_parent_hash h) (h_ommers_hash h) (h_coinbase h) (h_state_root h) (h_transactions_root h)
    (h_receipt_root h) (h_bloom h) (h_difficulty h) (h_number h) (h_gas_limit h) (h_gas_used h)
    (h_timestamp h) (h_extra_data h) (h_prev_randao h) (h_nonce h) (h_base_fee_per_gas h)
    (if at_least Shanghai f then h_withdrawals_root h else [])
    (if at_least Cancun f then h_blob_gas_used h else 0) (if at_least Cancun f then h_excess_blob_gas h else 0)
    (if at_least Cancun f then h_parent_beacon_block_root h else 0)
    (if at_least Prague f then h_requests_hash h else []).
Definition ex_parent (f : pos_fork) : block := Block (ex_in f (bl_header ex_genesis)) [] [] [].
Definition ex_start (f : pos_fork) : block_chain := BlockChain [ex_parent f] ex_state 1.
Definition ex_next (f : pos_fork) (txs : list transaction) : block :=
  let b := Block (ex_in f (ex_open_header (bl_header (ex_parent f)) 112)) (map encode_transaction txs) []
             (match f with Paris => [] | _ => ex_withdrawals end) in
  let b' := default b (ex_seal (ex_start f) b) in
  Block (ex_in f (bl_header b')) (bl_transactions b') [] (bl_withdrawals b').
Definition ex_modexp : transaction :=
  Legacy (LegacyTx 0 10 100000 (Some 5) 0 (to_be_bytes32 (2 ^ 256 - 1) ++ zeros 64) 27 0xaaaa 1).
Lemma ex_start_ok f : chain_ok (ex_start f).
Proof.
  destruct ex_chain_ok as [H1 _ _ _]. constructor; [exact H1|done| |].
  - exists (ex_parent f). by destruct f.
  - by repeat constructor.
Qed.
Lemma ex_next_typed f txs : Forall typed_tx txs -> lenN (encode (block_rlp (ex_next f txs))) < 2 ^ 32 ->
  block_typed (ex_next f txs).
Proof.
  intros Ht Hl.
  assert (HE : bl_transactions (ex_next f txs) = map encode_transaction txs /\
    h_gas_limit (bl_header (ex_next f txs)) = 30000000 /\ h_excess_blob_gas (bl_header (ex_next f txs)) = 0 /\
    typed_header (bl_header (ex_next f txs)) /\ h_timestamp (bl_header (ex_next f txs)) = 112).
  { unfold ex_next. cbv zeta. unfold ex_seal.
    destruct (apply_body _ _ _ _ _) as [[bo|e] s]; [|by destruct f].
    destruct (state_root ex_crypto s); [|by destruct f].
    destruct (root ex_crypto encode_tx_node _); [|by destruct f].
    destruct (root ex_crypto encode_receipt_node _); [|by destruct f].
    destruct (root ex_crypto encode_bytes_node _); [|by destruct f]. by destruct f. }
  destruct HE as (E1 & E2 & E3 & E4 & E5). constructor.
  - intros _. rewrite E2, E3. done.
  - done.
  - by rewrite E5.
  - rewrite E1. apply Forall_map. eapply Forall_impl; [exact Ht|]. intros tx Hx. by destruct tx.
Qed.
Example C59_forks_nonvacuous f : f <> Osaka ->
  chain_ok (ex_start f) /\ roomy (bl_header (ex_parent f)) /\
  block_typed (ex_next f [ex_tx1; ex_tx2]) /\ block_typed (ex_next f [ex_modexp]) /\
  fst (state_transition ex_crypto (ex_start f) (ex_next f [ex_tx1; ex_tx2])) = Done tt /\
  fst (state_transition ex_crypto (ex_start f) (ex_next f [ex_tx2])) = Fail (FInvalidTransaction NonceMismatchError).
Proof.
  intros Hf. split; [apply ex_start_ok|]. split; [by destruct f; constructor|].
  split; [apply ex_next_typed; [by repeat constructor|destruct f; vm_compute; reflexivity]|].
  split; [apply ex_next_typed; [by repeat constructor|destruct f; vm_compute; reflexivity]|].
  destruct f; try done; vm_compute; done.
Qed.
Theorem C59_overflow_refuted f : f <> Osaka -> exists cr c p b,
  digests cr /\ chain_ok c /\ last (bc_blocks c) = Some p /\ roomy (bl_header p) /\ block_typed b /\
  h_fork (bl_header b) = f /\
  total_balance (bc_state c) + 10 ^ 9 * PropWithdrawals.sumN (map wd_amount (bl_withdrawals b)) < 2 ^ 256 /\
  fst (state_transition cr c b) = Fail (FEvm (ECrash OverflowError)).
Proof.
  intros Hf. exists ex_crypto, (ex_start f), (ex_parent f), (ex_next f [ex_modexp]).
  split; [apply ex_digests|]. split; [apply ex_start_ok|]. split; [done|]. split; [by destruct f; constructor|].
  split; [apply ex_next_typed; [by repeat constructor|destruct f; vm_compute; reflexivity]|].
  destruct f; try done; vm_compute; done.
Qed.

Definition PropTotal_theorems :=
  (@C59_transaction, @C59_body, @C59_block, @C42_requests, @C59_chain, @C59_transaction_refuted, @C59_withdrawal_refuted,
   @C59_overflow_refuted).
Print Assumptions PropTotal_theorems.
