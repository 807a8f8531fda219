(** * PropOuter: C55, what a transaction does.

    A transaction pays for its gas, runs one outermost message, is charged for
    what the message used and leaves a receipt.  The reference below names
    every input of that message; C50 to C53 say what running it does. *)
From Verif Require Import Base State Rlp Vm Instructions Precompiles Interpreter StateSpec StateProofs
  NumericProofs EvmStep EvmRule EvmAccounts EvmInv PropFees PropTx PropCalls PropRefund PropDelegation Trie
  TrieProofs PropTrie Bloom Transactions Blocks Requests Fork ForkProofs PropWithdrawals TxProofs PropChain
  EvmExamples ForkExamples PropTransaction.
From Coq Require Import ZifyBool ZifyN ZifyNat.
Ltac Zify.zify_post_hook ::= idtac.

Local Opaque to_u256 from_be_bytes.

(** ** Reference *)

(** The address and the slot are announced in the access list. *)
Definition announced (tx : transaction) (a : address) : Prop :=
  exists x, x ∈ access_of tx /\ ac_account x = a.
Definition announced_slot (tx : transaction) (a : address) (k : N) : Prop :=
  exists x, x ∈ access_of tx /\ ac_account x = a /\ k ∈ ac_slots x.

(** The gas left for execution. *)
Definition execution_gas (f : pos_fork) (tx : transaction) : N := tx_gas tx - fst (calculate_intrinsic_cost f tx).
(** The precompiled contracts of a fork. *)
Definition precompiled (f : pos_fork) (a : address) : Prop :=
  match f with
  | Paris | Shanghai => 1 <= a <= 9
  | Cancun => 1 <= a <= 10
  | Prague => 1 <= a <= 17
  | Osaka => 1 <= a <= 17 \/ a = 256
  end.

(** What ORIGIN, GASPRICE and BLOBHASH see. *)
Record environment (f : pos_fork) (tx : transaction) (sender : address) (price : N) (te : tx_env) : Prop := {
  en_origin : t_origin te = sender;
  en_price : t_gas_price te = price;
  en_gas : t_gas te = execution_gas f tx;
  en_hashes : t_blob_versioned_hashes te = tx_blobs tx;
  en_auths : t_authorizations te = authorizations_of tx;
}.

Section Outer.
  Context (cr : crypto) (be : block_env).

  (** The account created by a transaction: sender and nonce are hashed. *)
  Definition created_by (sender : address) (n : N) : address :=
    low20 (keccak256 cr (encode (RList [RBytes (to_be_bytes20 sender); RBytes (to_be_bytes n)]))).

  (** The message of a transaction that starts in state [s]. *)
  Record outermost (tx : transaction) (sender : address) (s : state) (m : message) : Prop := {
    ou_caller : m_caller m = sender;
    ou_gas : m_gas m = execution_gas (b_fork be) tx;
    ou_value : m_value m = tx_value tx;
    ou_depth : m_depth m = 0;
    ou_transfer : m_should_transfer_value m = true;
    ou_static : m_is_static m = false;
    ou_enabled : m_disable_precompiles m = false;
    ou_target : m_target m = tx_to tx;
    ou_kind : match tx_to tx with
              | Some to => m_current_target m = to /\ m_code_address m = Some to /\
                  m_data m = tx_data tx /\ m_code m = code (get_account s to)
              | None => m_current_target m = created_by sender (tx_nonce tx) /\
                  m_code_address m = None /\ m_data m = [] /\ m_code m = tx_data tx
              end;
    ou_warm : forall a, a ∈ m_accessed_addresses m <->
      a = sender \/ a = m_current_target m \/ (b_fork be <> Paris /\ a = b_coinbase be) \/
      precompiled (b_fork be) a \/ announced tx a;
    ou_slots : forall a k, (a, k) ∈ m_accessed_storage_keys m <-> announced_slot tx a k;
  }.

  (** The message once the authorizations have been applied, in world [w1]:
      the code is read now, through at most one designator; a delegate is
      warm and no precompiled contract runs in its place. *)
  Record redirected (te : tx_env) (m : message) (to : address) (w1 : world) (m' : message) : Prop := {
    rd_same : m_caller m' = m_caller m /\ m_target m' = m_target m /\
      m_current_target m' = m_current_target m /\ m_gas m' = m_gas m /\ m_value m' = m_value m /\
      m_data m' = m_data m /\ m_depth m' = m_depth m /\
      m_should_transfer_value m' = m_should_transfer_value m /\ m_is_static m' = m_is_static m /\
      m_accessed_storage_keys m' = m_accessed_storage_keys m;
    rd_code : m_code_address m' = Some (code_source (b_fork be) w1 to) /\
      m_code m' = code (get_account (st w1) (code_source (b_fork be) w1 to));
    rd_precompiles : m_disable_precompiles m' =
      match delegate (b_fork be) w1 to with
      | Some _ => true | None => m_disable_precompiles m end;
    rd_warm : forall a, a ∈ m_accessed_addresses m' <-> a ∈ m_accessed_addresses m \/
      (exists t, t ∈ t_authorizations te /\ for_this_chain be t /\ a_nonce t < 2 ^ 64 - 1 /\
         signed_by cr t a) \/
      delegate (b_fork be) w1 to = Some a;
  }.

  (** What the transaction learns from the frame that ended as [e]. *)
  Definition reported (r : N) (e : evm) (o : message_call_output) : Prop :=
    o_gas_left o = e_gas_left e /\ o_error o = e_error e /\ o_return_data o = e_output e /\
    match e_error e with
    | Some _ => o_logs o = [] /\ o_accounts_to_delete o = ∅ /\ o_refund_counter o = r
    | None => o_logs o = e_logs e /\ o_accounts_to_delete o = e_accounts_to_delete e /\
        Z.of_N (o_refund_counter o) = (Z.of_N r + e_refund_counter e)%Z
    end.

  (** Running the outermost message. *)
  Definition called (te : tx_env) (m : message) (w : world) (o : message_call_output) (w' : world)
    : Prop :=
    match m_target m with
    | None =>
        (occupied w (m_current_target m) /\ w' = w /\
         o = MessageCallOutput 0 0 [] ∅ (Some (EHalt AddressCollision)) []) \/
        (~ occupied w (m_current_target m) /\
         exists e, process_create_message cr be te m w = PRet e w' /\ reported 0 e o)
    | Some to =>
        exists r w1 m' e,
          authorizes cr be (st w) (t_authorizations te) (st w1) r /\ ts w1 = ts w /\
          redirected te m to w1 m' /\ process_message cr be te m' w1 = PRet e w' /\ reported r e o
    end.
End Outer.

Section OuterProofs.
  Context (cr : crypto) (be : block_env).

  Lemma precompile_addresses_spec f a : a ∈ precompile_addresses f <-> precompiled f a.
  Proof.
    destruct f; unfold precompiled;
      cbv beta iota zeta delta [precompile_addresses at_least fork_rank N.leb N.compare Pos.compare
        Pos.compare_cont app];
      rewrite !elem_of_cons, elem_of_nil; lia.
  Qed.
  Lemma access_addresses tx a : a ∈ fst (access_list_of be tx) <->
    (b_fork be <> Paris /\ a = b_coinbase be) \/ announced tx a.
  Proof.
    unfold access_list_of, announced, access_of. cbn [fst].
    rewrite elem_of_union, elem_of_list_to_set, elem_of_list_In, in_map_iff.
    assert (a ∈ (if at_least Shanghai (b_fork be) then {[ b_coinbase be ]} else ∅ : gset address)
      <-> b_fork be <> Paris /\ a = b_coinbase be) as ->.
    { destruct (at_least Shanghai (b_fork be)) eqn:E; [rewrite elem_of_singleton|rewrite elem_of_empty];
        destruct (b_fork be); try done; split; try done; intros [? ?]; congruence. }
    split; (intros [?|(x & H1 & H2)]; [by left|right; exists x]).
    - by rewrite elem_of_list_In.
    - by rewrite elem_of_list_In in H1.
  Qed.
  Lemma access_slots tx a k : (a, k) ∈ snd (access_list_of be tx) <-> announced_slot tx a k.
  Proof.
    unfold access_list_of, announced_slot, access_of. cbn [snd].
    rewrite elem_of_list_to_set, elem_of_list_In, in_concat. split.
    - intros (l & Hl & H). apply in_map_iff in Hl as (x & <- & Hx). apply in_map_iff in H as (j & [= <- <-] & Hj).
      exists x. by rewrite !elem_of_list_In.
    - intros (x & Hx & <- & Hk). apply elem_of_list_In in Hx, Hk.
      exists (map (fun slot => (ac_account x, slot)) (ac_slots x)). split; apply in_map_iff; eauto.
  Qed.

  Lemma Done_inj {A} (x y : A) : Done x = Done y -> y = x.
  Proof. by intros [= ->]. Qed.
  Lemma outermost_spec tx te sender price s m :
    environment (b_fork be) tx sender price te ->
    t_access_list_addresses te = fst (access_list_of be tx) ->
    t_access_list_storage_keys te = snd (access_list_of be tx) ->
    nonce (get_account s sender) = tx_nonce tx + 1 ->
    prepare_message cr be te tx s = Done m -> outermost cr be tx sender s m.
  Proof.
    intros [E1 E2 E3 E4 E5] A1 A2 Hn H. unfold prepare_message in H.
    rewrite E1, E3 in H.
    destruct (tx_to tx) as [to|] eqn:Et.
    - apply Done_inj in H as ->. constructor; cbn [m_caller m_gas m_value m_depth m_should_transfer_value m_is_static
        m_disable_precompiles m_target m_current_target m_code_address m_data m_code m_accessed_addresses
        m_accessed_storage_keys]; rewrite ?Et; try done.
      + intros a. rewrite !elem_of_union, !elem_of_singleton, elem_of_list_to_set, precompile_addresses_spec,
          A1, access_addresses. tauto.
      + rewrite A2. apply access_slots.
    - apply obind_inv in H as (n & H1 & H). apply usub_inv in H1 as [_ ->].
      rewrite Hn in H. replace (tx_nonce tx + 1 - 1) with (tx_nonce tx) in H by lia.
      apply Done_inj in H as ->. constructor; cbn [m_caller m_gas m_value m_depth m_should_transfer_value m_is_static
        m_disable_precompiles m_target m_current_target m_code_address m_data m_code m_accessed_addresses
        m_accessed_storage_keys]; rewrite ?Et; try done.
      + intros a. rewrite !elem_of_union, !elem_of_singleton, elem_of_list_to_set, precompile_addresses_spec,
          A1, access_addresses. tauto.
      + rewrite A2. apply access_slots.
  Qed.

  Lemma reported_spec r e w o w' : finish_call r e w = MCRet o w' -> reported r e o.
  Proof.
    intros H. apply finish_cases in H as (_ & H1 & H2 & H3 & H4). split_and!; try done.
    destruct (e_error e); [done|]. destruct H4 as (? & ? & ? & ->). split_and!; try done. lia.
  Qed.

  (** A call runs the code of its target. *)
  Definition addressed (m : message) (s : state) : Prop := forall to, m_target m = Some to ->
    m_current_target m = to /\ m_code_address m = Some to /\ m_code m = code (get_account s to).
  Lemma outermost_addressed tx sender s m : outermost cr be tx sender s m -> addressed m s.
  Proof.
    intros Hm to Et. pose proof (ou_kind _ _ _ _ _ _ Hm) as Hk.
    rewrite <- (ou_target _ _ _ _ _ _ Hm), Et in Hk. tauto.
  Qed.
  Lemma called_spec te m w o w' :
    at_least Prague (b_fork be) = true \/ t_authorizations te = [] -> rooted (st w) -> addressed m (st w) ->
    process_message_call cr be te m w = MCRet o w' -> called cr be te m w o w'.
  Proof.
    intros Hprague Hr Hm H. unfold called. apply call_cases in H as
      [(Ht & Ho & -> & ->)|[(Ht & H1 & H2 & e & He & Hf)|(Ht & r & m1 & m2 & w1 & e & Hd & _ & Hts & Hm2 & _ & _ & He & Hf)]].
    - rewrite Ht. left. split; [|done]. unfold occupied. destruct Ho as [Ho|Ho]; [|tauto].
      unfold account_has_code_or_nonce in Ho. rewrite orb_true_iff in Ho.
      destruct Ho as [Ho|Ho]; [left|right; left]; revert Ho.
      + by destruct (N.eqb_spec (nonce (get_account (st w) (m_current_target m))) 0).
      + rewrite negb_true_iff. intros Ho E. rewrite E in Ho. done.
    - rewrite Ht. right. split.
      + intros [Ho|[Ho|Ho]]; [| |congruence]; unfold account_has_code_or_nonce in H1; apply orb_false_iff in H1 as [H3 H4].
        * apply negb_false_iff, N.eqb_eq in H3. done.
        * apply negb_false_iff, bytes_eqb_eq in H4. done.
      + exists e. split; [done|]. by eapply reported_spec.
    - destruct (m_target m) as [to|] eqn:Et; [|done].
      destruct (Hm to Et) as (Hk1 & Hk2 & Hk4).
      exists r, w1, m2, e.
      assert (Ha : authorizes cr be (st w) (t_authorizations te) (st w1) r /\
        m1 = set_m_code (code (get_account (st w1) to)) (set_m_accessed (m_accessed_addresses m1) m) /\
        forall x, x ∈ m_accessed_addresses m1 <-> x ∈ m_accessed_addresses m \/
          exists t, t ∈ t_authorizations te /\ for_this_chain be t /\ a_nonce t < 2 ^ 64 - 1 /\ signed_by cr t x).
      { destruct Hd as [(Ha0 & -> & -> & ->)|(_ & _ & Hd)].
        assert (Ha : t_authorizations te = []) by (destruct Hprague, Ha0; congruence).
        - rewrite Ha. split; [constructor|]. split; [rewrite <- Hk4; by destruct m|].
          intros x. split; [by left|]. intros [Hx|(t & Hx & _)]; [done|]. by apply elem_of_nil in Hx.
        - split; [by eapply C22_exact|].
          pose proof (C22_message _ _ _ _ _ _ _ _ Hd Hr) as (ca & Hca & _ & Hx). split; [|done].
          apply set_delegation_facts in Hd as (_ & _ & ca' & acc & Hca' & ->).
          assert (ca' = to) as -> by congruence. by destruct m. }
      destruct Ha as (Ha & Em1 & Hacc).
      split; [done|]. split; [done|]. split; [|split; [done|by eapply reported_spec]].
      assert (Hcode : m_code m1 = code (get_account (st w1) to)) by (rewrite Em1; by destruct m).
      assert (Hdes : at_least Prague (b_fork be) = true ->
        get_delegated_code_address (m_code m1) = delegate (b_fork be) w1 to).
      { intros Hp. unfold delegate. rewrite Hp, Hcode, <- designated_spec. done. }
      assert (Hm3 : (m2 = m1 /\ delegate (b_fork be) w1 to = None) \/ exists a,
        delegate (b_fork be) w1 to = Some a /\ m2 = set_m_delegated a (code (get_account (st w1) a)) m1).
      { destruct Hm2 as [[-> Hno]|(a & Hp & Ha' & ->)].
        - left. split; [done|]. destruct (at_least Prague (b_fork be)) eqn:Hp; [rewrite <- Hdes; auto|].
          unfold delegate. by rewrite Hp.
        - right. exists a. split; [by rewrite <- Hdes|done]. }
      clear Hm2 Hdes. unfold code_source.
      assert (Hsame : m_caller m1 = m_caller m /\ m_target m1 = m_target m /\
        m_current_target m1 = m_current_target m /\ m_gas m1 = m_gas m /\ m_value m1 = m_value m /\
        m_data m1 = m_data m /\ m_depth m1 = m_depth m /\
        m_should_transfer_value m1 = m_should_transfer_value m /\ m_is_static m1 = m_is_static m /\
        m_accessed_storage_keys m1 = m_accessed_storage_keys m /\ m_code_address m1 = m_code_address m /\
        m_disable_precompiles m1 = m_disable_precompiles m) by (rewrite Em1; by destruct m).
      destruct Hm3 as [[-> Hno]|(a & Ha' & ->)].
      + constructor; unfold code_source; rewrite ?Hno; cbn [default].
        * by intuition.
        * split; [|done]. destruct Hsame as (_ & _ & _ & _ & _ & _ & _ & _ & _ & _ & -> & _). done.
        * apply Hsame.
        * intros x. rewrite Hacc. split; [intros [?|?]; auto|intros [?|[?|?]]; auto; done].
      + constructor; unfold code_source; rewrite ?Ha'; cbn [default set_m_delegated m_caller m_gas m_value m_depth m_should_transfer_value m_is_static
        m_disable_precompiles m_target m_current_target m_code_address m_data m_code m_accessed_addresses
        m_accessed_storage_keys]; unfold id.
        * by intuition.
        * done.
        * done.
        * intros x. rewrite elem_of_union, elem_of_singleton, Hacc.
          split; [intros [->|[?|?]]; auto|intros [?|[?|[= ->]]]; auto].
  Qed.

  Lemma authorizes_rooted s l s' r : authorizes cr be s l s' r -> rooted s -> rooted s'.
  Proof.
    intros H. induction H as [| |s t au s1 l s' r _ Hto _ IH]; [done|done|].
    intros Hr. apply IH. by eapply applied_rooted.
  Qed.
  (** After the message every account with storage has a nonce or code. *)
  Lemma called_owned te m w o w' : rooted (st w) -> addressed m (st w) ->
    called cr be te m w o w' -> owned (st w').
  Proof.
    intros Hr Hm. unfold called. destruct (m_target m) as [to|] eqn:Et.
    - intros (r & w1 & m' & e & Ha & _ & [Hs Hc _ _] & He & _).
      pose proof (rooted_owned _ (authorizes_rooted _ _ _ _ Ha Hr)) as Ho.
      destruct (Hm to Et) as (Hk1 & _ & _). destruct Hs as (_ & _ & Hs & _). destruct Hc as [_ Hc].
      assert (Hsol : m_code m' <> [] -> solid (st w1) (m_current_target m')).
      { rewrite Hs, Hk1, Hc. intros Hne. right. intros E. unfold code_source, delegate in Hne. rewrite E in Hne. by destruct (at_least Prague _). }
      by destruct (rule_message _ _ _ _ _ _ _ _ _ _ _ _ (refund_rule cr be te (original w1))
        (conj (conj Ho Hsol) eq_refl) He) as [_ ([? _] & _)].
    - intros [(_ & -> & _)|(_ & e & He & _)]; [by apply rooted_owned|].
      by destruct (rule_create _ _ _ _ _ _ _ _ _ _ _ _ (refund_rule cr be te (original w))
        (conj (rooted_owned _ Hr) eq_refl) He) as [_ ([? _] & _)].
  Qed.

  Lemma destroy_account_storage s a b k :
    get_storage (destroy_account s a) b k = if decide (b = a) then 0 else get_storage s b k.
  Proof.
    unfold destroy_account. rewrite !get_storage_slot, set_account_storages, destroy_storage_storages.
    unfold slot_of. destruct (decide (b = a)) as [->|Hne]; [by rewrite lookup_delete|].
    by rewrite lookup_delete_ne by congruence.
  Qed.
  Lemma destroy_accounts_storage l b k : forall s,
    get_storage (fold_left destroy_account l s) b k = if decide (b ∈ l) then 0 else get_storage s b k.
  Proof.
    induction l as [|a l IH]; intros s; cbn [fold_left].
    { by rewrite decide_False by apply not_elem_of_nil. }
    rewrite IH, destroy_account_storage. destruct (decide (b ∈ a :: l)) as [Hb|Hb].
    - destruct (decide (b ∈ l)); [done|]. apply elem_of_cons in Hb as [->|?]; [|done]. by rewrite decide_True.
    - apply not_elem_of_cons in Hb as [H1 H2]. by rewrite !decide_False.
  Qed.

  (** ** C55 *)
  (** A whole transaction, in a block that has got as far as [bo], from state
      [s] to state [s'] with receipt [r]. *)
  Definition transacted (bo : block_output) (tx : transaction) (s : state) (r : receipt) (s' : state)
    : Prop :=
    exists sender price blob_price te m o s1 w2 used,
      acceptable cr be bo tx s sender price /\
      fork_blob_gas_price (b_fork be) (b_excess_blob_gas be) = Some blob_price /\
      fst (calculate_intrinsic_cost (b_fork be) tx) <= tx_gas tx /\ environment (b_fork be) tx sender price te /\
      (* the nonce goes up and the gas and the blobs are paid *)
      (forall a, get_account s1 a =
        let acc := get_account s a in
        if decide (a = sender) then
          Account (nonce acc + 1) (balance acc - tx_gas tx * price - blob_gas tx * blob_price) (code acc)
        else acc) /\
      (forall a k, get_storage s1 a k = get_storage s a k) /\
      (* the message runs, with no transient storage *)
      outermost cr be tx sender s1 m /\ called cr be te m (World s1 empty_transient) o w2 /\
      (* the gas paid for: a fifth at most is refunded, and the floor applies *)
      used = N.max (tx_gas tx - o_gas_left o
                    - N.min ((tx_gas tx - o_gas_left o) / 5) (o_refund_counter o))
               (data_floor (b_fork be) tx) /\
      (* the rest is paid back, the coinbase gets the tip, and what destroyed
         itself disappears *)
      (forall a, get_account s' a =
        if decide (a ∈ o_accounts_to_delete o) then EMPTY_ACCOUNT else
        let acc := get_account (st w2) a in
        Account (nonce acc)
          (balance acc + (if decide (a = sender) then (tx_gas tx - used) * price else 0)
           + (if decide (a = b_coinbase be) then used * (price - b_base_fee_per_gas be) else 0))
          (code acc)) /\
      (forall a k, get_storage s' a k =
        if decide (a ∈ o_accounts_to_delete o) then 0 else get_storage (st w2) a k) /\
      (* the receipt *)
      r = Receipt (match o_error o with None => true | Some _ => false end)
            (bo_block_gas_used bo + used) (logs_bloom cr (o_logs o)) (o_logs o).

  Theorem C55_transaction bo tx i s bo' s' :
    known_in (b_fork be) tx ->
    process_transaction cr be bo tx i s = (Done bo', s') -> settled s -> rooted s ->
    exists r, transacted bo tx s r s' /\
      (* the block keeps the transaction, the receipt and the logs *)
      bo' = BlockOutput (rc_cumulative_gas_used r)
        (trie_set (bo_transactions_trie bo) (encode (RUint i)) (Some (encode_transaction tx)))
        (trie_set (bo_receipts_trie bo) (encode (RUint i)) (Some (encode_receipt tx r)))
        (bo_receipt_keys bo ++ [encode (RUint i)])
        (bo_block_logs bo ++ rc_logs r)
        (bo_withdrawals_trie bo) (bo_blob_gas_used bo + blob_gas tx) (bo_requests bo).
  Proof.
    intros Hknown H Hs Hr. destruct (process_transaction_run _ _ _ _ _ _ _ _ H) as [t R].
    destruct (run_facts _ _ _ _ _ _ _ _ _ R Hs) as ([] & _ & Hso).
    pose proof (run_get _ _ _ _ _ _ _ _ _ R) as G. pose proof (run_get4 _ _ _ _ _ _ _ _ _ R) as G4.
    destruct R. pose proof tr_check as Hck. apply C36_accepts in Hck as (Hac & Hh & Hbg).
    apply C43_validate in tr_valid as (Hv & V1 & V2 & V3 & _). cbn [fst snd] in V1, V2.
    apply charged_gas_inv in tr_charged as [Hl Hu].
    destruct (blob_gas_price_done (b_fork be) (b_excess_blob_gas be)) as (bp & Hbp & Hbp').
    assert (Hfee : tr_blob_fee t = blob_gas tx * bp).
    { revert tr_blobs. unfold blob_fee_of. destruct tx; try by intros [= <-].
      unfold calculate_data_fee. intros (n & H1%total_blob_gas_inv & H2)%obind_inv.
      rewrite Hbp in H2. cbn [obind] in H2. injection H2 as <-. by rewrite H1. }
    rewrite Hfee, Hbg in *. destruct tr_env as (E1 & E2 & E3 & E4 & E5 & E6 & E7).
    assert (Hint : tr_intrinsic t = fst (calculate_intrinsic_cost (b_fork be) tx) /\
      tr_floor t = snd (calculate_intrinsic_cost (b_fork be) tx)) by (rewrite <- Hv; done).
    destruct Hint as [Hi1 Hi2]. rewrite Hi1 in *. rewrite Hi2, (proj2 (C43_intrinsic_exact (b_fork be) tx)) in *.
    assert (Hen : environment (b_fork be) tx (tr_sender t) (tr_price t) (tr_te t)).
    { constructor; try done. congruence. }
    assert (Hn1 : nonce (get_account (tr_s1 t) (tr_sender t)) = tx_nonce tx + 1).
    { rewrite tr_get1, decide_True by done. cbn. by rewrite (ac_nonce _ _ _ _ _ _ _ Hac). }
    pose proof (outermost_spec _ _ _ _ _ _ Hen E6 E7 Hn1 tr_prepare) as Hou.
    assert (Hr1 : rooted (tr_s1 t)).
    { intros a k. rewrite get_storage_slot, tr_sto1, <- get_storage_slot. intros Hk%Hr.
      unfold delegable in *. rewrite tr_get1. destruct (decide (tr_sender t = a)) as [<-|]; [|done].
      cbn. left. lia. }
    assert (Hprague : at_least Prague (b_fork be) = true \/ t_authorizations (tr_te t) = []).
    { rewrite (en_auths _ _ _ _ _ Hen). unfold known_in in Hknown. unfold authorizations_of.
      destruct tx; auto. destruct (b_fork be); try done; by left. }
    revert tr_call. unfold call_message.
    destruct (process_message_call _ _ _ _ _) as [o w2|] eqn:Ec; [|done]. intros [= Eo Ew].
    subst o. pose proof (called_spec _ _ (World (tr_s1 t) empty_transient) _ _ Hprague Hr1 (outermost_addressed _ _ _ _ Hou) Ec) as Hca.
    pose proof (called_owned _ _ (World (tr_s1 t) empty_transient) _ _ Hr1 (outermost_addressed _ _ _ _ Hou) Hca) as Ho2.
    eexists (Receipt _ _ _ _). split; [|exact tr_out].
    exists (tr_sender t), (tr_price t), bp, (tr_te t), (tr_message t), (tr_output t), (tr_s1 t), w2, (tr_used t).
    split; [done|]. split; [done|]. split; [done|]. split; [done|].
    split.
    { intros a. rewrite tr_get1. cbv zeta. destruct (decide (a = tr_sender t)) as [->|Hne];
        [by rewrite decide_True|by rewrite decide_False by congruence]. }
    split. { intros a k. by rewrite !get_storage_slot, tr_sto1. }
    split; [done|]. split; [done|]. split; [done|].
    split.
    { intros a. rewrite G. destruct (decide (a ∈ _)); [done|]. destruct (G4 a) as (A1 & A2 & A3). cbv zeta.
      rewrite Ew. destruct (get_account (tr_s4 t) a) as [xn xb xc]. cbn in A1, A2, A3. subst xn xb xc. f_equal.
      destruct (decide (a = tr_sender t)) as [->|Hne]; [rewrite (decide_True (P := tr_sender t = tr_sender t)) by done
        |rewrite (decide_False (P := tr_sender t = a)) by congruence];
      (destruct (decide (b_coinbase be = _)) as [<-|Hne2]; [by rewrite (decide_True (P := b_coinbase be = b_coinbase be))
        |rewrite decide_False by congruence]); done. }
    split.
    { intros a k. rewrite tr_end, destroy_accounts_storage.
      assert (Hn2 : nonce (get_account (tr_s2 t) (tr_sender t)) <> 0).
      { pose proof (cf_nonce (tr_sender t)). lia. }
      assert (Ho3 : owned (tr_s3 t)).
      { intros b j. rewrite get_storage_slot, (tr_sto3 Hn2), <- get_storage_slot, <- Ew. intros Hj%Ho2.
        rewrite Ew in Hj. unfold solid in *. rewrite tr_get3.
        by destruct (decide (tr_sender t = b)) as [<-|]. }
      rewrite (tr_sto4 Ho3), get_storage_slot, (tr_sto3 Hn2), <- get_storage_slot, Ew.
      destruct (decide (a ∈ elements _)) as [Hx|Hx]; rewrite elem_of_elements in Hx;
        [by rewrite decide_True|by rewrite decide_False]. }
    done.
  Qed.
End OuterProofs.

(** ** Example *)

(** Deploying a contract and a call with an access list: 0xbbbb is announced
    but the target is not, yet both are warm. *)
Definition ex_outer_env : block_env := block_env_of ex_crypto ex_chain (ex_open_header (bl_header ex_genesis) 112).
Definition ex_deploy : transaction :=
  Legacy (LegacyTx 0 10 100000 None 5 (bs [0x60;1; 0x60;0; 0xF3]) 27 0xaaaa 1).
Definition ex_listed : transaction :=
  FeeMarket (FeeMarketTx 1 0 2 20 50000 (Some 0xcccc) 3 [Byte.x01; Byte.x00]
    [Access 0xbbbb [4; 5]] 0 0xaaaa 1).
Example C55_nonvacuous :
  settled ex_state /\ rooted ex_state /\
  match process_transaction ex_crypto ex_outer_env empty_block_output ex_deploy 0 ex_state with
  | (Done bo, s) =>
      let a := created_by ex_crypto 0xaaaa 0 in
      bo_block_gas_used bo = 53279 /\ get_account s a = Account 1 5 [Byte.x00] /\
      nonce (get_account s 0xaaaa) = 1 /\
      balance (get_account s 0xaaaa) = 100000000 - 5 - 53279 * 10
  | _ => False
  end /\
  match process_transaction ex_crypto ex_outer_env empty_block_output ex_listed 0 ex_state with
  | (Done bo, s) =>
      bo_block_gas_used bo = 21020 + 2400 + 3800 /\ balance (get_account s 0xcccc) = 3
  | _ => False
  end /\
  announced ex_listed 0xbbbb /\ announced_slot ex_listed 0xbbbb 5 /\ ~ announced ex_listed 0xcccc.
Proof.
  split; [done|]. split.
  { intros a k H. exfalso. apply H. reflexivity. }
  split; [vm_compute; repeat split|]. split; [vm_compute; repeat split|].
  split; [eexists; split; [left|done]|]. split; [eexists; split_and!; [left|done|]|].
  - right. left.
  - intros (x & Hx & E). apply elem_of_list_singleton in Hx as ->. done.
Qed.

Definition PropOuter_theorems := (@C55_transaction).
Print Assumptions PropOuter_theorems.
