(** * PropPowRun: a whole transaction of a proof-of-work fork (C71). *)
From Verif Require Import Base State Rlp Vm Instructions Precompiles Interpreter StateSpec StateProofs
  Bloom Transactions Trie Blocks Requests Fork ForkProofs NumericProofs TxProofs EvmExamples PropTx
  PropTransaction PropOuter Pow PowTx PropPowTx.
From Coq Require Import ZifyBool ZifyN ZifyNat.
Ltac Zify.zify_post_hook ::= idtac.

Lemma u256_cases x : x < 2 ^ 256 /\ u256 x = Done x \/ 2 ^ 256 <= x /\ exists e, u256 x = Fail e.
Proof.
  unfold u256, to_u256. change U256_CEIL with (2 ^ 256). destruct (N.ltb_spec x (2 ^ 256)); [by left|].
  right. split; [done|]. by eexists.
Qed.
Local Opaque to_u256 from_be_bytes.

(** ** States *)

(** Adding up over a finite set of addresses *)
Definition sum_over (f : address -> N) (l : gset address) : N :=
  fold_right (fun a n => f a + n) 0 (elements l).

Lemma set_lookup s a v b : main_trie (set_account s a (Some v)) !! b =
  if decide (b = a) then Some v else main_trie s !! b.
Proof.
  unfold set_account, set_main, account_trie_set. cbn. destruct (decide (b = a)) as [->|];
    [by rewrite lookup_insert|by rewrite lookup_insert_ne].
Qed.
Lemma destroy_main s a : main_trie (destroy_account s a) = delete a (main_trie s).
Proof. unfold destroy_account, destroy_storage. by destruct (storage_tries s !! a). Qed.
Lemma destroy_storages s a : storage_tries (destroy_account s a) = delete a (storage_tries s).
Proof.
  unfold destroy_account, destroy_storage. destruct (storage_tries s !! a) eqn:E; cbn; [done|].
  by rewrite delete_notin.
Qed.
Lemma destroy_rest s a : snapshots (destroy_account s a) = snapshots s /\
  created_accounts (destroy_account s a) = created_accounts s.
Proof. apply destroy_account_frame. Qed.
Lemma delete_if {A} (m : gmap N A) a b : delete a m !! b = if decide (b = a) then None else m !! b.
Proof. destruct (decide (b = a)) as [->|]; [by rewrite lookup_delete|by rewrite lookup_delete_ne]. Qed.

Lemma destroy_list l : forall s b,
  main_trie (fold_left destroy_account l s) !! b = (if decide (b ∈ l) then None else main_trie s !! b) /\
  storage_tries (fold_left destroy_account l s) !! b =
    (if decide (b ∈ l) then None else storage_tries s !! b) /\
  snapshots (fold_left destroy_account l s) = snapshots s /\
  created_accounts (fold_left destroy_account l s) = created_accounts s.
Proof.
  induction l as [|a l IH]; intros s b; cbn [fold_left].
  { by rewrite !decide_False by apply not_elem_of_nil. }
  destruct (IH (destroy_account s a) b) as (-> & -> & -> & ->). destruct (destroy_rest s a) as [-> ->].
  rewrite destroy_main, destroy_storages, !delete_if.
  destruct (decide (b ∈ l)) as [H|H].
  { by rewrite !decide_True by (by apply elem_of_list_further). }
  destruct (decide (b = a)) as [->|Hn].
  { by rewrite !decide_True by apply elem_of_list_here. }
  by rewrite !decide_False by (rewrite elem_of_cons; tauto).
Qed.

Lemma empty_spec s a : account_exists_and_is_empty s a = true <-> main_trie s !! a = Some EMPTY_ACCOUNT.
Proof.
  unfold account_exists_and_is_empty, get_account_optional. destruct (main_trie s !! a) as [[n b c]|]; [|done].
  cbn [nonce balance code]. rewrite !andb_true_iff, !N.eqb_eq, bytes_eqb_eq. split.
  - intros ((-> & ->) & ->). done.
  - unfold EMPTY_ACCOUNT. by intros [= -> -> ->].
Qed.
Lemma destroy_empties l : forall s b,
  main_trie (fold_left destroy_if_empty l s) !! b =
    (if decide (b ∈ l /\ main_trie s !! b = Some EMPTY_ACCOUNT) then None else main_trie s !! b) /\
  storage_tries (fold_left destroy_if_empty l s) !! b =
    (if decide (b ∈ l /\ main_trie s !! b = Some EMPTY_ACCOUNT) then None else storage_tries s !! b) /\
  snapshots (fold_left destroy_if_empty l s) = snapshots s /\
  created_accounts (fold_left destroy_if_empty l s) = created_accounts s.
Proof.
  induction l as [|a l IH]; intros s b; cbn [fold_left].
  { by rewrite !decide_False by (rewrite elem_of_nil; tauto). }
  destruct (IH (destroy_if_empty s a) b) as (-> & -> & -> & ->).
  assert (Hd : main_trie (destroy_if_empty s a) !! b =
      (if decide (b = a /\ main_trie s !! b = Some EMPTY_ACCOUNT) then None else main_trie s !! b) /\
    storage_tries (destroy_if_empty s a) !! b =
      (if decide (b = a /\ main_trie s !! b = Some EMPTY_ACCOUNT) then None else storage_tries s !! b) /\
    snapshots (destroy_if_empty s a) = snapshots s /\
    created_accounts (destroy_if_empty s a) = created_accounts s).
  { unfold destroy_if_empty. pose proof (empty_spec s a) as He.
    destruct (account_exists_and_is_empty s a).
    - pose proof (proj1 He eq_refl) as E. rewrite destroy_main, destroy_storages, !delete_if.
      destruct (destroy_rest s a) as [-> ->].
      destruct (decide (b = a)) as [->|Hn]; [by rewrite !decide_True|by rewrite !decide_False by tauto].
    - rewrite !decide_False by (intros [-> E]; apply He in E; done). done. }
  destruct Hd as (-> & -> & -> & ->). pose proof (elem_of_cons l b a) as Hc.
  destruct (decide (main_trie s !! b = Some EMPTY_ACCOUNT)) as [E|E].
  2:{ rewrite !(decide_False (P := _ /\ main_trie s !! b = Some EMPTY_ACCOUNT)) by tauto. done. }
  destruct (decide (b = a)) as [->|Hn].
  { rewrite !(decide_True (P := a = a /\ main_trie s !! a = Some EMPTY_ACCOUNT)) by done.
    rewrite !(decide_False (P := a ∈ l /\ None = Some EMPTY_ACCOUNT)) by (by intros [_ ?]).
    by rewrite !(decide_True (P := a ∈ a :: l /\ main_trie s !! a = Some EMPTY_ACCOUNT)) by tauto. }
  rewrite !(decide_False (P := b = a /\ main_trie s !! b = Some EMPTY_ACCOUNT)) by tauto.
  destruct (decide (b ∈ l)); [by rewrite !decide_True by tauto|by rewrite !decide_False by tauto].
Qed.
Lemma state_ext s s' : (forall a, main_trie s !! a = main_trie s' !! a) ->
  (forall a, storage_tries s !! a = storage_tries s' !! a) -> snapshots s = snapshots s' ->
  created_accounts s = created_accounts s' -> s = s'.
Proof.
  destruct s as [m t x c], s' as [m' t' x' c']. cbn. intros H1 H2 -> ->. f_equal; by apply map_eq.
Qed.
Lemma get_lookup s a : get_account s a = default EMPTY_ACCOUNT (main_trie s !! a).
Proof. unfold get_account, get_account_optional. by destruct (main_trie s !! a). Qed.

(** ** Vocabulary *)
Section Run.
  Context (cr : crypto) (n : pow_name) (env : pow_env)
    (evm : pow_env -> tx_env -> message -> sm call_output).

  (** There is no base fee before London. *)
  Definition base_fee : N := if since London n then pe_base_fee_per_gas env else 0.

  (** What makes a transaction acceptable in the block so far and in state [s],
      and the price it pays per gas. *)
  Record pow_acceptable (bo : pow_block_output) (tx : transaction) (s : state) (sender : address)
    (price : N) : Prop := {
    pa_gas : pbo_block_gas_used bo + tx_gas tx <= pe_block_gas_limit env;
    pa_sender : pow_recover_sender cr (rules_of n) (pe_chain_id env) tx = Done sender;
    pa_tip : max_tip tx <= max_fee tx;
    pa_base : base_fee <= max_fee tx;
    pa_price : price = N.min (max_fee tx) (base_fee + max_tip tx);
    pa_nonce : nonce (get_account s sender) = tx_nonce tx;
    pa_balance : tx_gas tx * max_fee tx + tx_value tx <= balance (get_account s sender);
    pa_code : code (get_account s sender) = [];
  }.

  (** The state in which the message runs: the sender has paid for all the gas
      and the nonce is used up. *)
  Definition charged (s : state) (sender : address) (fee : N) : state :=
    let acc := get_account s sender in
    State (<[sender := Account (nonce acc + 1) (balance acc - fee) (code acc)]> (main_trie s))
      (storage_tries s) (snapshots s) (created_accounts s).

  (** What ORIGIN and GASPRICE see. *)
  Record pow_environment (tx : transaction) (sender : address) (price : N) (te : tx_env) : Prop := {
    pv_origin : t_origin te = sender;
    pv_price : t_gas_price te = price;
    pv_gas : t_gas te = tx_gas tx - intrinsic n tx;
    pv_addresses : forall a, a ∈ t_access_list_addresses te <-> announced tx a;
    pv_slots : forall a k, (a, k) ∈ t_access_list_storage_keys te <-> announced_slot tx a k;
    pv_new : t_blob_versioned_hashes te = [] /\ t_authorizations te = [];
  }.
  (** The message; since Berlin (EIP-2929) some addresses and slots are warm. *)
  Record pow_outermost (tx : transaction) (sender : address) (s : state) (m : message) : Prop := {
    po_caller : m_caller m = sender;
    po_gas : m_gas m = tx_gas tx - intrinsic n tx;
    po_value : m_value m = tx_value tx;
    po_depth : m_depth m = 0;
    po_transfer : m_should_transfer_value m = true;
    po_static : m_is_static m = false;
    po_enabled : m_disable_precompiles m = false;
    po_target : m_target m = tx_to tx;
    po_kind : match tx_to tx with
              | Some to => m_current_target m = to /\ m_code_address m = Some to /\
                  m_data m = tx_data tx /\ m_code m = code (get_account s to)
              | None => m_current_target m = created_by cr sender (tx_nonce tx) /\
                  m_code_address m = None /\ m_data m = [] /\ m_code m = tx_data tx
              end;
    po_warm : forall a, a ∈ m_accessed_addresses m <-> since Berlin n = true /\
      (a = sender \/ a = m_current_target m \/ 1 <= a <= 9 \/ announced tx a);
    po_slots : forall a k, (a, k) ∈ m_accessed_storage_keys m <-> announced_slot tx a k;
  }.

  (** An account after the remaining gas has been paid back and the fee paid. *)
  Definition credit (tx : transaction) (sender : address) (price used : N) (s : state) (a : address)
    : account :=
    let acc := get_account s a in
    Account (nonce acc)
      (balance acc + (if decide (a = sender) then (tx_gas tx - used) * price else 0)
       + (if decide (a = pe_coinbase env) then used * (price - base_fee) else 0)) (code acc).
  (** Since Spurious Dragon (EIP-161) empty accounts do not survive being
      touched. *)
  Definition cleared (tx : transaction) (sender : address) (price used : N) (s : state)
      (o : call_output) (a : address) : Prop :=
    since SpuriousDragon n = true /\ credit tx sender price used s a = EMPTY_ACCOUNT /\
    (a ∈ co_touched_accounts o \/ a = pe_coinbase env).

  (** From the state [s] the message leaves to the state [s'] after the
      transaction. *)
  Record settles (tx : transaction) (sender : address) (price used : N) (o : call_output)
    (s s' : state) : Prop := {
    se_main : forall a, main_trie s' !! a =
      if decide (a ∈ co_accounts_to_delete o \/ cleared tx sender price used s o a) then None
      else if decide (a = sender \/ a = pe_coinbase env \/ is_Some (main_trie s !! a))
      then Some (credit tx sender price used s a) else None;
    se_storage : forall a, storage_tries s' !! a =
      if decide (a ∈ co_accounts_to_delete o \/
        cleared tx sender price used s o a /\ (a = sender \/ is_Some (main_trie s !! a))) then None
      else storage_tries s !! a;
    se_rest : snapshots s' = snapshots s /\ created_accounts s' = created_accounts s;
  }.

  (** The receipt names the state, or since Byzantium (EIP-658) says whether the
      transaction succeeded. *)
  Definition outcome_of (o : call_output) (s' : state) (out : receipt_outcome) : Prop :=
    if since Byzantium n then out = Succeeded (match co_error o with None => true | Some _ => false end)
    else exists root, state_root cr s' = Some root /\ out = PostState root.

  (** At most half, and since London (EIP-3529) at most a fifth of the gas is
      refunded. *)
  Definition gas_paid (tx : transaction) (o : call_output) : N :=
    let before := tx_gas tx - co_gas_left o in
    before - N.min (before / (if since London n then 5 else 2)) (co_refund_counter o).

  Definition pow_transacted (bo : pow_block_output) (tx : transaction) (s : state)
      (sender : address) (price : N) (o : call_output) (s2 : state) (r : pow_receipt) (s' : state)
    : Prop :=
    exists te m, let s1 := charged s sender (tx_gas tx * price) in let used := gas_paid tx o in
      intrinsic n tx <= tx_gas tx /\ tx_nonce tx < 2 ^ 64 - 1 /\
      pow_acceptable bo tx s sender price /\
      (* the message runs *)
      pow_environment tx sender price te /\ pow_outermost tx sender s1 m /\
      evm env te m s1 = (Done o, s2) /\ co_gas_left o <= tx_gas tx /\
      (* the rest is paid back, the coinbase gets the fee, accounts disappear *)
      settles tx sender price used o s2 s' /\
      (* balances are numbers below 2^256 *)
      balance (get_account s sender) - tx_gas tx * price < 2 ^ 256 /\
      balance (get_account s2 sender) + (tx_gas tx - used) * price < 2 ^ 256 /\
      balance (credit tx sender price used s2 (pe_coinbase env)) < 2 ^ 256 /\
      (* the receipt *)
      outcome_of o s' (pr_outcome r) /\ pr_cumulative_gas_used r = pbo_block_gas_used bo + used /\
      pr_logs r = co_logs o /\ pr_bloom r = logs_bloom cr (co_logs o).

  (** ** Lemmas *)
  Notation rules := (rules_of n).

  Lemma london_rules : tr_base_fee rules = since London n.
  Proof. by destruct n. Qed.
  Lemma spurious_rules : tr_state_clearing rules = since SpuriousDragon n.
  Proof. by destruct n. Qed.
  Lemma berlin_rules : (tr_last_type rules =? 0) = negb (since Berlin n).
  Proof. by destruct n. Qed.
  Lemma quotient_rules : tr_refund_quotient rules = if since London n then 5 else 2.
  Proof. by destruct n. Qed.
  Lemma byzantium_rules : tr_post_state rules = negb (since Byzantium n).
  Proof. by destruct n. Qed.

  Lemma prices_spec tx p m : known n tx ->
    pow_prices rules env tx = Done (p, m) <->
    max_tip tx <= max_fee tx /\ base_fee <= max_fee tx /\
    p = N.min (max_fee tx) (base_fee + max_tip tx) /\ m = tx_gas tx * max_fee tx.
  Proof.
    intros Hk. unfold pow_prices, base_fee. rewrite london_rules.
    assert (Hp : forall g b, g < b \/ b <= g /\ forall q k, (q, k) = (g, tx_gas tx * g) <->
      g <= g /\ b <= g /\ q = N.min g (b + g) /\ k = tx_gas tx * g).
    { intros g b. destruct (N.lt_ge_cases g b) as [H|H]; [by left|right]. split; [done|].
      intros q k. split; [intros [= -> ->]; lia|]. intros (_ & _ & -> & ->). f_equal. lia. }
    destruct (since London n) eqn:E.
    - destruct tx as [t|t|t|t|t]; cbn [gas_price_of obind max_tip max_fee known] in *; [| | |done..].
      + destruct (Hp (lt_gas_price t) (pe_base_fee_per_gas env)) as [H|[H Hq]].
        * rewrite (proj2 (N.ltb_lt _ _) H). split; [done|lia].
        * rewrite (proj2 (N.ltb_ge _ _) H). rewrite <- Hq. split; [by intros [= <- <-]|by intros [= -> ->]].
      + destruct (Hp (at_gas_price t) (pe_base_fee_per_gas env)) as [H|[H Hq]].
        * rewrite (proj2 (N.ltb_lt _ _) H). split; [done|lia].
        * rewrite (proj2 (N.ltb_ge _ _) H). rewrite <- Hq. split; [by intros [= <- <-]|by intros [= -> ->]].
      + destruct (N.ltb_spec (ft_max_fee_per_gas t) (ft_max_priority_fee_per_gas t)); [split; [done|lia]|].
        destruct (N.ltb_spec (ft_max_fee_per_gas t) (pe_base_fee_per_gas env)); [split; [done|lia]|].
        change (tx_gas (FeeMarket t)) with (ft_gas t).
        split; [intros [= <- <-]; lia|]. intros (_ & _ & -> & ->). do 2 f_equal. lia.
    - destruct tx as [t|t|t|t|t]; cbn [gas_price_of obind max_tip max_fee known] in *; [| |congruence|done..].
      + destruct (Hp (lt_gas_price t) 0) as [H|[H Hq]]; [lia|]. rewrite <- Hq.
        split; [by intros [= <- <-]|by intros [= -> ->]].
      + destruct (Hp (at_gas_price t) 0) as [H|[H Hq]]; [lia|]. rewrite <- Hq.
        split; [by intros [= <- <-]|by intros [= -> ->]].
  Qed.
  Lemma prices_fail tx e : known n tx -> pow_prices rules env tx = Fail e ->
    e = FInvalidBlock \/ exists x, e = FInvalidTransaction x.
  Proof.
    intros Hk. unfold pow_prices, invalid. rewrite london_rules.
    destruct (since London n) eqn:E.
    - destruct tx as [t|t|t|t|t]; cbn [gas_price_of obind known] in *; [| | |done..];
        repeat destruct (_ <? _); intros [= <-]; eauto.
    - destruct tx as [t|t|t|t|t]; cbn [gas_price_of obind known] in *; done || congruence.
  Qed.

  (** ** C71: acceptance *)

  (** [check_transaction] accepts exactly the acceptable transactions, and returns
      the sender and the price. *)
  Theorem C71_accepts bo tx s sender price : known n tx ->
    pow_check_transaction cr rules env bo tx s = Done (sender, price) <->
    pow_acceptable bo tx s sender price.
  Proof.
    intros Hk. unfold pow_check_transaction. split.
    - intros H. apply obind_inv in H as (ga & H1 & H). apply usub_inv in H1 as [H1 ->].
      apply obind_inv in H as ([] & H3 & H).
      destruct (N.ltb_spec (pe_block_gas_limit env - pbo_block_gas_used bo) (tx_gas tx)) as [|H3']; [done|].
      apply obind_inv in H as (a & H6 & H).
      apply obind_inv in H as ([p mf] & H7 & H). apply prices_spec in H7 as (P1 & P2 & P3 & ->); [|done].
      apply obind_inv in H as ([] & H9 & H).
      destruct (N.eqb_spec (nonce (get_account s a)) (tx_nonce tx)) as [Hn|]; [|done].
      apply obind_inv in H as ([] & H10 & H).
      destruct (N.ltb_spec (balance (get_account s a)) (tx_gas tx * max_fee tx + tx_value tx)) as [|Hb]; [done|].
      apply obind_inv in H as ([] & H11 & H). injection H as -> ->.
      destruct (bytes_eqb (code (get_account s sender)) []) eqn:Hc; [|done]. apply bytes_eqb_eq in Hc.
      constructor; try done. lia.
    - intros [A1 A2 A3 A4 A5 A6 A7 A8].
      unfold usub. rewrite (proj2 (N.ltb_ge _ _)) by lia. cbn [obind].
      rewrite (proj2 (N.ltb_ge _ _)) by lia. cbn [obind]. rewrite A2. cbn [obind].
      assert (Ep : pow_prices rules env tx = Done (price, tx_gas tx * max_fee tx)) by (by apply prices_spec).
      rewrite Ep. cbn [obind].
      rewrite A6, N.eqb_refl. cbn [negb obind]. rewrite (proj2 (N.ltb_ge _ _)) by lia. cbn [obind].
      rewrite A8. done.
  Qed.
  (** A transaction that is not valid or not acceptable is turned down before
      anything happens. *)
  Theorem C71_rejected bo tx i s : known n tx -> pbo_block_gas_used bo <= pe_block_gas_limit env ->
    (~ exists sender price, intrinsic n tx <= tx_gas tx /\ tx_nonce tx < 2 ^ 64 - 1 /\
       pow_acceptable bo tx s sender price) ->
    exists e, pow_process_transaction cr rules env evm bo tx i s = (Fail e, s) /\
      (e = FInvalidBlock \/ exists x, e = FInvalidTransaction x).
  Proof.
    intros Hk Hl Hno. unfold pow_process_transaction.
    unfold sbind at 1, lift at 1.
    destruct (pow_validate_transaction rules tx) as [g|e] eqn:Ev.
    2:{ exists e. split; [done|]. revert Ev. unfold pow_validate_transaction, invalid.
        repeat destruct (_ <? _); repeat destruct (_ <=? _); intros [= <-]; eauto. }
    apply C69_validate in Ev as (-> & V1 & V2).
    unfold sbind at 1, gets at 1. unfold sbind at 1, lift at 1.
    destruct (pow_check_transaction cr rules env bo tx s) as [[sender price]|e] eqn:Ec.
    { exfalso. apply Hno. apply C71_accepts in Ec; [|done]. by exists sender, price. }
    exists e. split; [done|]. revert Ec. unfold pow_check_transaction, invalid.
    unfold usub. rewrite (proj2 (N.ltb_ge _ _)) by lia. cbn [obind].
    destruct (_ <? tx_gas tx); [intros [= <-]; eauto|]. cbn [obind].
    destruct (C70_refused cr n (pe_chain_id env) tx Hk) as [[a ->]| ->]; [|intros [= <-]; eauto]. cbn [obind].
    destruct (pow_prices rules env tx) as [[p mf]|e'] eqn:Ep; cbn [obind].
    2:{ intros [= <-]. by eapply prices_fail. }
    destruct (negb _); [intros [= <-]; eauto|]. cbn [obind].
    destruct (_ <? mf + _); [intros [= <-]; eauto|]. cbn [obind].
    destruct (negb _); [intros [= <-]; eauto|]. done.
  Qed.

  (** ** The parts of a transaction *)
  Lemma modify_ok s a f : modify_account s a (fun acc => Ok (f acc)) =
    Ok (set_account s a (Some (f (get_account s a)))).
  Proof. done. Qed.

  Lemma charge_spec s sender fee s1 :
    pow_charge_sender sender (get_account s sender) fee s = (Done tt, s1) <->
    fee <= balance (get_account s sender) /\ balance (get_account s sender) - fee < 2 ^ 256 /\
    s1 = charged s sender fee.
  Proof.
    set (acc := get_account s sender).
    assert (E : set_account (set_account s sender (Some (Account (nonce acc + 1) (balance acc) (code acc))))
      sender (Some (Account (nonce acc + 1) (balance acc - fee) (code acc))) = charged s sender fee).
    { unfold charged, set_account, set_main, account_trie_set. cbn. by rewrite insert_insert. }
    unfold pow_charge_sender, pow_increment_nonce, pow_set_account_balance.
    unfold sbind at 1, modifies at 1. rewrite modify_ok. fold acc.
    unfold sbind at 1, lift at 1, usub. destruct (N.ltb_spec (balance acc) fee) as [H|H].
    { split; [done|]. lia. }
    unfold sbind at 1, lift at 1.
    destruct (u256_cases (balance acc - fee)) as [[H2 ->]|[H2 [e ->]]].
    2:{ split; [done|]. lia. }
    unfold modifies. rewrite modify_ok. rewrite get_account_set, decide_True by done. cbn [nonce balance code].
    rewrite E. split; [by intros [= <-]|by intros (_ & _ & ->)].
  Qed.
  Lemma charged_get s sender fee a : get_account (charged s sender fee) a =
    if decide (a = sender)
    then Account (nonce (get_account s sender) + 1) (balance (get_account s sender) - fee)
           (code (get_account s sender))
    else get_account s a.
  Proof.
    rewrite !get_lookup. unfold charged. cbn [main_trie]. rewrite <- get_lookup.
    destruct (decide (a = sender)) as [->|Hne]; [by rewrite lookup_insert|by rewrite lookup_insert_ne].
  Qed.

  Lemma addresses_spec tx a : a ∈ fst (pow_access_list_of tx) <-> announced tx a.
  Proof.
    unfold pow_access_list_of, announced, access_of. cbn [fst].
    rewrite elem_of_list_to_set, elem_of_list_In, in_map_iff. split.
    - intros (x & <- & Hx). exists x. by rewrite elem_of_list_In.
    - intros (x & Hx & <-). exists x. by rewrite <- elem_of_list_In.
  Qed.
  Lemma slots_spec tx a k : (a, k) ∈ snd (pow_access_list_of tx) <-> announced_slot tx a k.
  Proof.
    unfold pow_access_list_of, announced_slot, access_of. cbn [snd].
    rewrite elem_of_list_to_set, elem_of_list_In, in_concat. split.
    - intros (l & Hl & H). apply in_map_iff in Hl as (x & <- & Hx). apply in_map_iff in H as (j & [= <- <-] & Hj).
      exists x. by rewrite !elem_of_list_In.
    - intros (x & Hx & <- & Hk). apply elem_of_list_In in Hx, Hk.
      exists (map (fun slot => (ac_account x, slot)) (ac_slots x)). split; apply in_map_iff; eauto.
  Qed.
  Definition env_of (tx : transaction) (sender : address) (price : N) : tx_env :=
    {| t_origin := sender; t_gas_price := price; t_gas := tx_gas tx - intrinsic n tx;
       t_access_list_addresses := fst (pow_access_list_of tx);
       t_access_list_storage_keys := snd (pow_access_list_of tx);
       t_blob_versioned_hashes := []; t_authorizations := [] |}.
  Lemma environment_spec tx sender price te :
    pow_environment tx sender price te <-> te = env_of tx sender price.
  Proof.
    split.
    - intros [E1 E2 E3 E4 E5 [E6 E7]]. destruct te; cbn in *. unfold env_of. f_equal; try done.
      + apply set_eq. intros a. by rewrite E4, addresses_spec.
      + apply set_eq. intros [a k]. by rewrite E5, slots_spec.
    - intros ->. constructor; cbn; try done; intros; [apply addresses_spec|apply slots_spec].
  Qed.
  Lemma nine a : a ∈ (list_to_set [1; 2; 3; 4; 5; 6; 7; 8; 9] : gset address) <-> 1 <= a <= 9.
  Proof. rewrite elem_of_list_to_set. repeat rewrite elem_of_cons. rewrite elem_of_nil. lia. Qed.
  Lemma message_spec tx sender price s m : nonce (get_account s sender) = tx_nonce tx + 1 ->
    pow_prepare_message cr rules (env_of tx sender price) tx s = Done m <-> pow_outermost tx sender s m.
  Proof.
    intros Hn. unfold pow_prepare_message. rewrite berlin_rules. cbn [env_of t_origin t_gas
      t_access_list_addresses t_access_list_storage_keys].
    assert (W : forall x a, (a ∈ (if negb (since Berlin n) then ∅ else
        {[ x ]} ∪ ({[ sender ]} ∪ list_to_set [1; 2; 3; 4; 5; 6; 7; 8; 9] ∪ fst (pow_access_list_of tx)) : gset address))
      <-> since Berlin n = true /\ (a = sender \/ a = x \/ 1 <= a <= 9 \/ announced tx a)).
    { intros x a. destruct (since Berlin n); cbn [negb].
      - rewrite !elem_of_union, !elem_of_singleton, nine, addresses_spec. tauto.
      - rewrite elem_of_empty. split; [done|]. by intros [? _]. }
    rewrite Hn. unfold usub. rewrite (proj2 (N.ltb_ge _ _)) by lia. cbn [obind].
    replace (tx_nonce tx + 1 - 1) with (tx_nonce tx) by lia.
    destruct (tx_to tx) as [to|] eqn:Et; split.
    - intros [= <-]. constructor; cbn [m_caller m_gas m_value m_depth m_should_transfer_value m_is_static
        m_disable_precompiles m_target m_current_target m_code_address m_data m_code m_accessed_addresses
        m_accessed_storage_keys]; rewrite ?Et; try done; first [apply slots_spec|intros a; apply W].
    - intros [E1 E2 E3 E4 E5 E6 E7 E8 E9 E10 E11]. rewrite Et in E8, E9. destruct m as [x1 x2 x3 x4 x5 x6 x7 x8 x9 x10 x11 x12 x13 x14]. cbn [m_caller m_gas m_value m_depth m_should_transfer_value m_is_static
        m_disable_precompiles m_target m_current_target m_code_address m_data m_code m_accessed_addresses
        m_accessed_storage_keys] in *.
      destruct E9 as (-> & -> & -> & ->). subst. do 2 f_equal.
      + apply set_eq. intros a. rewrite E10. apply W.
      + apply set_eq. intros [a k]. by rewrite E11, slots_spec.
    - intros [= <-]. constructor; cbn [m_caller m_gas m_value m_depth m_should_transfer_value m_is_static
        m_disable_precompiles m_target m_current_target m_code_address m_data m_code m_accessed_addresses
        m_accessed_storage_keys]; rewrite ?Et; try done; first [apply slots_spec|intros a; apply W].
    - intros [E1 E2 E3 E4 E5 E6 E7 E8 E9 E10 E11]. rewrite Et in E8, E9. destruct m as [x1 x2 x3 x4 x5 x6 x7 x8 x9 x10 x11 x12 x13 x14]. cbn [m_caller m_gas m_value m_depth m_should_transfer_value m_is_static
        m_disable_precompiles m_target m_current_target m_code_address m_data m_code m_accessed_addresses
        m_accessed_storage_keys] in *.
      destruct E9 as (-> & -> & -> & ->). subst. do 2 f_equal.
      + apply set_eq. intros a. rewrite E10. apply W.
      + apply set_eq. intros [a k]. by rewrite E11, slots_spec.
  Qed.

  Lemma gas_spec tx o g : pow_charged_gas rules (tx_gas tx) (co_gas_left o) (co_refund_counter o) = Done g <->
    co_gas_left o <= tx_gas tx /\ g = gas_paid tx o.
  Proof.
    unfold pow_charged_gas, gas_paid. rewrite quotient_rules. unfold usub at 1.
    destruct (N.ltb_spec (tx_gas tx) (co_gas_left o)) as [H|H]; cbn [obind]; [split; [done|lia]|].
    set (b := tx_gas tx - co_gas_left o).
    assert (Hd : b / (if since London n then 5 else 2) <= b).
    { apply N.div_le_upper_bound; [by destruct (since London n)|]. destruct (since London n); lia. }
    revert Hd. generalize (b / (if since London n then 5 else 2)). intros q Hd.
    unfold usub. rewrite (proj2 (N.ltb_ge _ _)) by (clear -Hd; lia).
    split; [by intros [= <-]|by intros [_ ->]].
  Qed.
  Lemma gas_paid_le tx o : gas_paid tx o <= tx_gas tx.
  Proof using n.
    clear. unfold gas_paid. generalize ((tx_gas tx - co_gas_left o) / (if since London n then 5 else 2)). lia.
  Qed.

  (** ** Settlement *)
  Definition refunded (s : state) (sender : address) (amount : N) : state :=
    set_account s sender (Some (Account (nonce (get_account s sender))
      (balance (get_account s sender) + amount) (code (get_account s sender)))).
  Definition rewarded (s : state) (fee : N) : state :=
    let c := pe_coinbase env in let b := balance (get_account s c) + fee in
    if negb (since SpuriousDragon n) || negb (b =? 0)
    then set_account s c (Some (Account (nonce (get_account s c)) b (code (get_account s c))))
    else destroy_if_empty s c.
  Definition swept (s : state) (o : call_output) : state :=
    let s := fold_left destroy_account (elements (co_accounts_to_delete o)) s in
    if since SpuriousDragon n then fold_left destroy_if_empty (elements (co_touched_accounts o)) s else s.

  Lemma refund_spec s sender amount s' : pow_refund_sender sender amount s = (Done tt, s') <->
    balance (get_account s sender) + amount < 2 ^ 256 /\ s' = refunded s sender amount.
  Proof.
    unfold pow_refund_sender, sbind, lift, gets.
    destruct (u256_cases amount) as [[H ->]|[H [e ->]]]; [|split; [done|lia]].
    destruct (u256_cases (balance (get_account s sender) + amount)) as [[H2 ->]|[H2 [e ->]]]; [|split; [done|lia]].
    unfold modifies, pow_set_account_balance. rewrite modify_ok.
    split; [by intros [= <-]|by intros [_ ->]].
  Qed.
  Lemma pay_spec s fee s' : pow_pay_coinbase rules env fee s = (Done tt, s') <->
    balance (get_account s (pe_coinbase env)) + fee < 2 ^ 256 /\ s' = rewarded s fee.
  Proof.
    unfold pow_pay_coinbase, rewarded, sbind, lift, gets. rewrite spurious_rules.
    destruct (u256_cases fee) as [[H ->]|[H [e ->]]]; [|split; [done|lia]].
    destruct (u256_cases (balance (get_account s (pe_coinbase env)) + fee)) as [[H2 ->]|[H2 [e ->]]]; [|split; [done|lia]].
    destruct (_ || _); unfold modifies, pow_set_account_balance; [rewrite modify_ok|];
      (split; [by intros [= <-]|by intros [_ ->]]).
  Qed.
  Lemma delete_spec s o s' :
    pow_delete_accounts rules (co_accounts_to_delete o) (co_touched_accounts o) s = (Done tt, s') <-> s' = swept s o.
  Proof.
    unfold pow_delete_accounts, modifies, swept, destroy_touched_empty_accounts. rewrite spurious_rules.
    split; [by intros [= <-]|by intros ->].
  Qed.

  Lemma refunded_lookup s sender amount a : main_trie (refunded s sender amount) !! a =
    if decide (a = sender) then Some (Account (nonce (get_account s a)) (balance (get_account s a) + amount)
      (code (get_account s a))) else main_trie s !! a.
  Proof. unfold refunded. rewrite set_lookup. by destruct (decide (a = sender)) as [->|]. Qed.
  Lemma refunded_get s sender amount a : get_account (refunded s sender amount) a =
    Account (nonce (get_account s a)) (balance (get_account s a) + if decide (a = sender) then amount else 0)
      (code (get_account s a)).
  Proof.
    rewrite get_lookup, refunded_lookup. destruct (decide (a = sender)); [done|].
    rewrite <- get_lookup, N.add_0_r. by destruct (get_account s a).
  Qed.

  Section Settle.
    Context (tx : transaction) (sender : address) (price used : N) (o : call_output) (s : state).
    Notation coinbase := (pe_coinbase env).
    Notation cred := (credit tx sender price used s).
    Let s3 := refunded s sender ((tx_gas tx - used) * price).
    Let s4 := rewarded s3 (used * (price - base_fee)).

    Lemma credit_s3 a : cred a = Account (nonce (get_account s3 a))
      (balance (get_account s3 a) + if decide (a = coinbase) then used * (price - base_fee) else 0)
      (code (get_account s3 a)).
    Proof. unfold s3. rewrite refunded_get. done. Qed.
    (** The accounts once the coinbase has been paid *)
    Lemma paid_lookup a :
      main_trie s4 !! a = (if decide (since SpuriousDragon n = true /\ cred a = EMPTY_ACCOUNT /\ a = coinbase) then None
        else if decide (a = sender \/ a = coinbase \/ is_Some (main_trie s !! a)) then Some (cred a) else None) /\
      storage_tries s4 !! a = (if decide (since SpuriousDragon n = true /\ cred a = EMPTY_ACCOUNT /\ a = coinbase /\
        (a = sender \/ is_Some (main_trie s !! a))) then None else storage_tries s !! a) /\
      snapshots s4 = snapshots s /\ created_accounts s4 = created_accounts s.
    Proof.
      pose proof (credit_s3 a) as Hc. pose proof (refunded_lookup s sender ((tx_gas tx - used) * price) a) as L3.
      fold s3 in L3.
      assert (S3 : storage_tries s3 = storage_tries s /\ snapshots s3 = snapshots s /\
        created_accounts s3 = created_accounts s) by done. destruct S3 as (S3 & S3' & S3'').
      assert (I3 : is_Some (main_trie s3 !! a) <-> a = sender \/ is_Some (main_trie s !! a)).
      { rewrite L3. destruct (decide (a = sender)); [|tauto]. split; [by left|by eexists]. }
      clearbody s3. destruct (decide (a = coinbase)) as [->|Hne].
      - unfold s4, rewarded. set (fee := used * (price - base_fee)) in *.
        set (b := balance (get_account s3 coinbase) + fee) in *.
        destruct (negb (since SpuriousDragon n) || negb (b =? 0)) eqn:Eb.
        + assert (Hn : ~ (since SpuriousDragon n = true /\ cred coinbase = EMPTY_ACCOUNT)).
          { rewrite Hc. intros [E1 E2]. apply (f_equal balance) in E2. cbn in E2.
            rewrite E1, E2 in Eb. done. }
          rewrite (decide_False (P := since SpuriousDragon n = true /\ cred coinbase = EMPTY_ACCOUNT /\ coinbase = coinbase)) by tauto.
          rewrite (decide_False (P := since SpuriousDragon n = true /\ cred coinbase = EMPTY_ACCOUNT /\ coinbase = coinbase /\ _)) by tauto.
          rewrite set_lookup, decide_True by done. rewrite decide_True by tauto.
          rewrite Hc. rewrite <- S3. done.
        + apply orb_false_iff in Eb as [Es Eb]. rewrite negb_false_iff in Es, Eb. apply N.eqb_eq in Eb.
          unfold destroy_if_empty. pose proof (empty_spec s3 coinbase) as He.
          assert (Hb3 : balance (get_account s3 coinbase) = 0 /\ fee = 0) by lia. destruct Hb3 as [Hb3 Hf].
          assert (Hce : cred coinbase = get_account s3 coinbase).
          { rewrite Hc. destruct (get_account s3 coinbase) as [x y z]. cbn in *. f_equal. lia. }
          destruct (account_exists_and_is_empty s3 coinbase).
          * pose proof (proj1 He eq_refl) as E. rewrite destroy_main, destroy_storages.
            destruct (destroy_rest s3 coinbase) as [-> ->]. rewrite !lookup_delete.
            assert (cred coinbase = EMPTY_ACCOUNT) by (rewrite Hce, get_lookup, E; done).
            assert (is_Some (main_trie s3 !! coinbase)) by (rewrite E; by eexists).
            rewrite !decide_True by tauto. done.
          * destruct (main_trie s3 !! coinbase) as [acc|] eqn:E.
            -- assert (Hacc : cred coinbase = acc) by (rewrite Hce, get_lookup, E; done).
               assert (acc <> EMPTY_ACCOUNT) by (intros Q; rewrite Q in He; discriminate (proj2 He eq_refl)).
               rewrite (decide_False (P := since SpuriousDragon n = true /\ cred coinbase = EMPTY_ACCOUNT /\ coinbase = coinbase)) by (rewrite Hacc; tauto).
               rewrite (decide_False (P := since SpuriousDragon n = true /\ cred coinbase = EMPTY_ACCOUNT /\ coinbase = coinbase /\ _)) by (rewrite Hacc; tauto).
               rewrite decide_True by tauto. rewrite Hacc, S3. done.
            -- assert (cred coinbase = EMPTY_ACCOUNT) by (rewrite Hce, get_lookup, E; done).
               rewrite decide_True by done. rewrite decide_False. 2:{ intros (_ & _ & _ & [? ?]%I3). done. }
               rewrite S3. done.
      - assert (E4 : main_trie s4 !! a = main_trie s3 !! a /\ storage_tries s4 !! a = storage_tries s3 !! a /\
          snapshots s4 = snapshots s3 /\ created_accounts s4 = created_accounts s3).
        { unfold s4, rewarded. destruct (_ || _).
          - rewrite set_lookup, decide_False by done. done.
          - unfold destroy_if_empty. destruct (account_exists_and_is_empty _ _); [|done].
            rewrite destroy_main, destroy_storages. destruct (destroy_rest s3 coinbase) as [-> ->].
            by rewrite !lookup_delete_ne. }
        destruct E4 as (-> & -> & -> & ->).
        rewrite (decide_False (P := since SpuriousDragon n = true /\ cred a = EMPTY_ACCOUNT /\ a = coinbase)) by tauto.
        rewrite (decide_False (P := since SpuriousDragon n = true /\ cred a = EMPTY_ACCOUNT /\ a = coinbase /\ _)) by tauto.
        rewrite S3.
        split; [|done]. rewrite N.add_0_r in Hc. destruct (main_trie s3 !! a) as [acc|] eqn:E.
        + rewrite decide_True; [|tauto || (destruct (proj1 I3 ltac:(by eexists)); tauto)].
          rewrite Hc, get_lookup, E. cbn. by destruct acc.
        + rewrite decide_False; [done|]. intros H. assert (is_Some (@None account)) as [? ?]; [|done]. apply I3. tauto.
    Qed.

    Lemma swept_settles : settles tx sender price used o s (swept s4 o).
    Proof.
      assert (P : forall a, let d := a ∈ co_accounts_to_delete o in
        let e := since SpuriousDragon n = true /\ a ∈ co_touched_accounts o /\ ~ d /\
                 main_trie s4 !! a = Some EMPTY_ACCOUNT in
        main_trie (swept s4 o) !! a = (if decide (d \/ e) then None else main_trie s4 !! a) /\
        storage_tries (swept s4 o) !! a = (if decide (d \/ e) then None else storage_tries s4 !! a) /\
        snapshots (swept s4 o) = snapshots s4 /\ created_accounts (swept s4 o) = created_accounts s4).
      { intros a d e. subst d e. unfold swept.
        destruct (destroy_list (elements (co_accounts_to_delete o)) s4 a) as (D1 & D2 & D3 & D4).
        pose proof (elem_of_elements (co_accounts_to_delete o) a) as Hd.
        pose proof (elem_of_elements (co_touched_accounts o) a) as Ht.
        set (s5 := fold_left destroy_account _ s4) in *. clearbody s5.
        destruct (since SpuriousDragon n) eqn:Es.
        - destruct (destroy_empties (elements (co_touched_accounts o)) s5 a) as (-> & -> & -> & ->).
          rewrite D1, D2, D3, D4. destruct (decide (a ∈ elements (co_accounts_to_delete o))) as [H|H].
          + rewrite !(decide_False (P := _ /\ None = Some EMPTY_ACCOUNT)) by (by intros [_ ?]).
            rewrite !decide_True by tauto. done.
          + destruct (decide (a ∈ elements (co_touched_accounts o) /\ main_trie s4 !! a = Some EMPTY_ACCOUNT)) as [H2|H2].
            * rewrite !decide_True by tauto. done.
            * rewrite !decide_False by tauto. done.
        - rewrite D1, D2, D3, D4. destruct (decide (a ∈ elements (co_accounts_to_delete o))) as [H|H];
            [rewrite !decide_True by tauto; done|].
          rewrite !decide_False by (intros [?|(? & _)]; [tauto|done]). done. }
      constructor.
      - intros a. destruct (P a) as (-> & _). destruct (paid_lookup a) as (-> & _). unfold cleared.
        destruct (decide (a ∈ co_accounts_to_delete o)) as [Hd|Hd].
        { rewrite !decide_True by tauto. done. }
        destruct (decide (since SpuriousDragon n = true /\ cred a = EMPTY_ACCOUNT /\ a = coinbase)) as [Hz|Hz].
        { rewrite !(decide_True (P := a ∈ co_accounts_to_delete o \/ _ /\ _ /\ (_ \/ _))) by tauto.
          by destruct (decide _). }
        destruct (decide (a = sender \/ a = coinbase \/ is_Some (main_trie s !! a))) as [Hx|Hx].
        + destruct (decide (a ∈ co_accounts_to_delete o \/ since SpuriousDragon n = true /\
            cred a = EMPTY_ACCOUNT /\ (a ∈ co_touched_accounts o \/ a = coinbase))) as [Hw|Hw].
          * rewrite decide_True; [done|]. right. destruct Hw as [?|(W1 & W2 & W3)]; [done|].
            split; [done|]. split; [tauto|]. split; [done|]. by rewrite W2.
          * rewrite decide_False; [done|]. intros [?|(W1 & W2 & _ & W3)]; [done|]. apply (inj Some) in W3. tauto.
        + destruct (decide _); by destruct (decide _).
      - intros a. destruct (P a) as (_ & -> & _). destruct (paid_lookup a) as (L & -> & _). unfold cleared.
        destruct (decide (a ∈ co_accounts_to_delete o)) as [Hd|Hd].
        { rewrite !decide_True by tauto. done. }
        destruct (decide (since SpuriousDragon n = true /\ cred a = EMPTY_ACCOUNT /\ a = coinbase /\
          (a = sender \/ is_Some (main_trie s !! a)))) as [Hz|Hz].
        { rewrite (decide_True (P := a ∈ co_accounts_to_delete o \/ (_ /\ _ /\ (_ \/ _)) /\ _)) by tauto.
          match goal with |- (if ?d then _ else _) = _ => by destruct d end. }
        destruct (decide (a ∈ co_accounts_to_delete o \/ (since SpuriousDragon n = true /\
          cred a = EMPTY_ACCOUNT /\ (a ∈ co_touched_accounts o \/ a = coinbase)) /\
          (a = sender \/ is_Some (main_trie s !! a)))) as [Hw|Hw].
        + destruct Hw as [?|((W1 & W2 & W3) & W4)]; [done|].
          assert (a <> coinbase) by tauto. assert (a ∈ co_touched_accounts o) by tauto.
          rewrite decide_True; [done|]. right. split; [done|]. split; [done|]. split; [done|]. rewrite L.
          rewrite decide_False by tauto. rewrite decide_True by tauto. by rewrite W2.
        + rewrite decide_False; [done|]. intros [?|(W1 & W2 & _ & W3)]; [done|]. rewrite L in W3.
          destruct (decide _) as [|Hy]; [done|]. destruct (decide _) as [Hq|]; [|done]. apply (inj Some) in W3.
          apply Hw. right. split; [tauto|]. destruct Hq as [?|[?|?]]; tauto.
      - destruct (P 0) as (_ & _ & -> & ->). by destruct (paid_lookup 0) as (_ & _ & -> & ->).
    Qed.
    Lemma settles_spec s' : settles tx sender price used o s s' <-> s' = swept s4 o.
    Proof.
      pose proof swept_settles as [A1 A2 [A3 A4]]. split; [|intros ->; apply swept_settles].
      intros [B1 B2 [B3 B4]]. apply state_ext; [|intros; by rewrite A2, B2|congruence..].
      intros a. by rewrite A1, B1.
    Qed.
  End Settle.

  Lemma sbind_go {A B} (m : sm A) (f : A -> sm B) t a t1 x :
    m t = (Done a, t1) -> f a t1 = x -> sbind m f t = x.
  Proof. unfold sbind. by intros ->. Qed.
  Lemma lift_done {A} (x : outcome A) t a : x = Done a -> lift x t = (Done a, t).
  Proof. by intros ->. Qed.
  Lemma tip_spec price : base_fee <= price ->
    (if tr_base_fee rules then usub price (pe_base_fee_per_gas env) else Done price) = Done (price - base_fee).
  Proof.
    intros H. rewrite london_rules. unfold base_fee in *. destruct (since London n).
    - unfold usub. by rewrite (proj2 (N.ltb_ge _ _)).
    - by rewrite N.sub_0_r.
  Qed.
  Lemma outcome_spec o s' out : pow_receipt_outcome cr rules (co_error o) s' = Done out <-> outcome_of o s' out.
  Proof.
    unfold pow_receipt_outcome, outcome_of. rewrite byzantium_rules. destruct (since Byzantium n); cbn [negb].
    - split; [by intros [= <-]|by intros ->].
    - destruct (state_root cr s') as [r|]; cbn [of_option obind].
      + split; [intros [= <-]; by exists r|by intros (? & [= <-] & ->)].
      + split; [done|by intros (? & ? & _)].
  Qed.
  Lemma acceptable_fee bo tx s sender price : pow_acceptable bo tx s sender price ->
    base_fee <= price /\ tx_gas tx * price <= tx_gas tx * max_fee tx <= balance (get_account s sender).
  Proof.
    intros [A1 A2 A3 A4 A5 A6 A7 A8]. assert (H : base_fee <= price <= max_fee tx) by (rewrite A5; lia).
    split; [apply H|]. split; [apply N.mul_le_mono_l, H|]. lia.
  Qed.

  (** What the block keeps of a transaction *)
  Definition recorded (bo : pow_block_output) (tx : transaction) (i : N) (r : pow_receipt)
    : pow_block_output :=
    PowBlockOutput (pr_cumulative_gas_used r)
      (trie_set (pbo_transactions_trie bo) (encode (RUint i)) (Some (encode_transaction tx)))
      (trie_set (pbo_receipts_trie bo) (encode (RUint i)) (Some (pow_encode_receipt tx r)))
      (pbo_receipt_keys bo ++ [encode (RUint i)])
      (pbo_block_logs bo ++ pr_logs r).

  (** ** C71: the whole transaction *)
  Theorem C71_transaction bo tx i s bo' s' : known n tx ->
    pow_process_transaction cr rules env evm bo tx i s = (Done bo', s') <->
    exists sender price o s2 r,
      pow_transacted bo tx s sender price o s2 r s' /\ bo' = recorded bo tx i r.
  Proof.
    intros Hk. unfold pow_process_transaction. split.
    - intros H. sm_step H. apply C69_validate in E as (-> & V1 & V2).
      sm_step H. sm_step H. destruct v as [sender price]. apply C71_accepts in E as Ha; [|done].
      sm_step H. sm_step H. apply usub_inv in E0 as [_ ->].
      sm_step H. destruct v. apply charge_spec in E0 as (F1 & F2 & ->).
      destruct (acceptable_fee _ _ _ _ _ Ha) as [Hb _].
      assert (Hn : nonce (get_account (charged s sender (tx_gas tx * price)) sender) = tx_nonce tx + 1).
      { rewrite charged_get, decide_True by done. cbn. by rewrite (pa_nonce _ _ _ _ _ Ha). }
      destruct (pow_access_list_of tx) as [al sl] eqn:El.
      sm_step H. sm_step H. rename v into m, E0 into Em.
      replace (TxEnv _ _ _ _ _ _ _) with (env_of tx sender price) in Em, H by (unfold env_of; by rewrite El).
      apply message_spec in Em; [|done].
      sm_step H. rename v into o, s0 into s2, E0 into Ev.
      sm_step H. apply gas_spec in E0 as [G1 ->].
      sm_step H. apply usub_inv in E0 as [_ ->].
      rewrite tip_spec in H by done. sm_step H. injection E0 as <-.
      sm_step H. destruct v. apply refund_spec in E0 as [R1 ->].
      sm_step H. destruct v. apply pay_spec in E0 as [R2 ->].
      sm_step H. destruct v. apply delete_spec in E0 as ->.
      sm_step H. sm_step H. apply outcome_spec in E0 as Ho. sm_step H. subst bo'.
      exists sender, price, o, s2.
      exists (PowReceipt v (pbo_block_gas_used bo + gas_paid tx o) (logs_bloom cr (co_logs o)) (co_logs o)).
      split; [|done]. exists (env_of tx sender price), m.
      split; [done|]. split; [done|]. split; [done|]. split; [by apply environment_spec|]. split; [done|].
      split; [done|]. split; [done|]. split; [by apply settles_spec|].
      split; [done|]. split; [done|]. split; [|done].
      rewrite credit_s3. cbn [balance]. by rewrite decide_True by done.
    - intros (sender & price & o & s2 & r & (te & m & V1 & V2 & Ha & Hte & Hm & Ev & G1 & Hs & F2 & R1 & R2 & Ho & O1 & O2 & O3) & ->).
      apply environment_spec in Hte as ->. destruct (acceptable_fee _ _ _ _ _ Ha) as (Hb & Hf).
      assert (Hn : nonce (get_account (charged s sender (tx_gas tx * price)) sender) = tx_nonce tx + 1).
      { rewrite charged_get, decide_True by done. cbn. by rewrite (pa_nonce _ _ _ _ _ Ha). }
      eapply sbind_go; [apply lift_done, C69_validate; done|].
      eapply sbind_go; [done|].
      eapply sbind_go; [apply lift_done, C71_accepts; done|]. cbv beta zeta iota.
      eapply sbind_go; [done|].
      eapply sbind_go; [apply lift_done; by apply usub_le|].
      eapply sbind_go; [apply charge_spec; split; [lia|done]|].
      destruct (pow_access_list_of tx) as [al sl] eqn:El.
      replace (TxEnv _ _ _ _ _ _ _) with (env_of tx sender price) by (unfold env_of; by rewrite El).
      eapply sbind_go; [done|].
      eapply sbind_go; [apply lift_done, message_spec; done|].
      eapply sbind_go; [exact Ev|].
      eapply sbind_go; [apply lift_done, gas_spec; done|].
      eapply sbind_go; [apply lift_done, usub_le, gas_paid_le|].
      eapply sbind_go; [apply lift_done, tip_spec, Hb|].
      eapply sbind_go; [apply refund_spec; done|].
      eapply sbind_go. { apply pay_spec. split; [|done]. rewrite credit_s3 in R2. cbn [balance] in R2.
        by rewrite decide_True in R2 by done. }
      eapply sbind_go; [apply delete_spec; done|].
      eapply sbind_go; [done|].
      apply settles_spec in Hs. rewrite <- Hs.
      eapply sbind_go; [apply lift_done, outcome_spec; exact Ho|].
      unfold sret, recorded, pow_make_receipt. destruct r as [x1 x2 x3 x4]. cbn in *. by subst.
  Qed.

  (** ** C71: consequences *)

  (** The gas paid for: all the gas that is gone, less at most half of it, and
      since London at most a fifth. *)
  Theorem C71_gas tx o : let before := tx_gas tx - co_gas_left o in
    gas_paid tx o <= before <= gas_paid tx o + co_refund_counter o /\
    (if since London n then 4 * before <= 5 * gas_paid tx o else before <= 2 * gas_paid tx o).
  Proof.
    intros before. unfold gas_paid. fold before.
    pose proof (N.mul_div_le before 5 ltac:(done)) as H5. pose proof (N.mul_div_le before 2 ltac:(done)) as H2.
    destruct (since London n).
    - revert H5. generalize (before / 5). lia.
    - revert H2. generalize (before / 2). lia.
  Qed.

  (** The accounts afterwards. *)
  Theorem C71_accounts bo tx s sender price o s2 r s' a :
    pow_transacted bo tx s sender price o s2 r s' ->
    get_account s' a = if decide (a ∈ co_accounts_to_delete o) then EMPTY_ACCOUNT
      else credit tx sender price (gas_paid tx o) s2 a.
  Proof.
    intros (te & m & _ & _ & _ & _ & _ & _ & _ & [H _ _] & _). rewrite get_lookup, H.
    destruct (decide (a ∈ co_accounts_to_delete o)) as [Hd|Hd].
    { by rewrite decide_True by tauto. }
    destruct (decide (a ∈ co_accounts_to_delete o \/ _)) as [[?|(_ & -> & _)]|Hc]; [done|done|].
    destruct (decide (a = sender \/ _)) as [|Hn]; [done|].
    unfold credit. rewrite !decide_False by tauto. rewrite get_lookup.
    destruct (main_trie s2 !! a) as [acc|] eqn:E; [|done]. exfalso. apply Hn. right. right. by eexists.
  Qed.

  (** The coins: the base fee is burnt and the balances of deleted accounts are
      lost; the rest only moves, apart from what the message does. *)
  Lemma total_charged s sender fee : fee <= balance (get_account s sender) ->
    total_balance (charged s sender fee) + fee = total_balance s.
  Proof.
    intros H. pose proof (total_set_account s sender (Some (Account (nonce (get_account s sender) + 1)
      (balance (get_account s sender) - fee) (code (get_account s sender))))) as E. cbn [bal_opt balance] in E.
    change (set_account s sender _) with (charged s sender fee) in E. lia.
  Qed.
  Lemma total_swept s o :
    total_balance (swept s o) + sum_over (fun a => balance (get_account s a)) (co_accounts_to_delete o)
    = total_balance s.
  Proof.
    unfold swept, sum_over.
    assert (E : forall l t, total_balance (fold_left destroy_if_empty l t) = total_balance t).
    { induction l as [|a l IH]; intros t; cbn [fold_left]; [done|]. rewrite IH. unfold destroy_if_empty.
      destruct (account_exists_and_is_empty t a) eqn:Ee; [|done]. apply empty_spec in Ee.
      pose proof (destroy_account_total t a) as H. rewrite get_lookup, Ee in H. cbn in H. lia. }
    assert (E2 : total_balance (if since SpuriousDragon n then fold_left destroy_if_empty
        (elements (co_touched_accounts o)) (fold_left destroy_account (elements (co_accounts_to_delete o)) s)
      else fold_left destroy_account (elements (co_accounts_to_delete o)) s) =
      total_balance (fold_left destroy_account (elements (co_accounts_to_delete o)) s)).
    { destruct (since SpuriousDragon n); [apply E|done]. }
    rewrite E2. destruct (destroy_accounts_facts _ s (NoDup_elements (co_accounts_to_delete o))) as (_ & H & _).
    rewrite <- H. f_equal. unfold PropWithdrawals.sumN. generalize (elements (co_accounts_to_delete o)).
    induction l as [|a l IH]; cbn [fold_right map]; [done|]. by rewrite IH.
  Qed.
  Lemma total_refunded s sender x : total_balance (refunded s sender x) = total_balance s + x.
  Proof.
    pose proof (total_set_account s sender (Some (Account (nonce (get_account s sender))
      (balance (get_account s sender) + x) (code (get_account s sender))))) as E. cbn [bal_opt balance] in E.
    unfold refunded. lia.
  Qed.
  Lemma total_rewarded s x : total_balance (rewarded s x) = total_balance s + x.
  Proof.
    unfold rewarded. destruct (_ || _) eqn:Eb.
    - pose proof (total_set_account s (pe_coinbase env) (Some (Account (nonce (get_account s (pe_coinbase env)))
        (balance (get_account s (pe_coinbase env)) + x) (code (get_account s (pe_coinbase env)))))) as E.
      cbn [bal_opt balance] in E. lia.
    - apply orb_false_iff in Eb as [_ Eb]. rewrite negb_false_iff, N.eqb_eq in Eb. assert (x = 0) as -> by lia.
      unfold destroy_if_empty. rewrite N.add_0_r. destruct (account_exists_and_is_empty _ _) eqn:Ee; [|done].
      apply empty_spec in Ee. pose proof (destroy_account_total s (pe_coinbase env)) as H.
      rewrite get_lookup, Ee in H. cbn in H. lia.
  Qed.
  Theorem C71_total bo tx s sender price o s2 r s' :
    pow_transacted bo tx s sender price o s2 r s' -> let used := gas_paid tx o in
    total_balance s' + used * base_fee
      + sum_over (fun a => balance (credit tx sender price used s2 a)) (co_accounts_to_delete o)
      + total_balance (charged s sender (tx_gas tx * price))
    = total_balance s + total_balance s2.
  Proof.
    intros (te & m & _ & _ & Ha & _ & _ & _ & _ & Hs & _) used. fold used in Hs.
    destruct (acceptable_fee _ _ _ _ _ Ha) as [Hb Hf].
    pose proof (total_charged s sender (tx_gas tx * price) ltac:(lia)) as T1.
    apply settles_spec in Hs as E.
    set (s3 := refunded s2 sender ((tx_gas tx - used) * price)) in *.
    set (s4 := rewarded s3 (used * (price - base_fee))) in *.
    pose proof (total_refunded s2 sender ((tx_gas tx - used) * price)) as T3. fold s3 in T3.
    pose proof (total_rewarded s3 (used * (price - base_fee))) as T4. fold s4 in T4.
    pose proof (total_swept s4 o) as T5. rewrite <- E in T5.
    assert (G : forall a, balance (get_account s4 a) = balance (credit tx sender price used s2 a)).
    { intros a. destruct (paid_lookup tx sender price used s2 a) as (L & _). fold s3 in L. fold s4 in L.
      rewrite get_lookup, L. destruct (decide _) as [(_ & -> & _)|_]; [done|].
      destruct (decide _) as [|Hn]; [done|]. unfold credit. rewrite !decide_False by tauto. cbn [balance].
      rewrite get_lookup. destruct (main_trie s2 !! a) eqn:Ea; [|done]. exfalso. apply Hn. right. right. by eexists. }
    assert (ES : sum_over (fun a => balance (get_account s4 a)) (co_accounts_to_delete o) =
      sum_over (fun a => balance (credit tx sender price used s2 a)) (co_accounts_to_delete o)).
    { unfold sum_over. generalize (elements (co_accounts_to_delete o)). induction l as [|a l IH]; [done|].
      cbn [fold_right]. by rewrite IH, G. }
    rewrite ES in T5. pose proof (gas_paid_le tx o) as Hu. fold used in Hu.
    assert (M : (tx_gas tx - used) * price + used * (price - base_fee) + used * base_fee = tx_gas tx * price).
    { assert (E1 : (tx_gas tx - used) * price + used * price = tx_gas tx * price)
        by (rewrite <- N.mul_add_distr_r; f_equal; lia).
      assert (E2 : used * (price - base_fee) + used * base_fee = used * price)
        by (rewrite <- N.mul_add_distr_l; f_equal; lia). lia. }
    lia.
  Qed.

  (** Since Spurious Dragon no transaction leaves an empty account behind that it
      touched, and the coinbase is not left empty. *)
  Theorem C71_cleared bo tx s sender price o s2 r s' a : since SpuriousDragon n = true ->
    pow_transacted bo tx s sender price o s2 r s' ->
    a ∈ co_touched_accounts o \/ a = pe_coinbase env -> main_trie s' !! a <> Some EMPTY_ACCOUNT.
  Proof.
    intros Hn (te & m & _ & _ & _ & _ & _ & _ & _ & [H _ _] & _) Ht. rewrite H.
    destruct (decide _) as [|Hc]; [done|]. destruct (decide _); [|done].
    intros E%(inj Some). apply Hc. right. split; [done|]. by split.
  Qed.
  (** Before, the coinbase always exists afterwards, unless it destroyed itself. *)
  Theorem C71_not_cleared bo tx s sender price o s2 r s' : since SpuriousDragon n = false ->
    pow_transacted bo tx s sender price o s2 r s' ->
    is_Some (main_trie s' !! pe_coinbase env) <-> pe_coinbase env ∉ co_accounts_to_delete o.
  Proof.
    intros Hn (te & m & _ & _ & _ & _ & _ & _ & _ & [H _ _] & _). rewrite H. unfold cleared. rewrite Hn.
    destruct (decide _) as [[Hd|[? _]]|Hd]; [|done|].
    - split; [by intros []|done].
    - rewrite decide_True by tauto. split; [tauto|by eexists].
  Qed.
End Run.

(** ** Concrete cases *)

(** A machine for plain transfers: no code runs and no gas is used. *)
Definition transfer_evm (_ : pow_env) (_ : tx_env) (m : message) : sm call_output :=
  _ <<- modifies (fun s => move_ether_pow s (m_caller m) (m_current_target m) (m_value m)) ;;
  sret (CallOutput (m_gas m) 0 [] ∅ {[ m_current_target m ]} None).
Definition ex_run_env : pow_env := PowEnv 1 100000 [] 0xc0 7 3 1000 131072.
(** The sender recovered by [one_key_crypto]. *)
Definition ex_sender : address := from_be_bytes (sliceN 12 32 (keccak256 one_key_crypto (bs [1; 2; 3]))).
Definition ex_rich : state :=
  State {[ ex_sender := Account 5 10000000 [] ]} ∅ [] ∅.
(** The coinbase receives the whole price before London, and the tip since; the
    base fee of 3 per gas is burnt. An empty account that received nothing stays
    before Spurious Dragon only. *)
Definition ex_gift (value : N) : transaction :=
  Legacy (LegacyTx 5 10 30000 (Some 0xaa) value (bs [0; 1; 2]) 27 11 12).
Definition ex_run (n : pow_name) (value : N) :=
  match pow_process_transaction one_key_crypto (rules_of n) ex_run_env transfer_evm empty_pow_block_output
          (ex_gift value) 0 ex_rich with
  | (Done bo, s) => Some (pbo_block_gas_used bo, balance (get_account s ex_sender),
      balance (get_account s 0xc0), balance (get_account s 0xaa), account_exists s 0xaa, total_balance s)
  | _ => None
  end.
Example C71_nonvacuous :
  known Frontier (ex_gift 7) /\
  ex_run Frontier 7 = Some (21140, 10000000 - 211400 - 7, 211400, 7, true, 10000000) /\
  ex_run Frontier 0 = Some (21140, 10000000 - 211400, 211400, 0, true, 10000000) /\
  ex_run SpuriousDragon 0 = Some (21140, 10000000 - 211400, 211400, 0, false, 10000000) /\
  ex_run Istanbul 7 = Some (21036, 10000000 - 210360 - 7, 210360, 7, true, 10000000) /\
  ex_run London 7 = Some (21036, 10000000 - 210360 - 7, 21036 * 7, 7, true, 10000000 - 21036 * 3).
Proof. vm_compute. repeat split. Qed.
Example C71_rejected_nonvacuous :
  pow_process_transaction one_key_crypto (rules_of London) (PowEnv 1 100000 [] 0xc0 7 11 1000 131072)
    transfer_evm empty_pow_block_output (ex_gift 7) 0 ex_rich = (Fail FInvalidBlock, ex_rich) /\
  pow_process_transaction one_key_crypto (rules_of London) ex_run_env
    transfer_evm empty_pow_block_output (ex_gift 9999999) 0 ex_rich =
  (Fail (FInvalidTransaction InsufficientBalanceError), ex_rich).
Proof. vm_compute. repeat split. Qed.

Definition PropPowRun_theorems :=
  (@C71_accepts, @C71_rejected, @C71_transaction, @C71_gas, @C71_accounts, @C71_total, @C71_cleared,
   @C71_not_cleared).
Print Assumptions PropPowRun_theorems.
