(** * PropTransaction: whole transactions.

    C18 and C19 (nonces and code) for transactions, blocks and chains, C34
    (block gas limits), C35 (fees), C36 (acceptance, no replay), C40 (chain
    ids). *)
From Verif Require Import Base State Rlp Vm Instructions Precompiles Interpreter StateSpec StateProofs
  NumericProofs EvmStep EvmAccounts EvmRule EvmInv EvmPlain PropFees PropTx PropDelegation Trie TrieProofs PropTrie Bloom
  Transactions Blocks Requests Fork ForkProofs PropWithdrawals TxProofs PropChain EvmExamples
  ForkExamples.
From Coq Require Import ZifyBool ZifyN ZifyNat.
Ltac Zify.zify_post_hook ::= idtac.

Local Opaque to_u256 from_be_bytes.

(** ** What a transaction offers to pay *)
Definition max_fee (tx : transaction) : N :=
  match tx with Legacy t => lt_gas_price t | AccessList t => at_gas_price t
  | FeeMarket t => ft_max_fee_per_gas t | Blob t => bt_max_fee_per_gas t
  | SetCode t => ct_max_fee_per_gas t end.
Definition max_tip (tx : transaction) : N :=
  match tx with Legacy t => lt_gas_price t | AccessList t => at_gas_price t
  | FeeMarket t => ft_max_priority_fee_per_gas t | Blob t => bt_max_priority_fee_per_gas t
  | SetCode t => ct_max_priority_fee_per_gas t end.
Definition tx_blobs (tx : transaction) : list N :=
  match tx with Blob t => bt_blob_versioned_hashes t | _ => [] end.
Definition max_blob_fee (tx : transaction) : N :=
  match tx with Blob t => bt_max_fee_per_blob_gas t | _ => 0 end.
Definition is_blob (tx : transaction) : Prop := match tx with Blob _ => True | _ => False end.
Definition is_set_code (tx : transaction) : Prop := match tx with SetCode _ => True | _ => False end.
(** The blob gas of a transaction: 2^17 per blob. *)
Definition blob_gas (tx : transaction) : N := 131072 * lenN (tx_blobs tx).

(** The most blob gas of a block (EIP-4844: 6 blobs; EIP-7691: 9 blobs). *)
Definition blob_limit (f : pos_fork) : N := match f with Prague | Osaka => 9 * 131072 | _ => 6 * 131072 end.
Lemma blob_limit_spec f : MAX_BLOB_GAS_PER_BLOCK f = blob_limit f.
Proof. by destruct f. Qed.
Lemma blob_limit_le f : blob_limit f <= 1179648.
Proof. by destruct f. Qed.
(** A sender has no code (EIP-3607) or, since Prague, a delegation (EIP-7702). *)
Definition may_send (f : pos_fork) (s : state) (a : address) : Prop :=
  match f with Prague | Osaka => delegable s a | _ => code (get_account s a) = [] end.
Lemma may_send_delegable f s a : may_send f s a -> delegable s a.
Proof. destruct f; [by left..|done|done]. Qed.
Lemma may_send_spec f s a : may_send f s a <->
  negb (bytes_eqb (code (get_account s a)) []) &&
  negb (at_least Prague f && is_valid_delegation (code (get_account s a))) = false.
Proof.
  assert (E : forall b, negb b && true = false <-> b = true) by (by intros []).
  destruct f; cbn [may_send]; try apply delegable_spec.
  all: change (at_least Prague _) with false; cbn [andb negb]; by rewrite E, bytes_eqb_eq.
Qed.
(** The least gas a transaction pays for: since EIP-7623 the floor is paid
    whatever is refunded; before, a fifth of 21000 could be refunded. *)
Definition least_gas (f : pos_fork) : N := match f with Prague | Osaka => 21000 | _ => 16800 end.

Section Tx.
  Context (cr : crypto) (be : block_env).

  (** ** C36: what is accepted *)
  Record acceptable (bo : block_output) (tx : transaction) (s : state) (sender : address) (price : N)
    : Prop := {
    ac_gas : bo_block_gas_used bo + tx_gas tx <= b_block_gas_limit be;
    ac_blob_gas : bo_blob_gas_used bo + blob_gas tx <= blob_limit (b_fork be);
    ac_sender : recover_sender cr (b_chain_id be) tx = Done sender;
    ac_tip : max_tip tx <= max_fee tx;
    ac_base : b_base_fee_per_gas be <= max_fee tx;
    ac_price : price = N.min (max_fee tx) (b_base_fee_per_gas be + max_tip tx);
    ac_blobs : is_blob tx -> 1 <= lenN (tx_blobs tx) /\ (b_fork be = Osaka -> lenN (tx_blobs tx) <= 6) /\
      Forall (fun h => h / 2 ^ 248 = 1) (tx_blobs tx) /\
      forall p, fork_blob_gas_price (b_fork be) (b_excess_blob_gas be) = Some p -> p <= max_blob_fee tx;
    ac_auths : is_set_code tx -> authorizations_of tx <> [];
    ac_nonce : nonce (get_account s sender) = tx_nonce tx;
    ac_balance : tx_gas tx * max_fee tx + blob_gas tx * max_blob_fee tx + tx_value tx
      <= balance (get_account s sender);
    ac_code : may_send (b_fork be) s sender;
  }.

  Lemma fee_market_prices_spec f t g p m : fee_market_prices be f t g = Done (p, m) <->
    t <= f /\ b_base_fee_per_gas be <= f /\ p = N.min f (b_base_fee_per_gas be + t) /\ m = g * f.
  Proof.
    unfold fee_market_prices. destruct (N.ltb_spec f t); [split; [done|lia]|].
    destruct (N.ltb_spec f (b_base_fee_per_gas be)); [split; [done|lia]|].
    split; [intros [= <- <-]; lia|]. intros (_ & _ & -> & ->). do 2 f_equal. lia.
  Qed.
  Lemma legacy_prices_spec f g p m : legacy_prices be f g = Done (p, m) <->
    f <= f /\ b_base_fee_per_gas be <= f /\ p = N.min f (b_base_fee_per_gas be + f) /\ m = g * f.
  Proof.
    unfold legacy_prices. destruct (N.ltb_spec f (b_base_fee_per_gas be)); [split; [done|lia]|].
    split; [intros [= <- <-]; lia|]. intros (_ & _ & -> & ->). do 2 f_equal. lia.
  Qed.
  Lemma tx_prices_spec tx p m : tx_prices be tx = Done (p, m) <->
    max_tip tx <= max_fee tx /\ b_base_fee_per_gas be <= max_fee tx /\
    p = N.min (max_fee tx) (b_base_fee_per_gas be + max_tip tx) /\ m = tx_gas tx * max_fee tx.
  Proof.
    destruct tx; cbn [tx_prices max_tip max_fee tx_gas];
      [apply legacy_prices_spec|apply legacy_prices_spec|apply fee_market_prices_spec..].
  Qed.
  Lemma total_blob_gas_spec tx n : lenN (tx_blobs tx) < 2 ^ 40 ->
    calculate_total_blob_gas tx = Done n <-> n = blob_gas tx.
  Proof.
    intros Hl. unfold blob_gas. destruct tx; cbn [calculate_total_blob_gas tx_blobs] in *;
      try (split; [by intros [= <-]|by intros ->]).
    rewrite u64_lt by lia. cbn [obind]. change GAS_PER_BLOB with 131072. rewrite u64_lt by lia.
    split; [by intros [= <-]|by intros ->].
  Qed.
  Lemma total_blob_gas_inv tx n : calculate_total_blob_gas tx = Done n -> n = blob_gas tx.
  Proof.
    destruct tx; cbn [calculate_total_blob_gas]; try by intros [= <-].
    intros (k & H1 & H2)%obind_inv. apply u64_inv in H1 as [_ ->]. by apply u64_inv in H2 as [_ ->].
  Qed.
  Lemma check_blobs_spec tx f hs : lenN (tx_blobs tx) < 2 ^ 40 -> check_blobs be tx = Done (f, hs) <->
    f = blob_gas tx * max_blob_fee tx /\ hs = tx_blobs tx /\
    (is_blob tx -> 1 <= lenN (tx_blobs tx) /\ (b_fork be = Osaka -> lenN (tx_blobs tx) <= 6) /\
      Forall (fun h => h / 2 ^ 248 = 1) (tx_blobs tx) /\
      forall p, fork_blob_gas_price (b_fork be) (b_excess_blob_gas be) = Some p -> p <= max_blob_fee tx).
  Proof.
    intros Hsz. destruct tx as [t|t|t|t|t]; cbn [check_blobs];
      try (split; [by intros [= <- <-]|]; intros (-> & -> & _); done).
    change (bt_blob_versioned_hashes t) with (tx_blobs (Blob t)).
    set (hh := tx_blobs (Blob t)). change BLOB_COUNT_LIMIT with 6.
    destruct (N.eqb_spec (lenN hh) 0) as [H0|H0].
    { split; [done|]. intros (_ & _ & H). destruct (H Logic.I) as [? _]. lia. }
    destruct (at_least Osaka (b_fork be) && (6 <? lenN hh)) eqn:H1.
    { apply andb_true_iff in H1 as [H1%is_osaka_spec H2%N.ltb_lt].
      split; [done|]. intros (_ & _ & H). destruct (H Logic.I) as (_ & H3 & _). specialize (H3 H1). lia. }
    assert (H1' : b_fork be = Osaka -> lenN hh <= 6).
    { intros Ho%is_osaka_spec. rewrite Ho in H1. by apply N.ltb_ge in H1. }
    destruct (forallb _ hh) eqn:E; cbn [negb].
    2:{ split; [done|]. intros (_ & _ & H). destruct (H Logic.I) as (_ & _ & HF & _).
        exfalso. apply not_true_iff_false in E. apply E, forallb_forall. intros h Hh.
        apply N.eqb_eq. change VERSIONED_HASH_VERSION_KZG with 1.
        rewrite Forall_forall in HF. by apply HF, elem_of_list_In. }
    assert (HF : Forall (fun h => h / 2 ^ 248 = 1) hh).
    { apply Forall_forall. intros h Hh%elem_of_list_In. rewrite forallb_forall in E. apply E in Hh.
      by apply N.eqb_eq in Hh. }
    destruct (blob_gas_price_done (b_fork be) (b_excess_blob_gas be)) as (p & -> & Hp). cbn [obind].
    change (bt_max_fee_per_blob_gas t) with (max_blob_fee (Blob t)).
    destruct (N.ltb_spec (max_blob_fee (Blob t)) p) as [H2|H2].
    { split; [done|]. intros (_ & _ & H). destruct (H Logic.I) as (_ & _ & _ & H3). apply H3 in Hp. lia. }
    assert (Hg : calculate_total_blob_gas (Blob t) = Done (blob_gas (Blob t))).
    { by apply total_blob_gas_spec. }
    rewrite Hg. cbn [obind]. split.
    - intros [= <- <-]. split_and!; try done. intros _. split_and!; [lia|done|done|].
      intros q Hq. rewrite Hp in Hq. by injection Hq as <-.
    - by intros (-> & -> & _).
  Qed.

  (** [check_transaction] accepts exactly the acceptable transactions, and
      returns the sender, the effective price, the blob hashes and blob gas. *)
  Theorem C36_accepts bo tx s sender price hashes bgas :
    check_transaction cr be bo tx s = Done (sender, price, hashes, bgas) <->
    acceptable bo tx s sender price /\ hashes = tx_blobs tx /\ bgas = blob_gas tx.
  Proof.
    unfold check_transaction. split.
    - intros H. apply obind_inv in H as (ga & H1 & H). apply usub_inv in H1 as [H1 ->].
      apply obind_inv in H as (ba & H2 & H). apply usub_inv in H2 as [H2 ->].
      apply obind_inv in H as ([] & H3 & H).
      destruct (N.ltb_spec (b_block_gas_limit be - bo_block_gas_used bo) (tx_gas tx)) as [|H3']; [done|].
      apply obind_inv in H as (tb & H4 & H). apply total_blob_gas_inv in H4 as ->.
      apply obind_inv in H as ([] & H5 & H). rewrite blob_limit_spec in *.
      destruct (N.ltb_spec (blob_limit (b_fork be) - bo_blob_gas_used bo) (blob_gas tx)) as [|H5']; [done|].
      pose proof (blob_limit_le (b_fork be)) as HB.
      assert (Hl : lenN (tx_blobs tx) < 2 ^ 40).
      { unfold blob_gas in H5'. lia. }
      apply obind_inv in H as (a & H6 & H).
      apply obind_inv in H as ([p mf] & H7 & H). apply tx_prices_spec in H7 as (P1 & P2 & P3 & ->).
      apply obind_inv in H as ([bf hs] & H8 & H). apply (check_blobs_spec _ _ _ Hl) in H8 as (-> & -> & B).
      apply obind_inv in H as ([] & H9 & H).
      apply obind_inv in H as ([] & H10 & H).
      destruct (N.eqb_spec (nonce (get_account s a)) (tx_nonce tx)) as [Hn|]; [|done].
      apply obind_inv in H as ([] & H11 & H).
      destruct (N.ltb_spec (balance (get_account s a))
        (tx_gas tx * max_fee tx + blob_gas tx * max_blob_fee tx + tx_value tx)) as [|Hb]; [done|].
      apply obind_inv in H as ([] & H12 & H). injection H as <- <- <- <-.
      split; [|done]. constructor; try done; try lia.
      + destruct tx; cbn [is_set_code]; try done. intros _. cbn. intros E. by rewrite E in H9.
      + apply may_send_spec. by destruct (_ && _).
    - intros ([A1 A2 A3 A4 A5 A6 A7 A8 A9 A10 A11] & -> & ->).
      assert (Hl : lenN (tx_blobs tx) < 2 ^ 40).
      { unfold blob_gas in A2. pose proof (blob_limit_le (b_fork be)). lia. }
      rewrite usub_le by lia. cbn [obind]. rewrite blob_limit_spec. rewrite usub_le by lia. cbn [obind].
      destruct (N.ltb_spec (b_block_gas_limit be - bo_block_gas_used bo) (tx_gas tx)); [lia|]. cbn [obind].
      rewrite (proj2 (total_blob_gas_spec _ _ Hl) eq_refl). cbn [obind].
      destruct (N.ltb_spec (blob_limit (b_fork be) - bo_blob_gas_used bo) (blob_gas tx)); [lia|]. cbn [obind].
      rewrite A3. cbn [obind].
      rewrite (proj2 (tx_prices_spec tx _ _) (conj A4 (conj A5 (conj A6 eq_refl)))). cbn [obind].
      rewrite (proj2 (check_blobs_spec tx _ _ Hl) (conj eq_refl (conj eq_refl A7))). cbn [obind].
      assert (Ha : match tx with SetCode t => match ct_authorizations t with
        | [] => invalid EmptyAuthorizationListError | _ => Done tt end | _ => Done tt end = Done tt).
      { destruct tx; try done. cbn in A8. destruct (ct_authorizations t); [by destruct A8|done]. }
      rewrite Ha. cbn [obind]. rewrite A9, N.eqb_refl. cbn [negb obind].
      destruct (N.ltb_spec (balance (get_account s sender))
        (tx_gas tx * max_fee tx + blob_gas tx * max_blob_fee tx + tx_value tx)); [lia|]. cbn [obind].
      apply may_send_spec in A11. by rewrite A11.
  Qed.

  (** The price is at least the base fee and at most what was offered, and
      the sender can pay for all the gas at the maximum, for the blobs and
      for the value. *)
  Corollary C36_price bo tx s sender price :
    acceptable bo tx s sender price ->
    b_base_fee_per_gas be <= price <= max_fee tx /\ price - b_base_fee_per_gas be <= max_tip tx.
  Proof. intros []. lia. Qed.

  (** Execution leaves no more gas than the message had. *)
  Lemma call_message_gas te m s o s' : call_message cr be te m s = (Done o, s') -> o_gas_left o <= m_gas m.
  Proof.
    unfold call_message. destruct (process_message_call _ _ _ _ _) as [o1 w'|] eqn:H; [|done].
    intros [= <- <-].
    apply call_cases in H as [(_ & _ & -> & ->)|[(_ & Hc & _ & e & He & Hf)|(_ & r & m1 & m2 & w1 & e & Hd & Hde & _ & Hm & Hg & Ht & He & Hf)]].
    - cbn. lia.
    - apply finish_cases in Hf as (_ & F1 & _). rewrite F1. apply create_struct in He. apply (ps_gas _ _ _ _ He).
    - apply finish_cases in Hf as (_ & F1 & _). rewrite F1, <- Hg. apply message_struct in He. apply (ps_gas _ _ _ _ He).
  Qed.

  (** ** Transactions and accounts *)
  Lemma run_facts bo tx i s t bo' s' : tx_run cr be bo tx i s t bo' s' -> settled s ->
    call_facts be (tr_te t) (tr_message t) (tr_s1 t) (tr_output t) (tr_s2 t) /\ settled s' /\
    solid (tr_s1 t) (tr_sender t).
  Proof.
    intros [] Hs.
    assert (Hs1 : settled (tr_s1 t)) by (destruct tr_frame1, Hs; split; congruence).
    pose proof (call_message_facts _ _ _ _ _ _ _ tr_call Hs1) as Hc. split; [done|].
    destruct (destroy_accounts_facts (elements (o_accounts_to_delete (tr_output t))) (tr_s4 t)
      (NoDup_elements _)) as (_ & _ & D1 & D2).
    split.
    - rewrite tr_end. destruct tr_frame4, (cf_settled _ _ _ _ _ _ Hc). split; congruence.
    - left. rewrite tr_get1, decide_True by done. cbn. lia.
  Qed.
  Lemma run_get bo tx i s t bo' s' : tx_run cr be bo tx i s t bo' s' -> forall a,
    get_account s' a = if decide (a ∈ o_accounts_to_delete (tr_output t)) then EMPTY_ACCOUNT
                       else get_account (tr_s4 t) a.
  Proof.
    intros [] a. destruct (destroy_accounts_facts (elements (o_accounts_to_delete (tr_output t))) (tr_s4 t)
      (NoDup_elements _)) as (D & _). rewrite tr_end, D.
    destruct (decide (a ∈ elements _)) as [Hx|Hx]; rewrite elem_of_elements in Hx;
      [by rewrite decide_True|by rewrite decide_False].
  Qed.
  Lemma run_get4 bo tx i s t bo' s' : tx_run cr be bo tx i s t bo' s' -> forall a,
    nonce (get_account (tr_s4 t) a) = nonce (get_account (tr_s2 t) a) /\
    code (get_account (tr_s4 t) a) = code (get_account (tr_s2 t) a) /\
    balance (get_account (tr_s4 t) a) = balance (get_account (tr_s2 t) a)
      + (if decide (tr_sender t = a) then (tx_gas tx - tr_used t) * tr_price t else 0)
      + (if decide (b_coinbase be = a) then tr_used t * (tr_price t - b_base_fee_per_gas be) else 0).
  Proof.
    intros [] a. rewrite tr_get4, tr_get3.
    destruct (decide (b_coinbase be = a)); destruct (decide (tr_sender t = a)); cbn;
      split_and!; try done; lia.
  Qed.
  Lemma run_get1 bo tx i s t bo' s' : tx_run cr be bo tx i s t bo' s' -> forall a,
    nonce (get_account (tr_s1 t) a) = nonce (get_account s a)
      + (if decide (tr_sender t = a) then 1 else 0) /\
    code (get_account (tr_s1 t) a) = code (get_account s a) /\
    balance (get_account (tr_s1 t) a) + (if decide (tr_sender t = a)
       then tx_gas tx * tr_price t + tr_blob_fee t else 0) = balance (get_account s a).
  Proof.
    intros [] a. rewrite tr_get1. destruct (decide (tr_sender t = a)) as [<-|]; cbn; split_and!; try done; lia.
  Qed.

  Lemma run_plain bo tx i s t bo' s' n a : tx_run cr be bo tx i s t bo' s' -> settled s ->
    at_least Prague (b_fork be) = false -> plain n a (tr_s1 t) ->
    a ∉ o_accounts_to_delete (tr_output t) /\ plain n a s'.
  Proof.
    intros R Hs Hpr Hp. destruct (run_facts _ _ _ _ _ _ _ R Hs) as ([] & _ & _).
    pose proof (run_get _ _ _ _ _ _ _ R a) as G. destruct (run_get4 _ _ _ _ _ _ _ R a) as (N4 & C4 & _).
    destruct (cf_plain Hpr n a Hp) as [[P1 P2] P3].
    { pose proof (tr_prepare _ _ _ _ _ _ _ _ _ R) as Hm. revert Hm. unfold prepare_message.
      destruct (tx_to tx) as [to|].
      - intros [= <-]. cbn. intros _ ->. apply Hp.
      - intros (x & _ & E)%obind_inv. injection E as <-. cbn. done. }
    split; [done|]. rewrite decide_False in G by done. split; rewrite G; [by rewrite N4|by rewrite C4].
  Qed.
  (** The sender is not deleted, in any fork: it has a nonce and, before Prague,
      no code. *)
  Lemma run_sender bo tx i s t bo' s' : tx_run cr be bo tx i s t bo' s' -> settled s ->
    tr_sender t ∉ o_accounts_to_delete (tr_output t) /\
    recover_sender cr (b_chain_id be) tx = Done (tr_sender t) /\
    nonce (get_account s (tr_sender t)) = tx_nonce tx /\
    tx_nonce tx < nonce (get_account s' (tr_sender t)) /\
    (at_least Prague (b_fork be) = false -> code (get_account s' (tr_sender t)) = []).
  Proof.
    intros R Hs. pose proof (tr_check _ _ _ _ _ _ _ _ _ R) as Hc. apply C36_accepts in Hc as [[] _].
    destruct (run_get1 _ _ _ _ _ _ _ R (tr_sender t)) as (N1 & C1 & _). rewrite decide_True in N1 by done.
    destruct (at_least Prague (b_fork be)) eqn:Hpr.
    - destruct (run_facts _ _ _ _ _ _ _ R Hs) as ([] & _ & Hso).
      assert (Hns : tr_sender t ∉ o_accounts_to_delete (tr_output t)).
      { apply cf_kept; [by destruct (b_fork be)|done]. }
      pose proof (run_get _ _ _ _ _ _ _ R (tr_sender t)) as G. rewrite decide_False in G by done.
      destruct (run_get4 _ _ _ _ _ _ _ R (tr_sender t)) as (N4 & _ & _).
      pose proof (cf_nonce (tr_sender t)) as N2.
      split_and!; [done|done|done| |done]. rewrite G, N4. lia.
    - destruct (run_plain _ _ _ _ _ _ _ (tx_nonce tx + 1) (tr_sender t) R Hs Hpr) as [P1 [P2 P3]].
      { split; [lia|]. rewrite C1. unfold may_send in ac_code0. by destruct (b_fork be). }
      split_and!; try done. lia.
  Qed.

  (** C18 for transactions: no nonce falls, and the sender's rises. *)
  Theorem C18_transaction bo tx i s bo' s' :
    at_least Cancun (b_fork be) = true ->
    process_transaction cr be bo tx i s = (Done bo', s') -> settled s ->
    (forall a, nonce (get_account s a) <= nonce (get_account s' a)) /\
    exists sender, recover_sender cr (b_chain_id be) tx = Done sender /\
      nonce (get_account s sender) = tx_nonce tx /\
      tx_nonce tx < nonce (get_account s' sender).
  Proof.
    intros Hfork H Hs. destruct (process_transaction_run _ _ _ _ _ _ _ _ H) as [t R].
    destruct (run_facts _ _ _ _ _ _ _ R Hs) as ([] & _ & Hso).
    pose proof (run_get _ _ _ _ _ _ _ R) as G. pose proof (run_get4 _ _ _ _ _ _ _ R) as G4.
    pose proof (run_get1 _ _ _ _ _ _ _ R) as G1.
    assert (K : forall a, nonce (get_account (tr_s1 t) a) <= nonce (get_account s' a)).
    { intros a. rewrite G. destruct (decide (a ∈ _)) as [Ha|Ha].
      - destruct (N.eq_dec (nonce (get_account (tr_s1 t) a)) 0) as [E|E]; [cbn; lia|].
        exfalso. apply (cf_kept Hfork a); [by left|done].
      - destruct (G4 a) as [-> _]. apply cf_nonce. }
    split.
    - intros a. specialize (K a). destruct (G1 a) as [E _]. lia.
    - pose proof (tr_check _ _ _ _ _ _ _ _ _ R) as Hc. apply C36_accepts in Hc as [[] _].
      exists (tr_sender t). split; [done|]. split; [done|].
      specialize (K (tr_sender t)). destruct (G1 (tr_sender t)) as [E _]. rewrite decide_True in E by done. lia.
  Qed.

  (** Before Cancun an account that destroys itself loses its nonce, but never
      one without code: what has sent a transaction keeps its nonce and gets no
      code. *)
  Theorem C18_sender bo tx i s bo' s' :
    process_transaction cr be bo tx i s = (Done bo', s') -> settled s ->
    exists sender, recover_sender cr (b_chain_id be) tx = Done sender /\
      nonce (get_account s sender) = tx_nonce tx /\
      tx_nonce tx < nonce (get_account s' sender) /\
      (at_least Prague (b_fork be) = false -> code (get_account s' sender) = []).
  Proof.
    intros H Hs. destruct (process_transaction_run _ _ _ _ _ _ _ _ H) as [t R].
    exists (tr_sender t). by apply (run_sender _ _ _ _ _ _ _ R Hs).
  Qed.
  Theorem C18_plain bo tx i s bo' s' a :
    process_transaction cr be bo tx i s = (Done bo', s') -> settled s ->
    nonce (get_account s a) <> 0 -> code (get_account s a) = [] ->
    nonce (get_account s a) <= nonce (get_account s' a) /\
    (at_least Prague (b_fork be) = false -> code (get_account s' a) = []).
  Proof.
    intros H Hs Hn Hc. destruct (at_least Prague (b_fork be)) eqn:Hpr.
    - split; [|done]. destruct (C18_transaction _ _ _ _ _ _ ltac:(by destruct (b_fork be)) H Hs) as [K _].
      apply K.
    - destruct (process_transaction_run _ _ _ _ _ _ _ _ H) as [t R].
      destruct (run_get1 _ _ _ _ _ _ _ R a) as (N1 & C1 & _).
      destruct (run_plain _ _ _ _ _ _ _ (nonce (get_account s a)) a R Hs Hpr) as [_ [P2 P3]].
      { split; [lia|]. by rewrite C1. }
      split; [lia|done].
  Qed.

  (** C19 for transactions: an account with real code keeps it. *)
  Theorem C19_transaction bo tx i s bo' s' a :
    at_least Cancun (b_fork be) = true ->
    process_transaction cr be bo tx i s = (Done bo', s') -> settled s ->
    has_real_code s a -> code (get_account s' a) = code (get_account s a).
  Proof.
    intros Hfork H Hs Ha. destruct (process_transaction_run _ _ _ _ _ _ _ _ H) as [t R].
    destruct (run_facts _ _ _ _ _ _ _ R Hs) as ([] & _ & Hso).
    pose proof (run_get _ _ _ _ _ _ _ R a) as G. destruct (run_get4 _ _ _ _ _ _ _ R a) as (_ & G4 & _).
    destruct (run_get1 _ _ _ _ _ _ _ R a) as (_ & G1 & _).
    assert (H1 : has_real_code (tr_s1 t) a) by (unfold has_real_code; by rewrite G1).
    rewrite G. destruct (decide (a ∈ _)) as [Hd|Hd].
    - exfalso. apply (cf_kept Hfork a); [|done]. right. apply H1.
    - by rewrite G4, cf_code.
  Qed.

  Theorem settled_transaction bo tx i s bo' s' :
    process_transaction cr be bo tx i s = (Done bo', s') -> settled s -> settled s'.
  Proof.
    intros H Hs. destruct (process_transaction_run _ _ _ _ _ _ _ _ H) as [t R].
    by destruct (run_facts _ _ _ _ _ _ _ R Hs) as (_ & ? & _).
  Qed.

  (** ** C35 *)
  (** The fees of one transaction. [used] is the gas it pays for; [o] the
      result of executing it, which starts in [s1] and ends in [s2]. *)
  Theorem C35_fees bo tx i s bo' s' :
    process_transaction cr be bo tx i s = (Done bo', s') -> settled s ->
    exists sender price blob_price used refund te m (o : message_call_output) s1 s2,
      acceptable bo tx s sender price /\
      fork_blob_gas_price (b_fork be) (b_excess_blob_gas be) = Some blob_price /\
      prepare_message cr be te tx s1 = Done m /\ call_message cr be te m s1 = (Done o, s2) /\
      t_origin te = sender /\ t_gas_price te = price /\
      (* the gas is between the floor and the limit, a refund at most a fifth *)
      bo_block_gas_used bo' = bo_block_gas_used bo + used /\
      data_floor (b_fork be) tx <= used <= tx_gas tx /\
      used = N.max (tx_gas tx - o_gas_left o - refund) (data_floor (b_fork be) tx) /\
      refund <= o_refund_counter o /\ 5 * refund <= tx_gas tx - o_gas_left o /\
      fst (calculate_intrinsic_cost (b_fork be) tx) + o_gas_left o <= tx_gas tx /\
      (* the sender pays for all gas and the blobs before execution *)
      (forall a, balance (get_account s1 a) + (if decide (a = sender)
         then tx_gas tx * price + blob_gas tx * blob_price else 0) = balance (get_account s a)) /\
      (* what is left is paid back, the coinbase gets the tip, and accounts that
         destroyed themselves are removed *)
      (forall a, balance (get_account s' a) = if decide (a ∈ o_accounts_to_delete o) then 0 else
         balance (get_account s2 a)
         + (if decide (a = sender) then (tx_gas tx - used) * price else 0)
         + (if decide (a = b_coinbase be) then used * (price - b_base_fee_per_gas be) else 0)) /\
      sender ∉ o_accounts_to_delete o /\
      (* the ether in existence falls by the base fee, the blob fee and what is
         destroyed by SELFDESTRUCT, during execution or at the end *)
      total_balance s = total_balance s' + used * b_base_fee_per_gas be + blob_gas tx * blob_price
        + (total_balance s1 - total_balance s2)
        + sumN (map (fun a => balance (get_account s2 a)
                   + (if decide (a = b_coinbase be) then used * (price - b_base_fee_per_gas be) else 0))
                 (elements (o_accounts_to_delete o))) /\
      total_balance s2 <= total_balance s1 /\
      (total_balance s2 <> total_balance s1 -> o_error o = None /\ exists a, a ∈ o_accounts_to_delete o).
  Proof.
    intros H Hs. destruct (process_transaction_run _ _ _ _ _ _ _ _ H) as [t R].
    destruct (run_sender _ _ _ _ _ _ _ R Hs) as (Hns & _).
    destruct (run_facts _ _ _ _ _ _ _ R Hs) as ([] & _ & Hso).
    pose proof (run_get _ _ _ _ _ _ _ R) as G. pose proof (run_get4 _ _ _ _ _ _ _ R) as G4.
    pose proof (run_get1 _ _ _ _ _ _ _ R) as G1.
    destruct (destroy_accounts_facts (elements (o_accounts_to_delete (tr_output t))) (tr_s4 t)
      (NoDup_elements _)) as (_ & DT & _). rewrite <- (tr_end _ _ _ _ _ _ _ _ _ R) in DT.
    destruct R. apply C36_accepts in tr_check as (Hac & Hh & Hbg).
    apply C43_validate in tr_valid as (Hv & V1 & V2 & V3 & _).
    rewrite <- (proj2 (C43_intrinsic_exact (b_fork be) tx)). rewrite <- Hv. cbn [fst snd] in V1, V2 |- *.
    apply charged_gas_inv in tr_charged as [Hl Hu].
    destruct (blob_gas_price_done (b_fork be) (b_excess_blob_gas be)) as (bp & Hbp & Hbp').
    assert (Hfee : tr_blob_fee t = blob_gas tx * bp).
    { revert tr_blobs. unfold blob_fee_of. destruct tx; try by intros [= <-].
      unfold calculate_data_fee. intros (n & H1%total_blob_gas_inv & H2)%obind_inv.
      rewrite Hbp in H2. cbn [obind] in H2. injection H2 as <-. by rewrite H1. }
    rewrite Hfee in *.
    exists (tr_sender t), (tr_price t), bp, (tr_used t),
      (N.min ((tx_gas tx - o_gas_left (tr_output t)) / 5) (o_refund_counter (tr_output t))),
      (tr_te t), (tr_message t), (tr_output t), (tr_s1 t), (tr_s2 t).
    assert (Hm : o_gas_left (tr_output t) <= tx_gas tx - tr_intrinsic t).
    { etrans; [exact cf_gas|]. destruct tr_env as (_ & _ & Hg & _).
      revert tr_prepare. unfold prepare_message. destruct (tx_to tx).
      - intros [= <-]. cbn. lia.
      - intros (n & _ & E)%obind_inv. injection E as <-. cbn. lia. }
    split; [done|]. split; [done|]. split; [done|]. split; [done|].
    split; [apply tr_env|]. split; [apply tr_env|]. split; [by rewrite tr_out|].
    split; [lia|]. split; [exact Hu|]. split; [lia|].
    split. { pose proof (N.mul_div_le (tx_gas tx - o_gas_left (tr_output t)) 5). lia. }
    split; [lia|].
    split. { intros a. destruct (G1 a) as (_ & _ & E). destruct (decide (a = tr_sender t)) as [->|Hne];
               [by rewrite decide_True in E by done|by rewrite decide_False in E by congruence]. }
    split. { intros a. rewrite G. destruct (decide (a ∈ _)); [done|]. destruct (G4 a) as (_ & _ & ->).
             f_equal; [f_equal|]; [destruct (decide (a = tr_sender t)) as [->|Hne]
             |destruct (decide (a = b_coinbase be)) as [->|Hne]];
             [by rewrite decide_True|by rewrite decide_False by congruence
             |by rewrite decide_True|by rewrite decide_False by congruence]. }
    split; [done|]. split; [|by split].
    assert (E : map (fun a => balance (get_account (tr_s4 t) a)) (elements (o_accounts_to_delete (tr_output t)))
      = map (fun a => balance (get_account (tr_s2 t) a)
                   + (if decide (a = b_coinbase be) then tr_used t * (tr_price t - b_base_fee_per_gas be) else 0))
                 (elements (o_accounts_to_delete (tr_output t)))).
    { apply map_ext_in. intros a Ha%elem_of_list_In%elem_of_elements. destruct (G4 a) as (_ & _ & ->).
      rewrite decide_False by congruence.
      destruct (decide (a = b_coinbase be)) as [->|Hne]; [rewrite decide_True by done|rewrite decide_False by congruence]; lia. }
    rewrite E in DT. set (X := sumN _) in DT |- *.
    assert (tx_gas tx * tr_price t = (tx_gas tx - tr_used t) * tr_price t
      + tr_used t * (tr_price t - b_base_fee_per_gas be) + tr_used t * b_base_fee_per_gas be) as HP.
    { clear -tr_used_le tr_base. revert tr_used_le tr_base.
      generalize (tx_gas tx) (tr_used t) (tr_price t) (b_base_fee_per_gas be). intros g u p b Hu Hb.
      assert (exists x y, g = u + x /\ p = b + y) as (x & y & -> & ->) by (exists (g - u), (p - b); lia).
      replace (u + x - u) with x by lia. replace (b + y - b) with y by lia. lia. }
    lia.
  Qed.

  (** A transaction whose execution failed (its receipt says so) moves nothing
      but the fees: the sender pays for the gas used and the blobs, the
      coinbase gets the tip; without authorizations the only other change is
      the nonce of the sender. *)
  Theorem C35_failed bo tx i s bo' s' :
    process_transaction cr be bo tx i s = (Done bo', s') -> settled s -> owned s ->
    exists sender price blob_price used error logs,
      acceptable bo tx s sender price /\
      fork_blob_gas_price (b_fork be) (b_excess_blob_gas be) = Some blob_price /\
      bo_block_gas_used bo' = bo_block_gas_used bo + used /\
      bo_receipts_trie bo' = trie_set (bo_receipts_trie bo) (encode (RUint i))
        (Some (make_receipt cr tx error (bo_block_gas_used bo + used) logs)) /\
      (error <> None -> logs = [] /\
        (forall a, balance (get_account s' a)
           + (if decide (a = sender) then used * price + blob_gas tx * blob_price else 0)
           = balance (get_account s a)
           + (if decide (a = b_coinbase be) then used * (price - b_base_fee_per_gas be) else 0)) /\
        (authorizations_of tx = [] ->
          (forall a, code (get_account s' a) = code (get_account s a) /\
             nonce (get_account s' a) = nonce (get_account s a) + (if decide (a = sender) then 1 else 0)) /\
          forall a k, get_storage s' a k = get_storage s a k)).
  Proof.
    intros H Hs Ho. destruct (process_transaction_run _ _ _ _ _ _ _ _ H) as [t R].
    destruct (run_facts _ _ _ _ _ _ _ R Hs) as ([] & _ & Hso).
    pose proof (run_get _ _ _ _ _ _ _ R) as G. pose proof (run_get4 _ _ _ _ _ _ _ R) as G4.
    pose proof (run_get1 _ _ _ _ _ _ _ R) as G1.
    destruct R. pose proof tr_check as Hck. apply C36_accepts in Hck as (Hac & Hh & Hbg).
    destruct (blob_gas_price_done (b_fork be) (b_excess_blob_gas be)) as (bp & Hbp & Hbp').
    assert (Hfee : tr_blob_fee t = blob_gas tx * bp).
    { revert tr_blobs. unfold blob_fee_of. destruct tx; try by intros [= <-].
      unfold calculate_data_fee. intros (n & H1%total_blob_gas_inv & H2)%obind_inv.
      rewrite Hbp in H2. cbn [obind] in H2. injection H2 as <-. by rewrite H1. }
    rewrite Hfee in *.
    exists (tr_sender t), (tr_price t), bp, (tr_used t), (o_error (tr_output t)), (o_logs (tr_output t)).
    split; [done|]. split; [done|]. split; [by rewrite tr_out|]. split; [by rewrite tr_out|].
    intros He. destruct (cf_error He) as (E1 & E2 & E3 & E4). split; [done|].
    assert (G' : forall a, get_account s' a = get_account (tr_s4 t) a).
    { intros a. rewrite G, E2. by rewrite decide_False by apply not_elem_of_empty. }
    split.
    - intros a. rewrite G'. destruct (G4 a) as (_ & _ & ->). rewrite E3. destruct (G1 a) as (_ & _ & E).
      revert E.
      destruct (decide (tr_sender t = a)) as [Ha|Ha];
        [rewrite (decide_True (P := a = tr_sender t)) by done|rewrite (decide_False (P := a = tr_sender t)) by congruence];
        (destruct (decide (b_coinbase be = a)) as [Hb|Hb];
        [rewrite (decide_True (P := a = b_coinbase be)) by done|rewrite (decide_False (P := a = b_coinbase be)) by congruence]);
        intros E; try lia.
      all: assert (tx_gas tx * tr_price t = (tx_gas tx - tr_used t) * tr_price t + tr_used t * tr_price t)
        by (rewrite <- N.mul_add_distr_r; f_equal; lia); lia.
    - intros Ha. destruct E4 as [M ST].
      { destruct tr_env as (_ & _ & _ & -> & _). unfold tx_auths, authorizations_of in *. by destruct tx. }
      split.
      + intros a. rewrite G'. destruct (G4 a) as (-> & -> & _). rewrite (get_account_main _ _ M).
        destruct (G1 a) as (-> & -> & _). split; [done|].
        destruct (decide (tr_sender t = a)); [by rewrite decide_True|by rewrite decide_False by congruence].
      + assert (Hn : nonce (get_account (tr_s2 t) (tr_sender t)) <> 0).
        { rewrite (get_account_main _ _ M). destruct (G1 (tr_sender t)) as (-> & _).
          rewrite decide_True by done. lia. }
        specialize (tr_sto3 Hn).
        assert (ST3 : same_storage s (tr_s3 t)).
        { apply get_storage_tries. congruence. }
        assert (Ho3 : owned (tr_s3 t)).
        { intros a k. rewrite (ST3 a k). intros Hk%Ho. unfold solid in *. rewrite tr_get3.
          destruct (decide (tr_sender t = a)) as [<-|Hne]; cbn.
          - by left.
          - rewrite (get_account_main _ _ M). destruct (G1 a) as (-> & -> & _).
            rewrite decide_False by done. by rewrite N.add_0_r. }
        intros a k. assert (Hd : s' = tr_s4 t).
        { rewrite tr_end, E2, elements_empty. done. }
        rewrite Hd, (tr_sto4 Ho3 a k). apply ST3.
  Qed.

  (** ** C34 *)
  (** Cumulative gas: each entry exceeds the one before by at least the
      gas every transaction costs. *)
  Fixpoint cumulates (least from : N) (rs : list receipt) (to : N) : Prop :=
    match rs with
    | [] => to = from
    | r :: rest => from + least <= rc_cumulative_gas_used r /\
        cumulates least (rc_cumulative_gas_used r) rest to
    end.
  (** Gas and blob gas in the limits. *)
  Definition within_limits (bo : block_output) : Prop :=
    bo_block_gas_used bo <= b_block_gas_limit be /\ bo_blob_gas_used bo <= blob_limit (b_fork be).

  Theorem C34_transaction bo tx i s bo' s' :
    process_transaction cr be bo tx i s = (Done bo', s') ->
    within_limits bo' /\ bo_block_gas_used bo + least_gas (b_fork be) <= bo_block_gas_used bo' /\
    bo_block_gas_used bo' <= bo_block_gas_used bo + tx_gas tx /\
    bo_blob_gas_used bo' = bo_blob_gas_used bo + blob_gas tx.
  Proof.
    intros H. destruct (process_transaction_run _ _ _ _ _ _ _ _ H) as [t []].
    apply C36_accepts in tr_check as ([] & _ & Hbg).
    apply C43_validate in tr_valid as (Hv & V1 & V2 & V3 & _).
pose proof (proj2 (C43_intrinsic_exact (b_fork be) tx)) as HF.
    pose proof (proj1 (C43_intrinsic_exact (b_fork be) tx)) as HI.
    rewrite <- Hv in HF, HI. cbn [fst snd] in *.
    apply charged_gas_inv in tr_charged as [_ Hu].
    assert (Hm : o_gas_left (tr_output t) <= tx_gas tx - tr_intrinsic t).
    { etrans; [exact (call_message_gas _ _ _ _ _ tr_call)|]. destruct tr_env as (_ & _ & Hg & _).
      revert tr_prepare. unfold prepare_message. destruct (tx_to tx).
      - intros [= <-]. cbn. lia.
      - intros (n & _ & E)%obind_inv. injection E as <-. cbn. lia. }
    assert (HL : least_gas (b_fork be) <= tr_used t).
    { rewrite Hu. pose proof (N.mul_div_le (tx_gas tx - o_gas_left (tr_output t)) 5 ltac:(done)) as HD.
      revert HF HI. generalize (zero_bytes (tx_data tx)) (nonzero_bytes (tx_data tx)) (lenN (access_of tx))
        (PropTx.sumN (fun a => lenN (ac_slots a)) (access_of tx)) (lenN (authorizations_of tx)). intros.
      assert (least_gas (b_fork be) <= 21000) by (by destruct (b_fork be)).
      assert (21000 <= tr_intrinsic t) by lia.
      unfold least_gas, data_floor in *. destruct (b_fork be); lia. }
    rewrite tr_out. unfold within_limits. cbn. lia.
  Qed.

  (** All transactions of a block: the limits hold at the end (so, as every
      prefix of the list is such a list, after every transaction); the tries
      and logs are what the receipts say. *)
  Theorem C34_transactions bo txs i s bo' s' :
    process_transactions cr be bo txs i s = (Done bo', s') ->
    within_limits bo -> trie_ok (bo_receipts_trie bo) -> trie_ok (bo_transactions_trie bo) ->
    i + lenN txs < 2 ^ 256 ->
    within_limits bo' /\ trie_ok (bo_receipts_trie bo') /\ trie_ok (bo_transactions_trie bo') /\
    exists rs : list receipt, length rs = length txs /\
      cumulates (least_gas (b_fork be)) (bo_block_gas_used bo) rs (bo_block_gas_used bo') /\
      (forall j etx r, nth_error txs j = Some etx -> nth_error rs j = Some r ->
         exists tx, decode_transaction (b_fork be) etx = Done tx /\
         trie_get (bo_transactions_trie bo') (encode (RUint (i + N.of_nat j))) = Some (encode_transaction tx) /\
         trie_get (bo_receipts_trie bo') (encode (RUint (i + N.of_nat j))) = Some (encode_receipt tx r)) /\
      (forall k, (forall j, (j < length txs)%nat -> k <> encode (RUint (i + N.of_nat j))) ->
         trie_get (bo_transactions_trie bo') k = trie_get (bo_transactions_trie bo) k /\
         trie_get (bo_receipts_trie bo') k = trie_get (bo_receipts_trie bo) k) /\
      Forall (fun r => rc_bloom r = logs_bloom cr (rc_logs r)) rs /\
      bo_block_logs bo' = bo_block_logs bo ++ concat (map rc_logs rs) /\
      bo_receipt_keys bo' = bo_receipt_keys bo ++ map (fun j => encode (RUint (i + N.of_nat j))) (seq 0 (length txs)) /\
      bo_withdrawals_trie bo' = bo_withdrawals_trie bo /\ bo_requests bo' = bo_requests bo.
  Proof.
    revert bo i s. induction txs as [|etx txs IH]; intros bo i s H Hlim Hr Ht Hi.
    { apply sret_inv in H as [-> ->]. split; [done|]. split; [done|]. split; [done|].
      exists []. cbn. rewrite !app_nil_r. split_and!; try done. by intros [|j]. }
    cbn [process_transactions] in H. sm_step H. rename v into tx. sm_step H. rename v into bo1, s0 into s1.
    destruct (C34_transaction _ _ _ _ _ _ E0) as (L1 & L2 & _ & _).
    destruct (process_transaction_run _ _ _ _ _ _ _ _ E0) as [t R].
    pose proof (tr_out _ _ _ _ _ _ _ _ _ R) as Ho. clear R E0.
    rewrite lenN_cons in Hi.
    set (k0 := encode (RUint i)) in *.
    set (r0 := Receipt (match o_error (tr_output t) with None => true | Some _ => false end)
      (bo_block_gas_used bo + tr_used t) (logs_bloom cr (o_logs (tr_output t))) (o_logs (tr_output t))).
    apply IH in H; [|done|by rewrite Ho; apply trie_set_ok|by rewrite Ho; apply trie_set_ok|lia].
    destruct H as (H1 & H2 & H3 & rs & R1 & R2 & R3 & R4 & R5 & R6 & R7 & R8 & R9).
    split; [done|]. split; [done|]. split; [done|]. exists (r0 :: rs).
    assert (Hk : forall j, (j < length txs)%nat -> k0 <> encode (RUint (i + 1 + N.of_nat j))).
    { intros j Hj Ek. apply index_key_inj in Ek; unfold lenN in Hi; lia. }
    assert (Hg1 : bo_block_gas_used bo1 = bo_block_gas_used bo + tr_used t) by (by rewrite Ho).
    split; [cbn; lia|]. split. { cbn [cumulates]. rewrite Hg1 in *. split; [exact L2|exact R2]. }
    split.
    { intros [|j] etx' r; cbn [nth_error].
      - intros [= <-] [= <-]. exists tx. split; [done|].
        replace (i + N.of_nat 0) with i by lia. fold k0. destruct (R4 k0 Hk) as [-> ->].
        rewrite Ho. cbn. rewrite !trie_get_set by done. rewrite !decide_True by done. done.
      - replace (i + N.of_nat (S j)) with (i + 1 + N.of_nat j) by lia. apply R3. }
    split.
    { intros k Hkk.
      assert (Hk1 : forall j, (j < length txs)%nat -> k <> encode (RUint (i + 1 + N.of_nat j))).
      { intros j Hj. specialize (Hkk (S j)). replace (i + N.of_nat (S j)) with (i + 1 + N.of_nat j) in Hkk by lia.
        apply Hkk. cbn. lia. }
      assert (Hk2 : k0 <> k).
      { specialize (Hkk 0%nat). replace (i + N.of_nat 0) with i in Hkk by lia. intros <-. apply Hkk; [cbn; lia|done]. }
      destruct (R4 k Hk1) as [-> ->]. rewrite Ho. cbn. rewrite !trie_get_set by done.
      by rewrite !decide_False by done. }
    split; [constructor; done|].
    split. { rewrite R6, Ho. cbn. by rewrite <- app_assoc. }
    split. { rewrite R7, Ho. cbn [bo_receipt_keys length seq map]. rewrite <- app_assoc. f_equal.
             cbn [app]. f_equal; [unfold k0; do 2 f_equal; lia|].
             rewrite <- seq_shift, map_map. apply map_ext. intros j. do 2 f_equal. lia. }
    by rewrite R8, R9, Ho.
  Qed.

  (** Every prefix of an accepted list is accepted, so the limits hold after
      each transaction. *)
  Theorem C34_always bo txs1 txs2 i s bo' s' :
    process_transactions cr be bo (txs1 ++ txs2) i s = (Done bo', s') -> within_limits bo ->
    exists bo1 s1, process_transactions cr be bo txs1 i s = (Done bo1, s1) /\ within_limits bo1 /\
      bo_block_gas_used bo1 <= bo_block_gas_used bo'.
  Proof.
    revert bo i s. induction txs1 as [|etx txs1 IH]; intros bo i s H Hl.
    - exists bo, s. split; [done|]. split; [done|]. cbn in H. clear Hl.
      revert bo i s H. induction txs2 as [|etx txs2 IH]; intros bo i s H.
      + apply sret_inv in H as [-> _]. done.
      + cbn [process_transactions] in H. sm_step H. sm_step H.
        apply C34_transaction in E0 as (_ & E0 & _). apply IH in H. lia.
    - cbn [app process_transactions] in H. sm_step H. sm_step H.
      destruct (IH _ _ _ H) as (bo1 & s1 & H1 & H2 & H3).
      { by apply C34_transaction in E0 as (? & _). }
      exists bo1, s1. split; [|done]. cbn [process_transactions]. unfold sbind, lift. rewrite E, E0. done.
  Qed.
End Tx.

(** ** Non-vacuity *)
Definition ex_be : block_env := block_env_of ex_crypto ex_chain (bl_header ex_block).
(** The two transactions of the example block, and one that runs out of gas
    in the contract. *)
Definition ex_tx_fails : transaction :=
  Legacy (LegacyTx 0 10 21001 (Some 0xbbbb) 5 [] 27 0xaaaa 1).
Definition ex_run (tx : transaction) : outcome block_output * state :=
  process_transaction ex_crypto ex_be empty_block_output tx 0 ex_state.
Definition is_done {A} (r : outcome A * state) : bool :=
  match fst r with Done _ => true | Fail _ => false end.

Example C36_nonvacuous :
  check_transaction ex_crypto ex_be empty_block_output ex_tx1 ex_state = Done (0xaaaa, 10, [], 0) /\
  (* the nonce is not the next one *)
  check_transaction ex_crypto ex_be empty_block_output ex_tx2 ex_state = invalid NonceMismatchError.
Proof. vm_compute. done. Qed.

Example C35_nonvacuous :
  is_done (ex_run ex_tx1) = true /\
  (* the sender pays 43593 gas at 10 and sends 5; the coinbase gets 3 a gas *)
  balance (get_account (snd (ex_run ex_tx1)) 0xaaaa) = 100000000 - 43593 * 10 - 5 /\
  balance (get_account (snd (ex_run ex_tx1)) 0xbbbb) = 5 /\
  balance (get_account (snd (ex_run ex_tx1)) 0xc0) = 43593 * 3 /\
  is_done (ex_run ex_tx_fails) = true /\
  balance (get_account (snd (ex_run ex_tx_fails)) 0xaaaa) = 100000000 - 21001 * 10 /\
  balance (get_account (snd (ex_run ex_tx_fails)) 0xbbbb) = 0 /\
  balance (get_account (snd (ex_run ex_tx_fails)) 0xc0) = 21001 * 3.
Proof. vm_compute. done. Qed.

Example C34_nonvacuous :
  match process_transactions ex_crypto ex_be empty_block_output (bl_transactions ex_block) 0 ex_state with
  | (Done bo, _) => bo_block_gas_used bo = 64643 /\ b_block_gas_limit ex_be = 30000000 /\
      length (bo_receipt_keys bo) = 2%nat
  | _ => False
  end.
Proof. vm_compute. done. Qed.

(** Before Cancun the bounds of [C18_transaction] and [C19_transaction] do not
    hold: a contract that destroys itself loses nonce and code. *)
Definition ex_destroyed_state : state :=
  toy_state [(0xaaaa, Account 0 100000000 []); (0xbbbb, Account 1 0 [Byte.x33; Byte.xff])] ∅.
Definition ex_shanghai_be : block_env :=
  BlockEnv Shanghai 1 30000000 [] 0xc0 1 7 112 9 0 0.
Definition ex_destroyed_run : outcome block_output * state :=
  process_transaction ex_crypto ex_shanghai_be empty_block_output ex_tx1 0 ex_destroyed_state.
Theorem C19_before_cancun_refuted :
  ~ (forall cr be bo tx i s bo' s' a, process_transaction cr be bo tx i s = (Done bo', s') -> settled s ->
       has_real_code s a ->
       code (get_account s' a) = code (get_account s a) \/ nonce (get_account s a) <= nonce (get_account s' a)).
Proof.
  intros H.
  assert (K : match ex_destroyed_run with
    | (Done _, s) => match get_account s 0xbbbb with
                     | Account n _ [] => n =? 0
                     | _ => false
                     end
    | _ => false
    end = true) by (vm_compute; exact eq_refl).
  destruct ex_destroyed_run as [[bo'|e] s'] eqn:E; [|done].
  specialize (H ex_crypto ex_shanghai_be empty_block_output ex_tx1 0 ex_destroyed_state bo' s' 0xbbbb E).
  assert (G : get_account ex_destroyed_state 0xbbbb = Account 1 0 [Byte.x33; Byte.xff]) by (vm_compute; exact eq_refl).
  unfold has_real_code in H. rewrite G in H.
  destruct (get_account s' 0xbbbb) as [n b [|]]; [|done]. cbn [code nonce] in H. apply N.eqb_eq in K as ->.
  destruct H as [H|H]; [by split| |done|lia].
  split; [done|]. intros (d & Hd & _). discriminate Hd.
Qed.

Definition PropTransaction_theorems :=
  (@C36_accepts, @C36_price, @C18_transaction, @C18_sender, @C18_plain, @C19_transaction, @C19_before_cancun_refuted, @settled_transaction, @C35_fees,
   @C35_failed, @C34_transaction, @C34_transactions, @C34_always).
Print Assumptions PropTransaction_theorems.
