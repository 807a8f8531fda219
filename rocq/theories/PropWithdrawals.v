(** * PropWithdrawals: property C41. *)
From Verif Require Import Base State Rlp RlpProofs Vm Instructions Precompiles Interpreter StateSpec
  StateProofs NumericProofs EvmStep EvmInv Trie TrieProofs PropTrie Bloom Transactions Blocks Requests Fork
  ForkProofs EvmExamples.
From Coq Require Import ZifyBool ZifyN ZifyNat.
Ltac Zify.zify_post_hook ::= idtac.

(** The sum of a list. *)
Definition sumN (l : list N) : N := fold_right N.add 0 l.
(** Gwei withdrawn to an address. *)
Definition withdrawn (a : address) (l : list withdrawal) : N :=
  sumN (map wd_amount (filter (fun w => wd_address w = a) l)).

Lemma credit_inv amount acc acc' : credit_withdrawal amount acc = Ok acc' ->
  acc' = Account (nonce acc) (balance acc + amount * 10 ^ 9) (code acc) /\
  balance acc + amount * 10 ^ 9 < 2 ^ 256.
Proof.
  change (2 ^ 256) with U256_CEIL. unfold credit_withdrawal, to_u256, increase_recipient_balance.
  destruct (N.ltb_spec (amount * 10 ^ 9) U256_CEIL); [|done].
  destruct (N.ltb_spec (balance acc + amount * 10 ^ 9) U256_CEIL); [|done]. by intros [= <-].
Qed.

(** Existing accounts that are empty (EIP-161 forbids them). *)
Lemma modify_state_not_empty s a f s' : modify_state s a f = Ok s' ->
  forall b, account_exists_and_is_empty s' b = true ->
    b <> a /\ account_exists_and_is_empty s b = true.
Proof.
  intros H b. apply modify_state_inv in H as (acc & Hf & [[Hne ->]|[-> ->]]);
    unfold account_exists_and_is_empty.
  - rewrite get_account_optional_set. destruct (decide (a = b)) as [->|Hab]; [|by split].
    change ((nonce acc =? 0) && bytes_eqb (code acc) [] && (balance acc =? 0)) with (account_is_empty acc).
    intros E%account_is_empty_spec. congruence.
  - unfold destroy_account. rewrite get_account_optional_set. destruct (decide (a = b)) as [->|Hab]; [done|].
    unfold get_account_optional. rewrite destroy_storage_main.
    change (main_trie (set_account s a (Some EMPTY_ACCOUNT)) !! b)
      with (get_account_optional (set_account s a (Some EMPTY_ACCOUNT)) b).
    rewrite get_account_optional_set. rewrite decide_False by done. by split.
Qed.

(** Crediting an account does not touch storage that belongs to somebody. *)
Lemma credit_storage s a amount s' : owned s ->
  modify_state s a (credit_withdrawal amount) = Ok s' -> forall b k, get_storage s' b k = get_storage s b k.
Proof.
  intros Ho H b k. apply modify_state_storages in H as [E|(_ & Hf & E)]; rewrite !get_storage_slot, E; [done|].
  apply credit_inv in Hf as [Hf _]. injection Hf as H1 _ H3.
  destruct (decide (a = b)) as [<-|Hab].
  - rewrite <- (get_storage_slot s). destruct (decide (get_storage s a k = 0)) as [->|Hk].
    + unfold slot_of. by rewrite lookup_delete.
    + destruct (Ho _ _ Hk) as [H|H]; congruence.
  - unfold slot_of. by rewrite lookup_delete_ne.
Qed.

Section Withdrawals.
  (** One withdrawal: the second write of the code never changes anything. *)
  Lemma withdrawal_step bo w rest i s bo' s' :
    process_withdrawals bo (w :: rest) i s = (Done bo', s') ->
    exists s1, modify_state s (wd_address w) (credit_withdrawal (wd_amount w)) = Ok s1 /\
    process_withdrawals (BlockOutput (bo_block_gas_used bo) (bo_transactions_trie bo)
                      (bo_receipts_trie bo) (bo_receipt_keys bo) (bo_block_logs bo)
                      (trie_set (bo_withdrawals_trie bo) (encode (RUint i))
                         (Some (encode (withdrawal_rlp w))))
                      (bo_blob_gas_used bo) (bo_requests bo)) rest (i + 1) s1 = (Done bo', s').
  Proof.
    cbn [process_withdrawals]. intros H. sm_step H. sm_step H. exists s0. split; [done|].
    destruct (account_exists_and_is_empty s0 (wd_address w)) eqn:Ee.
    - exfalso. by destruct (modify_state_not_empty _ _ _ _ E _ Ee).
    - injection E0 as <-. done.
  Qed.

  (** Every address gains exactly 10^9 times what is withdrawn to it and the
      sum of all balances the total; nonces, code and (in a state where only
      accounts with a nonce or code have storage) storage stay the same. *)
  Theorem C41_balances bo wds i s bo' s' :
    process_withdrawals bo wds i s = (Done bo', s') ->
    (forall a, balance (get_account s' a) = balance (get_account s a) + 10 ^ 9 * withdrawn a wds) /\
    total_balance s' = total_balance s + 10 ^ 9 * sumN (map wd_amount wds) /\
    (forall a, nonce (get_account s' a) = nonce (get_account s a) /\
               code (get_account s' a) = code (get_account s a)) /\
    (owned s -> forall a k, get_storage s' a k = get_storage s a k).
  Proof.
    revert bo i s. induction wds as [|w wds IH]; intros bo i s.
    { intros H. apply sret_inv in H as [_ ->]. unfold withdrawn, sumN; cbn. split_and!; intros; try lia; done. }
    intros H. apply withdrawal_step in H as (s1 & E & H).
    pose proof E as E'. apply modify_state_inv in E' as (acc & Hf & _).
    pose proof (modify_state_get _ _ _ _ _ E Hf) as G.
    pose proof (modify_state_total _ _ _ _ _ E Hf) as HT.
    pose proof (credit_inv _ _ _ Hf) as [-> Hlt]. clear Hf. cbn [balance] in HT.
    apply IH in H as (H1 & H2 & H3 & H4).
    assert (HW : forall a, withdrawn a (w :: wds) = (if decide (wd_address w = a) then wd_amount w else 0) + withdrawn a wds).
    { intros a. unfold withdrawn. destruct (decide (wd_address w = a)) as [Ha|Ha].
      - rewrite filter_cons_True by done. done.
      - rewrite filter_cons_False by done. lia. }
    refine (conj _ (conj _ (conj _ _))).
    - intros a. rewrite H1, HW, G. destruct (decide (wd_address w = a)) as [<-|Ha]; cbn [balance]; lia.
    - rewrite H2. cbn [map sumN fold_right]. fold (sumN (map wd_amount wds)). lia.
    - intros a. destruct (H3 a) as [-> ->]. rewrite G. by destruct (decide (wd_address w = a)) as [<-|Ha].
    - intros Ho a k. pose proof (credit_storage _ _ _ _ Ho E) as Hs. rewrite H4; [apply Hs|].
      intros b j Hb. rewrite Hs in Hb. apply Ho in Hb. unfold solid in *. rewrite G.
      by destruct (decide (wd_address w = b)) as [<-|Hb'].
  Qed.

  (** No existing account is left empty: a withdrawal of nothing to an unused
      address does not create it. *)
  Theorem C41_no_empty_account bo wds i s bo' s' :
    process_withdrawals bo wds i s = (Done bo', s') ->
    forall a, account_exists_and_is_empty s' a = true ->
      account_exists_and_is_empty s a = true /\ Forall (fun w => wd_address w <> a) wds.
  Proof.
    revert bo i s. induction wds as [|w wds IH]; intros bo i s.
    { intros H. apply sret_inv in H as [_ ->]. by repeat constructor. }
    intros H a Ha. apply withdrawal_step in H as (s1 & E & H).
    apply (IH _ _ _ H) in Ha as [H1 H2].
    apply (modify_state_not_empty _ _ _ _ E) in H1 as [H0 H1].
    split; [done|]. constructor; [congruence|done].
  Qed.

  (** Processing succeeds whenever the balances after it fit; otherwise it
      raises OverflowError (which is not an InvalidBlock). *)
  Theorem C41_total bo wds i s :
    total_balance s + 10 ^ 9 * sumN (map wd_amount wds) < 2 ^ 256 ->
    exists bo' s', process_withdrawals bo wds i s = (Done bo', s').
  Proof.
    revert bo i s. induction wds as [|w wds IH]; intros bo i s HT; [by eexists _, _|].
    cbn [map sumN fold_right] in HT. fold (sumN (map wd_amount wds)) in HT.
    pose proof (balance_le_total s (wd_address w)) as HB.
    assert (Hf : credit_withdrawal (wd_amount w) (get_account s (wd_address w)) =
      Ok (Account (nonce (get_account s (wd_address w)))
            (balance (get_account s (wd_address w)) + wd_amount w * 10 ^ 9)
            (code (get_account s (wd_address w))))).
    { change (2 ^ 256) with U256_CEIL in HT. unfold credit_withdrawal, to_u256, increase_recipient_balance.
      destruct (N.ltb_spec (wd_amount w * 10 ^ 9) U256_CEIL); [|lia].
      destruct (N.ltb_spec (balance (get_account s (wd_address w)) + wd_amount w * 10 ^ 9) U256_CEIL); [done|lia]. }
    destruct (modify_state_ok _ _ _ _ Hf) as [s1 E].
    pose proof (modify_state_total _ _ _ _ _ E Hf) as HT1. cbn [balance] in HT1.
    cbn [process_withdrawals]. unfold sbind at 1. unfold modifies at 1. rewrite E.
    unfold sbind, modifies. destruct (account_exists_and_is_empty s1 (wd_address w)) eqn:Ee.
    - exfalso. by destruct (modify_state_not_empty _ _ _ _ E _ Ee).
    - apply IH. lia.
  Qed.
  Theorem C41_failure bo wds i s e s' :
    process_withdrawals bo wds i s = (Fail e, s') -> e = FCrash OverflowError.
  Proof.
    revert bo i s. induction wds as [|w wds IH]; intros bo i s; [done|].
    cbn [process_withdrawals]. unfold sbind at 1. unfold modifies at 1, modify_state.
    destruct (credit_withdrawal _ _) eqn:E.
    - unfold sbind, modifies. apply IH.
    - intros [= <- _]. unfold credit_withdrawal, to_u256, increase_recipient_balance in E.
      destruct (_ <? _); [|congruence]. destruct (_ <? _); congruence.
  Qed.

  Lemma index_key_inj i j : encode (RUint i) = encode (RUint j) -> i < 2 ^ 256 -> j < 2 ^ 256 -> i = j.
  Proof.
    intros E Hi Hj. apply encode_inj in E; [by injection E as E%to_be_bytes_inj|..];
      (unfold fits, RUint; pose proof (to_be_bytes_len_le i 32 Hi); pose proof (to_be_bytes_len_le j 32 Hj);
      eapply N.le_lt_trans; [apply encode_bytes_len|]; lia).
  Qed.

  (** The withdrawals trie maps the index of each withdrawal (counted from
      [i]) to its encoding, and nothing else is written. *)
  Theorem C41_trie bo wds i s bo' s' :
    trie_ok (bo_withdrawals_trie bo) -> i + lenN wds < 2 ^ 256 ->
    process_withdrawals bo wds i s = (Done bo', s') ->
    trie_ok (bo_withdrawals_trie bo') /\
    (forall j w, nth_error wds j = Some w ->
       trie_get (bo_withdrawals_trie bo') (encode (RUint (i + N.of_nat j)))
       = Some (encode (withdrawal_rlp w))) /\
    (forall k, (forall j, (j < length wds)%nat -> k <> encode (RUint (i + N.of_nat j))) ->
       trie_get (bo_withdrawals_trie bo') k = trie_get (bo_withdrawals_trie bo) k) /\
    bo_block_gas_used bo' = bo_block_gas_used bo /\ bo_transactions_trie bo' = bo_transactions_trie bo /\
    bo_receipts_trie bo' = bo_receipts_trie bo /\ bo_receipt_keys bo' = bo_receipt_keys bo /\
    bo_block_logs bo' = bo_block_logs bo /\ bo_blob_gas_used bo' = bo_blob_gas_used bo /\
    bo_requests bo' = bo_requests bo.
  Proof.
    revert bo i s. induction wds as [|w wds IH]; intros bo i s Hok Hi.
    { intros H. apply sret_inv in H as [-> ->]. refine (conj Hok (conj _ (conj _ _))); [|done|done].
      intros [|j] w; done. }
    intros H. rewrite lenN_cons in Hi. apply withdrawal_step in H as (s1 & E & H).
    apply IH in H; [|by apply trie_set_ok|lia].
    cbn [bo_withdrawals_trie bo_block_gas_used bo_transactions_trie bo_receipts_trie bo_receipt_keys
      bo_block_logs bo_blob_gas_used bo_requests] in H.
    destruct H as (H0 & H1 & H2 & H3).
    refine (conj H0 (conj _ (conj _ H3))).
    - intros [|j] w'.
      + intros [= <-]. replace (i + N.of_nat 0) with i by lia. rewrite H2.
        * rewrite trie_get_set by done. by rewrite decide_True.
        * intros j Hj Ek. apply index_key_inj in Ek; unfold lenN in Hi; lia.
      + cbn [nth_error]. intros Hj. replace (i + N.of_nat (S j)) with (i + 1 + N.of_nat j) by lia.
        by apply H1.
    - intros k Hk. rewrite H2.
      + rewrite trie_get_set by done. rewrite decide_False; [done|].
        intros <-. apply (Hk 0%nat); [cbn; lia|]. by replace (i + N.of_nat 0) with i by lia.
      + intros j Hj. specialize (Hk (S j)). replace (i + N.of_nat (S j)) with (i + 1 + N.of_nat j) in Hk by lia.
        apply Hk. cbn. lia.
  Qed.
End Withdrawals.

Definition ex_wds : list withdrawal :=
  [Withdrawal 0 1 0xaa 5; Withdrawal 1 2 0xbb 7; Withdrawal 2 1 0xaa 1; Withdrawal 3 9 0xcc 0].
Definition ex_wd_state : state := toy_state [(0xaa, Account 1 10 [])] ∅.
Example C41_nonvacuous :
  match process_withdrawals empty_block_output ex_wds 0 ex_wd_state with
  | (Done bo, s') =>
      forallb (fun '(a, b) => balance (get_account s' a) =? b)
        [(0xaa, 10 + 6 * 10 ^ 9); (0xbb, 7 * 10 ^ 9); (0xcc, 0)]
      && negb (account_exists s' 0xcc)
  | _ => false
  end = true /\
  total_balance ex_wd_state + 10 ^ 9 * sumN (map wd_amount ex_wds) <? 2 ^ 256 = true /\
  process_withdrawals empty_block_output [Withdrawal 0 1 0xaa (2 ^ 255)] 0 ex_wd_state
  = (Fail (FCrash OverflowError), ex_wd_state).
Proof. vm_compute. repeat split. Qed.

Definition PropWithdrawals_theorems :=
  (@C41_balances, @C41_no_empty_account, @C41_total, @C41_failure, @C41_trie).
Print Assumptions PropWithdrawals_theorems.
