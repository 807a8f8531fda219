(** * PowVmInv: invariants of frames of the proof-of-work forks. *)
From Verif Require Import Base State Rlp Bloom Transactions Trie Blocks Requests Fork Ethash Pow PowTx.
From Verif Require Import Vm Instructions Precompiles Interpreter PowVm StateSpec
  StateProofs NumericProofs ArithProofs EvmStep EvmLocal EvmPlan EvmPlanProofs EvmCallProofs
  EvmFrame EvmAccounts EvmRule PowVmPlan PowVmOps PowVmCalls PowVmFrame PowVmRule.
From Coq Require Import ZifyBool ZifyN ZifyNat.
Ltac Zify.zify_post_hook ::= idtac.

Local Opaque to_u256 from_be_bytes calculate_memory_gas_cost ceil32 N.compare.

(** ** State *)
Lemma touch_get s a b : get_account (touch_account s a) b = get_account s b.
Proof.
  unfold touch_account, account_exists, get_account_optional.
  destruct (main_trie s !! a) as [acc|] eqn:E; [done|].
  rewrite get_account_set. destruct (decide (a = b)) as [<-|]; [|done].
  unfold get_account, get_account_optional. by rewrite E.
Qed.
Lemma modify_account_get s a f s' acc b :
  modify_account s a f = Ok s' -> f (get_account s a) = Ok acc ->
  get_account s' b = if decide (a = b) then acc else get_account s b.
Proof.
  unfold modify_account. intros H Hf. rewrite Hf in H. injection H as <-. apply get_account_set.
Qed.
Lemma modify_account_total s a f s' acc :
  modify_account s a f = Ok s' -> f (get_account s a) = Ok acc ->
  total_balance s' + balance (get_account s a) = total_balance s + balance acc.
Proof.
  unfold modify_account. intros H Hf. rewrite Hf in H. injection H as <-.
  apply (total_set_account s a (Some acc)).
Qed.
Lemma touch_total s a : total_balance (touch_account s a) = total_balance s.
Proof.
  unfold touch_account, account_exists, get_account_optional.
  destruct (main_trie s !! a) as [acc|] eqn:E; [done|].
  pose proof (total_set_account s a (Some EMPTY_ACCOUNT)) as H. cbn in H.
  assert (Hz : balance (get_account s a) = 0) by (unfold get_account, get_account_optional; by rewrite E).
  lia.
Qed.
Lemma move_pow_inv s a b k s' : move_ether_pow s a b k = Ok s' ->
  k <= balance (get_account s a) /\
  exists s1, modify_account s a (reduce_sender_balance k) = Ok s1 /\
    reduce_sender_balance k (get_account s a) = Ok (Account (nonce (get_account s a))
      (balance (get_account s a) - k) (code (get_account s a))) /\
    modify_account s1 b (increase_recipient_balance k) = Ok s' /\
    increase_recipient_balance k (get_account s1 b) = Ok (Account (nonce (get_account s1 b))
      (balance (get_account s1 b) + k) (code (get_account s1 b))).
Proof.
  unfold move_ether_pow. destruct (modify_account s a _) as [s1|] eqn:E1; [|done]. intros E2.
  pose proof (modify_account_inv _ _ _ _ E1) as (acc1 & F1 & _).
  pose proof (modify_account_inv _ _ _ _ E2) as (acc2 & F2 & _).
  assert (F1' := F1). unfold reduce_sender_balance in F1'.
  destruct (N.ltb_spec (balance (get_account s a)) k); [done|]. injection F1' as <-.
  assert (F2' := F2). unfold increase_recipient_balance in F2'.
  destruct (N.ltb_spec (balance (get_account s1 b) + k) U256_CEIL); [|done]. injection F2' as <-.
  split; [done|]. exists s1. done.
Qed.
Lemma move_pow_total s a b k s' :
  move_ether_pow s a b k = Ok s' -> total_balance s' = total_balance s.
Proof.
  intros (Hk & s1 & E1 & F1 & E2 & F2)%move_pow_inv.
  pose proof (modify_account_total _ _ _ _ _ E1 F1) as T1.
  pose proof (modify_account_total _ _ _ _ _ E2 F2) as T2. cbn in T1, T2. lia.
Qed.
Lemma ptransfer_total m w s : ptransfer m w = Ok s -> total_balance s = total_balance (st w).
Proof.
  unfold ptransfer. cbv zeta. destruct (_ && _).
  - intros H%move_pow_total. by rewrite H, touch_total.
  - intros [= <-]. apply touch_total.
Qed.
Lemma pow_nonce_total s a s' : pow_increment_nonce s a = Ok s' -> total_balance s' = total_balance s.
Proof. intros H. pose proof (modify_account_total _ _ _ _ _ H eq_refl) as T. cbn in T. lia. Qed.
Lemma pow_code_total s a c s' : pow_set_code s a c = Ok s' -> total_balance s' = total_balance s.
Proof. intros H. pose proof (modify_account_total _ _ _ _ _ H eq_refl) as T. cbn in T. lia. Qed.

(** Moving a balance away: nothing is lost unless the account moves it to itself. *)
Lemma selfdestruct_total s a b s1 s2 :
  pow_set_account_balance s b (balance (get_account s b) + balance (get_account s a)) = Ok s1 ->
  pow_set_account_balance s1 a 0 = Ok s2 ->
  total_balance s2 <= total_balance s /\ (a <> b -> total_balance s2 = total_balance s).
Proof.
  intros H1 H2.
  pose proof (modify_account_total _ _ _ _ _ H1 eq_refl) as T1.
  pose proof (modify_account_total _ _ _ _ _ H2 eq_refl) as T2.
  pose proof (modify_account_get _ _ _ _ _ a H1 eq_refl) as G. rewrite G in T2. cbn in T1, T2.
  destruct (decide (b = a)) as [->|]; cbn in T2; split; first [lia|congruence].
Qed.
Lemma entry_total n w a w3 : pcreate_entry n w a = Ok w3 ->
  total_balance (st w3) = total_balance (st w).
Proof.
  unfold pcreate_entry. cbv zeta.
  set (s1 := destroy_storage _ a). set (s2 := if since Istanbul n then _ else s1).
  assert (H : total_balance s2 = total_balance (st w)).
  { transitivity (total_balance s1); [|unfold s1; by rewrite total_destroy_storage].
    unfold s2. by destruct (since Istanbul n). }
  destruct (since SpuriousDragon n).
  - destruct (pow_increment_nonce s2 a) as [s|] eqn:E; [|done]. intros [= <-]. cbn.
    by rewrite (pow_nonce_total _ _ _ E).
  - by intros [= <-].
Qed.
Lemma set_storage_total s a k v s' : set_storage s a k v = Ok s' ->
  total_balance s' = total_balance s.
Proof. intros (_ & _ & H)%set_storage_frame. by apply total_main. Qed.
Lemma restored_total w w' : restored w w' -> total_balance (st w') = total_balance (st w).
Proof. intros []. by apply total_main. Qed.
Lemma commit_total w w' : commit_transaction w = Ok w' ->
  total_balance (st w') = total_balance (st w).
Proof.
  unfold commit_transaction. destruct (snapshots (st w)) as [|[? ?] l]; [done|].
  destruct (ts_snapshots (ts w)); [done|]. by intros [= <-].
Qed.

(** ** Ether *)
Section Total.
  Context (cr : crypto) (n : pow_name) (env : pow_env) (te : tx_env).

  (** Nothing is created, and only code that asks for the deletion of an
      account loses anything. *)
  Definition spends (w0 : world) (e : evm) (w : world) : Prop :=
    total_balance (st w) <= total_balance (st w0) /\
    (e_accounts_to_delete e = ∅ -> total_balance (st w) = total_balance (st w0)).

  Lemma total_rule : pframe_rule cr n env te (fun _ => True)
    (fun _ _ _ => True) (fun _ _ _ => True)
    (fun _ _ w0 e _ w => spends w0 e w)
    (fun _ _ w0 e _ w => spends w0 e w /\
       (e_error e <> None -> total_balance (st w) = total_balance (st w0)))
    (fun _ _ w0 e _ w => spends w0 e w /\
       (e_error e <> None -> total_balance (st w) = total_balance (st w0))).
  Proof.
    constructor; try done.
    - intros i m w s1 _ _ H%ptransfer_total.
      change (total_balance s1 = total_balance (st w)) in H. split; cbn; [lia|]. intros _. exact H.
    - intros i m w0 w a p e' _ _ [H1 H2] _ _ _ (_ & He & _). split; [done|]. rewrite He. exact H2.
    - intros i m w0 e t w o t1 e' w' _ _ [H1 H2] _ [_ He] _.
      destruct He as [Hw _ Hd _|? ? ? s' _ _ _ Hs Hw _ _ _ Hd _ _
        |b s1 s2 _ _ _ Hs1 Hs2 Hw Hd _ _ _ _|s' _ _ Hn Hw _ _ Hd _]; subst w'.
      + split; [done|]. by rewrite Hd.
      + apply set_storage_total in Hs. split; cbn; [lia|]. rewrite Hd. intros Hd'.
        rewrite Hs. by apply H2.
      + destruct (selfdestruct_total _ _ _ _ _ Hs1 Hs2) as [Hle _]. split; cbn; [lia|].
        rewrite Hd. intros Hx. exfalso. clear -Hx. set_solver.
      + apply pow_nonce_total in Hn. split; cbn; [lia|]. rewrite Hd. intros Hd'.
        rewrite Hn. by apply H2.
    - intros i m w0 e t w o m' e1 os oz _ _ [H1 H2] _ Hc. split; [done|].
      intros c tc w1 Hps [[P1 P2] P3]. split; [|done].
      intros e2 w2 Hr _. apply resume_call_sets in Hr as [-> Hr].
      pose proof (wa_del _ _ _ _ (pco_wait _ _ _ _ _ _ _ _ Hc)) as Hdel.
      split; [lia|]. intros Hd. destruct (e_error c) eqn:Ee.
      + destruct Hr as (_ & _ & _ & _ & Hr). rewrite P3 by done. apply H2. congruence.
      + destruct Hr as (_ & _ & _ & _ & Hr). rewrite Hr in Hd.
        rewrite P2; [apply H2|]; clear -Hd Hdel; rewrite ?Hdel in *; set_solver.
    - intros i m w0 e t w o m' e1 wi _ _ [H1 H2] _ Hc. split; [done|].
      intros c tc w1 Hps [[P1 P2] P3]. split; [|done].
      intros e2 w2 Hr _. apply resume_create_sets in Hr as [-> Hr].
      pose proof (wa_del _ _ _ _ (pcr_wait _ _ _ _ _ _ _ _ Hc)) as Hdel.
      destruct (pcr_nonce _ _ _ _ _ _ _ _ Hc) as (s1 & Hn & Hwi).
      apply pow_nonce_total in Hn.
      assert (Ht : total_balance (st wi) = total_balance (st w)) by (by subst wi).
      split; [lia|]. intros Hd. destruct (e_error c) eqn:Ee.
      + destruct Hr as (_ & _ & _ & _ & Hr). rewrite P3, Ht by done. apply H2. congruence.
      + destruct Hr as (_ & _ & _ & _ & Hr). rewrite Hr in Hd.
        rewrite P2, Ht; [apply H2|]; clear -Hd Hdel; rewrite ?Hdel in *; set_solver.
    - intros i m w0 e t w _ Hps He _. destruct (e_error e) as [x|] eqn:E; [|done].
      destruct (pps_fail _ _ _ _ _ Hps x E) as (Hre & _). apply restored_total in Hre.
      rewrite Hre. split; [|done]. split; [rewrite Hre; lia|done].
    - intros i m w0 e t w w3 _ Hf [H1 H2] Hc _. apply commit_total in Hc.
      rewrite <- Hc in *. split; [by split|]. rewrite (fs_err _ _ _ _ Hf). done.
    - intros i m w w3 e t w4 e' w5 _ _ _ _ _ _ Hre _ _. apply restored_total in Hre.
      rewrite Hre. split; [|done]. split; [rewrite Hre; lia|done].
    - intros i m w w3 e t w4 h e' w6 _ He3 _ [[H1 H2] _] He Hd _ Hc _.
      apply entry_total in He3. apply commit_total in Hc.
      apply pow_deposit_eq in Hd as (g & _ & ->).
      split; [split|]; [lia| |].
      + destruct e; cbn in *. intros Hz. rewrite Hc, <- He3. by apply H2.
      + destruct e; cbn in *. by rewrite He.
    - intros i m w w3 e t w4 e' s5 w6 _ He3 _ [[H1 H2] _] He Hd Hs Hc _.
      apply entry_total in He3. apply commit_total in Hc. cbn in Hc. apply pow_code_total in Hs.
      apply pow_deposit_eq in Hd as (g & _ & ->).
      split; [split|]; [lia| |].
      + destruct e; cbn in *. intros Hz. rewrite Hc, Hs, <- He3. by apply H2.
      + destruct e; cbn in *. by rewrite He.
  Qed.

  Theorem pow_call_total m w o w' :
    pow_process_message_call cr n env te m w = PCRet o w' ->
    total_balance (st w') <= total_balance (st w) /\
    (co_accounts_to_delete o = ∅ -> total_balance (st w') = total_balance (st w)).
  Proof.
    unfold pow_process_message_call.
    assert (Hfin : forall e t w1, spends w e w1 /\
        (e_error e <> None -> total_balance (st w1) = total_balance (st w)) ->
      pow_finish_call e t w1 = PCRet o w' ->
      total_balance (st w') <= total_balance (st w) /\
      (co_accounts_to_delete o = ∅ -> total_balance (st w') = total_balance (st w))).
    { intros e t w1 [[H1 H2] H3]. unfold pow_finish_call. destruct (e_error e) eqn:Ee.
      - intros [= <- <-]. rewrite H3 by done. done.
      - destruct (_ || _); [done|]. intros [= <- <-]. done. }
    destruct (m_target m).
    - pose proof (prule_message _ _ _ _ _ _ _ _ _ _ ∅ m w total_rule Logic.I) as H.
      destruct (pow_process_message cr n env te ∅ m w); [|done].
      destruct H as [_ H]. by apply Hfin.
    - destruct (_ || _); [by intros [= <- <-]|].
      pose proof (prule_create _ _ _ _ _ _ _ _ _ _ ∅ m w total_rule Logic.I) as H.
      destruct (pow_process_create_message cr n env te ∅ m w); [|done].
      destruct H as [_ H]. by apply Hfin.
  Qed.
End Total.
