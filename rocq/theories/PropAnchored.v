(** * PropAnchored: C57, storage and code belong to lasting accounts.

    Several properties ask that every account with storage has a nonce or
    real code ([rooted], [owned]).  The code keeps it so: through messages,
    transactions, withdrawals, system calls, blocks and whole chains. *)
From Verif Require Import Base State Rlp Vm Instructions Precompiles Interpreter StateSpec StateProofs
  NumericProofs EvmStep EvmLocal EvmPlan EvmPlanProofs EvmCallProofs EvmFrame EvmAccounts EvmRule
  PropAccounts EvmInv PropCalls PropRefund PropTx PropDelegation Trie Bloom Transactions Blocks Requests
  Fork ForkProofs PropWithdrawals TxProofs PropChain EvmExamples ForkExamples PropTransaction PropOuter
  PropHistory.
From Coq Require Import ZifyBool ZifyN ZifyNat.
Ltac Zify.zify_post_hook ::= idtac.

Local Opaque to_u256 from_be_bytes.

(** A nonce, or code that is neither empty nor a delegation designator. *)
Definition firm (s : state) (a : address) : Prop :=
  nonce (get_account s a) <> 0 \/ has_real_code s a.
(** Every account with storage or code is firm. *)
Definition anchored (s : state) : Prop :=
  (forall a k, get_storage s a k <> 0 -> firm s a) /\
  (forall a, code (get_account s a) <> [] -> firm s a).
(** No nonce falls, and a firm account stays firm. *)
Definition firms (s s' : state) : Prop := forall a,
  nonce (get_account s a) <= nonce (get_account s' a) /\ (firm s a -> firm s' a).

Lemma real_not_delegable s a : has_real_code s a <-> ~ delegable s a.
Proof. unfold has_real_code, delegable. tauto. Qed.
Lemma anchored_rooted s : anchored s -> rooted s.
Proof. intros [H _] a k Hk. destruct (H a k Hk) as [?|?]; [by left|right]. by apply real_not_delegable. Qed.
Lemma anchored_owned s : anchored s -> owned s.
Proof. intros H. by apply rooted_owned, anchored_rooted. Qed.
Lemma firms_refl s : firms s s.
Proof. by intros a. Qed.
Lemma firms_trans s1 s2 s3 : firms s1 s2 -> firms s2 s3 -> firms s1 s3.
Proof. intros H1 H2 a. destruct (H1 a), (H2 a). split; [lia|auto]. Qed.
Lemma keeps_firms s s' : keeps s s' -> firms s s'.
Proof.
  intros H a. destruct (H a) as [Hn Hc]. split; [done|]. intros [?|[H1 H2]]; [left; lia|].
  right. unfold has_real_code. by rewrite Hc.
Qed.
Lemma firms_main s s' : main_trie s' = main_trie s -> firms s s'.
Proof. intros H. by apply keeps_firms, keeps_main. Qed.
(** Code and storage as before, or more. *)
Lemma anchored_same s s' : anchored s -> firms s s' ->
  (forall a k, get_storage s' a k <> 0 -> get_storage s a k <> 0 \/ firm s' a) ->
  (forall a, code (get_account s' a) <> [] -> code (get_account s a) <> [] \/ firm s' a) ->
  anchored s'.
Proof.
  intros [H1 H2] Hf Hs Hc. split.
  - intros a k [H%H1|H]%Hs; [by apply Hf|done].
  - intros a [H%H2|H]%Hc; [by apply Hf|done].
Qed.
Lemma anchored_keeps s s' : anchored s -> firms s s' -> same_storage s s' -> same_code s s' -> anchored s'.
Proof.
  intros Ha Hf Hs Hc. eapply anchored_same; [done|done|..].
  - intros a k. rewrite Hs. by left.
  - intros a. rewrite Hc. by left.
Qed.
Lemma anchored_eq s s' : main_trie s' = main_trie s -> storage_tries s' = storage_tries s ->
  anchored s -> anchored s'.
Proof.
  intros Hm Hs Ha. apply (anchored_keeps s); [done|by apply firms_main|by apply get_storage_tries|].
  by apply same_code_main.
Qed.

(** ** Messages *)
Section Messages.
  Context (cr : crypto) (be : block_env) (te : tx_env).
  Notation frame_rule := (frame_rule cr be te).

  Definition anch_pre (m : message) (w : world) : Prop :=
    anchored (st w) /\ (m_code m <> [] -> firm (st w) (m_current_target m)).
  Definition anch_inv (w0 w : world) : Prop := anchored (st w) /\ firms (st w0) (st w).

  Lemma anch_restored w w' : anchored (st w) -> restored w w' -> anch_inv w w'.
  Proof. intros Ha []. split; [by eapply anchored_eq|by apply firms_main]. Qed.
  Lemma anch_commit w0 w w' : anch_inv w0 w -> commit_transaction w = Ok w' -> anch_inv w0 w'.
  Proof.
    intros [Ha Hf] (H1 & H2 & _)%commit_same. split; [by eapply anchored_eq|].
    eapply firms_trans; [exact Hf|]. by apply firms_main.
  Qed.

  Lemma anch_rule : frame_rule anch_pre (fun m w => anchored (st w))
    (fun m w0 e w => anch_inv w0 w) (fun m w0 e w => anch_inv w0 w) (fun m w0 e w => anch_inv w0 w).
  Proof.
    constructor.
    - intros m w s1 [Ha _] _ Ht. pose proof (transfer_keeps _ _ _ Ht) as Hk%keeps_firms.
      apply transfer_same in Ht as [Hs Hc]. split; [|done].
      eapply (anchored_keeps (st w)); [done|done| |done]. apply Hs. by apply anchored_owned.
    - intros m w0 w e' _ _ HI _. done.
    - intros m w0 e w o e' w' [Ha Hm] Hf [HA HF] Hat [_ He] _.
      pose proof (effect_keeps _ _ _ _ _ _ He) as Hk%keeps_firms.
      assert (HF' : firms (st w0) (st w')) by (by eapply firms_trans).
      split; [|done].
      assert (Hfirm : firm (st w) (m_current_target (e_message e))).
      { apply at_op_code in Hat. rewrite (fs_code _ _ _ _ Hf) in Hat.
        rewrite (fs_msg _ _ _ _ Hf). apply HF. auto. }
      destruct (effect_storage _ _ _ _ _ _ He (anchored_owned _ HA)) as [Hc [Hs|(k & v & _ & _ & Hs & _)]].
      + by eapply anchored_keeps.
      + eapply anchored_same; [exact HA|done|..].
        * intros a j. rewrite (set_storage_get _ _ _ _ _ Hs a j). destruct (decide _) as [[<- _]|]; [|by left].
          intros _. right. by apply Hk.
        * intros a. rewrite Hc. by left.
    - intros m w0 e w o m' e1 os oz [Ha Hm] Hf [HA HF] Hat Hc. split.
      + split; [done|]. intros Hne.
        assert (Hfirm : firm (st w) (m_current_target (e_message e))).
        { apply at_op_code in Hat. rewrite (fs_code _ _ _ _ Hf) in Hat.
          rewrite (fs_msg _ _ _ _ Hf). apply HF. auto. }
        destruct (co_code _ _ _ _ _ _ _ _ Hc) as (a & ca & _ & Hr & [Ht|Ht] & _); rewrite Ht; [|done].
        apply HA. unfold resolved in Hr. destruct (at_least Prague _).
        * destruct (get_delegated_code_address _) eqn:E.
          -- by eapply designator_nonempty.
          -- destruct Hr as (_ & _ & Hr). by rewrite <- Hr.
        * destruct Hr as (_ & _ & Hr). by rewrite <- Hr.
      + intros c w1 e2 w2 _ [HA1 HF1] Hr _. apply resume_call_sets in Hr as [-> _].
        split; [done|]. by eapply firms_trans.
    - intros m w0 e w o m' e1 wi [Ha Hm] Hf [HA HF] Hat Hc.
      destruct (cr_nonce _ _ _ _ _ _ _ _ Hc) as (s1 & Hn & ->).
      pose proof (increment_nonce_keeps _ _ _ Hn) as Hk%keeps_firms.
      apply increment_nonce_same in Hn as [Hs Hco]. specialize (Hs (anchored_owned _ HA)).
      assert (HA1 : anchored s1) by (by eapply anchored_keeps).
      split; [done|].
      intros c w1 e2 w2 _ [HA2 HF2] Hr _. apply resume_create_sets in Hr as [-> _].
      split; [done|]. eapply firms_trans; [exact HF|]. by eapply firms_trans.
    - intros m w0 e w [Ha _] Hp He _. destruct (e_error e) as [x|] eqn:E; [|done].
      destruct (ps_fail _ _ _ _ Hp x E) as [Hr _]. by apply anch_restored.
    - intros m w0 e w w3 _ _ HI Hc _. by eapply anch_commit.
    - intros m w w3 Ha He.
      pose proof (create_entry_keeps _ _ _ He) as Hk%keeps_firms.
      destruct (create_entry_same _ _ _ He (anchored_owned _ Ha)) as (Hc & _ & Hn & Hst & _).
      split; [|intros _; by left].
      eapply anchored_same; [exact Ha|done|..].
      + intros a k. rewrite Hst. destruct (decide _); [done|by left].
      + intros a. rewrite Hc. by left.
    - intros m w w3 e w4 e' w5 Ha _ _ _ _ _ Hr _ _. by apply anch_restored.
    - intros m w w3 e w4 e' s5 w6 Ha He _ [HA4 HF4] _ _ Hs Hc _.
      pose proof (create_entry_keeps _ _ _ He) as Hk%keeps_firms.
      destruct (create_entry_same _ _ _ He (anchored_owned _ Ha)) as (_ & _ & Hn & _ & _).
      assert (Hn4 : nonce (get_account (st w4) (m_current_target m)) <> 0).
      { pose proof (proj1 (HF4 (m_current_target m))). lia. }
      pose proof (set_code_same _ _ _ _ Hs Hn4) as Hss.
      assert (H5 : forall a, nonce (get_account s5 a) = nonce (get_account (st w4) a) /\
        (a <> m_current_target m -> get_account s5 a = get_account (st w4) a)).
      { intros a. rewrite (set_code_get _ _ _ _ Hs a). by destruct (decide _) as [<-|]. }
      assert (HF5 : firms (st w4) s5).
      { intros a. destruct (H5 a) as [Hn5 Ho5]. rewrite Hn5. split; [done|].
        destruct (decide (a = m_current_target m)) as [->|Hne].
        - intros _. left. lia.
        - unfold firm, has_real_code. by rewrite Ho5. }
      assert (HI : anch_inv w (set_st s5 w4)).
      { split; cbn [st set_st].
        - eapply anchored_same; [exact HA4|done|..].
          + intros a k. rewrite Hss. by left.
          + intros a. destruct (decide (a = m_current_target m)) as [->|Hne].
            * intros _. right. left. destruct (H5 (m_current_target m)). lia.
            * destruct (H5 a) as [_ ->]; [|done]. by left.
        - eapply firms_trans; [exact Hk|]. by eapply firms_trans. }
      by eapply anch_commit.
  Qed.

  (** Delegations. *)
  Lemma authorizes_anchored s l s' r : authorizes cr be s l s' r -> anchored s ->
    anchored s' /\ firms s s'.
  Proof.
    intros H. induction H as [s| |s t au s1 l s' r Hap Hto _ IH]; intros Ha.
    - split; [done|apply firms_refl].
    - auto.
    - assert (F1 : firms s s1).
      { intros a. unfold firm, has_real_code. rewrite (at_get _ _ _ _ Hto a).
        destruct (decide (au = a)) as [<-|]; [|done]. cbn. split; [lia|]. intros _. left. lia. }
      assert (A1 : anchored s1).
      { eapply anchored_same; [exact Ha|done|..].
        - intros a k. rewrite (at_sto _ _ _ _ Hto (anchored_rooted _ Ha)). by left.
        - intros a. unfold firm. rewrite (at_get _ _ _ _ Hto a).
          destruct (decide (au = a)) as [<-|]; [|by left]. cbn. intros _. right. left. lia. }
      destruct (IH A1) as [A2 F2]. split; [done|]. by eapply firms_trans.
  Qed.
End Messages.

(** ** Calls, transactions, blocks *)
Lemma decode_known f etx tx : decode_transaction f etx = Done tx -> known_in f tx.
Proof.
  destruct etx as [t|[|b data]]; [by intros [= <-]|done|]. by intros [? _]%C28_unknown_type.
Qed.
Section Blocks.
  Context (cr : crypto) (be : block_env).

  Lemma called_anchored te m w o w' : anchored (st w) -> addressed m (st w) ->
    called cr be te m w o w' -> anchored (st w') /\ firms (st w) (st w').
  Proof.
    intros Ha Hm. unfold called. destruct (m_target m) as [to|] eqn:Et.
    - intros (r & w1 & m' & e & Hau & _ & [Hs Hc _ _] & He & _).
      destruct (authorizes_anchored _ _ _ _ _ _ Hau Ha) as [A1 F1].
      destruct (Hm to Et) as (Hk1 & _ & _). destruct Hs as (_ & _ & Hs & _). destruct Hc as [_ Hc].
      assert (Hsol : m_code m' <> [] -> firm (st w1) (m_current_target m')).
      { rewrite Hs, Hk1, Hc. intros Hne. apply A1. intros E. unfold code_source, delegate in Hne.
        rewrite E in Hne. by destruct (at_least Prague _). }
      destruct (rule_message _ _ _ _ _ _ _ _ _ _ _ _ (anch_rule cr be te) (conj A1 Hsol) He) as [_ [A2 F2]].
      split; [done|]. by eapply firms_trans.
    - intros [(_ & -> & _)|(_ & e & He & _)]; [split; [done|apply firms_refl]|].
      by destruct (rule_create _ _ _ _ _ _ _ _ _ _ _ _ (anch_rule cr be te) Ha He) as [_ [? ?]].
  Qed.
  Lemma call_message_called te m s o s' : t_authorizations te = [] -> rooted s -> addressed m s ->
    call_message cr be te m s = (Done o, s') ->
    exists w', called cr be te m (World s empty_transient) o w' /\ s' = st w'.
  Proof.
    intros Hau Hr Hm. unfold call_message. destruct (process_message_call _ _ _ _ _) as [o1 w'|] eqn:E; [|done].
    intros [= <- <-]. exists w'. split; [|done]. eapply called_spec; [by right|exact Hr|exact Hm|exact E].
  Qed.

  Theorem C57_transaction bo tx i s bo' s' : known_in (b_fork be) tx ->
    process_transaction cr be bo tx i s = (Done bo', s') -> settled s -> anchored s -> anchored s'.
  Proof.
    intros Hk H Hs Ha. pose proof (anchored_rooted _ Ha) as Hr.
    destruct (C55_transaction _ _ _ _ _ _ _ _ Hk H Hs Hr) as
      (r & (sender & price & bp & te & m & o & s1 & w2 & used & _ & _ & _ & _ & G1 & S1 & Hm & Hc & _ & G2 & S2 & _) & _).
    assert (F1 : firms s s1).
    { intros a. unfold firm, has_real_code. rewrite G1. cbv zeta. destruct (decide (a = sender)); [|done].
      cbn. split; [lia|]. intros _. left. lia. }
    assert (A1 : anchored s1).
    { eapply anchored_same; [exact Ha|done|..].
      - intros a k. rewrite S1. by left.
      - intros a. rewrite G1. cbv zeta. destruct (decide _); by left. }
    apply (called_anchored _ _ (World s1 empty_transient)) in Hc as [[A2 A3] _];
      [|done|by eapply outermost_addressed].
    split.
    - intros a k. rewrite S2. destruct (decide (a ∈ _)) as [|Hn]; [done|]. intros [H1|H1]%A2.
      + left. rewrite G2, decide_False by done. done.
      + right. unfold has_real_code. rewrite G2, decide_False by done. done.
    - intros a. unfold firm, has_real_code. rewrite G2. destruct (decide (a ∈ _)) as [|Hn]; [done|]. apply A3.
  Qed.

  Lemma system_anchored target data s o s' :
    process_system_transaction cr be target (code (get_account s target)) data s = (Done o, s') ->
    anchored s -> anchored s'.
  Proof.
    unfold process_system_transaction. intros H Ha.
    eapply call_message_called in H as (w' & Hc & ->).
    - eapply (called_anchored _ _ (World s empty_transient)) in Hc as [? _]; [done|done|].
      intros to [= <-]. done.
    - done.
    - by apply anchored_rooted.
    - intros to [= <-]. done.
  Qed.
  Lemma unchecked_anchored target data s o s' :
    process_unchecked_system_transaction cr be target data s = (Done o, s') -> anchored s -> anchored s'.
  Proof.
    unfold process_unchecked_system_transaction. intros H Ha. sm_step H. by eapply system_anchored.
  Qed.
  Lemma checked_anchored target data s o s' :
    process_checked_system_transaction cr be target data s = (Done o, s') -> anchored s -> anchored s'.
  Proof.
    unfold process_checked_system_transaction. intros H Ha. sm_step H. sm_step H. sm_step H. sm_step H.
    apply sret_inv in H as [-> ->]. by eapply system_anchored.
  Qed.
  Lemma transactions_anchored bo txs i s bo' s' :
    process_transactions cr be bo txs i s = (Done bo', s') -> settled s -> anchored s ->
    settled s' /\ anchored s'.
  Proof.
    revert bo i s. induction txs as [|etx txs IH]; intros bo i s H Hs Ha.
    { by apply sret_inv in H as [-> ->]. }
    cbn [process_transactions] in H. sm_step H. sm_step H.
    eapply IH; [exact H|by eapply settled_transaction|].
    eapply C57_transaction; [by eapply decode_known|eassumption..].
  Qed.
  Lemma withdrawals_anchored bo wds i s bo' s' :
    process_withdrawals bo wds i s = (Done bo', s') -> anchored s -> anchored s'.
  Proof.
    intros H Ha. apply C41_balances in H as (_ & _ & Hn & Hs). specialize (Hs (anchored_owned _ Ha)).
    apply (anchored_keeps s); [done| |done|].
    - intros a. unfold firm, has_real_code. by destruct (Hn a) as [-> ->].
    - intros a. by destruct (Hn a).
  Qed.
  Theorem C57_body txs wds s bo s' :
    apply_body cr be txs wds s = (Done bo, s') -> settled s -> anchored s -> settled s' /\ anchored s'.
  Proof.
    intros H Hs Ha. apply apply_body_inv in H as (s1 & s2 & bo1 & s3 & bo2 & s4 & E1 & E2 & E3 & E4 & E5).
    assert (settled s1 /\ anchored s1) as [Hs1 A1].
    { destruct (at_least Cancun (b_fork be)) eqn:Hf; [|by subst s1]. destruct E1 as [o E1].
      split; [|by eapply unchecked_anchored]. by eapply unchecked_grows. }
    assert (settled s2 /\ anchored s2) as [Hs2 A2].
    { destruct (at_least Prague (b_fork be)) eqn:Hf; [|by subst s2]. destruct E2 as (h & o & _ & E2).
      split; [|by eapply unchecked_anchored]. by eapply unchecked_grows. }
    apply transactions_anchored in E3 as [Hs3 A3]; [|done..].
    assert (settled s4 /\ anchored s4) as [Hs4 A4].
    { destruct (at_least Shanghai (b_fork be)) eqn:Hf; [|by destruct E4 as [_ ->]].
      split; [|by eapply withdrawals_anchored]. by eapply withdrawals_grow. }
    destruct (at_least Prague (b_fork be)) eqn:Hf; [|by destruct E5 as [_ ->]].
    split; [by eapply requests_grow|].
    unfold process_general_purpose_requests in E5. sm_step E5. cbn zeta in E5. sm_step E5. sm_step E5.
    apply sret_inv in E5 as [_ ->]. eapply checked_anchored; [eassumption|]. by eapply checked_anchored.
  Qed.
End Blocks.

Section Chain.
  Context (cr : crypto).
  Theorem C57_block c b c' : state_transition cr c b = (Done tt, c') ->
    settled (bc_state c) -> anchored (bc_state c) -> settled (bc_state c') /\ anchored (bc_state c').
  Proof.
    intros H Hs Ha. apply transition_done in H as (_ & _ & _ & (bo & H & HC) & _).
    by eapply (C57_body cr (block_env_of cr c (bl_header b))).
  Qed.
  (** Every state of a chain that starts from an anchored state is anchored. *)
  Theorem C57_chain c0 c l : accepted cr c0 c l ->
    settled (bc_state c0) -> anchored (bc_state c0) -> settled (bc_state c) /\ anchored (bc_state c).
  Proof.
    intros H Hs Ha. induction H as [|c l b c' H IH E]; [done|]. destruct IH. by eapply C57_block.
  Qed.
End Chain.

(** ** Example *)

(** A state with storage, code and a delegated account, and the small chain:
    both are anchored, and a state whose storage belongs to nobody is not. *)
Definition ex_anchored : state :=
  toy_state [(0xaa, Account 1 5 (designator 0x200)); (0x200, Account 0 0 (bs [0x60; 1]))] {[ 0x200 := {[ 1 := 7 ]} ]}.
Definition ex_loose : state := toy_state [] {[ 0x200 := {[ 1 := 7 ]} ]}.
Example C57_nonvacuous :
  anchored ex_anchored /\ get_storage ex_anchored 0x200 1 = 7 /\ ~ anchored ex_loose /\
  settled (bc_state ex_chain) /\ anchored (bc_state ex_chain) /\
  fst (state_transition ex_crypto ex_chain ex_block) = Done tt.
Proof.
  assert (Hreal : forall s a b c, code (get_account s a) = b :: c -> b <> Byte.xef -> firm s a).
  { intros s a b c H Hb. right. split; [by rewrite H|]. rewrite H. intros (d & [= ?] & _). done. }
  split; [|split; [done|]].
  - split.
    + intros a k Hk. destruct (decide (a = 0x200)) as [->|Hne]; [by eapply Hreal|].
      exfalso. apply Hk. rewrite get_storage_slot. unfold slot_of. cbn.
      by rewrite lookup_singleton_ne by congruence.
    + intros a Ha. destruct (decide (a = 0x200)) as [->|Hne]; [by eapply Hreal|].
      destruct (decide (a = 0xaa)) as [->|Hne2]; [by left|].
      exfalso. apply Ha. unfold get_account, get_account_optional. cbn.
      rewrite !lookup_insert_ne by congruence. done.
  - split.
    { intros [H _]. destruct (H 0x200 1) as [H1|[H1 _]]; [done|by apply H1|by apply H1]. }
    split; [done|]. split; [|by vm_compute].
    split; [intros a k Hk; exfalso; by apply Hk|].
    intros a. unfold get_account, get_account_optional. cbn -[N.eqb].
    intros Ha.
    destruct (decide (a = 0xaaaa)) as [->|]; [by destruct Ha|].
    destruct (decide (a = 0xbbbb)) as [->|]; [by left|].
    destruct (decide (a = WITHDRAWAL_REQUEST_PREDEPLOY_ADDRESS)) as [->|]; [by left|].
    destruct (decide (a = CONSOLIDATION_REQUEST_PREDEPLOY_ADDRESS)) as [->|]; [by left|].
    exfalso. apply Ha. rewrite !lookup_insert_ne by congruence. done.
Qed.

Definition PropAnchored_theorems := (@C57_transaction, @C57_body, @C57_block, @C57_chain).
Print Assumptions PropAnchored_theorems.
