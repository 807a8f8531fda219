(** * PropPowCapable: a contract can only do what its code contains, from
    Frontier on (C92).

    The counterpart of PropCapable for the forks with proof of work, and both
    parts joined from Frontier to Osaka.  The DAO fork moves the ether of the
    accounts it lists, and of no other. *)
From Verif Require Import Base State Rlp Bloom Transactions Trie Blocks Requests Fork Ethash Pow PowTx Merge.
From Verif Require Import Vm Instructions Precompiles Interpreter PowVm StateSpec
  StateProofs NumericProofs ArithProofs EvmStep EvmLocal EvmPlan EvmPlanProofs EvmCallProofs
  EvmFrame EvmAccounts EvmRule PropAccounts EvmInv PowVmPlan PowVmOps PowVmCalls PowVmFrame PowVmRule PowVmInv PowVmKeep.
From Verif Require Import EvmExamples PropExec ForkProofs PropRewards PropPowTx PropPowRun PropPowBody
  PropPowExamples PropPowVm PropPowFrames PropPowReplay PropMerge.
From Verif Require PropHistory PropTransaction TxProofs.
From Verif Require Import PropGas PropConsent PropPowConsent PropCapable.
From Coq Require Import ZifyBool ZifyN ZifyNat.
Ltac Zify.zify_post_hook ::= idtac.

Local Opaque to_u256 from_be_bytes calculate_memory_gas_cost ceil32 N.compare.

(** ** One frame *)
Lemma kept_bound a c k p s s' : kept a k p s s' -> k = 0 -> slots a s s' -> bound a c p s s'.
Proof. intros [] -> Hs. constructor; [done|lia|done|done]. Qed.
Lemma pmodify_slots s b f s' a : modify_account s b f = Ok s' -> slots a s s'.
Proof. unfold modify_account. destruct (f _); [|done]. intros [= <-]. done. Qed.
Lemma touch_slots s b a : slots a s (touch_account s b).
Proof. unfold touch_account. by destruct (account_exists s b). Qed.
Lemma ptransfer_bound a c m w s : ptransfer m w = Ok s -> bound a c (taken a m) (st w) s.
Proof.
  intros H. eapply kept_bound; [by eapply ptransfer_kept|done|]. revert H. unfold ptransfer. cbv zeta.
  pose proof (touch_slots (st w) (m_current_target m) a) as T.
  destruct (_ && _); [|by intros [= <-]]. intros (_ & s1 & M1 & _ & M2 & _)%move_pow_inv.
  eapply slots_trans; [exact T|]. eapply slots_trans; by eapply pmodify_slots.
Qed.
(** An instruction. *)
Lemma peffect_bound n i o e w t e' w' a c : peffect n i o e w t e' w' -> a ∉ i ->
  (m_current_target (e_message e) = a -> o <> SELFDESTRUCT /\ forall os, lacks c os -> o ∉ os) ->
  (a ∈ e_accounts_to_delete e' -> a ∈ e_accounts_to_delete e) /\ bound a c 0 (st w) (st w').
Proof.
  intros He Hi Hin. destruct He as [Hw _ Hd _|? ? ? s' Ho _ _ Hs Hw _ _ _ Hd _ _
      |b s1 s2 Ho _ _ Hs1 Hs2 Hw Hd _ _ _ _|s' Ho _ Hn Hw _ _ Hd _]; subst w'; cbn [st set_st]; rewrite Hd.
  - split; [done|]. apply bound_refl.
  - split; [done|]. apply set_storage_inv in Hs as [_ ->]. constructor; try done.
    { intros _. cbn. change (get_account (set_storages _ _) a) with (get_account (st w) a). lia. }
    intros Hl k. rewrite !get_storage_slot. cbn. rewrite slot_of_set.
    destruct (decide _) as [[Ht _]|]; [|done]. destruct (Hin Ht) as [_ H]. apply H in Hl. subst o. set_solver.
  - assert (Ht : m_current_target (e_message e) <> a) by (intros Ht; by destruct (Hin Ht)).
    split; [destruct (PowVm.since London n); set_solver|].
    eapply bound_trans0.
    + eapply (kept_bound _ _ 0); [eapply pmodify_kept; [exact Hs1|reflexivity|done|done|]|done|exact (pmodify_slots _ _ _ _ _ Hs1)].
      right. cbn. lia.
    + eapply (kept_bound _ _ 0); [eapply pmodify_kept; [exact Hs2|reflexivity|done|done|by left]|done|exact (pmodify_slots _ _ _ _ _ Hs2)].
  - split; [done|]. pose proof (modify_account_get _ _ _ _ _ a Hn eq_refl) as G.
    assert (Hsl := pmodify_slots _ _ _ _ a Hn).
    destruct (decide _) as [Ht|]; [|by apply bound_get].
    destruct (Hin Ht) as [_ H]. constructor; rewrite ?G, ?Ht; cbn; try done; try lia.
    intros Hl. apply H in Hl. destruct Ho; subst o; set_solver.
Qed.
Lemma pcreate_entry_bound n w b w3 a c : pcreate_entry n w b = Ok w3 -> b <> a -> bound a c 0 (st w) (st w3).
Proof.
  intros H Hb. eapply kept_bound; [by eapply pcreate_entry_kept|done|]. revert H.
  unfold pcreate_entry. cbv zeta.
  set (s1 := destroy_storage _ b). set (s2 := if PowVm.since Istanbul n then _ else s1).
  assert (H : slots a (st w) s2).
  { intros k. assert (storage_tries s2 = delete b (storage_tries (st w))) as E.
    { transitivity (storage_tries s1); [unfold s2; by destruct (PowVm.since Istanbul n)|].
      unfold s1. by rewrite destroy_storage_storages. }
    rewrite !get_storage_slot, E. unfold slot_of. by rewrite lookup_delete_ne. }
  destruct (PowVm.since SpuriousDragon n).
  - destruct (pow_increment_nonce s2 b) as [s|] eqn:E; [|done]. intros [= <-]. cbn.
    eapply slots_trans; [exact H|]. exact (pmodify_slots _ _ _ _ _ E).
  - by intros [= <-].
Qed.
Lemma restored_bound a c p w w' : restored w w' -> bound a c p (st w) (st w').
Proof. intros []. eapply bound_le; [by apply bound_main|]. lia. Qed.
Lemma resume_call_pc e1 os oz ch w e2 w2 : resume_call e1 os oz ch w = Ret tt e2 w2 ->
  e_pc e2 = e_pc e1 + 1 /\ e_code e2 = e_code e1.
Proof.
  unfold resume_call, child_return. destruct (to_u256 _); [|done]. intros [= <- _].
  destruct (e_error ch), e1, ch; done.
Qed.
Lemma resume_create_pc e1 ch w e2 w2 : resume_create e1 ch w = Ret tt e2 w2 ->
  e_pc e2 = e_pc e1 + 1 /\ e_code e2 = e_code e1.
Proof.
  unfold resume_create, child_return. destruct (e_error ch); [|destruct (to_u256 _); [|done]]; intros [= <- _];
    destruct e1, ch; done.
Qed.

Section Frame.
  Context (cr : crypto) (n : pow_name) (env : pow_env) (te : tx_env) (a : address) (c : bytes).
  Context (Hcon : confined c).

  Definition punabused (i : gset address) (m : message) (w0 : world) (e : evm) (t : gset address) (w : world)
    : Prop :=
    bound a c (taken a m) (st w0) (st w) /\ (e_error e = None -> a ∉ e_accounts_to_delete e).

  Lemma pcapable_rule : pframe_rule cr n env te (fun _ => True)
    (fun i m w => code (get_account (st w) a) = c /\ a ∉ i /\ (m_current_target m = a -> m_code m = c))
    (fun i m w => code (get_account (st w) a) = c /\ a ∉ i /\ m_current_target m <> a)
    (fun i m w0 e t w => (bound a c (taken a m) (st w0) (st w) /\ a ∉ e_accounts_to_delete e) /\
       (e_running e = true -> boundary (e_code e) (e_pc e)))
    punabused punabused.
  Proof.
    assert (Hop : forall m w0 e w o, fstruct m w0 e w -> pat_op n e o ->
      (m_current_target m = a -> m_code m = c) -> (e_running e = true -> boundary (e_code e) (e_pc e)) ->
      m_current_target (e_message e) = a -> forall os, lacks c os -> o ∉ os).
    { intros m w0 e w o Hf [(Hr & _ & b & Hb & Hd) _] Hc HB Ht os Hl. specialize (HB Hr).
      rewrite (fs_msg _ _ _ _ Hf) in Ht. rewrite (fs_code _ _ _ _ Hf), (Hc Ht) in Hb, HB. by eapply Hl. }
    assert (Hcf : forall o, (forall os, lacks c os -> o ∉ os) ->
      o <> CALLCODE /\ o <> DELEGATECALL /\ o <> SELFDESTRUCT).
    { intros o H. destruct Hcon as (_ & _ & Hl). apply H in Hl. split_and!; intros ->; apply Hl; set_solver. }
    constructor; try done; unfold punabused.
    - intros i m w s1 _ _ Ht. split; [|constructor]. split; [|apply not_elem_of_empty].
      apply (ptransfer_bound a c) in Ht. eapply bound_0trans; [|exact Ht]. by apply bound_main.
    - intros i m w0 w x p e' _ _ [[HI _] _] _ _ _ (_ & -> & _). split; [|constructor]. split; [done|].
      apply not_elem_of_empty.
    - intros i m w0 e t w o t1 e' w' (Hc0 & Hi & Hc) Hf [[HI1 HI2] HB] Ho [Hl He] _. split.
      + destruct (peffect_bound _ _ _ _ _ _ _ _ a c He Hi) as [D1 D2].
        { intros Ht. pose proof (Hop _ _ _ _ _ Hf Ho Hc HB Ht) as H. split; [|done].
          by destruct (Hcf _ H) as (_ & _ & ?). }
        split; [by eapply bound_trans0|]. auto.
      + intros Hr. destruct Ho as [Ho _].
        destruct (ls_pc _ _ _ _ _ _ _ Hl Hr) as [->|Hj]; rewrite (ls_code _ _ _ _ _ _ _ Hl).
        * apply boundary_next; [done|]. apply HB, Ho.
        * rewrite (fs_vjd _ _ _ _ Hf) in Hj. apply C12_jump_destinations in Hj as [Hj _].
          by rewrite (fs_code _ _ _ _ Hf).
    - intros i m w0 e t w o m' e1 os oz (Hc0 & Hi & Hc) Hf [[HI1 HI2] HB] Ho Hk.
      pose proof (Hop _ _ _ _ _ Hf Ho Hc HB) as Hlk.
      assert (Hcw : code (get_account (st w) a) = c) by (by rewrite (bd_code _ _ _ _ _ HI1)).
      assert (Hd : a ∉ e_accounts_to_delete e1) by (by rewrite (wa_del _ _ _ _ (pco_wait _ _ _ _ _ _ _ _ Hk))).
      pose proof (pco_kind _ _ _ _ _ _ _ _ Hk) as Hkind.
      assert (Hp0 : lacks c [CALL; CREATE; CREATE2] -> taken a m' = 0).
      { intros Hl. unfold taken. destruct (decide _) as [[D1 D2]|]; [|done].
        destruct o; try done.
        - destruct Hkind as (K & _). rewrite K in D1. exfalso. apply (Hlk D1 _ Hl). set_solver.
        - destruct Hkind as (K & _). rewrite K in D1. exfalso. by destruct (Hcf _ (Hlk D1)).
        - destruct Hkind as (_ & _ & K & _). congruence.
        - by destruct Hkind as (_ & _ & _ & K). }
      split.
      + split; [done|]. split; [by apply not_elem_of_union|]. intros Ht.
        destruct (pco_code _ _ _ _ _ _ _ _ Hk) as (ca & _ & -> & _ & _ & _ & Hb).
        destruct o; try done.
        * rewrite <- Hb, Ht by (by left). done.
        * destruct Hkind as (_ & K & _). rewrite Ht in K. by destruct (Hcf _ (Hlk (eq_sym K))).
        * destruct Hkind as (_ & K & _). rewrite Ht in K. by destruct (Hcf _ (Hlk (eq_sym K))) as (_ & ? & _).
        * rewrite <- Hb, Ht by (by right). done.
      + intros ch tc w1 _ [Hp1 Hp2]. split; [|done]. intros e2 w2 Hr _.
        destruct (resume_call_pc _ _ _ _ _ _ _ Hr) as [P1 P2].
        destruct (resume_call_deletes a _ _ _ _ _ _ _ Hr Hp2 Hd) as [-> ?]. split.
        * split; [|done]. eapply bound_trans0; [exact HI1|]. eapply bound_le; [exact Hp1|].
          intros Hl. rewrite Hp0; [lia|done].
        * intros _. destruct Ho as [Ho _]. rewrite P1, P2, (wa_pc _ _ _ _ (pco_wait _ _ _ _ _ _ _ _ Hk)),
            (wa_code _ _ _ _ (pco_wait _ _ _ _ _ _ _ _ Hk)).
          assert (op_size o = 1) as <- by (by destruct o). apply boundary_next; [done|]. apply HB, Ho.
    - intros i m w0 e t w o m' e1 wi (Hc0 & Hi & Hc) Hf [[HI1 HI2] HB] Ho Hk.
      pose proof (Hop _ _ _ _ _ Hf Ho Hc HB) as Hlk.
      assert (Hcw : code (get_account (st w) a) = c) by (by rewrite (bd_code _ _ _ _ _ HI1)).
      assert (Hd : a ∉ e_accounts_to_delete e1) by (by rewrite (wa_del _ _ _ _ (pcr_wait _ _ _ _ _ _ _ _ Hk))).
      destruct (pcr_nonce _ _ _ _ _ _ _ _ Hk) as (s1 & Hn & ->).
      pose proof (pcr_op _ _ _ _ _ _ _ _ Hk) as Hoc.
      assert (K1 : bound a c 0 (st w) s1).
      { pose proof (modify_account_get _ _ _ _ _ a Hn eq_refl) as G. assert (Hsl := pmodify_slots _ _ _ _ a Hn).
        destruct (decide _) as [Ht|]; [|by apply bound_get].
        constructor; rewrite ?G, ?Ht; cbn; try done; try lia.
        intros Hl. apply (Hlk Ht) in Hl. destruct Hoc; subst o; set_solver. }
      assert (Hp0 : lacks c [CALL; CREATE; CREATE2] -> taken a m' = 0).
      { intros Hl. unfold taken. rewrite (pcr_caller _ _ _ _ _ _ _ _ Hk). destruct (decide _) as [[D1 D2]|]; [|done].
        apply (Hlk D1) in Hl. destruct Hoc; subst o; set_solver. }
      split.
      + cbn [st set_st]. split; [by rewrite (bd_code _ _ _ _ _ K1)|]. split; [by apply not_elem_of_union|].
        intros Ht. destruct (pcr_fresh _ _ _ _ _ _ _ _ Hk) as [Hfr _]. rewrite Ht in Hfr.
        assert (solid (st w) a) as Hso%solid_spec by (right; rewrite Hcw; apply Hcon). congruence.
      + intros ch tc w1 _ [Hp1 Hp2]. split; [|done]. intros e2 w2 Hr _.
        destruct (resume_create_pc _ _ _ _ _ Hr) as [P1 P2].
        destruct (resume_create_deletes a _ _ _ _ _ Hr Hp2 Hd) as [-> ?]. split.
        * split; [|done]. eapply bound_trans0; [exact HI1|]. eapply bound_0trans; [exact K1|].
          eapply bound_le; [exact Hp1|]. intros Hl. rewrite Hp0; [lia|done].
        * intros _. destruct Ho as [Ho _]. rewrite P1, P2, (wa_pc _ _ _ _ (pcr_wait _ _ _ _ _ _ _ _ Hk)),
            (wa_code _ _ _ _ (pcr_wait _ _ _ _ _ _ _ _ Hk)).
          assert (op_size o = 1) as <- by (by destruct Hoc; subst o). apply boundary_next; [done|]. apply HB, Ho.
    - intros i m w0 e t w _ Hps He _. split; [|done].
      destruct (e_error e) as [x|] eqn:E; [|done].
      destruct (pps_fail _ _ _ _ _ Hps x E) as (Hre & _). by apply restored_bound.
    - intros i m w0 e t w w3 _ _ [[HI1 HI2] _] Hc _. split; [|done].
      eapply bound_trans0; [exact HI1|]. by apply commit_bound.
    - intros i m w w3 (Hp1 & Hi & Hp2) He. split; [|by split].
      by rewrite (bd_code _ _ _ _ _ (pcreate_entry_bound _ _ _ _ a c He Hp2)).
    - intros i m w w3 e t w4 e' w5 _ _ _ _ _ _ Hre He _. split; [|done]. by apply restored_bound.
    - intros i m w w3 e t w4 h e' w6 (_ & _ & Hne) He3 _ [Hp1 Hp2] He Hd _ Hc _. split.
      + eapply bound_0trans; [by eapply pcreate_entry_bound|]. eapply bound_trans0; [exact Hp1|]. by apply commit_bound.
      + intros _. apply deposit_deletes in Hd. specialize (Hp2 He). rewrite <- Hd in Hp2. by destruct e'.
    - intros i m w w3 e t w4 e' s5 w6 (_ & _ & Hne) He3 _ [Hp1 Hp2] He Hd Hs Hc _. split.
      + eapply bound_0trans; [by eapply pcreate_entry_bound|]. eapply bound_trans0; [exact Hp1|].
        eapply bound_trans0; [|by apply commit_bound]. cbn [st set_st].
        pose proof (modify_account_get _ _ _ _ _ a Hs eq_refl) as G. rewrite decide_False in G by done.
        apply bound_get; [done|]. exact (pmodify_slots _ _ _ _ _ Hs).
      + intros _. apply deposit_deletes in Hd. rewrite Hd. auto.
  Qed.
End Frame.

(** ** Transactions, blocks, chains *)
Section Chain.
  Context (cr : crypto) (k512 : bytes -> bytes) (a : address) (c : bytes).
  Context (Hcon : confined c).

  Lemma pow_call_bound n env te m w o w' :
    pow_process_message_call cr n env te m w = PCRet o w' -> code (get_account (st w) a) = c ->
    (m_target m <> None -> m_current_target m = a -> m_code m = c) ->
    bound a c (taken a m) (st w) (st w') /\ a ∉ co_accounts_to_delete o.
  Proof.
    intros H Hp Hc.
    assert (HG : forall e t w1, pow_finish_call e t w1 = PCRet o w' -> punabused a c ∅ m w e t w1 ->
      bound a c (taken a m) (st w) (st w') /\ a ∉ co_accounts_to_delete o).
    { intros e t w1 E [H1 H2]. revert E. unfold pow_finish_call.
      destruct (e_error e); [intros [= <- <-]; split; [done|apply not_elem_of_empty]|].
      destruct (_ || _); [done|]. intros [= <- <-]. split; [done|]. by apply H2. }
    pose proof (bound_refl a c (taken a m) (st w)) as H0.
    revert H. unfold pow_process_message_call. intros H. destruct (m_target m).
    - destruct (pow_process_message cr n env te ∅ m w) as [e t w1|] eqn:E; [|done].
      pose proof (prule_message _ _ _ _ _ _ _ _ _ _ ∅ m w (pcapable_rule cr n env te a c Hcon)) as R.
      rewrite E in R. eapply HG; [exact H|]. apply R. split; [done|]. split; [apply not_elem_of_empty|auto].
    - destruct (account_has_code_or_nonce _ _) eqn:Hf; cbn [orb] in H.
      { injection H as <- <-. split; [done|]. apply not_elem_of_empty. }
      destruct (account_has_storage _ _). { injection H as <- <-. split; [done|]. apply not_elem_of_empty. }
      destruct (pow_process_create_message cr n env te ∅ m w) as [e t w1|] eqn:E; [|done].
      pose proof (prule_create _ _ _ _ _ _ _ _ _ _ ∅ m w (pcapable_rule cr n env te a c Hcon)) as R.
      rewrite E in R. eapply HG; [exact H|]. apply R. split; [done|]. split; [apply not_elem_of_empty|].
      intros <-. assert (solid (st w) (m_current_target m)) as Hso%solid_spec by (right; rewrite Hp; apply Hcon).
      congruence.
  Qed.
  (** A message call, with everything it calls.  It may take from [a] the value
      it was sent with, if [a] is its caller. *)
  Theorem C92_pow_message n env te m w o w' :
    pow_process_message_call cr n env te m w = PCRet o w' -> code (get_account (st w) a) = c ->
    (m_target m <> None -> m_current_target m = a -> m_code m = c) ->
    code (get_account (st w') a) = c /\ a ∉ co_accounts_to_delete o /\
    (lacks c [CREATE; CREATE2] -> nonce (get_account (st w') a) = nonce (get_account (st w) a)) /\
    (lacks c [CALL; CREATE; CREATE2] -> balance (get_account (st w) a) <= balance (get_account (st w') a)
       + (if decide (m_caller m = a /\ m_should_transfer_value m = true) then m_value m else 0)) /\
    (lacks c [SSTORE] -> forall k, get_storage (st w') a k = get_storage (st w) a k).
  Proof.
    intros H Hp Hc. destruct (pow_call_bound _ _ _ _ _ _ _ H Hp Hc) as [[K1 K2 K3 K4] Hd].
    split; [congruence|done].
  Qed.

  Lemma pow_transaction_bound n env bo tx s sender price o s2 r s' :
    pow_transacted cr n env (pow_evm cr n) bo tx s sender price o s2 r s' ->
    code (get_account s a) = c -> bound a c 0 s s'.
  Proof.
    intros Ht Hcode. pose proof (C71_accounts _ _ _ _ _ _ _ _ _ _ _ _ _ a Ht) as HA.
    destruct Ht as (te & m & _ & _ & Ha & _ & Hm & Ev & _ & [_ HS _] & _). specialize (HS a).
    unfold pow_evm in Ev. destruct (pow_process_message_call cr n env te m (World _ empty_transient)) as [o1 w1|] eqn:E; [|done].
    injection Ev as -> <-.
    assert (Hne : a <> sender).
    { intros ->. pose proof (pa_code _ _ _ _ _ _ _ _ Ha) as Hc. rewrite Hcode in Hc. by destruct Hcon. }
    assert (HC : get_account (charged s sender (tx_gas tx * price)) a = get_account s a).
    { rewrite !get_lookup. cbn [charged main_trie]. by rewrite lookup_insert_ne by done. }
    destruct (pow_call_bound n env te _ _ _ _ E) as [[K1 K2 K3 K4] Kd].
    { cbn [st]. by rewrite HC. }
    { intros Ht Hs. pose proof (po_kind _ _ _ _ _ _ Hm) as Hk. rewrite (po_target _ _ _ _ _ _ Hm) in Ht.
      destruct (tx_to tx); [|done]. destruct Hk as (J1 & _ & _ & ->). by rewrite <- J1, Hs, HC. }
    rewrite decide_False in HA by done. cbn [st] in *. rewrite HC in K1, K2, K3.
    unfold taken in K3. rewrite (po_caller _ _ _ _ _ _ Hm), decide_False in K3 by naive_solver.
    assert (Hco : code (get_account (st w1) a) <> []) by (rewrite K1, Hcode; apply Hcon).
    constructor; rewrite ?HA; unfold credit; cbn [nonce balance code].
    - done.
    - done.
    - intros Hl. specialize (K3 Hl). clear -K3. match goal with |- context [?x + ?y + ?z] => generalize y, z end.
      intros. lia.
    - intros Hl k. specialize (K4 Hl k).
      change (get_storage (charged s sender (tx_gas tx * price)) a k) with (get_storage s a k) in K4.
      rewrite <- K4. rewrite !get_storage_slot. unfold slot_of. rewrite HS.
      rewrite decide_False; [done|]. intros [?|[(_ & Hcl & _) _]]; [done|].
      apply (f_equal code) in Hcl. cbn in Hcl. done.
  Qed.
  (** A transaction, whoever sent it. *)
  Theorem C92_pow_transaction n env bo tx s sender price o s2 r s' :
    pow_transacted cr n env (pow_evm cr n) bo tx s sender price o s2 r s' ->
    code (get_account s a) = c ->
    code (get_account s' a) = c /\
    (lacks c [CREATE; CREATE2] -> nonce (get_account s' a) = nonce (get_account s a)) /\
    (lacks c [CALL; CREATE; CREATE2] -> balance (get_account s a) <= balance (get_account s' a)) /\
    (lacks c [SSTORE] -> forall k, get_storage s' a k = get_storage s a k).
  Proof.
    intros H Hc. destruct (pow_transaction_bound _ _ _ _ _ _ _ _ _ _ _ H Hc) as [K1 K2 K3 K4].
    split; [congruence|]. split; [done|]. split; [|done]. intros Hl. specialize (K3 Hl). lia.
  Qed.

  Lemma pow_sequence_bound n env g s txs rs s' :
    pow_sequence cr n env (pow_evm cr n) g s txs rs s' -> code (get_account s a) = c -> bound a c 0 s s'.
  Proof.
    intros H. induction H as [g s|bo s tx txs sender price o s2 r rs s1 s' Hk Ht HR IH]; intros Hw.
    { apply bound_refl. }
    apply pow_transaction_bound in Ht as K; [|done].
    eapply bound_trans0; [exact K|]. apply IH. by rewrite (bd_code _ _ _ _ _ K).
  Qed.
  Lemma pow_block_bound n ch b ch' : lenN (pb_transactions b) < 2 ^ 256 ->
    pow_state_transition cr k512 n (pow_evm cr n) ch b = (Done tt, ch') ->
    code (get_account (pc_state ch) a) = c -> bound a c 0 (pc_state ch) (pc_state ch').
  Proof.
    intros Hl H Hw. unfold pow_state_transition in H.
    apply C65_block in H as (out & s & He & Hc & _ & Hst & _).
    apply C72_execute in He as (env & txs & rs & t1 & t2 & _ & _ & Hs & _); [|done].
    apply pow_sequence_bound in Hs as K; [|done]. eapply bound_trans0; [exact K|].
    specialize (Hc a). constructor; rewrite ?Hc; cbn; try done; [lia|].
    intros _ k. by apply get_storage_tries.
  Qed.
  Lemma pow_life_bound c0 ch l : pow_life cr k512 c0 ch l -> code (get_account (pc_state c0) a) = c ->
    ~ In a DAO_ACCOUNTS -> bound a c 0 (pc_state c0) (pc_state ch).
  Proof.
    intros H Hw Hdao.
    induction H as [|ch l n b ch' H K Hl E|ch l s H K E].
    - apply bound_refl.
    - apply pow_block_bound in E; [|done|by rewrite (bd_code _ _ _ _ _ K)]. by eapply bound_trans0.
    - cbn [pc_state]. eapply bound_trans0; [exact K|].
      destruct dao_accounts as [D1 D2]. apply apply_dao_loop_spec in E as (B1 & _ & B3 & B4 & B5 & _); [|done..].
      assert (Hsl : slots a (pc_state ch) s) by (intros k; by apply get_storage_tries).
      destruct (decide (a = DAO_RECOVERY)) as [->|Hne].
      + destruct (B1 DAO_RECOVERY) as [E1 E2]. constructor; [done|done|rewrite B3; lia|done].
      + apply bound_get; [by apply B4|done].
  Qed.
End Chain.

(** From Frontier to Osaka: blocks of the forks with proof of work, the DAO
    fork, and blocks of the forks since the merge. *)
Theorem C92_life cr k512 c0 ch l d bs a : pow_life cr k512 c0 ch l ->
  PropHistory.accepted cr (apply_fork ch) d bs ->
  confined (code (get_account (pc_state c0) a)) -> ~ In a DAO_ACCOUNTS ->
  code (get_account (bc_state d) a) = code (get_account (pc_state c0) a) /\
  (lacks (code (get_account (pc_state c0) a)) [CREATE; CREATE2] ->
     nonce (get_account (bc_state d) a) = nonce (get_account (pc_state c0) a)) /\
  (lacks (code (get_account (pc_state c0) a)) [CALL; CREATE; CREATE2] ->
     balance (get_account (pc_state c0) a) <= balance (get_account (bc_state d) a)) /\
  (lacks (code (get_account (pc_state c0) a)) [SSTORE] ->
     forall k, get_storage (bc_state d) a k = get_storage (pc_state c0) a k).
Proof.
  intros H Ha Hcon Hdao. remember (code (get_account (pc_state c0) a)) as c eqn:Ec. symmetry in Ec.
  destruct (pow_life_bound cr k512 a c Hcon _ _ _ H Ec Hdao) as [K1 K2 K3 K4].
  destruct (C92_chain cr _ _ _ a Ha) as (J1 & J2 & J3 & J4).
  { cbn [apply_fork bc_state]. by rewrite K1, Ec. }
  cbn [apply_fork bc_state] in J1, J2, J3, J4. rewrite K1, Ec in J1, J2, J3, J4.
  split; [done|]. split; [intros Hl; by rewrite J2, K2|].
  split; [|intros Hl k; by rewrite J4, K4].
  intros Hl. specialize (K3 Hl). specialize (J3 Hl). lia.
Qed.

(** With proof of work alone. *)
Theorem C92_pow_chain cr k512 c0 ch l a : pow_life cr k512 c0 ch l ->
  confined (code (get_account (pc_state c0) a)) -> ~ In a DAO_ACCOUNTS ->
  code (get_account (pc_state ch) a) = code (get_account (pc_state c0) a) /\
  (lacks (code (get_account (pc_state c0) a)) [CREATE; CREATE2] ->
     nonce (get_account (pc_state ch) a) = nonce (get_account (pc_state c0) a)) /\
  (lacks (code (get_account (pc_state c0) a)) [CALL; CREATE; CREATE2] ->
     balance (get_account (pc_state c0) a) <= balance (get_account (pc_state ch) a)) /\
  (lacks (code (get_account (pc_state c0) a)) [SSTORE] ->
     forall k, get_storage (pc_state ch) a k = get_storage (pc_state c0) a k).
Proof.
  intros H Hcon Hdao. remember (code (get_account (pc_state c0) a)) as c eqn:Ec. symmetry in Ec.
  destruct (pow_life_bound cr k512 a c Hcon _ _ _ H Ec Hdao) as [K1 K2 K3 K4].
  split; [congruence|]. split; [done|]. split; [|done]. intros Hl. specialize (K3 Hl). lia.
Qed.

(** ** A concrete case: a block of Gray Glacier sends 7 to the contract 0xdd,
    whose code reads its slot 5 and stops; a block of Paris follows. *)
Definition reader : bytes := bs [0x60; 0x05; 0x54; 0x50; 0x00].
Definition reader_chain : pow_chain encoded_tx :=
  PowChain [last_parent]
    (toy_state [(pay_sender, Account 1 200000 []); (0xdd, Account 1 30 reader)] {[0xdd := {[5 := 77]}]}) 1.
Definition reader_block : pow_block encoded_tx :=
  Eval vm_compute in
  let h root used tr rr bloom := PowHeader (pow_hash easy_crypto (pb_header last_parent)) easy_empty 0xc1 root
    tr rr bloom 131072 1 50000 used 1010 [] (zeros 32) (zeros 8) (Some 1) in
  let b root used tr rr bloom := PowBlock (h root used tr rr bloom) (drop 1 pay_txs) [] in
  match apply_body (fork_of GrayGlacier) (pow_execute easy_crypto (rules_of GrayGlacier) (pow_evm easy_crypto GrayGlacier))
          reader_chain (b [] 0 [] [] []) (pc_state reader_chain) with
  | (Done o, s) => b (default [] (state_root easy_crypto s)) (po_gas_used o) (po_transactions_root o)
                     (po_receipt_root o) (po_bloom o)
  | _ => b [] 0 [] [] []
  end.
Definition reader_after : pow_chain encoded_tx :=
  snd (fast_transition easy_crypto (fork_of GrayGlacier)
         (pow_execute easy_crypto (rules_of GrayGlacier) (pow_evm easy_crypto GrayGlacier)) reader_chain reader_block).
Definition later_open root tr rr bloom used : block :=
  Block (Header Paris (pow_hash easy_crypto (pb_header reader_block)) (keccak256 easy_crypto (encode (RList []))) 0xc0
    root tr rr bloom 0 2 50000 used 1020 [] 5 (zeros 8) 1 [] 0 0 0 []) first_txs [] [].
Definition later_block : block :=
  Eval vm_compute in
  let b := later_open [] [] [] [] 0 in
  match Fork.apply_body easy_crypto (block_env_of easy_crypto (apply_fork reader_after) (bl_header b)) first_txs []
          (pc_state reader_after) with
  | (Done bo, s) =>
      later_open (default [] (state_root easy_crypto s))
        (default [] (root easy_crypto encode_tx_node (bo_transactions_trie bo)))
        (default [] (root easy_crypto encode_receipt_node (bo_receipts_trie bo)))
        (logs_bloom easy_crypto (bo_block_logs bo)) (bo_block_gas_used bo)
  | _ => b
  end.
Definition later_after : block_chain := snd (Fork.state_transition easy_crypto (apply_fork reader_after) later_block).
Example C92_pow_nonvacuous :
  pow_life easy_crypto zero512 reader_chain reader_after [(GrayGlacier, reader_block)] /\
  PropHistory.accepted easy_crypto (apply_fork reader_after) later_after [later_block] /\
  confined (code (get_account (pc_state reader_chain) 0xdd)) /\
  lacks (code (get_account (pc_state reader_chain) 0xdd)) [CALL; CREATE; CREATE2; SSTORE] /\
  ~ In 0xdd DAO_ACCOUNTS /\
  ph_gas_used (pb_header reader_block) = 23121 /\
  balance (get_account (bc_state later_after) 0xdd) = 37 /\ get_storage (bc_state later_after) 0xdd 5 = 77.
Proof.
  split.
  { apply (PL_block _ _ _ reader_chain []); [constructor|vm_compute; reflexivity|].
    unfold pow_state_transition. rewrite transition_fast; [|easy_worked|constructor].
    unfold reader_after. apply injective_projections; vm_compute; reflexivity. }
  split.
  { apply (PropHistory.ac_block _ _ (apply_fork reader_after) []); [constructor|].
    unfold later_after. apply injective_projections; vm_compute; reflexivity. }
  assert (E : code (get_account (pc_state reader_chain) 0xdd) = reader) by (vm_compute; reflexivity).
  rewrite E.
  assert (O : ops_from 0 reader = [PUSH 1; SLOAD; POP; STOP]) by (vm_compute; reflexivity).
  assert (D : forall (os : list op) (o : op), o ∉ os <-> ~ In o os) by (intros; by rewrite elem_of_list_In).
  assert (L : lacks reader [CALLCODE; DELEGATECALL; SELFDESTRUCT] /\ lacks reader [CALL; CREATE; CREATE2; SSTORE]).
  { split; apply C92_scan; rewrite O; intros o Ho; apply elem_of_list_In in Ho; apply D; cbn [In] in *;
      repeat (destruct Ho as [<-|Ho]; [intros H; repeat (destruct H as [H|H]; [discriminate H|]); exact H|]);
      destruct Ho. }
  split; [split; [done|]; split; [intros (d & H & _); discriminate H|]; apply L|].
  split; [apply L|].
  split.
  { destruct (in_dec N.eq_dec 0xdd DAO_ACCOUNTS) as [|H] eqn:E'; [|exact H].
    exfalso. revert E'. vm_compute. discriminate. }
  split; [vm_compute; reflexivity|]. split; vm_compute; reflexivity.
Qed.

Definition PropPowCapable_theorems := (@C92_pow_message, @C92_pow_transaction, @C92_pow_chain, @C92_life).
Print Assumptions PropPowCapable_theorems.
