(** * PropPowConsent: ether leaves an account only with its consent, from
    Frontier on (C91).

    The counterpart of PropConsent for the forks with proof of work, and both
    parts joined: from Frontier to Osaka the nonce of a wallet counts the
    transactions it sent, and its balance falls by at most what it signed for.
    The one exception in history is the DAO fork, which moves the ether of the
    accounts it lists. *)
From Verif Require Import Base State Rlp Bloom Transactions Trie Blocks Requests Fork Ethash Pow PowTx Merge.
From Verif Require Import Vm Instructions Precompiles Interpreter PowVm StateSpec
  StateProofs NumericProofs ArithProofs EvmStep EvmLocal EvmPlan EvmPlanProofs EvmCallProofs
  EvmFrame EvmAccounts EvmRule PropAccounts EvmInv PowVmPlan PowVmOps PowVmCalls PowVmFrame PowVmRule PowVmInv PowVmKeep.
From Verif Require Import EvmExamples PropExec ForkProofs PropRewards PropPowTx PropPowRun PropPowBody
  PropPowExamples PropPowVm PropPowFrames PropPowReplay PropMerge.
From Verif Require PropHistory PropTransaction TxProofs.
From Verif Require Import PropConsent.
From Coq Require Import ZifyBool ZifyN ZifyNat.
Ltac Zify.zify_post_hook ::= idtac.

Local Opaque to_u256 from_be_bytes calculate_memory_gas_cost ceil32 N.compare.

Notation taken := PropConsent.paid.

(** ** One frame *)
Lemma pmodify_kept s b f s' acc a : modify_account s b f = Ok s' -> f (get_account s b) = Ok acc ->
  nonce acc = nonce (get_account s b) -> code acc = code (get_account s b) ->
  b <> a \/ balance (get_account s b) <= balance acc -> kept a 0 0 s s'.
Proof.
  intros H Hf Hn Hc Hb. pose proof (modify_account_get _ _ _ _ _ a H Hf) as G.
  destruct (decide (b = a)) as [->|Hne]; [|by apply kept_get].
  constructor; rewrite G; [lia|done|]. destruct Hb; [done|lia].
Qed.
Lemma ptransfer_kept a m w s : ptransfer m w = Ok s -> kept a 0 (taken a m) (st w) s.
Proof.
  unfold ptransfer. cbv zeta. unfold taken.
  assert (K0 : kept a 0 0 (st w) (touch_account (st w) (m_current_target m))).
  { apply kept_get, touch_get. }
  destruct (m_should_transfer_value m) eqn:E1; cbn [andb].
  - destruct (N.eqb_spec (m_value m) 0) as [E2|E2]; cbn [negb].
    + intros [= <-]. destruct K0. constructor; [done|done|lia].
    + intros (Hle & s1 & M1 & F1 & M2 & F2)%move_pow_inv.
      eapply kept_0trans; [exact K0|]. eapply kept_trans0.
      2:{ eapply pmodify_kept; [exact M2|exact F2|done|done|]. right. cbn. lia. }
      pose proof (modify_account_get _ _ _ _ _ a M1 F1) as G.
      destruct (decide (m_caller m = a)) as [E|Hne].
      * rewrite decide_True by done. constructor; rewrite G; cbn; rewrite E in *; [lia|done|lia].
      * rewrite decide_False by naive_solver. by apply kept_get.
  - intros [= <-]. destruct K0. constructor; [done|done|lia].
Qed.
(** An instruction of another account's frame takes nothing. *)
Lemma peffect_kept n i o e w t e' w' a : peffect n i o e w t e' w' -> m_current_target (e_message e) <> a ->
  kept a 0 0 (st w) (st w').
Proof.
  intros He Ht. destruct He as [Hw _ _ _|? ? ? s' _ _ _ Hs Hw _ _ _ _ _ _
      |b s1 s2 _ _ _ Hs1 Hs2 Hw _ _ _ _ _|s' _ _ Hn Hw _ _ _ _]; subst w'; cbn [st set_st].
  - apply kept_refl.
  - apply set_storage_inv in Hs as [_ ->]. by apply kept_main.
  - eapply kept_trans0.
    + eapply pmodify_kept; [exact Hs1|reflexivity|done|done|]. right. cbn. lia.
    + eapply pmodify_kept; [exact Hs2|reflexivity|done|done|by left].
  - pose proof (modify_account_get _ _ _ _ _ a Hn eq_refl) as G.
    rewrite decide_False in G by done. by apply kept_get.
Qed.
Lemma pcreate_entry_kept n w b w3 a : pcreate_entry n w b = Ok w3 -> b <> a -> kept a 0 0 (st w) (st w3).
Proof.
  unfold pcreate_entry. cbv zeta. intros H Hb. revert H.
  set (s1 := destroy_storage _ b). set (s2 := if PowVm.since Istanbul n then _ else s1).
  assert (H : main_trie s2 = main_trie (st w)).
  { transitivity (main_trie s1); [unfold s2; by destruct (PowVm.since Istanbul n)|].
    unfold s1. by rewrite destroy_storage_main. }
  apply (kept_main a) in H.
  destruct (PowVm.since SpuriousDragon n).
  - destruct (pow_increment_nonce s2 b) as [s|] eqn:E; [|done]. intros [= <-]. cbn.
    eapply kept_0trans; [exact H|]. pose proof (modify_account_get _ _ _ _ _ a E eq_refl) as G.
    rewrite decide_False in G by done. by apply kept_get.
  - by intros [= <-].
Qed.
Lemma restored_kept a c w w' : restored w w' -> kept a 0 c (st w) (st w').
Proof. intros []. destruct (kept_main a _ _ re_main). constructor; [done|done|lia]. Qed.
Lemma commit_kept a w w' : commit_transaction w = Ok w' -> kept a 0 0 (st w) (st w').
Proof. intros [H _]%commit_main. by apply kept_main. Qed.

Section Frame.
  Context (cr : crypto) (n : pow_name) (env : pow_env) (te : tx_env) (a : address).

  Definition puntaken (i : gset address) (m : message) (w0 : world) (e : evm) (t : gset address) (w : world)
    : Prop :=
    kept a 0 (taken a m) (st w0) (st w) /\ (e_error e = None -> a ∉ e_accounts_to_delete e).

  Lemma pconsent_rule : pframe_rule cr n env te (fun _ => True)
    (fun i m w => wallet (st w) a /\ a ∉ i /\ (m_current_target m = a -> m_code m = []))
    (fun i m w => wallet (st w) a /\ a ∉ i /\ m_current_target m <> a)
    (fun i m w0 e t w => kept a 0 (taken a m) (st w0) (st w) /\ a ∉ e_accounts_to_delete e)
    puntaken puntaken.
  Proof.
    assert (Hop : forall m w0 e w o, fstruct m w0 e w -> pat_op n e o ->
      (m_current_target m = a -> m_code m = []) -> m_current_target m <> a).
    { intros m w0 e w o Hf [(_ & Hpc & _) _] Hc Ht. rewrite (fs_code _ _ _ _ Hf), (Hc Ht) in Hpc.
      unfold lenN in Hpc. cbn in Hpc. lia. }
    constructor; try done; unfold puntaken.
    - intros i m w s1 _ _ Ht. split; [|apply not_elem_of_empty].
      apply (ptransfer_kept a) in Ht. eapply kept_0trans; [|exact Ht]. by apply kept_main.
    - intros i m w0 w x p e' _ _ [HI _] _ _ _ (_ & -> & _). split; [done|].
      apply not_elem_of_empty.
    - intros i m w0 e t w o t1 e' w' (_ & Hi & Hc) Hf [HI1 HI2] Ho [_ He] _.
      pose proof (Hop _ _ _ _ _ Hf Ho Hc) as Hne. rewrite <- (fs_msg _ _ _ _ Hf) in Hne. split.
      + eapply kept_trans0; [exact HI1|]. by eapply peffect_kept.
      + intros Ha. apply (peffect_deletes n _ _ _ _ _ _ _ He) in Ha.
        by apply elem_of_union in Ha as [->%elem_of_singleton|[Ha|Ha]%elem_of_union].
    - intros i m w0 e t w o m' e1 os oz (Hwa & Hi & Hc) Hf [HI1 HI2] Ho Hk.
      pose proof (Hop _ _ _ _ _ Hf Ho Hc) as Hne.
      pose proof (kept_wallet _ _ _ _ _ HI1 Hwa) as Hwa1.
      assert (Hd : a ∉ e_accounts_to_delete e1) by (by rewrite (wa_del _ _ _ _ (pco_wait _ _ _ _ _ _ _ _ Hk))).
      assert (Hp0 : taken a m' = 0).
      { pose proof (pco_kind _ _ _ _ _ _ _ _ Hk) as Hkind. rewrite (fs_msg _ _ _ _ Hf) in Hkind.
        unfold taken. destruct (decide _) as [[D1 D2]|]; [|done].
        destruct o; try done.
        - destruct Hkind as (K & _). congruence.
        - destruct Hkind as (K & _). congruence.
        - destruct Hkind as (_ & _ & K & _). congruence.
        - destruct Hkind as (K & _). congruence. }
      split.
      + split; [done|]. split; [by apply not_elem_of_union|]. intros Ht.
        destruct (pco_code _ _ _ _ _ _ _ _ Hk) as (ca & _ & -> & _ & [Hb|Hb] & _).
        * rewrite <- Hb, Ht. apply Hwa1.
        * rewrite (fs_msg _ _ _ _ Hf) in Hb. congruence.
      + intros c tc w1 _ [Hp1 Hp2]. split; [|done]. intros e2 w2 Hr _. rewrite Hp0 in Hp1.
        destruct (resume_call_deletes a _ _ _ _ _ _ _ Hr Hp2 Hd) as [-> ?]. split; [by eapply kept_trans0|done].
    - intros i m w0 e t w o m' e1 wi (Hwa & Hi & Hc) Hf [HI1 HI2] Ho Hk.
      pose proof (Hop _ _ _ _ _ Hf Ho Hc) as Hne. rewrite <- (fs_msg _ _ _ _ Hf) in Hne.
      pose proof (kept_wallet _ _ _ _ _ HI1 Hwa) as Hwa1.
      assert (Hd : a ∉ e_accounts_to_delete e1) by (by rewrite (wa_del _ _ _ _ (pcr_wait _ _ _ _ _ _ _ _ Hk))).
      destruct (pcr_nonce _ _ _ _ _ _ _ _ Hk) as (s1 & Hn & ->).
      assert (K1 : kept a 0 0 (st w) s1).
      { pose proof (modify_account_get _ _ _ _ _ a Hn eq_refl) as G. rewrite decide_False in G by done. by apply kept_get. }
      assert (Hp0 : taken a m' = 0).
      { unfold taken. rewrite (pcr_caller _ _ _ _ _ _ _ _ Hk). by rewrite decide_False by naive_solver. }
      split.
      + split; [|split; [by apply not_elem_of_union|]].
        * by eapply kept_wallet.
        * intros Ht. destruct (pcr_fresh _ _ _ _ _ _ _ _ Hk) as [Hfr _]. rewrite Ht in Hfr.
          apply wallet_solid, solid_spec in Hwa1. congruence.
      + intros c tc w1 _ [Hp1 Hp2]. split; [|done]. intros e2 w2 Hr _. rewrite Hp0 in Hp1.
        destruct (resume_create_deletes a _ _ _ _ _ Hr Hp2 Hd) as [-> ?]. split; [|done].
        eapply kept_trans0; [exact HI1|]. eapply kept_trans0; [exact K1|done].
    - intros i m w0 e t w _ Hps He _. split; [|done].
      destruct (e_error e) as [x|] eqn:E; [|done].
      destruct (pps_fail _ _ _ _ _ Hps x E) as (Hre & _). by apply restored_kept.
    - intros i m w0 e t w w3 _ _ [HI1 HI2] Hc _. split; [|done].
      eapply kept_trans0; [exact HI1|]. by apply commit_kept.
    - intros i m w w3 (Hp1 & Hi & Hp2) He. split; [|by split].
      eapply kept_wallet; [|exact Hp1]. by eapply pcreate_entry_kept.
    - intros i m w w3 e t w4 e' w5 _ _ _ _ _ _ Hre He _. split; [|done]. by apply restored_kept.
    - intros i m w w3 e t w4 h e' w6 (_ & _ & Hne) He3 _ [Hp1 Hp2] He Hd _ Hc _. split.
      + eapply kept_0trans; [by eapply pcreate_entry_kept|]. eapply kept_trans0; [exact Hp1|]. by apply commit_kept.
      + intros _. apply deposit_deletes in Hd. specialize (Hp2 He). rewrite <- Hd in Hp2. by destruct e'.
    - intros i m w w3 e t w4 e' s5 w6 (_ & _ & Hne) He3 _ [Hp1 Hp2] He Hd Hs Hc _. split.
      + eapply kept_0trans; [by eapply pcreate_entry_kept|]. eapply kept_trans0; [exact Hp1|].
        eapply kept_trans0; [|by apply commit_kept]. cbn [st set_st].
        pose proof (modify_account_get _ _ _ _ _ a Hs eq_refl) as G. rewrite decide_False in G by done. by apply kept_get.
      + intros _. apply deposit_deletes in Hd. rewrite Hd. auto.
  Qed.

  (** A message call, with everything it calls, takes from a wallet [a] at
      most the value it was sent with, if [a] is its caller. *)
  Theorem C91_pow_message m w o w' :
    pow_process_message_call cr n env te m w = PCRet o w' -> wallet (st w) a ->
    (m_target m <> None -> m_current_target m = a -> m_code m = []) ->
    nonce (get_account (st w') a) = nonce (get_account (st w) a) /\
    code (get_account (st w') a) = [] /\
    balance (get_account (st w) a) <= balance (get_account (st w') a)
      + (if decide (m_caller m = a /\ m_should_transfer_value m = true) then m_value m else 0) /\
    a ∉ co_accounts_to_delete o.
  Proof.
    intros H Hp Hc.
    assert (HR : kept a 0 (taken a m) (st w) (st w') /\ a ∉ co_accounts_to_delete o).
    2:{ destruct HR as [[K1 K2 K3] Hd]. split; [lia|]. split; [rewrite K2; apply Hp|]. done. }
    assert (HG : forall e t w1, pow_finish_call e t w1 = PCRet o w' -> puntaken ∅ m w e t w1 ->
      kept a 0 (taken a m) (st w) (st w') /\ a ∉ co_accounts_to_delete o).
    { intros e t w1 E [H1 H2]. revert E. unfold pow_finish_call.
      destruct (e_error e); [intros [= <- <-]; split; [done|apply not_elem_of_empty]|].
      destruct (_ || _); [done|]. intros [= <- <-]. split; [done|]. by apply H2. }
    assert (H0 : kept a 0 (taken a m) (st w) (st w)) by (constructor; [lia|done|lia]).
    revert H. unfold pow_process_message_call. intros H. destruct (m_target m).
    - destruct (pow_process_message cr n env te ∅ m w) as [e t w1|] eqn:E; [|done].
      pose proof (prule_message _ _ _ _ _ _ _ _ _ _ ∅ m w pconsent_rule) as R.
      rewrite E in R. eapply HG; [exact H|]. apply R. split; [done|]. split; [apply not_elem_of_empty|auto].
    - destruct (account_has_code_or_nonce _ _) eqn:Hf; cbn [orb] in H.
      { injection H as <- <-. split; [done|]. apply not_elem_of_empty. }
      destruct (account_has_storage _ _). { injection H as <- <-. split; [done|]. apply not_elem_of_empty. }
      destruct (pow_process_create_message cr n env te ∅ m w) as [e t w1|] eqn:E; [|done].
      pose proof (prule_create _ _ _ _ _ _ _ _ _ _ ∅ m w pconsent_rule) as R.
      rewrite E in R. eapply HG; [exact H|]. apply R. split; [done|]. split; [apply not_elem_of_empty|].
      intros <-. apply wallet_solid, solid_spec in Hp. congruence.
  Qed.
End Frame.

(** ** Transactions, blocks, chains *)
(** The transaction, if [a] sends it by the rules of fork [n] *)
Definition pow_sent_by (cr : crypto) (chain_id : N) (a : address) (n : pow_name) (etx : encoded_tx)
  : option transaction :=
  match pow_decode_transaction (rules_of n) etx with
  | Done tx =>
      match pow_recover_sender cr (rules_of n) chain_id tx with
      | Done sender => if sender =? a then Some tx else None
      | Fail _ => None
      end
  | Fail _ => None
  end.
Definition pow_sent_all (cr : crypto) (chain_id : N) (a : address)
  (l : list (pow_name * pow_block encoded_tx)) : list transaction :=
  concat (map (fun '(n, b) => omap (pow_sent_by cr chain_id a n) (pb_transactions b)) l).
Section Chain.
  Context (cr : crypto) (k512 : bytes -> bytes) (a : address).

  (** A transaction takes from an account without code, that has a nonce or is
      the sender, at most what it signed for as the sender, and otherwise
      nothing. *)
  Theorem C91_pow_transaction n env bo tx s sender price o s2 r s' :
    pow_transacted cr n env (pow_evm cr n) bo tx s sender price o s2 r s' ->
    code (get_account s a) = [] -> nonce (get_account s a) <> 0 \/ sender = a ->
    (sender = a /\ kept a 1 (signed_for tx) s s') \/ (sender <> a /\ kept a 0 0 s s').
  Proof.
    intros Ht Hcode Hn. pose proof (C71_accounts _ _ _ _ _ _ _ _ _ _ _ _ _ a Ht) as HA.
    destruct Ht as (te & m & _ & _ & Ha & _ & Hm & Ev & _).
    unfold pow_evm in Ev. destruct (pow_process_message_call cr n env te m (World _ empty_transient)) as [o1 w1|] eqn:E; [|done].
    injection Ev as -> <-.
    assert (HC : get_account (charged s sender (tx_gas tx * price)) a =
      if decide (a = sender) then Account (nonce (get_account s a) + 1)
        (balance (get_account s a) - tx_gas tx * price) (code (get_account s a)) else get_account s a).
    { rewrite !get_lookup. cbn [charged main_trie]. destruct (decide (a = sender)) as [->|Hne].
      - rewrite lookup_insert. cbn [default from_option id]. by rewrite <- get_lookup.
      - by rewrite lookup_insert_ne by done. }
    assert (Hw : wallet (charged s sender (tx_gas tx * price)) a).
    { unfold wallet. rewrite HC. destruct (decide (a = sender)) as [->|Hne]; cbn [nonce code]; split; try done.
      - lia.
      - destruct Hn; [done|congruence]. }
    destruct (C91_pow_message cr n env te a _ _ _ _ E) as (K1 & K2 & K3 & K4).
    { exact Hw. }
    { intros Ht Hs. pose proof (po_kind _ _ _ _ _ _ Hm) as Hk. rewrite (po_target _ _ _ _ _ _ Hm) in Ht.
      destruct (tx_to tx); [|done]. destruct Hk as (J1 & _ & _ & ->). rewrite <- J1, Hs. apply Hw. }
    rewrite decide_False in HA by done. cbn [st] in *.
    rewrite (po_caller _ _ _ _ _ _ Hm), (po_value _ _ _ _ _ _ Hm) in K3.
    destruct (decide (sender = a)) as [Ea|Ea].
    - left. split; [done|]. subst sender.
      assert (K5 : balance (get_account (charged s a (tx_gas tx * price)) a)
        <= balance (get_account (st w1) a) + tx_value tx) by (destruct (decide _) in K3; lia).
      clear K3. rewrite HC in K1, K5. rewrite decide_True in K1, K5 by done. cbn [nonce balance code] in K1, K5.
      assert (Hg : gas_paid n tx o * price <= tx_gas tx * PropTransaction.max_fee tx).
      { apply N.mul_le_mono; [apply gas_paid_le|]. rewrite (pa_price _ _ _ _ _ _ _ _ Ha). lia. }
      assert (Hs : tx_gas tx * price = gas_paid n tx o * price + (tx_gas tx - gas_paid n tx o) * price).
      { rewrite <- N.mul_add_distr_r. f_equal. pose proof (gas_paid_le n tx o). lia. }
      constructor; rewrite HA; unfold credit; cbn [nonce balance code].
      + done.
      + by rewrite K2.
      + rewrite (decide_True _ _ (eq_refl : a = a)). unfold signed_for. generalize (PropTransaction.blob_gas tx * PropTransaction.max_blob_fee tx). intros y0.
        match goal with |- context [if decide (a = pe_coinbase env) then ?y else 0] =>
          generalize (if decide (a = pe_coinbase env) then y else 0) end. intros x.
        clear -K5 Hg Hs. generalize dependent (tx_gas tx * PropTransaction.max_fee tx).
        generalize dependent ((tx_gas tx - gas_paid n tx o) * price). generalize dependent (gas_paid n tx o * price).
        generalize dependent (tx_gas tx * price). intros. lia.
    - right. split; [done|]. rewrite decide_False in K3 by naive_solver.
      rewrite HC in K1, K3. rewrite decide_False in K1, K3 by done.
      constructor; rewrite HA; unfold credit; cbn [nonce balance code].
      + lia.
      + by rewrite K2.
      + clear -K3. match goal with |- context [?x + ?y + ?z] => generalize y, z end. intros. lia.
  Qed.

  Definition by_a (n : pow_name) (chain_id : N) (tx : transaction) : option transaction :=
    match pow_recover_sender cr (rules_of n) chain_id tx with
    | Done sender => if sender =? a then Some tx else None
    | Fail _ => None
    end.
  Lemma pow_sequence_kept n env g s txs rs s' :
    pow_sequence cr n env (pow_evm cr n) g s txs rs s' -> wallet s a ->
    let l := omap (by_a n (pe_chain_id env)) txs in kept a (lenN l) (sum_signed l) s s'.
  Proof.
    cbv zeta. intros H. induction H as [g s|bo s tx txs sender price o s2 r rs s1 s' Hk Ht HR IH]; intros Hw.
    { apply kept_refl. }
    assert (Hse : pow_recover_sender cr (rules_of n) (pe_chain_id env) tx = Done sender).
    { destruct Ht as (te & m & _ & _ & Ha & _). apply (pa_sender _ _ _ _ _ _ _ _ Ha). }
    cbn [omap list_omap].
    assert (Hb : by_a n (pe_chain_id env) tx = if sender =? a then Some tx else None) by (unfold by_a; by rewrite Hse).
    rewrite Hb. clear Hb.
    destruct (C91_pow_transaction _ _ _ _ _ _ _ _ _ _ _ Ht (proj2 Hw) (or_introl (proj1 Hw))) as [[-> K]|[Hne K]].
    - rewrite N.eqb_refl. specialize (IH (kept_wallet _ _ _ _ _ K Hw)).
      pose proof (kept_trans _ _ _ _ _ _ _ _ K IH) as KK.
      rewrite lenN_cons. exact KK.
    - rewrite (proj2 (N.eqb_neq _ _)) by done. specialize (IH (kept_wallet _ _ _ _ _ K Hw)). by eapply kept_0trans.
  Qed.

  Lemma pow_block_kept n c b c' : lenN (pb_transactions b) < 2 ^ 256 ->
    pow_state_transition cr k512 n (pow_evm cr n) c b = (Done tt, c') -> wallet (pc_state c) a ->
    let l := omap (pow_sent_by cr (pc_chain_id c) a n) (pb_transactions b) in
    kept a (lenN l) (sum_signed l) (pc_state c) (pc_state c').
  Proof.
    cbv zeta. intros Hl H Hw.
    destruct (C72_block cr n (pow_evm cr n) k512 c b c' Hl H)
      as (env & txs & rs & ts & rcs & s & Hd & Hm & Hs & _ & _ & _ & _ & _ & _ & _ & Hc & _).
    pose proof (pow_sequence_kept _ _ _ _ _ _ _ Hs Hw) as K. cbv zeta in K.
    rewrite (ds_chain_id _ _ _ _ _ Hd) in K.
    assert (E : omap (pow_sent_by cr (pc_chain_id c) a n) (pb_transactions b) = omap (by_a n (pc_chain_id c)) txs).
    { clear -Hm. revert txs Hm. induction (pb_transactions b) as [|e l IH]; intros [|tx txs] Hm; try done.
      cbn [map] in Hm. injection Hm as H1 H2. cbn [omap list_omap]. rewrite (IH _ H2).
      unfold pow_sent_by at 1. rewrite H1. done. }
    rewrite E. eapply kept_trans0; [exact K|]. specialize (Hc a). constructor; rewrite Hc; cbn; [lia|done|lia].
  Qed.

  (** From block to block, through all forks with proof of work: the nonce of
      a wallet that the DAO fork does not list counts the transactions it sent,
      it gets no code, and its balance falls by at most what it signed for. *)
  Theorem C91_pow_chain c0 c l : pow_life cr k512 c0 c l -> wallet (pc_state c0) a -> ~ In a DAO_ACCOUNTS ->
    nonce (get_account (pc_state c) a) = nonce (get_account (pc_state c0) a)
      + lenN (pow_sent_all cr (pc_chain_id c0) a l) /\
    code (get_account (pc_state c) a) = [] /\
    balance (get_account (pc_state c0) a) <= balance (get_account (pc_state c) a)
      + sum_signed (pow_sent_all cr (pc_chain_id c0) a l).
  Proof.
    intros H Hw Hdao.
    assert (pc_chain_id c = pc_chain_id c0 /\
      kept a (lenN (pow_sent_all cr (pc_chain_id c0) a l)) (sum_signed (pow_sent_all cr (pc_chain_id c0) a l))
        (pc_state c0) (pc_state c)) as [_ [K1 K2 K3]].
    2:{ split; [done|]. split; [|done]. rewrite K2. apply Hw. }
    induction H as [|c l n b c' H [Hi K] Hl E|c l s H [Hi K] E].
    - split; [done|]. apply kept_refl.
    - split.
      { apply PropOmmers.transition_done in E as (_ & _ & _ & E & _). congruence. }
      apply pow_block_kept in E; [|done|by eapply kept_wallet]. cbv zeta in E. rewrite Hi in E.
      unfold pow_sent_all in *. rewrite map_app, concat_app, sum_signed_app. cbn [map concat].
      rewrite app_nil_r. unfold lenN at 1. rewrite app_length, Nat2N.inj_add. by eapply kept_trans.
    - split; [done|]. cbn [pc_state]. eapply kept_trans0; [exact K|].
      destruct dao_accounts as [D1 D2]. apply apply_dao_loop_spec in E as (B1 & _ & B3 & B4 & _); [|done..].
      destruct (decide (a = DAO_RECOVERY)) as [->|Hne].
      + destruct (B1 DAO_RECOVERY) as [E1 E2]. constructor; [lia|done|rewrite B3; lia].
      + apply kept_get. by apply B4.
  Qed.

  (** From Frontier to Osaka *)
  Theorem C91_life c0 c l d bs : pow_life cr k512 c0 c l -> wallet (pc_state c0) a -> ~ In a DAO_ACCOUNTS ->
    PropHistory.accepted cr (apply_fork c) d bs ->
    unauthorized cr a (concat (map bl_transactions bs)) ->
    let early := pow_sent_all cr (pc_chain_id c0) a l in
    let late := sent_all cr (pc_chain_id c0) a (concat (map bl_transactions bs)) in
    nonce (get_account (bc_state d) a) = nonce (get_account (pc_state c0) a) + lenN (early ++ late) /\
    code (get_account (bc_state d) a) = [] /\
    balance (get_account (pc_state c0) a) <= balance (get_account (bc_state d) a)
      + sum_signed (early ++ late).
  Proof.
    cbv zeta. intros H Hw Hdao Ha Hu. pose proof (life_used _ _ _ _ _ H) as [Hi _].
    destruct (C91_pow_chain _ _ _ H Hw Hdao) as (K1 & K2 & K3).
    destruct (C91_chain cr _ _ _ a Ha) as (J1 & J2 & J3).
    - cbn [apply_fork bc_state]. split; [|done]. destruct Hw. lia.
    - done.
    - cbn [apply_fork bc_state bc_chain_id] in J1, J3. rewrite Hi in J1, J3. rewrite sum_signed_app.
      unfold lenN at 1. rewrite app_length, Nat2N.inj_add. fold (@lenN transaction). unfold lenN in *. split; [lia|]. split; [done|lia].
  Qed.
End Chain.

(** ** A concrete case: the sender of the example of C87 has already sent one
    transaction; it sends one in a block of Gray Glacier and one in a block of
    Paris. *)
Definition wallet_chain : pow_chain encoded_tx :=
  PowChain [last_parent] (toy_state [(pay_sender, Account 1 200000 [])] ∅) 1.
Definition wallet_block : pow_block encoded_tx :=
  Eval vm_compute in
  let h root used tr rr bloom := PowHeader (pow_hash easy_crypto (pb_header last_parent)) easy_empty 0xc1 root
    tr rr bloom 131072 1 50000 used 1010 [] (zeros 32) (zeros 8) (Some 1) in
  let b root used tr rr bloom := PowBlock (h root used tr rr bloom) (drop 1 pay_txs) [] in
  match apply_body (fork_of GrayGlacier) (pow_execute easy_crypto (rules_of GrayGlacier) (pow_evm easy_crypto GrayGlacier))
          wallet_chain (b [] 0 [] [] []) (pc_state wallet_chain) with
  | (Done o, s) => b (default [] (state_root easy_crypto s)) (po_gas_used o) (po_transactions_root o)
                     (po_receipt_root o) (po_bloom o)
  | _ => b [] 0 [] [] []
  end.
Definition wallet_after : pow_chain encoded_tx :=
  snd (fast_transition easy_crypto (fork_of GrayGlacier)
         (pow_execute easy_crypto (rules_of GrayGlacier) (pow_evm easy_crypto GrayGlacier)) wallet_chain wallet_block).
Definition paris_open root tr rr bloom used : block :=
  Block (Header Paris (pow_hash easy_crypto (pb_header wallet_block)) (keccak256 easy_crypto (encode (RList []))) 0xc0
    root tr rr bloom 0 2 50000 used 1020 [] 5 (zeros 8) 1 [] 0 0 0 []) first_txs [] [].
Definition paris_block : block :=
  Eval vm_compute in
  let b := paris_open [] [] [] [] 0 in
  match Fork.apply_body easy_crypto (block_env_of easy_crypto (apply_fork wallet_after) (bl_header b)) first_txs []
          (pc_state wallet_after) with
  | (Done bo, s) =>
      paris_open (default [] (state_root easy_crypto s))
        (default [] (root easy_crypto encode_tx_node (bo_transactions_trie bo)))
        (default [] (root easy_crypto encode_receipt_node (bo_receipts_trie bo)))
        (logs_bloom easy_crypto (bo_block_logs bo)) (bo_block_gas_used bo)
  | _ => b
  end.
Definition paris_after : block_chain := snd (Fork.state_transition easy_crypto (apply_fork wallet_after) paris_block).
Example C91_pow_nonvacuous :
  pow_life easy_crypto zero512 wallet_chain wallet_after [(GrayGlacier, wallet_block)] /\
  wallet (pc_state wallet_chain) pay_sender /\ ~ In pay_sender DAO_ACCOUNTS /\
  PropHistory.accepted easy_crypto (apply_fork wallet_after) paris_after [paris_block] /\
  unauthorized easy_crypto pay_sender (concat (map bl_transactions [paris_block])) /\
  map signed_for (pow_sent_all easy_crypto 1 pay_sender [(GrayGlacier, wallet_block)]
    ++ sent_all easy_crypto 1 pay_sender (concat (map bl_transactions [paris_block]))) = [75007; 42009] /\
  (* 117016 signed for, 105064 paid *)
  balance (get_account (pc_state wallet_chain) pay_sender) = 200000 /\
  balance (get_account (bc_state paris_after) pay_sender) = 94936 /\
  nonce (get_account (bc_state paris_after) pay_sender) = 3.
Proof.
  split.
  { apply (PL_block _ _ _ wallet_chain []); [constructor|vm_compute; reflexivity|].
    unfold pow_state_transition. rewrite transition_fast; [|easy_worked|constructor].
    unfold wallet_after. apply injective_projections; vm_compute; reflexivity. }
  split; [split; vm_compute; congruence|].
  split.
  { destruct (in_dec N.eq_dec pay_sender DAO_ACCOUNTS) as [|H] eqn:E; [|exact H].
    exfalso. revert E. vm_compute. discriminate. }
  split.
  { apply (PropHistory.ac_block _ _ (apply_fork wallet_after) []); [constructor|].
    unfold paris_after. apply injective_projections; vm_compute; reflexivity. }
  split.
  { intros etx tx t Hin Hd Ht. change (concat (map bl_transactions [paris_block])) with first_txs in Hin.
    apply elem_of_list_singleton in Hin as ->. cbn in Hd. injection Hd as <-. by apply not_elem_of_nil in Ht. }
  split; [vm_compute; reflexivity|]. split; [vm_compute; reflexivity|].
  split; vm_compute; reflexivity.
Qed.

Definition PropPowConsent_theorems := (@C91_pow_message, @C91_pow_transaction, @C91_pow_chain, @C91_life).
Print Assumptions PropPowConsent_theorems.
