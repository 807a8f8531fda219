(** * PropConsent: ether leaves an account only with its consent (C91).

    An account that has sent a transaction and has no code (a wallet) cannot be
    charged by anybody else: whatever contracts run, whatever other
    transactions, system transactions and withdrawals a block contains, its
    balance does not fall, and its nonce and (lack of) code stay the same.  A
    transaction it signed costs it no more than the value and the fees it
    signed for.  All forks since the merge. *)
From Verif Require Import Base State Rlp Vm Instructions Precompiles Interpreter StateSpec StateProofs
  NumericProofs ArithProofs EvmStep EvmLocal EvmPlan EvmPlanProofs EvmCallProofs EvmFrame EvmAccounts
  EvmRule PropAccounts EvmInv EvmPlain PropFees PropTx PropDelegation Trie TrieProofs PropTrie Bloom
  Transactions Blocks Requests Fork ForkProofs PropWithdrawals TxProofs PropTransaction PropChain
  EvmExamples ForkExamples PropHeader PropHistory.
From Coq Require Import ZifyBool ZifyN ZifyNat.
Ltac Zify.zify_post_hook ::= idtac.

Local Opaque to_u256 from_be_bytes calculate_memory_gas_cost ceil32 N.compare.

(** A wallet: an account with a nonce and without code. *)
Definition wallet (s : state) (a : address) : Prop :=
  nonce (get_account s a) <> 0 /\ code (get_account s a) = [].

(** From [s] to [s'] the account [a] makes [sent] steps of its nonce and
    loses at most [cost]. *)
Record kept (a : address) (sent cost : N) (s s' : state) : Prop := {
  k_nonce : nonce (get_account s' a) = nonce (get_account s a) + sent;
  k_code : code (get_account s' a) = code (get_account s a);
  k_balance : balance (get_account s a) <= balance (get_account s' a) + cost;
}.
Lemma kept_get a s s' : get_account s' a = get_account s a -> kept a 0 0 s s'.
Proof. intros E. constructor; rewrite E; [lia|done|lia]. Qed.
Lemma kept_refl a s : kept a 0 0 s s.
Proof. by apply kept_get. Qed.
Lemma kept_trans a n1 c1 n2 c2 s1 s2 s3 : kept a n1 c1 s1 s2 -> kept a n2 c2 s2 s3 ->
  kept a (n1 + n2) (c1 + c2) s1 s3.
Proof. intros [] []. constructor; [lia|congruence|lia]. Qed.
Lemma kept_trans0 a n c s1 s2 s3 : kept a n c s1 s2 -> kept a 0 0 s2 s3 -> kept a n c s1 s3.
Proof. intros H1 H2. pose proof (kept_trans _ _ _ _ _ _ _ _ H1 H2) as H. by rewrite !N.add_0_r in H. Qed.
Lemma kept_0trans a n c s1 s2 s3 : kept a 0 0 s1 s2 -> kept a n c s2 s3 -> kept a n c s1 s3.
Proof. apply kept_trans. Qed.
Lemma kept_wallet a n c s s' : kept a n c s s' -> wallet s a -> wallet s' a.
Proof. intros [] [H1 H2]. split; [lia|congruence]. Qed.
Lemma wallet_solid s a : wallet s a -> solid s a.
Proof. intros [H _]. by left. Qed.
Lemma kept_main a s s' : main_trie s' = main_trie s -> kept a 0 0 s s'.
Proof. intros H. apply kept_get. by apply get_account_main. Qed.

(** ** One frame *)
(** What the message itself takes from [a]: its value, if [a] is the caller. *)
Definition paid (a : address) (m : message) : N :=
  if decide (m_caller m = a /\ m_should_transfer_value m = true) then m_value m else 0.

Lemma transfer_kept a m w s : transfer m w = Ok s -> kept a 0 (paid a m) (st w) s.
Proof.
  unfold transfer, paid. destruct (m_should_transfer_value m) eqn:E1; cbn [andb].
  - destruct (N.eqb_spec (m_value m) 0) as [E2|E2]; cbn [negb].
    + intros [= <-]. constructor; [lia|done|lia].
    + intros H. pose proof (move_ether_get _ _ _ _ _ H a) as G.
      destruct (decide (m_caller m = m_current_target m)).
      { constructor; rewrite G; [lia|done|lia]. }
      destruct (decide (a = m_caller m)) as [->|Ha].
      { rewrite decide_True by done. constructor; rewrite G; cbn; [lia|done|lia]. }
      destruct (decide (a = m_current_target m)) as [->|Hb]; constructor; rewrite G; cbn; try lia; done.
  - intros [= <-]. constructor; [lia|done|lia].
Qed.
Lemma set_balance_kept s b n s' a : set_account_balance s b n = Ok s' ->
  b <> a \/ balance (get_account s b) <= n -> kept a 0 0 s s'.
Proof.
  intros H Hn. pose proof (modify_state_get _ _ _ _ _ H eq_refl a) as G.
  destruct (decide (b = a)) as [->|Hne]; [|by apply kept_get].
  constructor; rewrite G; cbn; [lia|done|]. destruct Hn; [done|lia].
Qed.
(** An instruction of another account's frame takes nothing. *)
Lemma effect_kept f o e w e' w' a : effect f o e w e' w' -> m_current_target (e_message e) <> a ->
  kept a 0 0 (st w) (st w').
Proof.
  intros He Ht. destruct He as [Hw _ _|? ? ? ? _ _ _ Hs Hw|? ? _ _ Hw|b s1 ? _ _ _ Hm Hd Hw
    |b sum s1 s' _ _ _ Hsum Ha Hb Hw|? _ _ Hn Hw]; subst w'; cbn [st set_st set_ts].
  - apply kept_refl.
  - apply set_storage_inv in Hs as [_ ->]. by apply kept_main.
  - apply kept_refl.
  - assert (K : kept a 0 0 (st w) s1).
    { pose proof (move_ether_get _ _ _ _ _ Hm a) as G.
      destruct (decide (m_current_target (e_message e) = b)); [by apply kept_get|].
      rewrite decide_False in G by done.
      destruct (decide (a = b)) as [->|]; [|by apply kept_get]. constructor; rewrite G; cbn; [lia|done|lia]. }
    destruct Hd as [(_ & Hd & _)|(_ & -> & _)]; [|done].
    eapply kept_trans0; [exact K|]. eapply set_balance_kept; [exact Hd|by left].
  - apply to_u256_inv in Hsum as [-> _].
    eapply kept_trans0; [eapply set_balance_kept; [exact Ha|right; lia]|].
    eapply set_balance_kept; [exact Hb|by left].
  - pose proof (increment_nonce_get _ _ _ Hn a) as G. rewrite decide_False in G by done. by apply kept_get.
Qed.

Section Frame.
  Context (cr : crypto) (be : block_env) (te : tx_env) (a : address).
  Notation pm := (process_message cr be te).
  Notation pcm := (process_create_message cr be te).

  Definition untaken (m : message) (w0 : world) (e : evm) (w : world) : Prop :=
    kept a 0 (paid a m) (st w0) (st w) /\ (e_error e = None -> a ∉ e_accounts_to_delete e).

  Lemma consent_rule : frame_rule cr be te
    (fun m w => wallet (st w) a /\ (m_current_target m = a -> m_code m = []))
    (fun m w => wallet (st w) a /\ m_current_target m <> a)
    (fun m w0 e w => kept a 0 (paid a m) (st w0) (st w) /\ a ∉ e_accounts_to_delete e)
    untaken untaken.
  Proof.
    assert (Hop : forall m w0 e w o, fstruct m w0 e w -> at_op e o ->
      (m_current_target m = a -> m_code m = []) -> m_current_target m <> a).
    { intros m w0 e w o Hf (_ & Hpc & _) Hc Ht. rewrite (fs_code _ _ _ _ Hf), (Hc Ht) in Hpc.
      unfold lenN in Hpc. cbn in Hpc. lia. }
    constructor; unfold untaken.
    - intros m w s1 [Hp _] _ Ht. split; [|apply not_elem_of_empty].
      apply (transfer_kept a) in Ht. eapply kept_0trans; [|exact Ht]. by apply kept_main.
    - intros m w0 w e' _ _ HI (_ & -> & _). done.
    - intros m w0 e w o e' w' [_ Hc] Hf [HI1 HI2] Ho [_ He] _.
      pose proof (Hop _ _ _ _ _ Hf Ho Hc) as Hne. rewrite <- (fs_msg _ _ _ _ Hf) in Hne. split.
      + eapply kept_trans0; [exact HI1|]. by eapply effect_kept.
      + intros Ha. apply (effect_deletes _ _ _ _ _ _ He) in Ha.
        by apply elem_of_union in Ha as [->%elem_of_singleton|Ha].
    - intros m w0 e w o m' e1 os oz [Hwa Hc] Hf [HI1 HI2] Ho Hk.
      pose proof (Hop _ _ _ _ _ Hf Ho Hc) as Hne.
      pose proof (kept_wallet _ _ _ _ _ HI1 Hwa) as Hwa1.
      assert (Hp0 : paid a m' = 0).
      { pose proof (co_kind _ _ _ _ _ _ _ _ Hk) as Hkind. rewrite (fs_msg _ _ _ _ Hf) in Hkind.
        unfold paid. destruct (decide _) as [[D1 D2]|]; [|done].
        destruct o; try done.
        - destruct Hkind as (K & _). congruence.
        - destruct Hkind as (K & _). congruence.
        - destruct Hkind as (_ & _ & K & _). congruence.
        - destruct Hkind as (K & _). congruence. }
      split.
      + split; [done|]. intros Ht. destruct (co_code _ _ _ _ _ _ _ _ Hk) as (b & ca & _ & Hr & [Hb|Hb] & _).
        * rewrite Ht in Hb. subst b. unfold resolved in Hr. destruct Hwa1 as [_ Hwa1]. rewrite Hwa1 in Hr.
          destruct (at_least Prague (b_fork be)); apply Hr.
        * rewrite (fs_msg _ _ _ _ Hf) in Hb. congruence.
      + intros c w1 e2 w2 _ [Hp1 Hp2] Hr _. apply resume_call_del in Hr as [-> Hr].
        rewrite Hp0 in Hp1. split; [by eapply kept_trans0|].
        rewrite Hr, (wa_del _ _ _ _ (co_wait _ _ _ _ _ _ _ _ Hk)).
        intros [Ha|Ha]%elem_of_union; [auto|]. destruct (e_error c); [clear -Ha; set_solver|by apply Hp2].
    - intros m w0 e w o m' e1 wi [Hwa Hc] Hf [HI1 HI2] Ho Hk.
      pose proof (Hop _ _ _ _ _ Hf Ho Hc) as Hne. rewrite <- (fs_msg _ _ _ _ Hf) in Hne.
      pose proof (kept_wallet _ _ _ _ _ HI1 Hwa) as Hwa1.
      destruct (cr_nonce _ _ _ _ _ _ _ _ Hk) as (s1 & Hn & ->).
      assert (K1 : kept a 0 0 (st w) s1).
      { pose proof (increment_nonce_get _ _ _ Hn a) as G. rewrite decide_False in G by done. by apply kept_get. }
      assert (Hp0 : paid a m' = 0).
      { unfold paid. rewrite (cr_caller _ _ _ _ _ _ _ _ Hk). by rewrite decide_False by naive_solver. }
      split.
      + split; [by eapply kept_wallet|].
        intros Ht. destruct (cr_fresh _ _ _ _ _ _ _ _ Hk) as [Hfr _]. rewrite Ht in Hfr.
        apply wallet_solid, solid_spec in Hwa1. congruence.
      + intros c w1 e2 w2 _ [Hp1 Hp2] Hr _. apply resume_create_del in Hr as [-> Hr].
        rewrite Hp0 in Hp1. split.
        { eapply kept_trans0; [exact HI1|]. eapply kept_trans0; [exact K1|done]. }
        rewrite Hr, (wa_del _ _ _ _ (cr_wait _ _ _ _ _ _ _ _ Hk)).
        intros [Ha|Ha]%elem_of_union; [auto|]. destruct (e_error c); [clear -Ha; set_solver|by apply Hp2].
    - intros m w0 e w [Hp _] Hps He _. split; [|done].
      destruct (e_error e) as [x|] eqn:E; [|done].
      destruct (ps_fail _ _ _ _ Hps x E) as [[] _].
      destruct (kept_main a _ _ re_main). constructor; [done|done|lia].
    - intros m w0 e w w3 _ _ [HI1 HI2] Hc _. apply commit_main in Hc as [Hc1 Hc2].
      split; [|done]. eapply kept_trans0; [exact HI1|]. by apply kept_main.
    - intros m w w3 [Hp1 Hp2] He. pose proof (create_entry_get _ _ _ He a) as G.
      rewrite decide_False in G by done. split; [|done]. by eapply kept_wallet; [apply kept_get|].
    - intros m w w3 e w4 e' w5 [Hp1 Hp2] _ _ _ _ _ [] He _. split; [|done].
      destruct (kept_main a _ _ re_main). constructor; [done|done|lia].
    - intros m w w3 e w4 e' s5 w6 [Hp1 Hp2] He3 Hps [Hpo Hpd] He Hd Hs Hc _.
      apply commit_main in Hc as [Hc1 Hc2]. cbn in Hc1. split.
      + pose proof (create_entry_get _ _ _ He3 a) as G3. rewrite decide_False in G3 by done.
        pose proof (set_code_get _ _ _ _ Hs a) as G. rewrite decide_False in G by done.
        eapply kept_0trans; [apply kept_get, G3|]. eapply kept_trans0; [exact Hpo|].
        eapply kept_trans0; [apply kept_get, G|]. by apply kept_main.
      + destruct (deposit_code_eq _ _ _ Hd) as (g & _ & ->). intros _. destruct e; cbn in *. auto.
  Qed.

  (** A message call, with everything it calls, takes from a wallet [a] at
      most the value it was sent with, if [a] is its caller. *)
  Theorem C91_message m w e w' : pm m w = PRet e w' -> wallet (st w) a ->
    (m_current_target m = a -> m_code m = []) ->
    nonce (get_account (st w') a) = nonce (get_account (st w) a) /\
    code (get_account (st w') a) = [] /\
    balance (get_account (st w) a) <= balance (get_account (st w') a)
      + (if decide (m_caller m = a /\ m_should_transfer_value m = true) then m_value m else 0) /\
    (e_error e = None -> a ∉ e_accounts_to_delete e).
  Proof.
    intros H Hp Hc.
    destruct (rule_message _ _ _ _ _ _ _ _ _ _ _ _ consent_rule (conj Hp Hc) H) as [_ [[K1 K2 K3] Hd]].
    split_and!; [lia|rewrite K2; apply Hp|exact K3|done].
  Qed.

  (** ** The call of a transaction *)
  Lemma authorizes_kept s l s' r : authorizes cr be s l s' r ->
    (forall t, t ∈ l -> ~ signed_by cr t a) -> get_account s' a = get_account s a.
  Proof.
    induction 1 as [s|s t l s' r Hn H IH|s t au s1 l s' r Ha Hto H IH]; intros Hno; [done| |].
    - apply IH. intros x Hx. apply Hno. by right.
    - rewrite IH by (intros x Hx; apply Hno; by right).
      rewrite (at_get _ _ _ _ Hto), decide_False; [done|].
      intros ->. apply (Hno t); [left|]. apply Ha.
  Qed.

  Lemma call_kept m s o s' : call_message cr be te m s = (Done o, s') -> wallet s a ->
    (m_target m <> None -> m_code_address m = Some (m_current_target m)) ->
    (m_target m <> None -> m_current_target m = a -> m_code m = []) ->
    (forall t, t ∈ t_authorizations te -> ~ signed_by cr t a) ->
    kept a 0 (paid a m) s s' /\ a ∉ o_accounts_to_delete o.
  Proof.
    unfold Fork.call_message. destruct (process_message_call _ _ _ _ _) as [o1 w'|] eqn:H; [|done].
    intros [= <- <-] Hw Hca Hcode Hau.
    assert (Hfin : forall r e, finish_call r e w' = MCRet o1 w' ->
      (e_error e = None -> a ∉ e_accounts_to_delete e) -> a ∉ o_accounts_to_delete o1).
    { intros r e Hf Hd. apply finish_cases in Hf as (_ & _ & _ & _ & Hf).
      destruct (e_error e); destruct Hf as (_ & -> & _); [apply not_elem_of_empty|by apply Hd]. }
    change (wallet (st (World s empty_transient)) a) in Hw.
    apply call_cases in H as [(_ & _ & -> & ->)|[(_ & Hc & _ & e & He & Hf)|(Ht & r & m1 & m2 & w1 & e & Hd & _ & _ & Hm & _ & Hg & He & Hf)]].
    - split; [|apply not_elem_of_empty]. constructor; cbn; [lia|done|lia].
    - assert (m_current_target m <> a) as Hne.
      { intros E. rewrite E in Hc. apply wallet_solid, solid_spec in Hw. congruence. }
      destruct (rule_create _ _ _ _ _ _ _ _ _ _ _ _ consent_rule (conj Hw Hne) He) as [_ [K Kd]].
      split; [exact K|by eapply Hfin].
    - specialize (Hca Ht). specialize (Hcode Ht).
      assert (get_account (st w1) a = get_account s a /\ (m_current_target m1 = a -> m_code m1 = []) /\
        m_current_target m1 = m_current_target m /\ paid a m1 = paid a m) as (G & Hc1 & Ht1 & Hp1).
      { destruct Hd as [(_ & _ & -> & ->)|(_ & _ & Hd)]; [done|].
        pose proof (C22_exact _ _ _ _ _ _ _ _ Hd) as Ha. apply authorizes_kept in Ha; [|done]. cbn in Ha.
        apply set_delegation_facts in Hd as (_ & _ & ca & acc & Hca' & ->).
        split; [done|]. rewrite Hca in Hca'. injection Hca' as <-. split_and!; [|done..].
        cbn. intros ->. rewrite Ha. apply Hw. }
      assert (Hw1 : wallet (st w1) a) by (unfold wallet; by rewrite G).
      assert ((m_current_target m2 = a -> m_code m2 = []) /\ paid a m2 = paid a m1) as [Hc2 Hp2].
      { destruct Hm as [[-> _]|(x & _ & Hx & ->)]; [done|]. split; [|done]. cbn.
        intros E. rewrite (Hc1 E) in Hx. done. }
      destruct (rule_message _ _ _ _ _ _ _ _ _ _ _ _ consent_rule (conj Hw1 Hc2) He) as [_ [K Kd]].
      split; [|by eapply Hfin]. rewrite <- Hp1, <- Hp2. eapply kept_0trans; [|exact K]. by apply kept_get.
  Qed.
End Frame.

(** ** Transactions, blocks, chains *)
(** The most a transaction may cost who signed it. *)
Definition signed_for (tx : transaction) : N :=
  tx_value tx + tx_gas tx * max_fee tx + blob_gas tx * max_blob_fee tx.
(** How many of the transactions are sent by [a], and what [a] signed for. *)
Definition sent_by (cr : crypto) (chain_id : N) (a : address) (etx : encoded_tx) : option transaction :=
  match decode_transaction Osaka etx with
  | Done tx =>
      match recover_sender cr chain_id tx with
      | Done sender => if sender =? a then Some tx else None
      | Fail _ => None
      end
  | Fail _ => None
  end.
Definition sent_all (cr : crypto) (chain_id : N) (a : address) (l : list encoded_tx) : list transaction :=
  omap (sent_by cr chain_id a) l.
Definition sum_signed (l : list transaction) : N := fold_right N.add 0 (map signed_for l).
(** No set-code transaction carries an authorization that [a] signed. *)
Definition unauthorized (cr : crypto) (a : address) (l : list encoded_tx) : Prop :=
  forall etx tx t, etx ∈ l -> decode_transaction Osaka etx = Done tx -> t ∈ authorizations_of tx ->
    ~ signed_by cr t a.

Section Block.
  Context (cr : crypto) (be : block_env) (a : address).

  (** A transaction takes from an account without code, that has a nonce or is
      the sender, and that signed none of its authorizations, at most what it
      signed for as the sender, and otherwise nothing. *)
  Theorem C91_transaction bo tx i s bo' s' :
    process_transaction cr be bo tx i s = (Done bo', s') ->
    code (get_account s a) = [] ->
    nonce (get_account s a) <> 0 \/ recover_sender cr (b_chain_id be) tx = Done a ->
    (forall t, t ∈ authorizations_of tx -> ~ signed_by cr t a) ->
    (recover_sender cr (b_chain_id be) tx = Done a /\ kept a 1 (signed_for tx) s s') \/
    (recover_sender cr (b_chain_id be) tx <> Done a /\ kept a 0 0 s s').
  Proof.
    intros H Hcode Hn Hau. destruct (process_transaction_run _ _ _ _ _ _ _ _ H) as [t R].
    pose proof (run_get _ _ _ _ _ _ _ _ _ R a) as G.
    destruct (run_get4 _ _ _ _ _ _ _ _ _ R a) as (N4 & C4 & B4).
    destruct (run_get1 _ _ _ _ _ _ _ _ _ R a) as (N1 & C1 & B1).
    pose proof (tr_check _ _ _ _ _ _ _ _ _ R) as Hc. apply C36_accepts in Hc as [[] _].
    destruct (tr_env _ _ _ _ _ _ _ _ _ R) as (Ho & _ & _ & HA & _).
    assert (Hw : wallet (tr_s1 t) a).
    { split; [|by rewrite C1]. destruct Hn as [Hn|Hn]; [lia|].
      rewrite ac_sender in Hn. injection Hn as Hn. rewrite decide_True in N1 by done. lia. }
    assert (Hm : m_caller (tr_message t) = tr_sender t /\ m_value (tr_message t) = tx_value tx /\
      (m_target (tr_message t) <> None ->
        m_code_address (tr_message t) = Some (m_current_target (tr_message t)) /\
        m_code (tr_message t) = code (get_account (tr_s1 t) (m_current_target (tr_message t))))).
    { pose proof (tr_prepare _ _ _ _ _ _ _ _ _ R) as Hm. revert Hm. unfold prepare_message.
      destruct (tx_to tx) as [to|].
      - intros [= <-]. cbn. done.
      - intros (x & _ & E)%obind_inv. injection E as <-. cbn. done. }
    destruct Hm as (M1 & M2 & M3).
    destruct (call_kept _ _ _ a _ _ _ _ (tr_call _ _ _ _ _ _ _ _ _ R) Hw) as [[K1 K2 K3] Kd].
    { intros Ht. by destruct (M3 Ht). }
    { intros Ht E. destruct (M3 Ht) as [_ ->]. rewrite E. apply Hw. }
    { rewrite HA. exact Hau. }
    rewrite decide_False in G by done.
    assert (Hbf : tr_blob_fee t <= blob_gas tx * max_blob_fee tx).
    { pose proof (tr_blobs _ _ _ _ _ _ _ _ _ R) as Hb. revert Hb ac_blobs. unfold blob_fee_of. clear.
      destruct tx; try (intros [= <-] _; lia).
      destruct (blob_gas_price_done (b_fork be) (b_excess_blob_gas be)) as (bp & Hbp & Hbp').
      unfold calculate_data_fee. intros (n & H1%total_blob_gas_inv & H2)%obind_inv Hp.
      rewrite Hbp in H2. cbn [obind] in H2. injection H2 as <-. rewrite H1.
      apply N.mul_le_mono_l. by apply Hp. }
    assert (Hg : tr_used t * tr_price t <= tx_gas tx * max_fee tx).
    { apply N.mul_le_mono; [apply (tr_used_le _ _ _ _ _ _ _ _ _ R)|]. rewrite ac_price. lia. }
    assert (Hs : tx_gas tx * tr_price t = tr_used t * tr_price t + (tx_gas tx - tr_used t) * tr_price t).
    { rewrite <- N.mul_add_distr_r. f_equal. pose proof (tr_used_le _ _ _ _ _ _ _ _ _ R). lia. }
    unfold paid in K3. rewrite M1, M2 in K3.
    destruct (decide (tr_sender t = a)) as [E|E].
    - left. split; [by rewrite ac_sender, E|]. unfold signed_for.
      assert (K4 : balance (get_account (tr_s1 t) a) <= balance (get_account (tr_s2 t) a) + tx_value tx).
      { destruct (decide _) in K3; lia. }
      clear K3. constructor; rewrite G; [rewrite N4; lia|congruence|]. rewrite B4.
      generalize (if decide (b_coinbase be = a) then tr_used t * (tr_price t - b_base_fee_per_gas be) else 0).
      clear -B1 K4 Hbf Hg Hs. intros x.
      generalize dependent (blob_gas tx * max_blob_fee tx). generalize dependent (tx_gas tx * max_fee tx).
      generalize dependent ((tx_gas tx - tr_used t) * tr_price t). generalize dependent (tr_used t * tr_price t).
      generalize dependent (tx_gas tx * tr_price t). intros. lia.
    - right. split; [congruence|]. rewrite decide_False in K3 by naive_solver.
      constructor; rewrite G; [rewrite N4; lia|congruence|]. rewrite B4.
      generalize (if decide (b_coinbase be = a) then tr_used t * (tr_price t - b_base_fee_per_gas be) else 0).
      clear -B1 K3. intros x. lia.
  Qed.

  (** ** The other parts of a block take nothing *)
  Lemma system_kept target data s o s' :
    process_system_transaction cr be target (code (get_account s target)) data s = (Done o, s') ->
    wallet s a -> kept a 0 0 s s'.
  Proof.
    unfold process_system_transaction. intros H Hw. apply (call_kept _ _ _ a) in H as [K _]; [|done|done| |].
    - unfold paid in K. cbn in K. by rewrite decide_False in K by naive_solver.
    - cbn. intros _ ->. apply Hw.
    - cbn. intros t Ht. by apply not_elem_of_nil in Ht.
  Qed.
  Lemma unchecked_kept target data s o s' :
    process_unchecked_system_transaction cr be target data s = (Done o, s') ->
    wallet s a -> kept a 0 0 s s'.
  Proof. unfold process_unchecked_system_transaction. intros H. sm_step H. by eapply system_kept. Qed.
  Lemma checked_kept target data s o s' :
    process_checked_system_transaction cr be target data s = (Done o, s') ->
    wallet s a -> kept a 0 0 s s'.
  Proof.
    unfold process_checked_system_transaction. intros H. sm_step H. sm_step H. sm_step H. sm_step H.
    apply sret_inv in H as [-> ->]. by eapply system_kept.
  Qed.
  Lemma requests_kept bo s bo' s' :
    process_general_purpose_requests cr be bo s = (Done bo', s') -> wallet s a -> kept a 0 0 s s'.
  Proof.
    unfold process_general_purpose_requests. intros H Hs. sm_step H. cbn zeta in H. sm_step H. sm_step H.
    apply sret_inv in H as [<- ->].
    apply checked_kept in E0 as G1; [|done]. apply checked_kept in E1 as G2; [|by eapply kept_wallet].
    by eapply kept_trans0.
  Qed.
  Lemma withdrawals_kept bo wds i s bo' s' :
    process_withdrawals bo wds i s = (Done bo', s') -> kept a 0 0 s s'.
  Proof.
    intros H. destruct (C41_balances _ _ _ _ _ _ H) as (B & _ & NC & _).
    destruct (NC a) as [N0 C0]. constructor; [lia|done|]. rewrite B. lia.
  Qed.
  Lemma transactions_kept bo txs i s bo' s' :
    process_transactions cr be bo txs i s = (Done bo', s') -> wallet s a -> unauthorized cr a txs ->
    kept a (lenN (sent_all cr (b_chain_id be) a txs)) (sum_signed (sent_all cr (b_chain_id be) a txs)) s s'.
  Proof.
    revert bo i s. induction txs as [|etx txs IH]; intros bo i s H Hw Hu.
    { apply sret_inv in H as [-> ->]. apply kept_refl. }
    cbn [process_transactions] in H. sm_step H. rename v into tx. sm_step H. rename v into bo1, s0 into s1.
    assert (Hdec : decode_transaction Osaka etx = Done tx) by (by eapply decode_later).
    pose proof (C91_transaction _ _ _ _ _ _ E0 (proj2 Hw) (or_introl (proj1 Hw))) as K.
    assert (Hau : forall t, t ∈ authorizations_of tx -> ~ signed_by cr t a).
    { intros t Ht. eapply Hu; [left|exact Hdec|exact Ht]. }
    specialize (K Hau).
    assert (Hu' : unauthorized cr a txs).
    { intros x y z Hx. apply Hu. by right. }
    unfold sent_all. cbn [omap list_omap].
    assert (Hsb : sent_by cr (b_chain_id be) a etx = match recover_sender cr (b_chain_id be) tx with
      | Done sender => if sender =? a then Some tx else None | Fail _ => None end)
      by (unfold sent_by; by rewrite Hdec).
    destruct K as [[Hse K]|[Hse K]].
    - rewrite Hse, N.eqb_refl in Hsb. rewrite Hsb.
      apply IH in H; [|by eapply kept_wallet|done].
      replace (lenN _) with (1 + lenN (sent_all cr (b_chain_id be) a txs))
        by (unfold sent_all, lenN; cbn [length]; lia).
      change (sum_signed _) with (signed_for tx + sum_signed (sent_all cr (b_chain_id be) a txs)).
      by eapply kept_trans.
    - assert (Hno : sent_by cr (b_chain_id be) a etx = None).
      { rewrite Hsb. destruct (recover_sender _ _ _) as [x|]; [|done].
        destruct (N.eqb_spec x a); [|done]. congruence. }
      rewrite Hno. apply IH in H; [|by eapply kept_wallet|done]. by eapply kept_0trans.
  Qed.
  Lemma body_kept txs wds s bo s' :
    apply_body cr be txs wds s = (Done bo, s') -> wallet s a -> unauthorized cr a txs ->
    kept a (lenN (sent_all cr (b_chain_id be) a txs)) (sum_signed (sent_all cr (b_chain_id be) a txs)) s s'.
  Proof.
    intros H Hw Hu. apply apply_body_inv in H as (s1 & s2 & bo1 & s3 & bo2 & s4 & E1 & E2 & E3 & E4 & E5).
    assert (kept a 0 0 s s1) as K1.
    { destruct (at_least Cancun (b_fork be)); [|subst s1; apply kept_refl].
      destruct E1 as (o & E1). by eapply unchecked_kept. }
    pose proof (kept_wallet _ _ _ _ _ K1 Hw) as W1.
    assert (kept a 0 0 s1 s2) as K2.
    { destruct (at_least Prague (b_fork be)); [|subst s2; apply kept_refl].
      destruct E2 as (h & o & _ & E2). by eapply unchecked_kept. }
    pose proof (kept_wallet _ _ _ _ _ K2 W1) as W2.
    apply transactions_kept in E3 as K3; [|done|done].
    pose proof (kept_wallet _ _ _ _ _ K3 W2) as W3.
    assert (kept a 0 0 s3 s4) as K4.
    { destruct (at_least Shanghai (b_fork be)); [|destruct E4 as [_ ->]; apply kept_refl].
      by eapply withdrawals_kept. }
    pose proof (kept_wallet _ _ _ _ _ K4 W3) as W4.
    assert (kept a 0 0 s4 s') as K5.
    { destruct (at_least Prague (b_fork be)); [|destruct E5 as [_ ->]; apply kept_refl].
      by eapply requests_kept. }
    eapply kept_0trans; [exact K1|]. eapply kept_0trans; [exact K2|].
    eapply kept_trans0; [exact K3|]. by eapply kept_trans0.
  Qed.
End Block.

Section Chain.
  Context (cr : crypto).

  Lemma sum_signed_app l1 l2 : sum_signed (l1 ++ l2) = sum_signed l1 + sum_signed l2.
  Proof using. unfold sum_signed. induction l1 as [|x l1 IH]; cbn in *; lia. Qed.

  (** Along every chain of accepted blocks, of whichever forks, the nonce of a
      wallet counts the transactions it sent, it gets no code, and its balance
      falls by at most what it signed for in these transactions. *)
  Theorem C91_chain c0 c l a : accepted cr c0 c l -> wallet (bc_state c0) a ->
    unauthorized cr a (concat (map bl_transactions l)) ->
    nonce (get_account (bc_state c) a) = nonce (get_account (bc_state c0) a)
      + lenN (sent_all cr (bc_chain_id c0) a (concat (map bl_transactions l))) /\
    code (get_account (bc_state c) a) = [] /\
    balance (get_account (bc_state c0) a) <= balance (get_account (bc_state c) a)
      + sum_signed (sent_all cr (bc_chain_id c0) a (concat (map bl_transactions l))).
  Proof.
    intros H Hw Hu.
    assert (bc_chain_id c = bc_chain_id c0 /\
      kept a (lenN (sent_all cr (bc_chain_id c0) a (concat (map bl_transactions l))))
        (sum_signed (sent_all cr (bc_chain_id c0) a (concat (map bl_transactions l))))
        (bc_state c0) (bc_state c)) as [_ [K1 K2 K3]].
    2:{ split; [done|]. split; [|done]. rewrite K2. apply Hw. }
    induction H as [|c l b c' H IH E].
    { split; [done|]. apply kept_refl. }
    rewrite map_app, concat_app in Hu |- *. cbn [map concat] in Hu |- *. rewrite app_nil_r in Hu |- *.
    destruct IH as [Hi K].
    { intros x y z Hx. apply Hu. apply elem_of_app. by left. }
    apply transition_done in E as (_ & _ & _ & (bo & E & _) & Hi' & _).
    split; [congruence|].
    apply (body_kept _ _ a) in E.
    - change (b_chain_id (block_env_of cr c (bl_header b))) with (bc_chain_id c) in E. rewrite Hi in E.
      unfold sent_all in *. rewrite omap_app, sum_signed_app.
      replace (lenN (_ ++ _)) with (lenN (omap (sent_by cr (bc_chain_id c0) a) (concat (map bl_transactions l)))
        + lenN (omap (sent_by cr (bc_chain_id c0) a) (bl_transactions b)))
        by (unfold lenN; rewrite app_length; lia).
      by eapply kept_trans.
    - by eapply kept_wallet.
    - intros x y z Hx. apply Hu. apply elem_of_app. by right.
  Qed.
  (** In particular a wallet that sends and authorizes nothing loses nothing. *)
  Corollary C91_safe c0 c l a : accepted cr c0 c l -> wallet (bc_state c0) a ->
    unauthorized cr a (concat (map bl_transactions l)) ->
    (forall etx tx, etx ∈ concat (map bl_transactions l) -> decode_transaction Osaka etx = Done tx ->
       recover_sender cr (bc_chain_id c0) tx <> Done a) ->
    nonce (get_account (bc_state c) a) = nonce (get_account (bc_state c0) a) /\
    code (get_account (bc_state c) a) = [] /\
    balance (get_account (bc_state c0) a) <= balance (get_account (bc_state c) a).
  Proof.
    intros H Hw Hu Hn. destruct (C91_chain _ _ _ _ H Hw Hu) as (K1 & K2 & K3).
    assert (E : sent_all cr (bc_chain_id c0) a (concat (map bl_transactions l)) = []).
    { revert Hn. generalize (concat (map bl_transactions l)). clear. intros l Hn. unfold sent_all.
      induction l as [|x l IH]; [done|]. cbn [omap list_omap].
      assert (sent_by cr (bc_chain_id c0) a x = None) as ->.
      { unfold sent_by. destruct (decode_transaction Osaka x) as [tx|] eqn:E; [|done].
        destruct (recover_sender _ _ _) as [y|] eqn:E2; [|done].
        destruct (N.eqb_spec y a) as [->|]; [|done]. exfalso. by apply (Hn x tx); [left|..]. }
      apply IH. intros y tx Hy. apply Hn. by right. }
    rewrite E in K1, K3. change (lenN []) with 0 in K1. change (sum_signed []) with 0 in K3.
    rewrite N.add_0_r in K1, K3. done.
  Qed.
End Chain.

(** ** Non-vacuity *)
(** A second block on top of [ex_block]: 0xaaaa has sent two transactions
    before and sends another one. *)
Definition ex_tx3 : transaction :=
  Legacy (LegacyTx 2 10 100000 (Some 0xcccc) 5 [] 27 0xaaaa 1).
Definition ex_second : block :=
  default ex_genesis (ex_seal ex_next
    (Block (ex_open_header (bl_header ex_block) 200) [encode_transaction ex_tx3] [] [])).
Definition ex_after : block_chain := snd (state_transition ex_crypto ex_next ex_second).
Lemma ex_second_accepted : accepted ex_crypto ex_next ex_after [ex_second].
Proof.
  apply (ac_block _ _ ex_next [] ex_second); [constructor|].
  assert (H : fst (state_transition ex_crypto ex_next ex_second) = Done tt) by (vm_compute; done).
  unfold ex_after. rewrite <- H. by destruct (state_transition _ _ _).
Qed.
Lemma ex_second_transactions : bl_transactions ex_second = [encode_transaction ex_tx3].
Proof. vm_compute. reflexivity. Qed.
Example C91_nonvacuous :
  accepted ex_crypto ex_next ex_after [ex_second] /\ wallet (bc_state ex_next) 0xaaaa /\
  unauthorized ex_crypto 0xaaaa (concat (map bl_transactions [ex_second])) /\
  sent_all ex_crypto 1 0xaaaa (concat (map bl_transactions [ex_second])) = [ex_tx3] /\
  signed_for ex_tx3 = 1000005 /\
  balance (get_account (bc_state ex_next) 0xaaaa) - balance (get_account (bc_state ex_after) 0xaaaa) = 210005.
Proof.
  cbn [map concat]. rewrite ex_second_transactions.
  split; [apply ex_second_accepted|].
  split; [split; vm_compute; congruence|].
  split.
  { intros etx tx t Hin Hd Ht. cbn [app] in Hin. apply elem_of_list_singleton in Hin as ->.
    cbn in Hd. injection Hd as <-. by apply not_elem_of_nil in Ht. }
  split; [vm_compute; reflexivity|]. split; vm_compute; reflexivity.
Qed.

Definition PropConsent_theorems := (@C91_message, @C91_transaction, @C91_chain, @C91_safe).
Print Assumptions PropConsent_theorems.
