(** * PropCapable: a contract can only do what its code contains (C92).

    The balance, the nonce and the storage of a contract change only through
    instructions found in its own code.  Take a contract whose code has no
    CALLCODE, DELEGATECALL and SELFDESTRUCT.  Whatever other contracts run,
    and whatever transactions, system transactions and withdrawals the blocks
    contain: its code stays the same and it is not deleted; without CREATE and
    CREATE2 its nonce stays the same; without CALL, CREATE and CREATE2 its
    balance never falls; without SSTORE its storage stays the same.  Bytes that
    are the data of a PUSH do not count as instructions.  All forks since the
    merge. *)
From Verif Require Import Base State Rlp Vm Instructions Precompiles Interpreter StateSpec StateProofs
  NumericProofs ArithProofs EvmStep EvmLocal EvmPlan EvmPlanProofs EvmCallProofs EvmFrame EvmAccounts
  EvmRule PropAccounts EvmInv EvmPlain PropGas PropFees PropTx PropDelegation Trie TrieProofs PropTrie Bloom
  Transactions Blocks Requests Fork ForkProofs PropWithdrawals TxProofs PropTransaction PropChain
  EvmExamples ForkExamples PropHeader PropHistory PropConsent.
From Coq Require Import ZifyBool ZifyN ZifyNat.
Ltac Zify.zify_post_hook ::= idtac.

Local Opaque to_u256 from_be_bytes calculate_memory_gas_cost ceil32 N.compare.

(** No instruction of the code [c] is one of [os].  The instructions are the
    bytes at the boundaries of [c]: the start, and what follows an instruction
    with its push data. *)
Definition lacks (c : bytes) (os : list op) : Prop :=
  forall pc b o, boundary c pc -> nthN c pc = Some b -> decode_op b = Some o -> o ∉ os.
(** Code of a contract (not empty, not an EIP-7702 designator) that neither
    runs other code in its own name nor destroys itself. *)
Definition confined (c : bytes) : Prop :=
  c <> [] /\ (~ exists d, c = [Byte.xef; Byte.x01; Byte.x00] ++ d /\ length d = 20%nat) /\
  lacks c [CALLCODE; DELEGATECALL; SELFDESTRUCT].

(** From [s] to [s'] the contract [a] with code [c] did only what its code
    allows, except that it may have lost [p]. *)
Record bound (a : address) (c : bytes) (p : N) (s s' : state) : Prop := {
  bd_code : code (get_account s' a) = code (get_account s a);
  bd_nonce : lacks c [CREATE; CREATE2] -> nonce (get_account s' a) = nonce (get_account s a);
  bd_balance : lacks c [CALL; CREATE; CREATE2] ->
    balance (get_account s a) <= balance (get_account s' a) + p;
  bd_storage : lacks c [SSTORE] -> forall k, get_storage s' a k = get_storage s a k;
}.
Definition slots (a : address) (s s' : state) : Prop := forall k, get_storage s' a k = get_storage s a k.

Lemma bound_get a c s s' : get_account s' a = get_account s a -> slots a s s' -> bound a c 0 s s'.
Proof. intros E Hs. constructor; rewrite ?E; try done; try lia. Qed.
Lemma bound_refl a c p s : bound a c p s s.
Proof. constructor; try done; lia. Qed.
Lemma bound_trans a c p1 p2 s1 s2 s3 : bound a c p1 s1 s2 -> bound a c p2 s2 s3 -> bound a c (p1 + p2) s1 s3.
Proof.
  intros [A1 A2 A3 A4] [B1 B2 B3 B4]. constructor.
  - congruence.
  - intros H. rewrite B2, A2; done.
  - intros H. specialize (A3 H). specialize (B3 H). lia.
  - intros H k. by rewrite B4, A4.
Qed.
Lemma bound_trans0 a c p s1 s2 s3 : bound a c p s1 s2 -> bound a c 0 s2 s3 -> bound a c p s1 s3.
Proof. intros H1 H2. pose proof (bound_trans _ _ _ _ _ _ _ H1 H2) as H. by rewrite N.add_0_r in H. Qed.
Lemma bound_0trans a c p s1 s2 s3 : bound a c 0 s1 s2 -> bound a c p s2 s3 -> bound a c p s1 s3.
Proof. apply bound_trans. Qed.
Lemma bound_main a c s s' : main_trie s' = main_trie s -> storage_tries s' = storage_tries s -> bound a c 0 s s'.
Proof.
  intros H H2. apply bound_get; [by apply get_account_main|]. intros k. by apply get_storage_tries.
Qed.
Lemma bound_le a c p q s s' : bound a c p s s' -> (lacks c [CALL; CREATE; CREATE2] -> p <= q) -> bound a c q s s'.
Proof. intros [] H. constructor; try done. intros Hl. specialize (H Hl). specialize (bd_balance0 Hl). lia. Qed.

(** Changing an account does not touch the storage of an account with code. *)
Lemma modify_slots s b f s' a : modify_state s b f = Ok s' -> code (get_account s a) <> [] ->
  (b = a -> forall x y, f x = Ok y -> code y = code x) -> slots a s s'.
Proof.
  intros H Hc Hf k. destruct (modify_state_storages _ _ _ _ H) as [E|(_ & Hem & E)]; [by apply get_storage_tries|].
  destruct (decide (b = a)) as [->|Hne].
  - apply (Hf eq_refl) in Hem. by rewrite <- Hem in Hc.
  - rewrite !get_storage_slot, E. unfold slot_of. by rewrite lookup_delete_ne.
Qed.
Lemma slots_trans a s1 s2 s3 : slots a s1 s2 -> slots a s2 s3 -> slots a s1 s3.
Proof. intros H1 H2 k. by rewrite H2. Qed.
Lemma balance_slots s b n s' a : set_account_balance s b n = Ok s' -> code (get_account s a) <> [] -> slots a s s'.
Proof. intros H Hc. eapply modify_slots; [exact H|done|]. intros _ x y [= <-]. done. Qed.
Lemma nonce_slots s b s' a : increment_nonce s b = Ok s' -> code (get_account s a) <> [] -> slots a s s'.
Proof. intros H Hc. eapply modify_slots; [exact H|done|]. intros _ x y [= <-]. done. Qed.
Lemma code_slots s b c s' a : set_code s b c = Ok s' -> code (get_account s a) <> [] -> b <> a -> slots a s s'.
Proof. intros H Hc Hne. eapply modify_slots; [exact H|done|]. done. Qed.
Lemma move_slots s b d n s' a : move_ether s b d n = Ok s' -> code (get_account s a) <> [] -> slots a s s'.
Proof.
  intros H Hc. unfold move_ether in H. destruct (modify_state s b _) as [s1|] eqn:E; [|done].
  assert (Hf1 : forall x y, reduce_sender_balance n x = Ok y -> code y = code x).
  { intros x y. unfold reduce_sender_balance. destruct (_ <? _); [done|]. by intros [= <-]. }
  assert (Hf2 : forall x y, increase_recipient_balance n x = Ok y -> code y = code x).
  { intros x y. unfold increase_recipient_balance. destruct (_ <? _); [|done]. by intros [= <-]. }
  assert (Hk : same_code s s1).
  { eapply modify_state_same; [exact E|]. intros x y. unfold reduce_sender_balance.
    destruct (_ <? _); [done|]. intros [= <-]. cbn. split; [lia|done]. }
  eapply slots_trans; eapply modify_slots; eauto. by rewrite Hk.
Qed.

Lemma set_balance_bound s b n s' a c : set_account_balance s b n = Ok s' -> code (get_account s a) <> [] ->
  b <> a \/ balance (get_account s b) <= n -> bound a c 0 s s'.
Proof.
  intros H Hc Hn. destruct (set_balance_kept _ _ _ _ a H Hn). constructor; try done; try lia.
  intros _. by eapply balance_slots.
Qed.
Lemma transfer_bound a c m w s : transfer m w = Ok s -> code (get_account (st w) a) <> [] ->
  bound a c (paid a m) (st w) s.
Proof.
  intros H Hc. destruct (transfer_kept a _ _ _ H). constructor; try done; try lia. intros _.
  revert H. unfold transfer. destruct (_ && _); [|by intros [= <-]]. intros H. by eapply move_slots.
Qed.
(** An instruction. *)
Lemma effect_bound f o e w e' w' a c : effect f o e w e' w' -> code (get_account (st w) a) <> [] ->
  (m_current_target (e_message e) = a -> o <> SELFDESTRUCT /\ forall os, lacks c os -> o ∉ os) ->
  (a ∈ e_accounts_to_delete e' -> a ∈ e_accounts_to_delete e) /\ bound a c 0 (st w) (st w').
Proof.
  intros He Hc Hin. destruct He as [Hw _ Hd|? ? ? ? Ho _ _ Hs Hw _ _ Hd _|? ? _ _ Hw _ Hd _|b s1 ? Ho _ _ Hm Hd Hw
    |b sum s1 s' Ho _ _ Hsum Ha Hb Hw _ Hd|? Ho _ Hn Hw _ _ Hd]; subst w'; cbn [st set_st set_ts].
  - rewrite Hd. split; [done|]. apply bound_refl.
  - rewrite Hd. split; [done|]. apply set_storage_inv in Hs as [_ ->]. constructor; try done; [intros _; cbn; change (get_account (set_storages _ _) a) with (get_account (st w) a); lia|].
    intros Hl k. rewrite !get_storage_slot. cbn. rewrite slot_of_set.
    destruct (decide _) as [[Ht _]|]; [|done]. destruct (Hin Ht) as [_ H]. apply H in Hl. subst o. set_solver.
  - rewrite Hd. split; [done|]. apply bound_refl.
  - assert (Ht : m_current_target (e_message e) <> a) by (intros Ht; by destruct (Hin Ht)).
    assert (K : bound a c 0 (st w) s1).
    { assert (Hsl := move_slots _ _ _ _ _ a Hm Hc). pose proof (move_ether_get _ _ _ _ _ Hm a) as G.
      destruct (decide (m_current_target (e_message e) = b)); [by apply bound_get|].
      rewrite decide_False in G by done.
      destruct (decide (a = b)) as [->|]; [|by apply bound_get].
      constructor; rewrite ?G; cbn; try done; lia. }
    destruct Hd as [(_ & Hd & ->)|(_ & -> & ->)]; [|done]. split; [set_solver|].
    eapply bound_trans0; [exact K|]. eapply set_balance_bound; [exact Hd| |by left].
    by rewrite (bd_code _ _ _ _ _ K).
  - assert (Ht : m_current_target (e_message e) <> a) by (intros Ht; by destruct (Hin Ht)).
    apply to_u256_inv in Hsum as [-> _]. rewrite Hd. split; [set_solver|].
    assert (K : bound a c 0 (st w) s1) by (eapply set_balance_bound; [exact Ha|done|right; lia]).
    eapply bound_trans0; [exact K|].
    eapply set_balance_bound; [exact Hb| |by left]. by rewrite (bd_code _ _ _ _ _ K).
  - rewrite Hd. split; [done|]. pose proof (increment_nonce_get _ _ _ Hn a) as G.
    assert (Hsl := nonce_slots _ _ _ a Hn Hc).
    destruct (decide _) as [Ht|]; [|by apply bound_get].
    destruct (Hin Ht) as [_ H]. constructor; rewrite ?G, ?Ht; cbn; try done; try lia.
    intros Hl. apply H in Hl. destruct Ho; subst o; set_solver.
Qed.

Lemma commit_bound a c w w' : commit_transaction w = Ok w' -> bound a c 0 (st w) (st w').
Proof. intros (H1 & H2 & _)%commit_same. by apply bound_main. Qed.
Lemma create_entry_slots w b w3 a : create_entry w b = Ok w3 -> code (get_account (st w) a) <> [] -> b <> a ->
  slots a (st w) (st w3).
Proof.
  unfold create_entry. destruct (increment_nonce _ _) as [s|] eqn:E; [|done]. intros [= <-] Hc Hne k. cbn.
  assert (Hg : get_account (mark_account_created (destroy_storage (st (begin_transaction w)) b) b) a
    = get_account (st w) a).
  { apply get_account_main. cbn. by rewrite destroy_storage_main. }
  apply (nonce_slots _ _ _ a) in E; [|by rewrite Hg]. rewrite E. rewrite !get_storage_slot. cbn.
  rewrite destroy_storage_storages. unfold slot_of. by rewrite lookup_delete_ne.
Qed.
Lemma confined_resolved be w a c ca d c' : confined c -> code (get_account (st w) a) = c ->
  resolved be w a c' ca d -> c' = c.
Proof.
  intros (_ & Hd & _) Hc. unfold resolved, get_delegated_code_address. rewrite Hc.
  destruct (at_least Prague (b_fork be)); [|by intros (_ & _ & ->)].
  destruct (is_valid_delegation c) eqn:E; [by apply valid_delegation_spec in E|]. by intros (_ & _ & ->).
Qed.

Section Frame.
  Context (cr : crypto) (be : block_env) (te : tx_env) (a : address) (c : bytes).
  Context (Hcon : confined c).
  Notation pm := (process_message cr be te).
  Notation pcm := (process_create_message cr be te).

  Definition unabused (m : message) (w0 : world) (e : evm) (w : world) : Prop :=
    bound a c (paid a m) (st w0) (st w) /\ (e_error e = None -> a ∉ e_accounts_to_delete e).

  Lemma capable_rule : frame_rule cr be te
    (fun m w => code (get_account (st w) a) = c /\ (m_current_target m = a -> m_code m = c))
    (fun m w => code (get_account (st w) a) = c /\ m_current_target m <> a)
    (fun m w0 e w => (bound a c (paid a m) (st w0) (st w) /\ a ∉ e_accounts_to_delete e) /\
       (e_running e = true -> boundary (e_code e) (e_pc e)))
    unabused unabused.
  Proof.
    pose proof (rule_boundary cr be te) as RB.
    assert (Hne : forall s, code (get_account s a) = c -> code (get_account s a) <> []).
    { intros s ->. apply Hcon. }
    assert (Hop : forall m w0 e w o, fstruct m w0 e w -> at_op e o ->
      (m_current_target m = a -> m_code m = c) -> (e_running e = true -> boundary (e_code e) (e_pc e)) ->
      m_current_target (e_message e) = a -> forall os, lacks c os -> o ∉ os).
    { intros m w0 e w o Hf (Hr & _ & b & Hb & Hd) Hc HB Ht os Hl. specialize (HB Hr).
      rewrite (fs_msg _ _ _ _ Hf) in Ht. rewrite (fs_code _ _ _ _ Hf), (Hc Ht) in Hb, HB. by eapply Hl. }
    assert (Hcf : forall o, (forall os, lacks c os -> o ∉ os) ->
      o <> CALLCODE /\ o <> DELEGATECALL /\ o <> SELFDESTRUCT).
    { intros o H. destruct Hcon as (_ & _ & Hl). apply H in Hl. split_and!; intros ->; apply Hl; set_solver. }
    constructor; unfold unabused.
    - intros m w s1 [Hp _] Hs Ht. split; [|by eapply (r_start _ _ _ _ _ _ _ _ RB)].
      split; [|apply not_elem_of_empty].
      apply (transfer_bound a c) in Ht; [|apply (Hne _ Hp)]. eapply bound_0trans; [|exact Ht]. by apply bound_main.
    - intros m w0 w e' Hp Hs [HI HB] Hpre. split.
      + destruct Hpre as (_ & -> & _). done.
      + eapply (r_pre _ _ _ _ _ _ _ _ RB); [exact I|exact Hs|exact HB|exact Hpre].
    - intros m w0 e w o e' w' [Hc0 Hc] Hf [[HI1 HI2] HB] Ho Hd Hps. split.
      2:{ exact (r_done _ _ _ _ _ _ _ _ RB m w0 e w o e' w' I Hf HB Ho Hd Hps). }
      destruct Hd as [_ He].
      assert (Hcw : code (get_account (st w) a) = c) by (by rewrite (bd_code _ _ _ _ _ HI1)).
      destruct (effect_bound _ _ _ _ _ _ a c He (Hne _ Hcw)) as [D1 D2].
      { intros Ht. pose proof (Hop _ _ _ _ _ Hf Ho Hc HB Ht) as H. split; [|done]. by destruct (Hcf _ H) as (_ & _ & ?). }
      split; [by eapply bound_trans0|]. auto.
    - intros m w0 e w o m' e1 os oz [Hc0 Hc] Hf [[HI1 HI2] HB] Ho Hk.
      pose proof (Hop _ _ _ _ _ Hf Ho Hc HB) as Hlk.
      assert (Hcw : code (get_account (st w) a) = c) by (by rewrite (bd_code _ _ _ _ _ HI1)).
      assert (Hp0 : lacks c [CALL; CREATE; CREATE2] -> paid a m' = 0).
      { intros Hl. pose proof (co_kind _ _ _ _ _ _ _ _ Hk) as Hkind.
        unfold paid. destruct (decide _) as [[D1 D2]|]; [|done].
        destruct o; try done.
        - destruct Hkind as (K & _). rewrite K in D1. exfalso. apply (Hlk D1 _ Hl). set_solver.
        - destruct Hkind as (K & _). rewrite K in D1. exfalso. by destruct (Hcf _ (Hlk D1)).
        - destruct Hkind as (_ & _ & K & _). congruence.
        - by destruct Hkind as (_ & _ & _ & K). }
      destruct (r_call _ _ _ _ _ _ _ _ RB m w0 e w o m' e1 os oz I Hf HB Ho Hk) as [_ RB'].
      split.
      + split; [done|]. intros Ht.
        destruct (co_code _ _ _ _ _ _ _ _ Hk) as (b & ca & _ & Hr & _ & _ & Hb).
        pose proof (co_kind _ _ _ _ _ _ _ _ Hk) as Hkind.
        destruct o; try done.
        * rewrite Ht in Hb. rewrite <- Hb in Hr by (by left). by eapply confined_resolved.
        * destruct Hkind as (_ & K & _). rewrite Ht in K. by destruct (Hcf _ (Hlk (eq_sym K))).
        * destruct Hkind as (_ & K & _). rewrite Ht in K. by destruct (Hcf _ (Hlk (eq_sym K))) as (_ & ? & _).
        * rewrite Ht in Hb. rewrite <- Hb in Hr by (by right). by eapply confined_resolved.
      + intros ch w1 e2 w2 Hs1 [Hp1 Hp2] Hr Hs2. split; [|exact (RB' ch w1 e2 w2 Hs1 I Hr Hs2)].
        apply resume_call_del in Hr as [-> Hr].
        split.
        { eapply bound_trans0; [exact HI1|]. eapply bound_le; [exact Hp1|]. intros Hl. rewrite Hp0; [lia|done]. }
        rewrite Hr, (wa_del _ _ _ _ (co_wait _ _ _ _ _ _ _ _ Hk)).
        intros [Ha|Ha]%elem_of_union; [auto|]. destruct (e_error ch); [clear -Ha; set_solver|by apply Hp2].
    - intros m w0 e w o m' e1 wi [Hc0 Hc] Hf [[HI1 HI2] HB] Ho Hk.
      pose proof (Hop _ _ _ _ _ Hf Ho Hc HB) as Hlk.
      assert (Hcw : code (get_account (st w) a) = c) by (by rewrite (bd_code _ _ _ _ _ HI1)).
      destruct (r_create _ _ _ _ _ _ _ _ RB m w0 e w o m' e1 wi I Hf HB Ho Hk) as [_ RB'].
      destruct (cr_nonce _ _ _ _ _ _ _ _ Hk) as (s1 & Hn & Hwi).
      pose proof (cr_op _ _ _ _ _ _ _ _ Hk) as Hoc.
      assert (K1 : bound a c 0 (st w) s1).
      { pose proof (increment_nonce_get _ _ _ Hn a) as G. assert (Hsl := nonce_slots _ _ _ a Hn (Hne _ Hcw)).
        destruct (decide _) as [Ht|]; [|by apply bound_get].
        constructor; rewrite ?G, ?Ht; cbn; try done; try lia.
        intros Hl. apply (Hlk Ht) in Hl. destruct Hoc; subst o; set_solver. }
      assert (Hp0 : lacks c [CALL; CREATE; CREATE2] -> paid a m' = 0).
      { intros Hl. unfold paid. rewrite (cr_caller _ _ _ _ _ _ _ _ Hk). destruct (decide _) as [[D1 D2]|]; [|done].
        apply (Hlk D1) in Hl. destruct Hoc; subst o; set_solver. }
      split.
      + subst wi. cbn. split; [by rewrite (bd_code _ _ _ _ _ K1)|].
        intros Ht. destruct (cr_fresh _ _ _ _ _ _ _ _ Hk) as [Hfr _]. rewrite Ht in Hfr.
        assert (solid (st w) a) as Hso%solid_spec by (right; by apply Hne). congruence.
      + intros ch w1 e2 w2 Hs1 [Hp1 Hp2] Hr Hs2. split; [|exact (RB' ch w1 e2 w2 Hs1 I Hr Hs2)].
        subst wi. apply resume_create_del in Hr as [-> Hr]. split.
        { eapply bound_trans0; [exact HI1|]. eapply bound_0trans; [exact K1|].
          eapply bound_le; [exact Hp1|]. intros Hl. rewrite Hp0; [lia|done]. }
        rewrite Hr, (wa_del _ _ _ _ (cr_wait _ _ _ _ _ _ _ _ Hk)).
        intros [Ha|Ha]%elem_of_union; [auto|]. destruct (e_error ch); [clear -Ha; set_solver|by apply Hp2].
    - intros m w0 e w [Hp _] Hps He _. split; [|done].
      destruct (e_error e) as [x|] eqn:E; [|done].
      destruct (ps_fail _ _ _ _ Hps x E) as [[] _].
      eapply bound_le; [by apply bound_main|]. intros _. lia.
    - intros m w0 e w w3 _ _ [[HI1 HI2] _] Hc _.
      split; [|done]. eapply bound_trans0; [exact HI1|]. by apply commit_bound.
    - intros m w w3 [Hp1 Hp2] He. pose proof (create_entry_get _ _ _ He a) as G.
      rewrite decide_False in G by done. split; [|done]. by rewrite G.
    - intros m w w3 e w4 e' w5 [Hp1 Hp2] _ _ _ _ _ [] He _. split; [|done].
      eapply bound_le; [by apply bound_main|]. intros _. lia.
    - intros m w w3 e w4 e' s5 w6 [Hp1 Hp2] He3 Hps [Hpo Hpd] He Hd Hs Hc _.
      apply (commit_bound a c) in Hc. split.
      + pose proof (create_entry_get _ _ _ He3 a) as G3. rewrite decide_False in G3 by done.
        pose proof (create_entry_slots _ _ _ a He3 (Hne _ Hp1) Hp2) as S3.
        pose proof (set_code_get _ _ _ _ Hs a) as G. rewrite decide_False in G by done.
        assert (code (get_account (st w4) a) <> []) as Hc4.
        { apply Hne. by rewrite (bd_code _ _ _ _ _ Hpo), G3. }
        pose proof (code_slots _ _ _ _ a Hs Hc4 Hp2) as S5.
        eapply bound_0trans; [by apply bound_get|]. eapply bound_trans0; [exact Hpo|].
        eapply bound_trans0; [by apply bound_get|exact Hc].
      + destruct (deposit_code_eq _ _ _ Hd) as (g & _ & ->). intros _. destruct e; cbn in *. auto.
  Qed.

  (** A message call, with everything it calls.  It may take from [a] the value
      it was sent with, if [a] is its caller. *)
  Theorem C92_message m w e w' : pm m w = PRet e w' -> code (get_account (st w) a) = c ->
    (m_current_target m = a -> m_code m = c) ->
    code (get_account (st w') a) = c /\ (e_error e = None -> a ∉ e_accounts_to_delete e) /\
    (lacks c [CREATE; CREATE2] -> nonce (get_account (st w') a) = nonce (get_account (st w) a)) /\
    (lacks c [CALL; CREATE; CREATE2] -> balance (get_account (st w) a) <= balance (get_account (st w') a)
       + (if decide (m_caller m = a /\ m_should_transfer_value m = true) then m_value m else 0)) /\
    (lacks c [SSTORE] -> forall k, get_storage (st w') a k = get_storage (st w) a k).
  Proof.
    intros H Hp Hc.
    destruct (rule_message _ _ _ _ _ _ _ _ _ _ _ _ capable_rule (conj Hp Hc) H) as [_ [[K1 K2 K3 K4] Hd]].
    split_and!; [congruence|done..].
  Qed.

  (** ** The call of a transaction *)
  Lemma authorizations_bound l : forall s acc r s' acc' r', code (get_account s a) = c ->
    set_delegation_loop cr be (s, acc, r) l = Ok (s', acc', r') ->
    get_account s' a = get_account s a /\ slots a s s'.
  Proof.
    induction l as [|t l IH]; intros s acc r s' acc' r' Hc; cbn [set_delegation_loop].
    { intros [= <- _ _]. done. }
    destruct (set_delegation_step _ _ _ t) as [[[s1 acc1] r1]|] eqn:E; [|done].
    assert (get_account s1 a = get_account s a /\ slots a s s1) as [G1 S1].
    { pose proof (delegation_step _ _ _ _ _ _ _ _ _ E) as D. split.
      { apply (de_code _ _ D). destruct Hcon as (? & ? & _). split; by rewrite Hc. }
      revert E. unfold set_delegation_step. destruct (negb _); [by intros [= <- _ _]|].
      destruct (_ <=? _); [by intros [= <- _ _]|].
      destruct (recover_authority _ _) as [au|]; [|by intros [= <- _ _]].
      destruct (negb (bytes_eqb (code (get_account s au)) []) && _) eqn:Ed; [by intros [= <- _ _]|].
      destruct (nonce (get_account s au) =? a_nonce t); cbn [negb]; [|by intros [= <- _ _]].
      destruct (if account_exists s au then _ else _) as [rc|]; [|done].
      destruct (set_code _ _ _) as [s2|] eqn:E1; [|done].
      destruct (increment_nonce _ _) as [s3|] eqn:E2; [|done]. intros [= <- _ _].
      assert (Hne : au <> a).
      { intros ->. apply delegable_spec in Ed. apply real_code_not_delegable in Ed; [done|].
        destruct Hcon as (? & ? & _). split; by rewrite Hc. }
      assert (Hc0 : code (get_account s a) <> []) by (rewrite Hc; apply Hcon).
      pose proof (set_code_get _ _ _ _ E1 a) as G. rewrite decide_False in G by done.
      eapply slots_trans; [by eapply code_slots|]. eapply nonce_slots; [exact E2|]. by rewrite G. }
    intros H. apply IH in H as [G2 S2]; [|by rewrite G1]. split; [congruence|]. by eapply slots_trans.
  Qed.

  Lemma call_bound m s o s' : call_message cr be te m s = (Done o, s') -> code (get_account s a) = c ->
    (m_target m <> None -> m_code_address m = Some (m_current_target m)) ->
    (m_target m <> None -> m_current_target m = a -> m_code m = c) ->
    bound a c (paid a m) s s' /\ a ∉ o_accounts_to_delete o.
  Proof.
    unfold Fork.call_message. destruct (process_message_call _ _ _ _ _) as [o1 w'|] eqn:H; [|done].
    intros [= <- <-] Hw Hca Hcode.
    assert (Hfin : forall r e, finish_call r e w' = MCRet o1 w' ->
      (e_error e = None -> a ∉ e_accounts_to_delete e) -> a ∉ o_accounts_to_delete o1).
    { intros r e Hf Hd. apply finish_cases in Hf as (_ & _ & _ & _ & Hf).
      destruct (e_error e); destruct Hf as (_ & -> & _); [apply not_elem_of_empty|by apply Hd]. }
    change (code (get_account (st (World s empty_transient)) a) = c) in Hw.
    apply call_cases in H as [(_ & _ & -> & ->)|[(_ & Hc & _ & e & He & Hf)|(Ht & r & m1 & m2 & w1 & e & Hd & _ & _ & Hm & _ & Hg & He & Hf)]].
    - split; [|apply not_elem_of_empty]. apply bound_refl.
    - assert (m_current_target m <> a) as Hne.
      { intros E. rewrite E in Hc.
        assert (solid (st (World s empty_transient)) a) as Hso%solid_spec
          by (right; rewrite Hw; apply Hcon). congruence. }
      destruct (rule_create _ _ _ _ _ _ _ _ _ _ _ _ capable_rule (conj Hw Hne) He) as [_ [K Kd]].
      split; [exact K|by eapply Hfin].
    - specialize (Hca Ht). specialize (Hcode Ht).
      assert (get_account (st w1) a = get_account s a /\ slots a s (st w1) /\
        (m_current_target m1 = a -> m_code m1 = c) /\
        m_current_target m1 = m_current_target m /\ paid a m1 = paid a m) as (G & S1 & Hc1 & Ht1 & Hp1).
      { destruct Hd as [(_ & _ & -> & ->)|(_ & _ & Hd)]; [done|].
        assert (get_account (st w1) a = get_account s a /\ slots a s (st w1)) as [G S1].
        { revert Hd. unfold set_delegation.
          destruct (set_delegation_loop _ _ _ _) as [[[s1 acc] rc]|] eqn:E; [|done].
          destruct (m_code_address m) as [ca|]; [|done]. intros [= _ _ <-].
          by apply authorizations_bound in E. }
        apply set_delegation_facts in Hd as (_ & _ & ca & acc & Hca' & ->).
        split; [done|]. split; [done|]. rewrite Hca in Hca'. injection Hca' as <-. split_and!; [|done..].
        cbn. intros ->. rewrite G. exact Hw. }
      assert (Hw1 : code (get_account (st w1) a) = c) by (by rewrite G).
      assert ((m_current_target m2 = a -> m_code m2 = c) /\ paid a m2 = paid a m1) as [Hc2 Hp2].
      { destruct Hm as [[-> _]|(x & _ & Hx & ->)]; [done|]. split; [|done]. cbn.
        intros E. rewrite (Hc1 E) in Hx. unfold get_delegated_code_address in Hx.
        destruct (is_valid_delegation c) eqn:Ev; [|done]. apply valid_delegation_spec in Ev.
        by destruct Hcon as (_ & ? & _). }
      destruct (rule_message _ _ _ _ _ _ _ _ _ _ _ _ capable_rule (conj Hw1 Hc2) He) as [_ [K Kd]].
      split; [|by eapply Hfin]. rewrite <- Hp1, <- Hp2. eapply bound_0trans; [|exact K]. by apply bound_get.
  Qed.
End Frame.

(** ** Transactions, blocks, chains *)
Lemma destroy_slots a b s : b <> a -> slots a s (destroy_account s b).
Proof.
  intros Hne k. rewrite !get_storage_slot. unfold destroy_account.
  rewrite set_account_storages, destroy_storage_storages. unfold slot_of. by rewrite lookup_delete_ne.
Qed.
Lemma destroys_slots a l : forall s, a ∉ l -> slots a s (fold_left destroy_account l s).
Proof.
  induction l as [|b l IH]; intros s Hn; [done|]. apply not_elem_of_cons in Hn as [H1 H2]. cbn [fold_left].
  eapply slots_trans; [by apply destroy_slots|by apply IH].
Qed.
Lemma refund_slots b n s u s' a : refund_sender b n s = (Done u, s') -> code (get_account s a) <> [] -> slots a s s'.
Proof.
  unfold refund_sender. intros H Hc. sm_step H. sm_step H. sm_step H. sm_step H. by eapply balance_slots.
Qed.
Lemma coinbase_slots be n s u s' a : pay_coinbase be n s = (Done u, s') -> code (get_account s a) <> [] -> slots a s s'.
Proof.
  unfold pay_coinbase. intros H Hc. sm_step H. sm_step H. sm_step H.
  destruct (negb (_ =? 0)); sm_step H.
  - by eapply balance_slots.
  - injection H as <-. destruct (account_exists_and_is_empty s (b_coinbase be)) eqn:Ee; [|done].
    apply destroy_slots. intros <-. revert Ee Hc. unfold account_exists_and_is_empty, get_account.
    destruct (get_account_optional s (b_coinbase be)) as [acc|]; [|done].
    change (account_is_empty acc = true -> code acc <> [] -> False). rewrite account_is_empty_spec. by intros ->.
Qed.

Section Block.
  Context (cr : crypto) (be : block_env) (a : address) (c : bytes).
  Context (Hcon : confined c).

  (** [process_transaction_run], with what becomes of the storage of accounts
      with code. *)
  Lemma run_slots bo tx i s bo' s' :
    process_transaction cr be bo tx i s = (Done bo', s') ->
    exists t, tx_run cr be bo tx i s t bo' s' /\
      (code (get_account (tr_s2 t) a) <> [] -> slots a (tr_s2 t) (tr_s4 t)).
  Proof using.
    unfold process_transaction. intros H.
    sm_step H. destruct v as [intrinsic floor]. sm_step H. sm_step H.
    destruct v as [[[sender price] hashes] blob_gas]. sm_step H. sm_step H. rename v into blob_fee.
    sm_step H. apply usub_inv in E2 as [Hgas ->]. sm_step H. rename s0 into s1.
    destruct (access_list_of be tx) as [aa ak] eqn:Eal.
    sm_step H. sm_step H. sm_step H. rename s0 into s2, v0 into m, v1 into o.
    sm_step H. rename v0 into used. sm_step H. apply usub_inv in E6 as [Hu ->].
    sm_step H. apply usub_inv in E6 as [Hb ->].
    sm_step H. rename s0 into s3. sm_step H. rename s0 into s4. sm_step H. rename s0 into s5.
    sm_step H. apply u64_inv in E9 as [_ ->]. apply sret_inv in H as [<- ->].
    assert (HS : code (get_account s2 a) <> [] -> slots a s2 s4).
    { intros Hc. eapply slots_trans; [by eapply refund_slots|]. eapply coinbase_slots; [exact E7|].
      apply refund_facts in E6 as (R1 & _). rewrite R1. by destruct (decide _). }
    apply (charge_facts _ _ _ _ _ _ _ eq_refl) in E2 as (C1 & C2 & C3 & C4 & C5).
    apply refund_facts in E6 as (R1 & R2 & [R3 R4] & R5).
    apply coinbase_facts in E7 as (P1 & P2 & [P3 P4] & P5).
    unfold delete_accounts in E8. apply modifies_inv in E8. injection E8 as <-.
    eexists (TxTrace intrinsic floor sender price hashes blob_gas blob_fee _ m o used s1 s2 s3 s4).
    split; cycle 1; [exact HS|].
    constructor; cbn [tr_intrinsic tr_floor tr_sender tr_price tr_hashes tr_blob_gas tr_blob_fee
      tr_te tr_message tr_output tr_used tr_s1 tr_s2 tr_s3 tr_s4];
      try eassumption; try done.
    - by rewrite Eal.
    - split; congruence.
  Qed.

  Lemma transaction_bound bo tx i s bo' s' :
    process_transaction cr be bo tx i s = (Done bo', s') ->
    code (get_account s a) = c -> bound a c 0 s s'.
  Proof.
    intros H Hcode. destruct (run_slots _ _ _ _ _ _ H) as [t [R RS]].
    pose proof (run_get _ _ _ _ _ _ _ _ _ R a) as G.
    destruct (run_get4 _ _ _ _ _ _ _ _ _ R a) as (N4 & C4 & B4).
    destruct (run_get1 _ _ _ _ _ _ _ _ _ R a) as (N1 & C1 & B1).
    pose proof (tr_check _ _ _ _ _ _ _ _ _ R) as Hc. apply C36_accepts in Hc as [[] _].
    assert (Hse : tr_sender t <> a).
    { intros E. rewrite E in ac_code. apply may_send_delegable in ac_code.
      apply real_code_not_delegable in ac_code; [done|].
      destruct Hcon as (? & ? & _). split; by rewrite Hcode. }
    assert (Hw : code (get_account (tr_s1 t) a) = c) by congruence.
    assert (Hm : m_caller (tr_message t) = tr_sender t /\
      (m_target (tr_message t) <> None ->
        m_code_address (tr_message t) = Some (m_current_target (tr_message t)) /\
        m_code (tr_message t) = code (get_account (tr_s1 t) (m_current_target (tr_message t))))).
    { pose proof (tr_prepare _ _ _ _ _ _ _ _ _ R) as Hm. revert Hm. unfold prepare_message.
      destruct (tr_env _ _ _ _ _ _ _ _ _ R) as (Ho & _).
      destruct (tx_to tx) as [to|].
      - intros [= <-]. cbn. done.
      - intros (x & _ & E)%obind_inv. injection E as <-. cbn. done. }
    destruct Hm as (M1 & M3).
    destruct (call_bound _ _ _ a c Hcon _ _ _ _ (tr_call _ _ _ _ _ _ _ _ _ R) Hw) as [[K1 K2 K3 K4] Kd].
    { intros Ht. by destruct (M3 Ht). }
    { intros Ht E. destruct (M3 Ht) as [_ ->]. by rewrite E. }
    rewrite decide_False in G by done. rewrite decide_False in N1, B1, B4 by done.
    assert (RS' : slots a (tr_s2 t) (tr_s4 t)) by (apply RS; rewrite K1, Hw; apply Hcon).
    unfold paid in K3. rewrite M1, decide_False in K3 by naive_solver.
    constructor; rewrite ?G.
    - congruence.
    - intros Hl. rewrite N4, K2 by done. lia.
    - intros Hl. specialize (K3 Hl). rewrite B4. clear -B1 K3.
      generalize (if decide (b_coinbase be = a) then tr_used t * (tr_price t - b_base_fee_per_gas be) else 0).
      lia.
    - intros Hl k. rewrite (tr_end _ _ _ _ _ _ _ _ _ R).
      rewrite (destroys_slots a) by (by rewrite elem_of_elements).
      rewrite RS', K4 by done. by apply get_storage_tries, (tr_sto1 _ _ _ _ _ _ _ _ _ R).
  Qed.

  (** A transaction, whoever sent it: [a] cannot be its sender. *)
  Theorem C92_transaction bo tx i s bo' s' :
    process_transaction cr be bo tx i s = (Done bo', s') -> code (get_account s a) = c ->
    code (get_account s' a) = c /\
    (lacks c [CREATE; CREATE2] -> nonce (get_account s' a) = nonce (get_account s a)) /\
    (lacks c [CALL; CREATE; CREATE2] -> balance (get_account s a) <= balance (get_account s' a)) /\
    (lacks c [SSTORE] -> forall k, get_storage s' a k = get_storage s a k).
  Proof.
    intros H Hc. destruct (transaction_bound _ _ _ _ _ _ H Hc) as [K1 K2 K3 K4].
    split_and!; [congruence|done| |done]. intros Hl. specialize (K3 Hl). lia.
  Qed.

  (** ** The other parts of a block *)
  Lemma system_bound target data s o s' :
    process_system_transaction cr be target (code (get_account s target)) data s = (Done o, s') ->
    code (get_account s a) = c -> bound a c 0 s s'.
  Proof.
    unfold process_system_transaction. intros H Hw. apply (call_bound _ _ _ a c Hcon) in H as [K _]; [|done|done|].
    - unfold paid in K. cbn in K. destruct (decide _) as [[_ ?]|]; done.
    - cbn. by intros _ ->.
  Qed.
  Lemma unchecked_bound target data s o s' :
    process_unchecked_system_transaction cr be target data s = (Done o, s') ->
    code (get_account s a) = c -> bound a c 0 s s'.
  Proof. unfold process_unchecked_system_transaction. intros H. sm_step H. by eapply system_bound. Qed.
  Lemma checked_bound target data s o s' :
    process_checked_system_transaction cr be target data s = (Done o, s') ->
    code (get_account s a) = c -> bound a c 0 s s'.
  Proof.
    unfold process_checked_system_transaction. intros H. sm_step H. sm_step H. sm_step H. sm_step H.
    apply sret_inv in H as [-> ->]. by eapply system_bound.
  Qed.
  Lemma bound_confined p s s' : bound a c p s s' -> code (get_account s a) = c -> code (get_account s' a) = c.
  Proof using. intros [] ?. congruence. Qed.
  Lemma requests_bound bo s bo' s' :
    process_general_purpose_requests cr be bo s = (Done bo', s') -> code (get_account s a) = c -> bound a c 0 s s'.
  Proof.
    unfold process_general_purpose_requests. intros H Hs. sm_step H. cbn zeta in H. sm_step H. sm_step H.
    apply sret_inv in H as [<- ->].
    apply checked_bound in E0 as G1; [|done]. apply checked_bound in E1 as G2; [|by eapply bound_confined].
    by eapply bound_trans0.
  Qed.
  Lemma withdrawals_bound bo wds i s bo' s' :
    process_withdrawals bo wds i s = (Done bo', s') -> code (get_account s a) = c -> bound a c 0 s s'.
  Proof.
    intros H Hc. destruct (withdrawals_kept a _ _ _ _ _ _ H). constructor; [done|lia|done|].
    intros _. clear k_nonce k_code k_balance.
    revert bo i s H Hc. induction wds as [|w wds IH]; intros bo i s H Hc.
    { by apply sret_inv in H as [_ ->]. }
    apply withdrawal_step in H as (s1 & E & H).
    pose proof E as E'. apply modify_state_inv in E' as (acc & Hf & _).
    pose proof (modify_state_get _ _ _ _ _ E Hf a) as G. pose proof (credit_inv _ _ _ Hf) as [-> _]. clear Hf.
    assert (Hc1 : code (get_account s1 a) = c).
    { rewrite G. destruct (decide _) as [<-|]; done. }
    assert (Hs1 : slots a s1 s') by (intros k; by eapply IH). change (slots a s s').
    eapply slots_trans; [|exact Hs1]. eapply modify_slots; [exact E|rewrite Hc; apply Hcon|].
    intros _ x y Hf. by apply credit_inv in Hf as [-> _].
  Qed.
  Lemma transactions_bound bo txs i s bo' s' :
    process_transactions cr be bo txs i s = (Done bo', s') -> code (get_account s a) = c -> bound a c 0 s s'.
  Proof.
    revert bo i s. induction txs as [|etx txs IH]; intros bo i s H Hw.
    { apply sret_inv in H as [-> ->]. apply bound_refl. }
    cbn [process_transactions] in H. sm_step H. rename v into tx. sm_step H. rename v into bo1, s0 into s1.
    apply transaction_bound in E0 as K; [|done]. apply IH in H; [|by eapply bound_confined].
    by eapply bound_trans0.
  Qed.
  Lemma body_bound txs wds s bo s' :
    apply_body cr be txs wds s = (Done bo, s') -> code (get_account s a) = c -> bound a c 0 s s'.
  Proof.
    intros H Hw. apply apply_body_inv in H as (s1 & s2 & bo1 & s3 & bo2 & s4 & E1 & E2 & E3 & E4 & E5).
    assert (bound a c 0 s s1) as K1.
    { destruct (at_least Cancun (b_fork be)); [|subst s1; apply bound_refl].
      destruct E1 as (o & E1). by eapply unchecked_bound. }
    pose proof (bound_confined _ _ _ K1 Hw) as W1.
    assert (bound a c 0 s1 s2) as K2.
    { destruct (at_least Prague (b_fork be)); [|subst s2; apply bound_refl].
      destruct E2 as (h & o & _ & E2). by eapply unchecked_bound. }
    pose proof (bound_confined _ _ _ K2 W1) as W2.
    apply transactions_bound in E3 as K3; [|done].
    pose proof (bound_confined _ _ _ K3 W2) as W3.
    assert (bound a c 0 s3 s4) as K4.
    { destruct (at_least Shanghai (b_fork be)); [|destruct E4 as [_ ->]; apply bound_refl].
      by eapply withdrawals_bound. }
    pose proof (bound_confined _ _ _ K4 W3) as W4.
    assert (bound a c 0 s4 s') as K5.
    { destruct (at_least Prague (b_fork be)); [|destruct E5 as [_ ->]; apply bound_refl].
      by eapply requests_bound. }
    eapply bound_trans0; [exact K1|]. eapply bound_trans0; [exact K2|].
    eapply bound_trans0; [exact K3|]. by eapply bound_trans0.
  Qed.
End Block.

(** Along every chain of accepted blocks, of whichever forks. *)
Theorem C92_chain cr c0 ch l a : accepted cr c0 ch l -> confined (code (get_account (bc_state c0) a)) ->
  code (get_account (bc_state ch) a) = code (get_account (bc_state c0) a) /\
  (lacks (code (get_account (bc_state c0) a)) [CREATE; CREATE2] ->
     nonce (get_account (bc_state ch) a) = nonce (get_account (bc_state c0) a)) /\
  (lacks (code (get_account (bc_state c0) a)) [CALL; CREATE; CREATE2] ->
     balance (get_account (bc_state c0) a) <= balance (get_account (bc_state ch) a)) /\
  (lacks (code (get_account (bc_state c0) a)) [SSTORE] ->
     forall k, get_storage (bc_state ch) a k = get_storage (bc_state c0) a k).
Proof.
  intros H Hcon. remember (code (get_account (bc_state c0) a)) as c eqn:Ec. symmetry in Ec.
  assert (bound a c 0 (bc_state c0) (bc_state ch)) as [K1 K2 K3 K4].
  { induction H as [|ch l b ch' H IH E]; [apply bound_refl|].
    apply transition_done in E as (_ & _ & _ & (bo & E & _) & _).
    eapply bound_trans0; [exact IH|]. eapply body_bound; [done|exact E|]. by rewrite (bd_code _ _ _ _ _ IH). }
  split_and!; [congruence|done| |done]. intros Hl. specialize (K3 Hl). lia.
Qed.

(** ** Reading the instructions of a code *)
Fixpoint ops_from (skip : nat) (c : bytes) : list op :=
  match c with
  | [] => []
  | b :: r =>
      match skip with
      | S k => ops_from k r
      | O => match decode_op b with Some o => [o] | None => [] end ++ ops_from (N.to_nat (width b) - 1) r
      end
  end.
Lemma ops_from_drop k : forall c, ops_from k c = ops_from 0 (drop k c).
Proof. induction k as [|k IH]; intros [|b c]; try done. apply IH. Qed.
Lemma nthN_lookup (c : bytes) pc : nthN c pc = c !! N.to_nat pc.
Proof.
  rewrite nthN_nth_error. generalize (N.to_nat pc). induction c as [|x c IH]; intros [|n]; try done. apply IH.
Qed.
Lemma width_pos b : 1 <= width b.
Proof. unfold width. destruct (_ && _) eqn:E; lia. Qed.
Lemma boundary_ops c pc : boundary c pc -> forall o, o ∈ ops_from 0 (drop (N.to_nat pc) c) -> o ∈ ops_from 0 c.
Proof.
  induction 1 as [|pc b H IH Hb]; intros o Ho; [done|]. apply IH.
  rewrite (drop_S _ b (N.to_nat pc)) by (by rewrite <- nthN_lookup). cbn [ops_from]. apply elem_of_app. right.
  rewrite ops_from_drop, drop_drop. pose proof (width_pos b).
  replace (S (N.to_nat pc) + (N.to_nat (width b) - 1))%nat with (N.to_nat (pc + width b)) by lia. done.
Qed.
(** A scan of the code decides what it lacks. *)
Theorem C92_scan c os : lacks c os <-> forall o, o ∈ ops_from 0 c -> o ∉ os.
Proof.
  split.
  - intros H. assert (G : forall n pc, boundary c pc -> (length c <= n + N.to_nat pc)%nat ->
      forall o, o ∈ ops_from 0 (drop (N.to_nat pc) c) -> o ∉ os).
    { induction n as [|n IH]; intros pc Hp Hn o Ho.
      { rewrite drop_ge in Ho by lia. by apply not_elem_of_nil in Ho. }
      destruct (c !! N.to_nat pc) as [b|] eqn:Eb.
      2:{ apply lookup_ge_None in Eb. rewrite drop_ge in Ho by lia. by apply not_elem_of_nil in Ho. }
      rewrite (drop_S _ b (N.to_nat pc)) in Ho by exact Eb. cbn [ops_from] in Ho.
      apply elem_of_app in Ho as [Ho|Ho].
      - destruct (decode_op b) as [o'|] eqn:Ed; [|by apply not_elem_of_nil in Ho].
        apply elem_of_list_singleton in Ho as ->. eapply H; [exact Hp|by rewrite nthN_lookup|exact Ed].
      - rewrite ops_from_drop, drop_drop in Ho. pose proof (width_pos b).
        replace (S (N.to_nat pc) + (N.to_nat (width b) - 1))%nat with (N.to_nat (pc + width b)) in Ho by lia.
        eapply (IH (pc + width b)); [econstructor; [done|by rewrite nthN_lookup]|lia|done]. }
    intros o Ho. eapply (G (length c) 0); [constructor|lia|exact Ho].
  - intros H pc b o Hp Hb Hd. apply H. eapply boundary_ops; [exact Hp|].
    rewrite (drop_S _ b (N.to_nat pc)) by (by rewrite <- nthN_lookup). cbn [ops_from]. rewrite Hd. by left.
Qed.

(** ** Non-vacuity *)
(** [ex_block] has a transaction that sends 5 to the contract 0xbbbb, whose
    code stores 9 in slot 1.  The code has no CALL and no CREATE: its balance
    grows, its nonce stays, and as it has an SSTORE its storage does change.  A
    byte 0xf1 (CALL) in the data of a PUSH1 is no instruction. *)
Example C92_nonvacuous :
  accepted ex_crypto ex_chain ex_next [ex_block] /\
  confined (code (get_account (bc_state ex_chain) 0xbbbb)) /\
  lacks (code (get_account (bc_state ex_chain) 0xbbbb)) [CALL; CREATE; CREATE2] /\
  balance (get_account (bc_state ex_chain) 0xbbbb) = 0 /\ balance (get_account (bc_state ex_next) 0xbbbb) = 5 /\
  ~ lacks (code (get_account (bc_state ex_chain) 0xbbbb)) [SSTORE] /\
  get_storage (bc_state ex_chain) 0xbbbb 1 = 0 /\ get_storage (bc_state ex_next) 0xbbbb 1 = 9 /\
  confined (bs [0x60; 0xf1; 0x00]) /\ lacks (bs [0x60; 0xf1; 0x00]) [CALL; CREATE; CREATE2; SSTORE].
Proof.
  assert (E : code (get_account (bc_state ex_chain) 0xbbbb) = code_succeeds) by (vm_compute; reflexivity).
  rewrite E.
  assert (O1 : ops_from 0 code_succeeds = [PUSH 1; PUSH 1; SSTORE; PUSH 1; PUSH 1; TSTORE; PUSH 1; PUSH 1; LOG 0; STOP])
    by (vm_compute; reflexivity).
  assert (O2 : ops_from 0 (bs [0x60; 0xf1; 0x00]) = [PUSH 1; STOP]) by (vm_compute; reflexivity).
  assert (D : forall (os : list op) (o : op), o ∉ os <-> ~ In o os) by (intros; by rewrite elem_of_list_In).
  assert (L1 : lacks code_succeeds [CALLCODE; DELEGATECALL; SELFDESTRUCT] /\
    lacks code_succeeds [CALL; CREATE; CREATE2]).
  { split; apply C92_scan; rewrite O1; intros o Ho; apply elem_of_list_In in Ho; apply D; cbn [In] in *;
      repeat (destruct Ho as [<-|Ho]; [intros H; repeat (destruct H as [H|H]; [discriminate H|]); exact H|]);
      destruct Ho. }
  assert (L2 : lacks (bs [0x60; 0xf1; 0x00]) [CALLCODE; DELEGATECALL; SELFDESTRUCT] /\
    lacks (bs [0x60; 0xf1; 0x00]) [CALL; CREATE; CREATE2; SSTORE]).
  { split; apply C92_scan; rewrite O2; intros o Ho; apply elem_of_list_In in Ho; apply D; cbn [In] in *;
      repeat (destruct Ho as [<-|Ho]; [intros H; repeat (destruct H as [H|H]; [discriminate H|]); exact H|]);
      destruct Ho. }
  split; [apply ex_accepted|].
  split; [split; [done|]; split; [intros (d & H & _); discriminate H|]; apply L1|].
  split; [apply L1|].
  split; [vm_compute; reflexivity|]. split; [vm_compute; reflexivity|].
  split.
  { rewrite C92_scan, O1. intros H. apply (H SSTORE); apply elem_of_list_In; cbn [In]; tauto. }
  split; [vm_compute; reflexivity|]. split; [vm_compute; reflexivity|].
  split; [|apply L2]. split; [done|]. split; [intros (d & H & _); discriminate H|]. apply L2.
Qed.

Definition PropCapable_theorems := (@C92_message, @C92_transaction, @C92_chain, @C92_scan).
Print Assumptions PropCapable_theorems.
