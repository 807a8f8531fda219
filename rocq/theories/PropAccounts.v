(** * PropAccounts: C05, C18, C19 (ether, nonces and code under execution). *)
From Verif Require Import Base State Rlp Vm Instructions Precompiles Interpreter
  StateSpec StateProofs NumericProofs ArithProofs EvmStep EvmLocal EvmPlan
  EvmPlanProofs EvmCallProofs EvmFrame EvmAccounts EvmRule EvmExamples.
From Coq Require Import ZifyBool ZifyN ZifyNat.
Ltac Zify.zify_post_hook ::= idtac.

Local Opaque to_u256 from_be_bytes calculate_memory_gas_cost ceil32 N.compare.

Lemma commit_main w w' : commit_transaction w = Ok w' ->
  main_trie (st w') = main_trie (st w) /\ created_accounts (st w') ⊆ created_accounts (st w).
Proof.
  unfold commit_transaction. destruct (snapshots (st w)) as [|[? ?] l]; [done|].
  destruct (ts_snapshots (ts w)); [done|]. intros [= <-]. cbn.
  split; [done|]. destruct l; [apply empty_subseteq|done].
Qed.
Lemma rollback_created w w' : rollback_transaction w = Ok w' ->
  created_accounts (st w') ⊆ created_accounts (st w).
Proof.
  unfold rollback_transaction. destruct (snapshots (st w)) as [|[? ?] l]; [done|].
  destruct (ts_snapshots (ts w)); [done|]. intros [= <-]. cbn.
  destruct l; [apply empty_subseteq|done].
Qed.

Section Accounts.
  Context (cr : crypto) (be : block_env) (te : tx_env).
  Notation pm := (process_message cr be te).
  Notation pcm := (process_create_message cr be te).
  Notation step := (exec_step cr be te pm pcm).
  Notation visits := (visits cr be te).
  Notation invokes := (invokes cr be te).
  Notation frame_rule := (frame_rule cr be te).

  (** ** Ether *)
  Lemma removed_total s t b s1 s2 :
    set_account_balance s b (balance (get_account s b) + balance (get_account s t)) = Ok s1 ->
    set_account_balance s1 t 0 = Ok s2 ->
    total_balance s2 <= total_balance s /\
    (total_balance s2 < total_balance s ->
     total_balance s2 + balance (get_account s t) = total_balance s).
  Proof using.
    clear. intros H1 H2.
    pose proof (modify_state_total _ _ _ _ _ H1 eq_refl) as T1. cbn [balance] in T1.
    pose proof (modify_state_total _ _ _ _ _ H2 eq_refl) as T2. cbn [balance] in T2.
    pose proof (modify_state_get _ _ _ _ _ H1 eq_refl t) as G1.
    pose proof (balance_le_total s t).
    destruct (decide (b = t)) as [->|Hne].
    - rewrite G1 in T2. cbn [balance] in T2. lia.
    - rewrite G1 in T2. lia.
  Qed.
  Lemma effect_total f o e w e' w' : effect f o e w e' w' ->
    total_balance (st w') <= total_balance (st w) /\
    e_accounts_to_delete e ⊆ e_accounts_to_delete e' /\
    (e_accounts_to_delete e' = ∅ -> total_balance (st w') = total_balance (st w)) /\
    (at_least Cancun f = true ->
     e_accounts_to_delete e' ⊆ e_accounts_to_delete e ∪ created_accounts (st w')) /\
    (total_balance (st w') < total_balance (st w) ->
     o = SELFDESTRUCT /\
     (at_least Cancun f = true -> m_current_target (e_message e) ∈ created_accounts (st w)) /\
     m_current_target (e_message e) ∈ e_accounts_to_delete e' /\
     total_balance (st w') + balance (get_account (st w) (m_current_target (e_message e)))
       = total_balance (st w)).
  Proof.
    Local Ltac easy_total := split_and!; try done; try (intros _; apply union_subseteq_l); cbn;
      first [lia|intros ?; exfalso; lia].
    intros [Hw _ Hd|? ? ? ? _ _ _ Hs Hw _ _ Hd|? ? _ _ Hw _ Hd|b s1 ? -> _ _ Hm Hd Hw
      |b sum s1 ? -> Hfork _ Hsum Ha Hb Hw _ Hd|? _ _ Hn Hw _ _ Hd]; subst w'.
    - rewrite Hd. easy_total.
    - apply set_storage_inv in Hs as [_ ->]. rewrite Hd.
      unfold total_balance. easy_total.
    - rewrite Hd. easy_total.
    - pose proof (move_ether_total _ _ _ _ _ Hm) as Ht.
      pose proof (move_ether_frame _ _ _ _ _ Hm) as [_ Hcm].
      destruct Hd as [(Hc & Hb & Hd)|(Hc & -> & Hd)]; rewrite Hd; cbn.
      + pose proof (set_balance_frame _ _ _ _ Hb) as [_ Hcb].
        pose proof (set_balance_total _ _ _ Hb) as Hb'. split_and!.
        * lia.
        * apply union_subseteq_r.
        * intros He. exfalso. clear -He. set_solver.
        * intros _. rewrite Hcb, Hcm. clear -Hc. set_solver.
        * intros Hlt. split_and!; [done|done|clear; set_solver|].
          pose proof (move_ether_get _ _ _ _ _ Hm (m_current_target (e_message e))) as Hg.
          destruct (decide (m_current_target (e_message e) = b)).
          -- rewrite Hg in Hb'. lia.
          -- rewrite decide_True in Hg by done. rewrite Hg in Hb'. cbn in Hb'. lia.
      + easy_total.
    - apply to_u256_inv in Hsum as [-> Hsum]. cbn.
      destruct (removed_total _ _ _ _ _ Ha Hb) as [Hle Hlt]. rewrite Hd. split_and!.
      + exact Hle.
      + apply union_subseteq_r.
      + intros He. exfalso. clear -He. set_solver.
      + intros ?. congruence.
      + intros ?. split_and!; [done|intros; congruence|clear; set_solver|auto].
    - rewrite Hd. pose proof (increment_nonce_total _ _ _ Hn). easy_total.
  Qed.

  Lemma resume_call_del e1 os oz c w1 e2 w2 :
    resume_call e1 os oz c w1 = Ret tt e2 w2 ->
    w2 = w1 /\ e_accounts_to_delete e2 = e_accounts_to_delete e1 ∪
      match e_error c with None => e_accounts_to_delete c | Some _ => ∅ end.
  Proof.
    intros H. apply resume_call_sets in H as [-> H]. split; [done|].
    destruct (e_error c); destruct H as (_ & _ & _ & _ & ->); [|done].
    by rewrite (right_id_L ∅ (∪)).
  Qed.
  Lemma resume_create_del e1 c w1 e2 w2 :
    resume_create e1 c w1 = Ret tt e2 w2 ->
    w2 = w1 /\ e_accounts_to_delete e2 = e_accounts_to_delete e1 ∪
      match e_error c with None => e_accounts_to_delete c | Some _ => ∅ end.
  Proof.
    intros H. apply resume_create_sets in H as [-> H]. split; [done|].
    destruct (e_error c); destruct H as (_ & _ & _ & _ & ->); [|done].
    by rewrite (right_id_L ∅ (∪)).
  Qed.
  Lemma union_empty_L2 (X Y : gset N) : X ∪ Y = ∅ -> X = ∅ /\ Y = ∅.
  Proof. set_solver. Qed.

  Definition ether_post (m : message) (w0 : world) (e : evm) (w : world) : Prop :=
    total_balance (st w) <= total_balance (st w0) /\
    (match e_error e with None => e_accounts_to_delete e | Some _ => ∅ end = ∅ ->
     total_balance (st w) = total_balance (st w0)) /\
    (at_least Cancun (b_fork be) = true -> e_error e = None -> snapshots (st w0) <> [] ->
     e_accounts_to_delete e ⊆ created_accounts (st w)).

  Lemma ether_rule : frame_rule (fun _ _ => True) (fun _ _ => True)
    (fun m w0 e w => total_balance (st w) <= total_balance (st w0) /\
       (e_accounts_to_delete e = ∅ -> total_balance (st w) = total_balance (st w0)) /\
       (at_least Cancun (b_fork be) = true ->
        e_accounts_to_delete e ⊆ created_accounts (st w)))
    ether_post ether_post.
  Proof.
    constructor; unfold ether_post.
    - intros m w s1 _ _ Ht. apply transfer_total in Ht.
      change (total_balance (st (begin_transaction w))) with (total_balance (st w)) in Ht.
      cbn [st set_st]. rewrite Ht.
      split_and!; [lia|done|]. intros _. apply empty_subseteq.
    - intros m w0 w e' _ _ HI (_ & -> & _). done.
    - intros m w0 e w o e' w' _ _ (H1 & H2 & H3) _ [_ He] _.
      pose proof (effect_frame _ _ _ _ _ _ He) as (_ & _ & Hcr).
      destruct (effect_total _ _ _ _ _ _ He) as (E1 & E2 & E3 & E4 & _).
      split_and!; [lia| |].
      + intros Hd. rewrite (E3 Hd). apply H2. clear -Hd E2. set_solver.
      + intros Hfork. specialize (E4 Hfork). specialize (H3 Hfork).
        rewrite Hcr in *. clear -E4 H3. set_solver.
    - intros m w0 e w o m' e1 os oz _ Hf (H1 & H2 & H3) _ Hc. split; [done|].
      intros c w1 e2 w2 Hp (P1 & P2 & P3) Hr _.
      apply resume_call_del in Hr as [-> Hr]. rewrite Hr.
      rewrite (wa_del _ _ _ _ (co_wait _ _ _ _ _ _ _ _ Hc)).
      assert (Hne : snapshots (st w) <> []) by (by rewrite (fs_snap _ _ _ _ Hf)).
      pose proof (ps_created _ _ _ _ Hp Hne) as Hcr.
      split_and!; [lia| |].
      + intros [Hd1 Hd2]%union_empty_L2. rewrite (P2 Hd2). auto.
      + intros Hfork. specialize (H3 Hfork). destruct (e_error c); [clear -H3 Hcr; set_solver|].
        specialize (P3 Hfork eq_refl Hne). clear -H3 Hcr P3. set_solver.
    - intros m w0 e w o m' e1 wi _ Hf (H1 & H2 & H3) _ Hc. split; [done|].
      intros c w1 e2 w2 Hp (P1 & P2 & P3) Hr _.
      apply resume_create_del in Hr as [-> Hr]. rewrite Hr.
      rewrite (wa_del _ _ _ _ (cr_wait _ _ _ _ _ _ _ _ Hc)).
      destruct (cr_nonce _ _ _ _ _ _ _ _ Hc) as (s1 & Hn & ->).
      pose proof (increment_nonce_total _ _ _ Hn) as Hnt.
      pose proof (increment_nonce_frame _ _ _ Hn) as [Hs1 Hs2].
      assert (Hne : snapshots (st (set_st s1 w)) <> [])
        by (cbn; by rewrite Hs1, (fs_snap _ _ _ _ Hf)).
      pose proof (ps_created _ _ _ _ Hp Hne) as Hcr. cbn in *. rewrite Hs2 in Hcr.
      split_and!; [lia| |].
      + intros [Hd1 Hd2]%union_empty_L2. rewrite (P2 Hd2), Hnt. auto.
      + intros Hfork. specialize (H3 Hfork). destruct (e_error c); [clear -H3 Hcr; set_solver|].
        specialize (P3 Hfork eq_refl Hne). clear -H3 Hcr P3. set_solver.
    - intros m w0 e w _ Hp He _. destruct (e_error e) as [x|] eqn:E; [|done].
      destruct (ps_fail _ _ _ _ Hp x E) as [[] _]. rewrite (total_main _ _ re_main). done.
    - intros m w0 e w w3 _ Hf (H1 & H2 & H3) Hc Hp.
      destruct (commit_frame _ _ _ (fs_snap _ _ _ _ Hf) (fs_tsnap _ _ _ _ Hf) Hc)
        as (M1 & _ & _ & _ & _ & M2).
      rewrite (total_main _ _ M1), (fs_err _ _ _ _ Hf). split_and!; [done|done|].
      intros Hfork _ Hne. rewrite (M2 Hne). auto.
    - done.
    - intros m w w3 e w4 e' w5 _ _ _ _ _ _ [] He _. rewrite (total_main _ _ re_main).
      by destruct (e_error e').
    - intros m w w3 e w4 e' s5 w6 _ He3 Hps (H1 & H2 & H3) He Hd Hs Hc Hp.
      destruct (deposit_code_eq _ _ _ Hd) as (g & _ & ->).
      pose proof (create_entry_total _ _ _ He3) as T3.
      pose proof (create_entry_frame _ _ _ He3) as (S3 & _ & _).
      pose proof (set_code_total _ _ _ _ Hs) as T5.
      pose proof (set_code_frame _ _ _ _ Hs) as [_ C5].
      destruct (commit_main _ _ Hc) as [M6 _]. rewrite (total_main _ _ M6). cbn.
      assert (Hcr : snapshots (st w) <> [] -> created_accounts (st w6) = created_accounts s5).
      { intros Hne. revert Hc. unfold commit_transaction. cbn.
        rewrite (proj1 (set_code_frame _ _ _ _ Hs)), (ps_snap _ _ _ _ Hps), S3.
        destruct (ts_snapshots (ts w4)); [done|].
        intros [= <-]. cbn. by destruct (snapshots (st w)). }
      assert (Hne3 : snapshots (st w3) <> []) by (by rewrite S3).
      specialize (fun Hfork => H3 Hfork He Hne3) as H3'. clear H3. rename H3' into H3.
      destruct e; cbn in *. subst. split_and!; [lia| |].
      + intros Hd'. rewrite T5, (H2 Hd'). done.
      + intros Hfork _ Hne. rewrite (Hcr Hne), C5. auto.
  Qed.

  (** C05.  A message call never increases the total of all balances; the
      total falls only if the call succeeds and an account was scheduled for
      deletion. *)
  Theorem C05_message m w e w' : pm m w = PRet e w' ->
    total_balance (st w') <= total_balance (st w) /\
    (total_balance (st w') <> total_balance (st w) ->
     e_error e = None /\ exists a, a ∈ e_accounts_to_delete e).
  Proof.
    intros H. destruct (rule_message _ _ _ _ _ _ _ _ _ _ _ _ ether_rule Logic.I H) as [_ (H1 & H2 & _)].
    split; [done|]. intros Hne. destruct (e_error e); [by destruct Hne; auto|].
    split; [done|]. apply set_choose_L. intros E. apply Hne. auto.
  Qed.
  Theorem C05_create m w e w' : pcm m w = PRet e w' ->
    total_balance (st w') <= total_balance (st w) /\
    (total_balance (st w') <> total_balance (st w) ->
     e_error e = None /\ exists a, a ∈ e_accounts_to_delete e).
  Proof.
    intros H. destruct (rule_create _ _ _ _ _ _ _ _ _ _ _ _ ether_rule Logic.I H) as [_ (H1 & H2 & _)].
    split; [done|]. intros Hne. destruct (e_error e); [by destruct Hne; auto|].
    split; [done|]. apply set_choose_L. intros E. apply Hne. auto.
  Qed.
  (** Since Cancun, accounts scheduled for deletion were created in this
      transaction. *)
  Theorem C05_deleted_created m w e w1 a :
    at_least Cancun (b_fork be) = true ->
    visits m w e w1 -> m_depth m <= 1024 -> a ∈ e_accounts_to_delete e ->
    a ∈ created_accounts (st w1).
  Proof.
    intros Hfork Hv Hd Ha. destruct (rule_visits _ _ _ _ _ _ _ _ _ _ _ _ ether_rule Hv Logic.I Hd)
      as (m' & w0 & _ & _ & _ & _ & _ & Hs). by apply (Hs Hfork).
  Qed.
  (** The one instruction that destroys ether: where the total falls in a
      single step, the instruction is SELFDESTRUCT of an account (since Cancun
      one created in this transaction) and exactly its balance disappears, or the step ran a
      child frame (to which C05_message or C05_create applies). *)
  Theorem C05_burning_step m w e w1 e2 w2 :
    visits m w e w1 -> m_depth m <= 1024 -> step (e, w1) = inl (e2, w2) ->
    total_balance (st w2) < total_balance (st w1) ->
    ((at_least Cancun (b_fork be) = true ->
      m_current_target (e_message e) ∈ created_accounts (st w1)) /\
     m_current_target (e_message e) ∈ e_accounts_to_delete e2 /\
     nthN (e_code e) (e_pc e) = Some Byte.xff /\
     total_balance (st w2) + balance (get_account (st w1) (m_current_target (e_message e)))
       = total_balance (st w1)) \/
    (exists m' c w3, pm m' w1 = PRet c w3 /\ total_balance (st w3) < total_balance (st w1)) \/
    (exists m' wi c w3, pcm m' wi = PRet c w3 /\ total_balance (st w3) < total_balance (st w1)).
  Proof.
    intros Hv Hd Hs Hlt.
    destruct (visits_struct _ _ _ _ _ _ _ Hv Hd) as (m0 & w0 & _ & Hf).
    destruct (step_cases _ _ _ _ _ _ _ (fs_shape _ _ _ _ Hf) Hs)
      as (o & Ha & [[_ He]|[(m' & e1 & os & oz & c & w3 & Hc & Hr & Hk)|(m' & e1 & wi & c & w3 & Hc & Hr & Hk)]]).
    - left. destruct (effect_total _ _ _ _ _ _ He) as (_ & _ & _ & _ & E).
      destruct (E Hlt) as (-> & E1 & E2 & E3). split_and!; try done.
      destruct Ha as (_ & _ & b & -> & Hb). f_equal.
      destruct b; (discriminate Hb || reflexivity).
    - right; left. apply resume_call_del in Hk as [-> _]. eauto.
    - right; right. apply resume_create_del in Hk as [-> _]. exists m', wi, c, w3. done.
  Qed.

  (** ** Nonces *)
  Definition nonces_le (s s' : state) : Prop := forall a,
    nonce (get_account s a) <= nonce (get_account s' a).
  Lemma keeps_nonces s s' : keeps s s' -> nonces_le s s'.
  Proof. intros H a. apply H. Qed.
  Lemma nonces_trans s1 s2 s3 : nonces_le s1 s2 -> nonces_le s2 s3 -> nonces_le s1 s3.
  Proof. intros H1 H2 a. etrans; [apply H1|apply H2]. Qed.

  Lemma nonce_rule : frame_rule (fun _ _ => True) (fun _ _ => True)
    (fun m w0 e w => nonces_le (st w0) (st w)) (fun m w0 e w => nonces_le (st w0) (st w))
    (fun m w0 e w => nonces_le (st w0) (st w)).
  Proof.
    constructor.
    - intros m w s1 _ _ Ht. apply transfer_keeps in Ht. by apply keeps_nonces.
    - done.
    - intros m w0 e w o e' w' _ _ HI _ [_ He] _. apply effect_keeps in He.
      eapply nonces_trans; [done|]. by apply keeps_nonces.
    - intros m w0 e w o m' e1 os oz _ _ HI _ Hc. split; [done|].
      intros c w1 e2 w2 _ Hp Hr _. apply resume_call_sets in Hr as [-> _].
      by eapply nonces_trans.
    - intros m w0 e w o m' e1 wi _ _ HI _ Hc. split; [done|].
      intros c w1 e2 w2 _ Hp Hr _. apply resume_create_sets in Hr as [-> _].
      destruct (cr_nonce _ _ _ _ _ _ _ _ Hc) as (s1 & Hn & ->).
      apply increment_nonce_keeps in Hn. eapply nonces_trans; [done|].
      eapply nonces_trans; [by apply keeps_nonces|done].
    - intros m w0 e w _ Hp He _. destruct (e_error e) as [x|] eqn:E; [|done].
      destruct (ps_fail _ _ _ _ Hp x E) as [[] _]. by apply keeps_nonces, keeps_main.
    - intros m w0 e w w3 _ _ HI Hc _. apply commit_main in Hc as [Hc _].
      eapply nonces_trans; [done|]. by apply keeps_nonces, keeps_main.
    - done.
    - intros m w w3 e w4 e' w5 _ _ _ _ _ _ [] _ _. by apply keeps_nonces, keeps_main.
    - intros m w w3 e w4 e' s5 w6 _ He3 _ Hpo _ _ Hs Hc _.
      apply create_entry_keeps in He3. apply commit_main in Hc as [Hc _].
      eapply nonces_trans; [by apply keeps_nonces|]. eapply nonces_trans; [done|].
      eapply nonces_trans; [|by apply keeps_nonces, keeps_main].
      intros a. cbn. rewrite (set_code_get _ _ _ _ Hs a).
      destruct (decide (m_current_target m = a)) as [<-|]; cbn; lia.
  Qed.

  (** C18 for one message call or creation, and for every moment inside. *)
  Theorem C18_message m w e w' a : pm m w = PRet e w' ->
    nonce (get_account (st w) a) <= nonce (get_account (st w') a).
  Proof.
    intros H. by apply (rule_message _ _ _ _ _ _ _ _ _ _ _ _ nonce_rule Logic.I H).
  Qed.
  Theorem C18_create m w e w' a : pcm m w = PRet e w' ->
    nonce (get_account (st w) a) <= nonce (get_account (st w') a).
  Proof.
    intros H. by apply (rule_create _ _ _ _ _ _ _ _ _ _ _ _ nonce_rule Logic.I H).
  Qed.
  Theorem C18_step m w e w1 e2 w2 a :
    visits m w e w1 -> m_depth m <= 1024 -> step (e, w1) = inl (e2, w2) ->
    nonce (get_account (st w1) a) <= nonce (get_account (st w2) a).
  Proof.
    intros Hv Hd Hs.
    destruct (visits_struct _ _ _ _ _ _ _ Hv Hd) as (m0 & w0 & _ & Hf).
    destruct (step_cases _ _ _ _ _ _ _ (fs_shape _ _ _ _ Hf) Hs)
      as (o & Ha & [[_ He]|[(m' & e1 & os & oz & c & w3 & Hc & Hr & Hk)|(m' & e1 & wi & c & w3 & Hc & Hr & Hk)]]).
    - by apply effect_keeps in He as He'; apply He'.
    - apply resume_call_sets in Hk as [-> _]. by eapply C18_message.
    - apply resume_create_sets in Hk as [-> _].
      destruct (cr_nonce _ _ _ _ _ _ _ _ Hc) as (s1 & Hn & ->).
      apply increment_nonce_keeps in Hn. etrans; [apply Hn|].
      eapply (C18_create _ (set_st s1 w1)), Hr.
  Qed.

  (** ** Code *)
  Lemma code_rule : frame_rule (fun _ _ => True)
    (fun m w => code (get_account (st w) (m_current_target m)) = [])
    (fun m w0 e w => keeps (st w0) (st w)) (fun m w0 e w => keeps (st w0) (st w))
    (fun m w0 e w => keeps (st w0) (st w)).
  Proof.
    constructor.
    - intros m w s1 _ _ Ht. by apply transfer_keeps in Ht.
    - done.
    - intros m w0 e w o e' w' _ _ HI _ [_ He] _. apply effect_keeps in He.
      by eapply keeps_trans.
    - intros m w0 e w o m' e1 os oz _ _ HI _ Hc. split; [done|].
      intros c w1 e2 w2 _ Hp Hr _. apply resume_call_sets in Hr as [-> _].
      by eapply keeps_trans.
    - intros m w0 e w o m' e1 wi _ _ HI _ Hc.
      destruct (cr_nonce _ _ _ _ _ _ _ _ Hc) as (s1 & Hn & ->).
      destruct (cr_fresh _ _ _ _ _ _ _ _ Hc) as [Hfr _].
      assert (Hns : ~ solid (st w) (m_current_target m')) by (rewrite solid_spec; by rewrite Hfr).
      assert (Hcode : code (get_account (st w) (m_current_target m')) = []).
      { destruct (code _) eqn:E; [done|]. exfalso. apply Hns. right. by rewrite E. }
      split.
      + cbn. rewrite (increment_nonce_get _ _ _ Hn).
        destruct (decide _) as [E|]; cbn; [by rewrite E|done].
      + intros c w1 e2 w2 _ Hp Hr _. apply resume_create_sets in Hr as [-> _].
        apply increment_nonce_keeps in Hn. eapply keeps_trans; [done|].
        by eapply keeps_trans.
    - intros m w0 e w _ Hp He _. destruct (e_error e) as [x|] eqn:E; [|done].
      destruct (ps_fail _ _ _ _ Hp x E) as [[] _]. by apply keeps_main.
    - intros m w0 e w w3 _ _ HI Hc _. apply commit_main in Hc as [Hc _].
      eapply keeps_trans; [done|]. by apply keeps_main.
    - done.
    - intros m w w3 e w4 e' w5 _ _ _ _ _ _ [] _ _. by apply keeps_main.
    - intros m w w3 e w4 e' s5 w6 Hcode He3 _ Hpo _ _ Hs Hc _ a.
      apply create_entry_keeps in He3. apply commit_main in Hc as [Hc _].
      pose proof (keeps_trans _ _ _ He3 Hpo a) as [K1 K2].
      rewrite (get_account_main _ _ Hc a). cbn. rewrite (set_code_get _ _ _ _ Hs a).
      destruct (decide (m_current_target m = a)) as [<-|]; [|done].
      split; [done|]. by rewrite Hcode.
  Qed.

  (** C19 for one message call: no account with code loses or changes it. *)
  Theorem C19_message m w e w' a : pm m w = PRet e w' ->
    code (get_account (st w) a) <> [] ->
    code (get_account (st w') a) = code (get_account (st w) a).
  Proof.
    intros H. by apply (rule_message _ _ _ _ _ _ _ _ _ _ _ _ code_rule Logic.I H).
  Qed.
  Theorem C19_create m w e w' a : pcm m w = PRet e w' ->
    code (get_account (st w) (m_current_target m)) = [] ->
    code (get_account (st w) a) <> [] ->
    code (get_account (st w') a) = code (get_account (st w) a).
  Proof.
    intros H Hc. by apply (rule_create _ _ _ _ _ _ _ _ _ _ _ _ code_rule Hc H).
  Qed.
  Theorem C19_step m w e w1 e2 w2 a :
    visits m w e w1 -> m_depth m <= 1024 -> step (e, w1) = inl (e2, w2) ->
    code (get_account (st w1) a) <> [] ->
    code (get_account (st w2) a) = code (get_account (st w1) a).
  Proof.
    intros Hv Hd Hs.
    destruct (visits_struct _ _ _ _ _ _ _ Hv Hd) as (m0 & w0 & _ & Hf).
    assert (Hf1 : fstruct m0 w0 e w1) by done.
    (* one step preserves [keeps] from the current world *)
    destruct (step_cases _ _ _ _ _ _ _ (fs_shape _ _ _ _ Hf) Hs)
      as (o & Ha & [[_ He]|[(m' & e1 & os & oz & c & w3 & Hc & Hr & Hk)|(m' & e1 & wi & c & w3 & Hc & Hr & Hk)]]).
    - by apply effect_keeps in He as He'; apply He'.
    - apply resume_call_sets in Hk as [-> _]. by eapply C19_message.
    - apply resume_create_sets in Hk as [-> _].
      destruct (cr_nonce _ _ _ _ _ _ _ _ Hc) as (s1 & Hn & ->).
      destruct (cr_fresh _ _ _ _ _ _ _ _ Hc) as [Hfr _].
      assert (Hcode : code (get_account (st w1) (m_current_target m')) = []).
      { destruct (code _) eqn:E; [done|]. exfalso.
        assert (solid (st w1) (m_current_target m')) as Hso by (right; by rewrite E).
        apply solid_spec in Hso. by rewrite Hfr in Hso. }
      pose proof (increment_nonce_keeps _ _ _ Hn a) as [_ K].
      intros Hne. rewrite <- (K Hne).
      refine (C19_create _ _ _ _ a Hr _ _); cbn; [|by rewrite K].
      rewrite (increment_nonce_get _ _ _ Hn).
      destruct (decide _) as [E|]; cbn; [by rewrite E|done].
  Qed.

  (** ** Accounts created by an execution *)
  (** Whatever set [F] contains every account without nonce and code contains
      every account that gets created or scheduled for deletion. *)
  Definition outside_solid (F : address -> Prop) (s : state) : Prop :=
    (forall a, a ∈ created_accounts s -> F a) /\ (forall a, F a \/ solid s a).
  Lemma outside_rises F s s' : outside_solid F s -> rises s s' ->
    (forall a, a ∈ created_accounts s' -> F a) -> outside_solid F s'.
  Proof.
    intros [H1 H2] Hr H3. split; [done|]. intros a. destruct (H2 a); [by left|].
    right. by apply Hr.
  Qed.

  Lemma fresh_rule F : at_least Cancun (b_fork be) = true -> frame_rule (fun m w => outside_solid F (st w))
    (fun m w => outside_solid F (st w) /\ F (m_current_target m))
    (fun m w0 e w => outside_solid F (st w) /\ forall a, a ∈ e_accounts_to_delete e -> F a)
    (fun m w0 e w => outside_solid F (st w) /\
       (e_error e = None -> forall a, a ∈ e_accounts_to_delete e -> F a))
    (fun m w0 e w => outside_solid F (st w) /\
       (e_error e = None -> forall a, a ∈ e_accounts_to_delete e -> F a)).
  Proof.
    intros Hfork. constructor.
    - intros m w s1 Hp _ Ht. pose proof (transfer_frame _ _ _ Ht) as [_ Hc].
      apply transfer_keeps in Ht. split.
      + eapply outside_rises; [exact Hp|by apply keeps_rises|]. cbn. rewrite Hc. apply Hp.
      + intros a Ha. cbn in Ha. set_solver.
    - intros m w0 w e' _ _ HI (_ & -> & _). done.
    - intros m w0 e w o e' w' _ _ [HI1 HI2] _ [_ He] _.
      pose proof (effect_keeps _ _ _ _ _ _ He) as Hk.
      pose proof (effect_frame _ _ _ _ _ _ He) as (_ & _ & Hcr).
      destruct (effect_total _ _ _ _ _ _ He) as (_ & _ & _ & E4 & _).
      assert (Hcf : forall a, a ∈ created_accounts (st w') -> F a) by (rewrite Hcr; apply HI1).
      split.
      + eapply outside_rises; [exact HI1|by apply keeps_rises|done].
      + intros a Ha. apply (E4 Hfork) in Ha. apply elem_of_union in Ha as [Ha|Ha]; auto.
    - intros m w0 e w o m' e1 os oz _ _ [HI1 HI2] _ Hc. split; [done|].
      intros c w1 e2 w2 _ [Hp1 Hp2] Hr _. apply resume_call_del in Hr as [-> Hr].
      split; [done|]. intros a. rewrite Hr, (wa_del _ _ _ _ (co_wait _ _ _ _ _ _ _ _ Hc)).
      intros [Ha|Ha]%elem_of_union; [auto|]. destruct (e_error c); [clear -Ha; set_solver|auto].
    - intros m w0 e w o m' e1 wi _ _ [HI1 HI2] _ Hc.
      destruct (cr_nonce _ _ _ _ _ _ _ _ Hc) as (s1 & Hn & ->).
      pose proof (increment_nonce_frame _ _ _ Hn) as [_ Hcr].
      apply increment_nonce_keeps in Hn. split.
      + split.
        * eapply outside_rises; [exact HI1|by apply keeps_rises|]. cbn. rewrite Hcr. apply HI1.
        * destruct (cr_fresh _ _ _ _ _ _ _ _ Hc) as [Hfr _].
          destruct HI1 as [_ HI1]. destruct (HI1 (m_current_target m')) as [|Hso]; [done|].
          apply solid_spec in Hso. by rewrite Hfr in Hso.
      + intros c w1 e2 w2 _ [Hp1 Hp2] Hr _. apply resume_create_del in Hr as [-> Hr].
        split; [done|]. intros a. rewrite Hr, (wa_del _ _ _ _ (cr_wait _ _ _ _ _ _ _ _ Hc)).
        intros [Ha|Ha]%elem_of_union; [auto|]. destruct (e_error c); [clear -Ha; set_solver|auto].
    - intros m w0 e w Hp Hps He (e0 & w1 & _ & [HI _] & Hro & _). split; [|done].
      destruct (e_error e) as [x|] eqn:E; [|done].
      destruct (ps_fail _ _ _ _ Hps x E) as [[] _].
      eapply outside_rises; [exact Hp|by apply rises_main|].
      intros a Ha. apply HI. by apply (rollback_created _ _ Hro).
    - intros m w0 e w w3 _ _ [HI1 HI2] Hc _. apply commit_main in Hc as [Hc1 Hc2].
      split; [|done]. eapply outside_rises; [exact HI1|by apply rises_main|].
      intros a Ha. apply HI1. auto.
    - intros m w w3 [Hp1 Hp2] He. pose proof (create_entry_frame _ _ _ He) as (_ & _ & Hcr).
      apply create_entry_keeps in He. eapply outside_rises; [exact Hp1|by apply keeps_rises|].
      rewrite Hcr. intros a [->%elem_of_singleton|Ha]%elem_of_union; [done|by apply Hp1].
    - intros m w w3 e w4 e' w5 [Hp1 Hp2] _ _ [Hpo _] Hro _ [] He _. split; [|done].
      eapply outside_rises; [exact Hp1|by apply rises_main|].
      intros a Ha. apply Hpo. by apply (rollback_created _ _ Hro).
    - intros m w w3 e w4 e' s5 w6 [Hp1 Hp2] He3 Hps [Hpo Hpd] He Hd Hs Hc _.
      apply commit_main in Hc as [Hc1 Hc2]. cbn in Hc1, Hc2.
      pose proof (set_code_frame _ _ _ _ Hs) as [_ Hcr]. split.
      + split.
        * intros a Ha. apply Hpo. rewrite <- Hcr. auto.
        * intros a. destruct (proj2 Hpo a) as [|Hso]; [by left|].
          destruct (decide (m_current_target m = a)) as [<-|Hne]; [by left|]. right.
          unfold solid. rewrite (get_account_main _ _ Hc1 a), (set_code_get _ _ _ _ Hs a).
          by rewrite decide_False.
      + destruct (deposit_code_eq _ _ _ Hd) as (g & _ & ->). intros _. destruct e; cbn in *. auto.
  Qed.

  (** C19: where a transaction starts (no account marked as created), since
      Cancun an account that has a nonce or code is never scheduled for deletion. *)
  Theorem C19_not_deleted m w e w' a :
    at_least Cancun (b_fork be) = true ->
    pm m w = PRet e w' -> created_accounts (st w) = ∅ -> e_error e = None ->
    nonce (get_account (st w) a) <> 0 \/ code (get_account (st w) a) <> [] ->
    a ∉ e_accounts_to_delete e.
  Proof.
    intros Hfork H Hc He Hso Ha.
    assert (Hp : outside_solid (fun b => ~ solid (st w) b) (st w)).
    { split; [intros b; rewrite Hc; clear; set_solver|].
      intros b. destruct (solid_dec (st w) b); auto. }
    destruct (rule_message _ _ _ _ _ _ _ _ _ _ _ _ (fresh_rule _ Hfork) Hp H) as [_ [_ Hd]].
    by apply (Hd He a Ha).
  Qed.
  Theorem C19_create_not_deleted m w e w' a :
    at_least Cancun (b_fork be) = true ->
    pcm m w = PRet e w' -> created_accounts (st w) = ∅ -> e_error e = None ->
    account_has_code_or_nonce (st w) (m_current_target m) = false ->
    nonce (get_account (st w) a) <> 0 \/ code (get_account (st w) a) <> [] ->
    a ∉ e_accounts_to_delete e.
  Proof.
    intros Hfork H Hc He Hf Hso Ha.
    assert (Hp : outside_solid (fun b => ~ solid (st w) b) (st w)).
    { split; [intros b; rewrite Hc; clear; set_solver|].
      intros b. destruct (solid_dec (st w) b); auto. }
    assert (Hp2 : ~ solid (st w) (m_current_target m)) by (rewrite solid_spec; by rewrite Hf).
    destruct (rule_create _ _ _ _ _ _ _ _ _ _ _ _ (fresh_rule _ Hfork) (conj Hp Hp2) H) as [_ [_ Hd]].
    by apply (Hd He a Ha).
  Qed.
End Accounts.

(** ** Examples *)
(** CREATE of an account whose initcode is SELFDESTRUCT(0x30 = itself),
    endowed with 7: the ether it holds is destroyed.
    Parent: MSTORE8(0, ADDRESS op); MSTORE8(1, SELFDESTRUCT op); CREATE(7, 0, 2) *)
Definition code_burner : bytes := bs
  [0x60;0x30; 0x60;0; 0x53; 0x60;0xff; 0x60;1; 0x53;
   0x60;2; 0x60;0; 0x60;7; 0xF0; 0x00].
Definition ex_accounts : list (N * account) :=
  [(0xaa, Account 5 1000 []); (0x200, Account 1 50 code_burner);
   (0x300, Account 2 9 code_reverts)].

Example C05_nonvacuous :
  match toy_run (toy_message 0x200 500000 3 [] code_burner) (toy_world ex_accounts ∅) with
  | PRet e w =>
      e_error e = None /\ total_balance (st (toy_world ex_accounts ∅)) = 1059 /\
      total_balance (st w) = 1052 /\ size (e_accounts_to_delete e) = 1%nat /\
      balance (get_account (st w) 0x200) = 46 /\
      nonce (get_account (st w) 0x200) = 2 /\
      code (get_account (st w) 0x200) = code_burner /\
      code (get_account (st w) 0x300) = code_reverts /\
      size (created_accounts (st w)) = 1%nat
  | PExc _ _ => False
  end.
Proof. vm_compute. repeat split. Qed.

Definition PropAccounts_theorems :=
  (@C05_message, @C05_create, @C05_deleted_created, @C05_burning_step,
   @C18_message, @C18_create, @C18_step,
   @C19_message, @C19_create, @C19_step, @C19_not_deleted, @C19_create_not_deleted).
Print Assumptions PropAccounts_theorems.
