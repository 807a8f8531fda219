(** * EvmPlain: accounts without code.

    An account that has a nonce and no code (such as one that sends
    transactions) runs no instructions of its own and cannot be created anew,
    so that no execution gives it code, lowers its nonce or schedules it for
    deletion, in any fork. *)
From Verif Require Import Base State Rlp Vm Instructions Precompiles Interpreter
  StateSpec StateProofs NumericProofs ArithProofs EvmStep EvmLocal EvmPlan
  EvmPlanProofs EvmCallProofs EvmFrame EvmAccounts EvmRule PropAccounts EvmInv.
From Coq Require Import ZifyBool ZifyN ZifyNat.
Ltac Zify.zify_post_hook ::= idtac.

Local Opaque to_u256 from_be_bytes calculate_memory_gas_cost ceil32 N.compare.

Definition plain (n : N) (a : address) (s : state) : Prop :=
  0 < n <= nonce (get_account s a) /\ code (get_account s a) = [].

Lemma plain_same n a s s' : plain n a s -> keeps s s' -> same_code s s' -> plain n a s'.
Proof.
  intros [H1 H2] Hk Hc. destruct (Hk a) as [K _]. split; [lia|]. by rewrite Hc.
Qed.
Lemma plain_main n a s s' : plain n a s -> main_trie s' = main_trie s -> plain n a s'.
Proof. intros H E. eapply plain_same; [exact H|by apply keeps_main|by apply same_code_main]. Qed.
Lemma plain_solid n a s : plain n a s -> solid s a.
Proof. intros [H _]. left. lia. Qed.

Lemma effect_code f o e w e' w' : effect f o e w e' w' -> same_code (st w) (st w').
Proof.
  intros [Hw _ _|? ? ? ? _ _ _ Hs Hw|? ? _ _ Hw|? ? ? _ _ _ Hm Hd Hw
    |? ? ? ? _ _ _ _ Ha Hb Hw|? _ _ Hn Hw]; subst w'.
  - done.
  - by apply set_storage_inv in Hs as [_ ->].
  - done.
  - apply move_ether_same in Hm as [_ Hm]. cbn.
    destruct Hd as [(_ & Hd & _)|(_ & -> & _)]; [|done].
    eapply same_code_trans; [done|]. by eapply set_balance_same.
  - cbn. eapply same_code_trans; by eapply set_balance_same.
  - by apply increment_nonce_same in Hn as [_ Hn].
Qed.
(** Only the account of the frame is ever scheduled for deletion. *)
Lemma effect_deletes f o e w e' w' : effect f o e w e' w' ->
  e_accounts_to_delete e' ⊆ {[ m_current_target (e_message e) ]} ∪ e_accounts_to_delete e.
Proof.
  intros [Hw _ Hd|? ? ? ? _ _ _ Hs Hw _ _ Hd|? ? _ _ Hw _ Hd|b s1 ? -> _ _ Hm Hd Hw
      |b sum s1 ? -> Hfork _ Hsum Ha Hb Hw _ Hd|? _ _ Hn Hw _ _ Hd].
  4: destruct Hd as [(_ & _ & Hd)|(_ & _ & Hd)].
  all: rewrite Hd; clear; set_solver.
Qed.

Section Plain.
  Context (cr : crypto) (be : block_env) (te : tx_env) (n : N) (a : address).
  Notation pm := (process_message cr be te).
  Notation pcm := (process_create_message cr be te).

  Lemma plain_rule : frame_rule cr be te
    (fun m w => plain n a (st w) /\ (m_current_target m = a -> m_code m = []))
    (fun m w => plain n a (st w) /\ m_current_target m <> a)
    (fun m w0 e w => plain n a (st w) /\ a ∉ e_accounts_to_delete e)
    (fun m w0 e w => plain n a (st w) /\ (e_error e = None -> a ∉ e_accounts_to_delete e))
    (fun m w0 e w => plain n a (st w) /\ (e_error e = None -> a ∉ e_accounts_to_delete e)).
  Proof.
    assert (Hop : forall m w0 e w o, fstruct m w0 e w -> at_op e o ->
      (m_current_target m = a -> m_code m = []) -> m_current_target m <> a).
    { intros m w0 e w o Hf (_ & Hpc & _) Hc Ht. rewrite (fs_code _ _ _ _ Hf), (Hc Ht) in Hpc.
      unfold lenN in Hpc. cbn in Hpc. lia. }
    constructor.
    - intros m w s1 [Hp _] _ Ht. split; [|apply not_elem_of_empty].
      eapply plain_same; [exact Hp| |].
      + by apply transfer_keeps in Ht.
      + by apply transfer_same in Ht as [_ Ht].
    - intros m w0 w e' _ _ HI (_ & -> & _). done.
    - intros m w0 e w o e' w' [_ Hc] Hf [HI1 HI2] Ho [_ He] _. split.
      + eapply plain_same; [exact HI1|by eapply effect_keeps|by eapply effect_code].
      + intros Ha. apply (effect_deletes _ _ _ _ _ _ He) in Ha.
        apply elem_of_union in Ha as [->%elem_of_singleton|Ha]; [|done].
        eapply Hop; [exact Hf|exact Ho|exact Hc|]. by rewrite (fs_msg _ _ _ _ Hf).
    - intros m w0 e w o m' e1 os oz [_ Hc] Hf [HI1 HI2] Ho Hk.
      pose proof (Hop _ _ _ _ _ Hf Ho Hc) as Hne. split.
      + split; [done|]. intros Ht. destruct (co_code _ _ _ _ _ _ _ _ Hk) as (b & ca & _ & Hr & [Hb|Hb] & _).
        * rewrite Ht in Hb. subst b. unfold resolved in Hr. destruct HI1 as [_ HI1]. rewrite HI1 in Hr.
          destruct (at_least Prague (b_fork be)); apply Hr.
        * rewrite (fs_msg _ _ _ _ Hf) in Hb. congruence.
      + intros c w1 e2 w2 _ [Hp1 Hp2] Hr _. apply resume_call_del in Hr as [-> Hr].
        split; [done|]. rewrite Hr, (wa_del _ _ _ _ (co_wait _ _ _ _ _ _ _ _ Hk)).
        intros [Ha|Ha]%elem_of_union; [auto|]. destruct (e_error c); [clear -Ha; set_solver|by apply Hp2].
    - intros m w0 e w o m' e1 wi [_ Hc] Hf [HI1 HI2] Ho Hk.
      destruct (cr_nonce _ _ _ _ _ _ _ _ Hk) as (s1 & Hn & ->). split.
      + split.
        * eapply plain_same; [exact HI1|by eapply increment_nonce_keeps|].
          by apply increment_nonce_same in Hn as [_ Hn].
        * intros Ht. destruct (cr_fresh _ _ _ _ _ _ _ _ Hk) as [Hfr _]. rewrite Ht in Hfr.
          apply plain_solid, solid_spec in HI1. congruence.
      + intros c w1 e2 w2 _ [Hp1 Hp2] Hr _. apply resume_create_del in Hr as [-> Hr].
        split; [done|]. rewrite Hr, (wa_del _ _ _ _ (cr_wait _ _ _ _ _ _ _ _ Hk)).
        intros [Ha|Ha]%elem_of_union; [auto|]. destruct (e_error c); [clear -Ha; set_solver|by apply Hp2].
    - intros m w0 e w [Hp _] Hps He _. split; [|done].
      destruct (e_error e) as [x|] eqn:E; [|done].
      destruct (ps_fail _ _ _ _ Hps x E) as [[] _]. by eapply plain_main.
    - intros m w0 e w w3 _ _ [HI1 HI2] Hc _. apply commit_main in Hc as [Hc1 Hc2].
      split; [|done]. by eapply plain_main.
    - intros m w w3 [Hp1 Hp2] He. pose proof (create_entry_get _ _ _ He a) as G.
      rewrite decide_False in G by done. split; [|done]. destruct Hp1. split; by rewrite G.
    - intros m w w3 e w4 e' w5 [Hp1 Hp2] _ _ _ _ _ [] He _. split; [by eapply plain_main|done].
    - intros m w w3 e w4 e' s5 w6 [Hp1 Hp2] He3 Hps [Hpo Hpd] He Hd Hs Hc _.
      apply commit_main in Hc as [Hc1 Hc2]. cbn in Hc1. split.
      + eapply plain_main; [|exact Hc1].
        pose proof (set_code_get _ _ _ _ Hs a) as G. rewrite decide_False in G by done.
        destruct Hpo. split; by rewrite G.
      + destruct (deposit_code_eq _ _ _ Hd) as (g & _ & ->). intros _. destruct e; cbn in *. auto.
  Qed.

  Lemma plain_message m w e w' : pm m w = PRet e w' -> plain n a (st w) ->
    (m_current_target m = a -> m_code m = []) ->
    plain n a (st w') /\ (e_error e = None -> a ∉ e_accounts_to_delete e).
  Proof. intros H Hp Hc. by destruct (rule_message _ _ _ _ _ _ _ _ _ _ _ _ plain_rule (conj Hp Hc) H) as [_ ?]. Qed.
  Lemma plain_create m w e w' : pcm m w = PRet e w' -> plain n a (st w) -> m_current_target m <> a ->
    plain n a (st w') /\ (e_error e = None -> a ∉ e_accounts_to_delete e).
  Proof. intros H Hp Hc. by destruct (rule_create _ _ _ _ _ _ _ _ _ _ _ _ plain_rule (conj Hp Hc) H) as [_ ?]. Qed.
End Plain.
