(** * PropPowReplay: no transaction runs twice, from Frontier on (C86).

    An account that has a nonce and no code (such as one that sends
    transactions) runs no instructions of its own and cannot be created anew:
    no execution gives it code, lowers its nonce or schedules it for deletion.
    So a nonce that was used stays used, through all forks. *)
From Verif Require Import Base State Rlp Bloom Transactions Trie Blocks Requests Fork Ethash Pow PowTx.
From Verif Require Import Vm Instructions Precompiles Interpreter PowVm StateSpec
  StateProofs NumericProofs ArithProofs EvmStep EvmLocal EvmPlan EvmPlanProofs EvmCallProofs
  EvmFrame EvmAccounts EvmRule PropAccounts EvmInv PowVmPlan PowVmOps PowVmCalls PowVmFrame PowVmRule PowVmInv PowVmKeep.
From Verif Require Import EvmExamples PropExec ForkProofs PropRewards PropPowTx PropPowRun PropPowBody
  PropPowExamples PropPowVm PropPowFrames.
From Verif Require PropHistory PropTransaction TxProofs.
From Coq Require Import ZifyBool ZifyN ZifyNat.
Ltac Zify.zify_post_hook ::= idtac.

Local Opaque to_u256 from_be_bytes calculate_memory_gas_cost ceil32 N.compare.

(** The account has at least the nonce [k], which is not zero, and no code. *)
Definition plain (k : N) (a : address) (s : state) : Prop :=
  0 < k <= nonce (get_account s a) /\ code (get_account s a) = [].
Lemma plain_grows n k a s s' : plain k a s -> grows n s s' -> plain k a s'.
Proof.
  intros [H1 H2] [_ G2 G3 _]. specialize (G2 a). split; [lia|]. rewrite G3; [done|]. left. lia.
Qed.

Section Plain.
  Context (cr : crypto) (n : pow_name) (env : pow_env) (te : tx_env) (k : N) (a : address).
  Notation pm := (pow_process_message cr n env te).
  Notation pcm := (pow_process_create_message cr n env te).
  Notation pmc := (pow_process_message_call cr n env te).

  Lemma peffect_deletes i o e w t e' w' : peffect n i o e w t e' w' ->
    e_accounts_to_delete e' ⊆ {[ m_current_target (e_message e) ]} ∪ (e_accounts_to_delete e ∪ i).
  Proof.
    intros He.
    destruct He as [Hw _ Hd _|? ? ? s' _ _ _ Hs Hw _ _ _ Hd _ _
      |b s1 s2 _ _ _ Hs1 Hs2 Hw Hd _ _ _ _|s' _ _ Hn Hw _ _ Hd _]; rewrite Hd; clear.
    3: destruct (PowVm.since London n).
    all: set_solver.
  Qed.
  Lemma resume_call_deletes e1 os oz c w1 e2 w2 : resume_call e1 os oz c w1 = Ret tt e2 w2 ->
    (e_error c = None -> a ∉ e_accounts_to_delete c) -> a ∉ e_accounts_to_delete e1 ->
    w2 = w1 /\ a ∉ e_accounts_to_delete e2.
  Proof.
    intros H Hc H1. apply resume_call_del in H as [-> H]. split; [done|]. rewrite H.
    intros [Ha|Ha]%elem_of_union; [auto|]. destruct (e_error c); [clear -Ha; set_solver|by apply Hc].
  Qed.
  Lemma resume_create_deletes e1 c w1 e2 w2 : resume_create e1 c w1 = Ret tt e2 w2 ->
    (e_error c = None -> a ∉ e_accounts_to_delete c) -> a ∉ e_accounts_to_delete e1 ->
    w2 = w1 /\ a ∉ e_accounts_to_delete e2.
  Proof.
    intros H Hc H1. apply resume_create_del in H as [-> H]. split; [done|]. rewrite H.
    intros [Ha|Ha]%elem_of_union; [auto|]. destruct (e_error c); [clear -Ha; set_solver|by apply Hc].
  Qed.
  Lemma deposit_deletes e x e' : pow_deposit n e = (x, e') -> e_accounts_to_delete e' = e_accounts_to_delete e.
  Proof.
    unfold pow_deposit. destruct (PowVm.since London n && _); [by intros [= _ <-]|].
    destruct (_ <? _); [by intros [= _ <-]|].
    destruct (PowVm.since SpuriousDragon n && _); intros [= _ <-]; by destruct e.
  Qed.

  Lemma plain_rule : pframe_rule cr n env te (fun _ => True)
    (fun i m w => plain k a (st w) /\ a ∉ i /\ (m_current_target m = a -> m_code m = []))
    (fun i m w => plain k a (st w) /\ a ∉ i /\ m_current_target m <> a)
    (fun i m w0 e t w => plain k a (st w) /\ a ∉ e_accounts_to_delete e)
    (fun i m w0 e t w => plain k a (st w) /\ (e_error e = None -> a ∉ e_accounts_to_delete e))
    (fun i m w0 e t w => plain k a (st w) /\ (e_error e = None -> a ∉ e_accounts_to_delete e)).
  Proof.
    assert (Hop : forall m w0 e w o, fstruct m w0 e w -> pat_op n e o ->
      (m_current_target m = a -> m_code m = []) -> m_current_target m <> a).
    { intros m w0 e w o Hf [(_ & Hpc & _) _] Hc Ht. rewrite (fs_code _ _ _ _ Hf), (Hc Ht) in Hpc.
      unfold lenN in Hpc. cbn in Hpc. lia. }
    constructor; try done.
    - intros i m w s1 [Hp _] _ Ht. split; [|apply not_elem_of_empty].
      eapply (plain_grows n); [|by eapply grows_transfer]. exact Hp.
    - intros i m w0 w x p e' _ _ [HI _] _ _ _ (_ & -> & _). split; [done|].
      apply not_elem_of_empty.
    - intros i m w0 e t w o t1 e' w' (_ & Hi & Hc) Hf [HI1 HI2] Ho [_ He] _. split.
      + eapply plain_grows; [exact HI1|by eapply grows_effect].
      + intros Ha. apply (peffect_deletes _ _ _ _ _ _ _ He) in Ha.
        apply elem_of_union in Ha as [->%elem_of_singleton|[Ha|Ha]%elem_of_union]; [|done|done].
        eapply Hop; [exact Hf|exact Ho|exact Hc|]. by rewrite (fs_msg _ _ _ _ Hf).
    - intros i m w0 e t w o m' e1 os oz (_ & Hi & Hc) Hf [HI1 HI2] Ho Hk.
      pose proof (Hop _ _ _ _ _ Hf Ho Hc) as Hne.
      assert (Hd : a ∉ e_accounts_to_delete e1) by (by rewrite (wa_del _ _ _ _ (pco_wait _ _ _ _ _ _ _ _ Hk))).
      split.
      + split; [done|]. split; [by apply not_elem_of_union|]. intros Ht.
        destruct (pco_code _ _ _ _ _ _ _ _ Hk) as (ca & _ & -> & _ & [Hb|Hb] & _).
        * rewrite <- Hb, Ht. apply HI1.
        * rewrite (fs_msg _ _ _ _ Hf) in Hb. congruence.
      + intros c tc w1 _ [Hp1 Hp2]. split; [|done]. intros e2 w2 Hr _.
        by destruct (resume_call_deletes _ _ _ _ _ _ _ Hr Hp2 Hd) as [-> ?].
    - intros i m w0 e t w o m' e1 wi (_ & Hi & Hc) Hf [HI1 HI2] Ho Hk.
      assert (Hd : a ∉ e_accounts_to_delete e1) by (by rewrite (wa_del _ _ _ _ (pcr_wait _ _ _ _ _ _ _ _ Hk))).
      destruct (pcr_nonce _ _ _ _ _ _ _ _ Hk) as (s1 & Hn & ->). split.
      + split; [|split; [by apply not_elem_of_union|]].
        * eapply (plain_grows n); [exact HI1|]. by eapply grows_nonce.
        * intros Ht. destruct (pcr_fresh _ _ _ _ _ _ _ _ Hk) as [Hfr _]. rewrite Ht in Hfr.
          assert (solid (st w) a) as Hs%solid_spec by (left; destruct HI1; lia). congruence.
      + intros c tc w1 _ [Hp1 Hp2]. split; [|done]. intros e2 w2 Hr _.
        by destruct (resume_create_deletes _ _ _ _ _ Hr Hp2 Hd) as [-> ?].
    - intros i m w0 e t w (Hp & _) Hps He _. split; [|done].
      destruct (e_error e) as [x|] eqn:E; [|done].
      destruct (pps_fail _ _ _ _ _ Hps x E) as (Hre & _). eapply (plain_grows n); [exact Hp|]. by apply grows_restored.
    - intros i m w0 e t w w3 _ _ [HI1 HI2] Hc _. split; [|done].
      eapply (plain_grows n); [exact HI1|]. by apply grows_commit.
    - intros i m w w3 (Hp1 & Hi & Hp2) He. split; [|by split].
      eapply (plain_grows n); [exact Hp1|]. by eapply grows_entry.
    - intros i m w w3 e t w4 e' w5 (Hp1 & _) _ _ _ _ _ Hre He _. split; [|done].
      eapply (plain_grows n); [exact Hp1|]. by apply grows_restored.
    - intros i m w w3 e t w4 h e' w6 _ _ _ [Hp1 Hp2] He Hd _ Hc _. split.
      + eapply (plain_grows n); [exact Hp1|]. by apply grows_commit.
      + intros _. apply deposit_deletes in Hd. specialize (Hp2 He). rewrite <- Hd in Hp2. by destruct e'.
    - intros i m w w3 e t w4 e' s5 w6 (_ & _ & Hne) _ _ [Hp1 Hp2] He Hd Hs Hc _. split.
      + eapply (plain_grows n); [|by apply grows_commit]. cbn [st set_st].
        pose proof (modify_account_get _ _ _ _ _ a Hs eq_refl) as G. rewrite decide_False in G by done.
        destruct Hp1. split; by rewrite G.
      + intros _. apply deposit_deletes in Hd. rewrite Hd. auto.
  Qed.
End Plain.

Section Replay.
  Context (cr : crypto) (k512 : bytes -> bytes).

  (** A message call leaves the account its nonce and gives it no code, and does
      not delete it; the account itself may be called, but has nothing to run. *)
  Theorem C86_call n env te k a m w o w' :
    pow_process_message_call cr n env te m w = PCRet o w' -> plain k a (st w) ->
    (m_target m <> None -> m_current_target m = a -> m_code m = []) ->
    plain k a (st w') /\ a ∉ co_accounts_to_delete o.
  Proof.
    assert (HF : forall e t w1, pow_finish_call e t w1 = PCRet o w' -> w' = w1 /\
      (co_accounts_to_delete o = ∅ \/ e_error e = None /\ co_accounts_to_delete o = e_accounts_to_delete e)).
    { intros e t w1. unfold pow_finish_call. destruct (e_error e); [intros [= <- <-]; by auto|].
      destruct (_ || _); [done|]. intros [= <- <-]. by auto. }
    assert (HG : forall e t w1, pow_finish_call e t w1 = PCRet o w' ->
      plain k a (st w1) /\ (e_error e = None -> a ∉ e_accounts_to_delete e) ->
      plain k a (st w') /\ a ∉ co_accounts_to_delete o).
    { intros e t w1 H [H1 H2]. apply HF in H as [-> [->|[He ->]]]; split; try done; auto. }
    unfold pow_process_message_call. intros H Hp Hc. destruct (m_target m).
    - destruct (pow_process_message cr n env te ∅ m w) as [e t w1|] eqn:E; [|done].
      pose proof (prule_message _ _ _ _ _ _ _ _ _ _ ∅ m w (plain_rule cr n env te k a)) as R.
      rewrite E in R. eapply HG; [exact H|]. apply R. split; [done|]. split; [apply not_elem_of_empty|auto].
    - destruct (account_has_code_or_nonce _ _) eqn:Hf; cbn [orb] in H.
      { injection H as <- <-. split; [done|]. apply not_elem_of_empty. }
      destruct (account_has_storage _ _). { injection H as <- <-. split; [done|]. apply not_elem_of_empty. }
      destruct (pow_process_create_message cr n env te ∅ m w) as [e t w1|] eqn:E; [|done].
      pose proof (prule_create _ _ _ _ _ _ _ _ _ _ ∅ m w (plain_rule cr n env te k a)) as R.
      rewrite E in R. eapply HG; [exact H|]. apply R. split; [done|]. split; [apply not_elem_of_empty|].
      intros <-. assert (solid (st w) (m_current_target m)) as Hs%solid_spec by (left; destruct Hp; lia). congruence.
  Qed.

  (** A transaction uses up the nonce of its sender. *)
  Theorem C86_sender n env bo tx s sender price o s2 r s' :
    pow_transacted cr n env (pow_evm cr n) bo tx s sender price o s2 r s' ->
    nonce (get_account s sender) = tx_nonce tx /\ tx_nonce tx < nonce (get_account s' sender) /\
    code (get_account s' sender) = [].
  Proof.
    intros Ht. pose proof (C71_accounts _ _ _ _ _ _ _ _ _ _ _ _ _ sender Ht) as HA.
    destruct Ht as (te & m & _ & _ & Ha & _ & Hm & Ev & _).
    unfold pow_evm in Ev. destruct (pow_process_message_call cr n env te m (World _ empty_transient)) as [o1 w1|] eqn:E; [|done].
    injection Ev as -> <-.
    assert (HC : get_account (charged s sender (tx_gas tx * price)) sender = Account (nonce (get_account s sender) + 1)
        (balance (get_account s sender) - tx_gas tx * price) (code (get_account s sender))).
    { rewrite !get_lookup. cbn [charged main_trie]. rewrite lookup_insert. cbn [default from_option id].
      by rewrite <- get_lookup. }
    destruct (C86_call _ _ _ (nonce (get_account s sender) + 1) sender _ _ _ _ E) as [[P1 P2] P3].
    { cbn [st]. unfold plain. rewrite HC. cbn [nonce code]. split; [lia|]. apply (pa_code _ _ _ _ _ _ _ _ Ha). }
    { intros Ht Hs. pose proof (po_kind _ _ _ _ _ _ Hm) as Hk. rewrite (po_target _ _ _ _ _ _ Hm) in Ht.
      destruct (tx_to tx); [|done]. destruct Hk as (K1 & _ & _ & ->). rewrite <- K1, Hs, HC. apply (pa_code _ _ _ _ _ _ _ _ Ha). }
    rewrite HA, decide_False by done. unfold credit. cbn [nonce code].
    pose proof (pa_nonce _ _ _ _ _ _ _ _ Ha). split; [done|]. split; [lia|done].
  Qed.
  (** No other account with a nonce and no code loses its nonce or gets code. *)
  Theorem C86_plain n env bo tx s sender price o s2 r s' k a :
    pow_transacted cr n env (pow_evm cr n) bo tx s sender price o s2 r s' ->
    plain k a s -> plain k a s'.
  Proof.
    intros Ht Hp. pose proof (C71_accounts _ _ _ _ _ _ _ _ _ _ _ _ _ a Ht) as HA.
    destruct Ht as (te & m & _ & _ & Ha & _ & Hm & Ev & _).
    unfold pow_evm in Ev. destruct (pow_process_message_call cr n env te m (World _ empty_transient)) as [o1 w1|] eqn:E; [|done].
    injection Ev as -> <-.
    assert (HC : plain k a (charged s sender (tx_gas tx * price))).
    { destruct Hp as [Hp1 Hp2]. unfold plain. rewrite !get_lookup in *. cbn [charged main_trie].
      destruct (decide (a = sender)) as [->|Hn].
      - rewrite lookup_insert. cbn [default from_option id nonce code]. rewrite !get_lookup. split; [lia|done].
      - rewrite lookup_insert_ne by done. done. }
    destruct (C86_call _ _ _ k a _ _ _ _ E) as [[P1 P2] P3].
    { exact HC. }
    { intros Ht Hs. pose proof (po_kind _ _ _ _ _ _ Hm) as Hk. rewrite (po_target _ _ _ _ _ _ Hm) in Ht.
      destruct (tx_to tx); [|done]. destruct Hk as (K1 & _ & _ & ->). rewrite <- K1, Hs. apply HC. }
    unfold plain. rewrite HA, decide_False by done. unfold credit. cbn [nonce code]. done.
  Qed.

  (** ** Blocks and chains *)

  (** Sender and nonce of a transaction as it lies in a block of fork [n] *)
  Definition pow_tx_id (n : pow_name) (chain_id : N) (tx : encoded_tx) : option (address * N) :=
    match pow_decode_transaction (rules_of n) tx with
    | Done tx => match pow_recover_sender cr (rules_of n) chain_id tx with
                 | Done a => Some (a, tx_nonce tx)
                 | Fail _ => None
                 end
    | Fail _ => None
    end.
  (** The nonce is used up. *)
  Definition used (s : state) (x : address * N) : Prop :=
    snd x < nonce (get_account s (fst x)) /\ code (get_account s (fst x)) = [].
  Lemma used_plain s s' x : (forall k a, plain k a s -> plain k a s') -> used s x -> used s' x.
  Proof.
    intros H [H1 H2]. destruct (H (nonce (get_account s (fst x))) (fst x)) as [P1 P2].
    { split; [lia|done]. }
    split; [lia|done].
  Qed.

  Lemma sequence_used n env g s txs rs s' l0 :
    pow_sequence cr n env (pow_evm cr n) g s txs rs s' -> Forall (used s) l0 ->
    exists ids, map (fun tx => match pow_recover_sender cr (rules_of n) (pe_chain_id env) tx with
                 | Done a => Some (a, tx_nonce tx) | Fail _ => None end) txs = map Some ids /\
      NoDup ids /\ (forall x, x ∈ ids -> x ∉ l0) /\ Forall (used s') (l0 ++ ids).
  Proof.
    intros H. revert l0. induction H as [g s|bo s tx txs sender price o s2 r rs s1 s' Hk Ht HR IH]; intros l0 Hl.
    { exists []. split; [done|]. split; [constructor|]. split; [by intros x ?%elem_of_nil|]. by rewrite app_nil_r. }
    destruct (C86_sender _ _ _ _ _ _ _ _ _ _ _ Ht) as (N1 & N2 & N3).
    assert (pow_recover_sender cr (rules_of n) (pe_chain_id env) tx = Done sender) as Hse.
    { destruct Ht as (te & m & _ & _ & Ha & _). apply (pa_sender _ _ _ _ _ _ _ _ Ha). }
    destruct (IH (l0 ++ [(sender, tx_nonce tx)])) as (ids & I1 & I2 & I3 & I4).
    { apply Forall_app. split.
      - eapply Forall_impl; [exact Hl|]. intros x. apply used_plain. intros k a. by eapply C86_plain.
      - constructor; [by split|constructor]. }
    exists ((sender, tx_nonce tx) :: ids). split; [|split; [|split]].
    - cbn [map]. by rewrite Hse, I1.
    - constructor; [|done]. intros Hin. apply (I3 _ Hin). apply elem_of_app. right. by apply elem_of_list_singleton.
    - intros x [->|Hin]%elem_of_cons.
      + intros Hin. rewrite Forall_forall in Hl. destruct (Hl _ Hin) as [K _]. cbn in K. lia.
      + intros Hin'. apply (I3 _ Hin). apply elem_of_app. by left.
    - by rewrite <- app_assoc in I4.
  Qed.

  (** In an accepted block no transaction has a sender and nonce that was used
      before, in the block or outside. *)
  Theorem C86_block n c b c' l0 : lenN (pb_transactions b) < 2 ^ 256 ->
    pow_state_transition cr k512 n (pow_evm cr n) c b = (Done tt, c') ->
    Forall (used (pc_state c)) l0 ->
    exists ids, map (pow_tx_id n (pc_chain_id c)) (pb_transactions b) = map Some ids /\
      NoDup ids /\ (forall x, x ∈ ids -> x ∉ l0) /\ Forall (used (pc_state c')) (l0 ++ ids).
  Proof.
    intros Hl H Hu.
    destruct (C72_block cr n (pow_evm cr n) k512 c b c' Hl H)
      as (env & txs & rs & ts & rcs & s & Hd & Hm & Hs & _ & _ & _ & _ & _ & _ & _ & Hc & _).
    destruct (sequence_used _ _ _ _ _ _ _ _ Hs Hu) as (ids & I1 & I2 & I3 & I4).
    rewrite (ds_chain_id _ _ _ _ _ Hd) in I1. exists ids. split; [|split; [done|split; [done|]]].
    - rewrite <- I1. clear -Hm. revert txs Hm. induction (pb_transactions b) as [|e l IH]; intros [|tx txs] Hm; try done.
      cbn [map] in *. injection Hm as H1 H2. rewrite (IH _ H2). f_equal. unfold pow_tx_id. by rewrite H1.
    - eapply Forall_impl; [exact I4|]. intros x [H1 H2]. unfold used. by rewrite Hc.
  Qed.

  (** The life of a chain from [c0]: blocks of any forks are accepted one after
      the other, and the DAO fork may move its ether. *)
  Inductive pow_life (c0 : pow_chain encoded_tx)
    : pow_chain encoded_tx -> list (pow_name * pow_block encoded_tx) -> Prop :=
  | PL_start : pow_life c0 c0 []
  | PL_block c l n b c' : pow_life c0 c l -> lenN (pb_transactions b) < 2 ^ 256 ->
      pow_state_transition cr k512 n (pow_evm cr n) c b = (Done tt, c') ->
      pow_life c0 c' (l ++ [(n, b)])
  | PL_dao c l s : pow_life c0 c l -> apply_dao (pc_state c) = Ok s ->
      pow_life c0 (PowChain (pc_blocks c) s (pc_chain_id c)) l.

  Definition ids_of (chain_id : N) (l : list (pow_name * pow_block encoded_tx)) : list (option (address * N)) :=
    concat (map (fun '(n, b) => map (pow_tx_id n chain_id) (pb_transactions b)) l).

  Lemma life_used c0 c l : pow_life c0 c l -> pc_chain_id c = pc_chain_id c0 /\
    exists ids, ids_of (pc_chain_id c0) l = map Some ids /\ NoDup ids /\ Forall (used (pc_state c)) ids.
  Proof.
    induction 1 as [|c l n b c' H (Hi & ids & I1 & I2 & I3) Hl E|c l s H (Hi & ids & I1 & I2 & I3) E].
    - split; [done|]. exists []. split; [done|]. split; constructor.
    - split.
      { apply PropOmmers.transition_done in E as (_ & _ & _ & E & _). congruence. }
      destruct (C86_block _ _ _ _ _ Hl E I3) as (ids' & J1 & J2 & J3 & J4). exists (ids ++ ids').
      split; [|split; [|done]].
      + unfold ids_of in *. rewrite map_app, concat_app, I1, map_app. cbn [map concat].
        by rewrite app_nil_r, <- Hi, J1.
      + apply NoDup_app. split; [done|]. split; [|done]. intros x H1 H2. by apply (J3 _ H2).
    - split; [done|]. exists ids. split; [done|]. split; [done|].
      destruct dao_accounts as [D1 D2]. apply apply_dao_loop_spec in E as (K & _); [|done..].
      eapply Forall_impl; [exact I3|]. intros x [H1 H2]. destruct (K (fst x)) as [K1 K2].
      unfold used. cbn [pc_state]. by rewrite K1, K2.
  Qed.

  (** No two transactions have the same sender and nonce. *)
  Theorem C86_once c0 c l : pow_life c0 c l ->
    exists ids, ids_of (pc_chain_id c0) l = map Some ids /\ NoDup ids /\
      Forall (fun '(a, k) => k < nonce (get_account (pc_state c) a)) ids.
  Proof.
    intros H. destruct (life_used _ _ _ H) as (_ & ids & I1 & I2 & I3). exists ids.
    split; [done|]. split; [done|]. eapply Forall_impl; [exact I3|]. by intros [a k] [K _].
  Qed.

  (** The supply: along the life of a chain, ether comes only from the rewards
      of the blocks. *)
  Definition rewards_of (l : list (pow_name * pow_block encoded_tx)) : N :=
    foldr N.add 0 (map (fun '(n, b) =>
      paid (payments (pf_block_reward (fork_of n)) (ph_number (pb_header b)) (ph_coinbase (pb_header b))
              (pb_ommers b))) l).
  Theorem C73_life c0 c l : pow_life c0 c l ->
    total_balance (pc_state c) <= total_balance (pc_state c0) + rewards_of l.
  Proof.
    induction 1 as [|c l n b c' H IH Hl E|c l s H IH E]; [cbn; lia| |].
    - destruct (C73_block _ _ _ _ _ _ Hl E) as (env & _ & T).
      assert (HR : forall l x, rewards_of (l ++ [x]) = rewards_of l + rewards_of [x]).
      { clear. intros l x. unfold rewards_of. rewrite map_app. cbn [map].
        induction (map _ l) as [|y l' IH]; cbn [app foldr] in *; lia. }
      rewrite HR. unfold rewards_of at 2. cbn [map foldr]. rewrite N.add_0_r. lia.
    - destruct dao_accounts as [D1 D2]. apply apply_dao_loop_spec in E as (_ & _ & _ & _ & _ & T); [|done..].
      cbn [pc_state]. by rewrite T.
  Qed.

  (** Afterwards no transaction with a sender and nonce that was used is
      accepted, by the rules of any fork. *)
  Theorem C86_no_replay c0 c l n b etx tx sender :
    pow_life c0 c l -> (n, b) ∈ l -> etx ∈ pb_transactions b ->
    pow_tx_id n (pc_chain_id c0) etx = Some (sender, tx_nonce tx) ->
    forall n' env bo r, pow_recover_sender cr (rules_of n') (pe_chain_id env) tx = Done sender ->
      pow_check_transaction cr (rules_of n') env bo tx (pc_state c) <> Done r.
  Proof.
    intros H Hb He Hid n' env bo r Hse Hc. destruct (life_used _ _ _ H) as (_ & ids & I1 & _ & I3).
    assert (Hin : Some (sender, tx_nonce tx) ∈ ids_of (pc_chain_id c0) l).
    { rewrite <- Hid. apply elem_of_list_In, in_concat. exists (map (pow_tx_id n (pc_chain_id c0)) (pb_transactions b)). split.
      - apply in_map_iff. exists (n, b). split; [done|]. by apply elem_of_list_In.
      - apply in_map_iff. exists etx. split; [done|]. by apply elem_of_list_In. }
    rewrite I1 in Hin. apply (elem_of_list_fmap_2 Some) in Hin as (x & [= <-] & Hin).
    rewrite Forall_forall in I3. destruct (I3 _ Hin) as [K _]. cbn [fst snd] in K.
    unfold pow_check_transaction in Hc. apply obind_inv in Hc as (ga & _ & Hc). apply obind_inv in Hc as (? & _ & Hc).
    rewrite Hse in Hc. apply obind_inv in Hc as (x' & Hx & Hc). injection Hx as <-.
    apply obind_inv in Hc as ([p f] & _ & Hc). apply obind_inv in Hc as (? & Hc & _).
    destruct (N.eqb_spec (nonce (get_account (pc_state c) sender)) (tx_nonce tx)) as [E|]; [lia|done].
  Qed.
  (** In particular not the same transaction. *)
  Theorem C86_not_again c0 c l n b etx tx sender :
    pow_life c0 c l -> (n, b) ∈ l -> etx ∈ pb_transactions b ->
    pow_decode_transaction (rules_of n) etx = Done tx ->
    pow_recover_sender cr (rules_of n) (pc_chain_id c0) tx = Done sender ->
    forall n' env bo r, pe_chain_id env = pc_chain_id c ->
      pow_check_transaction cr (rules_of n') env bo tx (pc_state c) <> Done r.
  Proof.
    intros H Hb He Hd Hs n' env bo r Hi Hc. destruct (life_used _ _ _ H) as (Hi' & _).
    destruct (pow_recover_sender cr (rules_of n') (pe_chain_id env) tx) as [sender'|e] eqn:E.
    - assert (sender' = sender) as ->. { eapply C70_stable; [exact E|]. by rewrite Hi, Hi'. }
      eapply (C86_no_replay c0 c l n b etx tx sender); try done. unfold pow_tx_id. by rewrite Hd, Hs.
    - unfold pow_check_transaction in Hc. apply obind_inv in Hc as (ga & _ & Hc). apply obind_inv in Hc as (? & _ & Hc).
      by rewrite E in Hc.
  Qed.

  (** From Frontier to Osaka: the chain goes on with the blocks since the merge,
      from a state with the accounts that the last proof-of-work block left. *)
  Theorem C86_merge c0 c l d0 d bs : pow_life c0 c l ->
    (forall a, get_account (bc_state d0) a = get_account (pc_state c) a) -> bc_chain_id d0 = pc_chain_id c ->
    TxProofs.settled (bc_state d0) -> PropHistory.accepted cr d0 d bs -> PropHistory.in_order bs ->
    exists ids, ids_of (pc_chain_id c0) l
        ++ map (PropHistory.tx_id cr (pc_chain_id c0)) (concat (map bl_transactions bs)) = map Some ids /\
      NoDup ids /\ Forall (fun '(a, k) => k < nonce (get_account (bc_state d) a)) ids.
  Proof.
    intros H Hg Hi Hs Ha Ho. destruct (life_used _ _ _ H) as (Hi' & ids & I1 & I2 & I3).
    destruct (PropHistory.accepted_spent cr d0 d bs Osaka ids Ha Ho Hs) as (ids' & J1 & J2 & J3 & J4).
    { eapply Forall_impl; [exact I3|]. intros x [K1 K2]. split; [by rewrite Hg|]. intros _. by rewrite Hg. }
    { apply Forall_forall. intros b _. by destruct (h_fork (bl_header b)). }
    exists (ids ++ ids'). split; [|split].
    - by rewrite I1, <- Hi', <- Hi, J1, map_app.
    - apply NoDup_app. split; [done|]. split; [|done]. intros x H1 H2. by apply (J3 _ H2).
    - eapply Forall_impl; [exact J4|]. by intros [a k] [K _].
  Qed.
End Replay.

(** ** Concrete cases *)

(** The block of C72 with two transfers, run on the virtual machine *)
Definition once_block : pow_block encoded_tx :=
  Eval vm_compute in
  let h root used tr rr bloom := PowHeader (pow_hash easy_crypto (pb_header pay_genesis)) easy_empty 0xc1 root
    tr rr bloom 131072 1 50000 used 1010 [] (zeros 32) (zeros 8) None in
  let b root used tr rr bloom := PowBlock (h root used tr rr bloom) pay_txs [] in
  match apply_body (fork_of Byzantium) (pow_execute easy_crypto (rules_of Byzantium) (pow_evm easy_crypto Byzantium)) pay_chain
          (b [] 0 [] [] []) (pc_state pay_chain) with
  | (Done o, s) => b (default [] (state_root easy_crypto s)) (po_gas_used o) (po_transactions_root o)
                     (po_receipt_root o) (po_bloom o)
  | _ => b [] 0 [] [] []
  end.
Definition once_after : pow_chain encoded_tx :=
  snd (fast_transition easy_crypto (fork_of Byzantium)
         (pow_execute easy_crypto (rules_of Byzantium) (pow_evm easy_crypto Byzantium)) pay_chain once_block).
Example C86_nonvacuous :
  pow_life easy_crypto zero512 pay_chain once_after [(Byzantium, once_block)] /\
  ids_of easy_crypto 1 [(Byzantium, once_block)] = [Some (pay_sender, 0); Some (pay_sender, 1)] /\
  nonce (get_account (pc_state once_after) pay_sender) = 2.
Proof.
  split.
  { apply (PL_block _ _ _ pay_chain []); [constructor|vm_compute; reflexivity|].
    unfold pow_state_transition. rewrite transition_fast; [|easy_worked|constructor].
    unfold once_after. apply injective_projections; vm_compute; reflexivity. }
  split; vm_compute; reflexivity.
Qed.
(** An account with a nonce and no code, and one that is a contract, which does
    get deleted (ex_destroy_code) *)
Example C86_plain_nonvacuous :
  plain 5 ex_sender (ex_vm_state ex_destroy_code) /\ ~ plain 1 0xaa (ex_vm_state ex_destroy_code).
Proof. split; [vm_compute; split; [split; [done|done]|done]|]. intros [_ H]. vm_compute in H. done. Qed.

Definition PropPowReplay_theorems :=
  (@C86_call, @C86_sender, @C86_plain, @C86_block, @C86_once, @C86_no_replay, @C86_not_again, @C86_merge, @C73_life).
Print Assumptions PropPowReplay_theorems.
