(** * PropPowEmpty: no empty account survives a transaction (C78).

    State clearing (EIP-161), from Spurious Dragon on. *)
From Verif Require Import Base State Rlp Bloom Transactions Trie Blocks Requests Fork Ethash Pow PowTx.
From Verif Require Import Vm Instructions Precompiles Interpreter PowVm StateSpec
  StateProofs NumericProofs ArithProofs EvmStep EvmLocal EvmPlan EvmPlanProofs EvmCallProofs
  EvmFrame EvmAccounts EvmRule EvmInv PowVmPlan PowVmOps PowVmCalls PowVmFrame PowVmRule PowVmInv.
From Verif Require Import EvmExamples PropExec ForkProofs PropRewards PropPowTx PropPowRun PropPowBody
  PropPowExamples PropPowVm PropPowFrames.
From Coq Require Import ZifyBool ZifyN ZifyNat.
Ltac Zify.zify_post_hook ::= idtac.

Local Opaque to_u256 from_be_bytes calculate_memory_gas_cost ceil32 N.compare.

(** The account is stored but empty: nonce 0, balance 0, no code. *)
Definition vacant (s : state) (a : address) : Prop := main_trie s !! a = Some EMPTY_ACCOUNT.
(** Nonces do not fall; accounts with a nonce or code keep one. *)
Definition alive (s s' : state) : Prop := forall a,
  (solid s a -> solid s' a) /\ nonce (get_account s a) <= nonce (get_account s' a).

Lemma vacant_solid s a : vacant s a -> solid s a -> False.
Proof. unfold vacant, solid. rewrite get_lookup. intros ->. cbn. by intros [|]. Qed.
Lemma grows_alive n s s' : grows n s s' -> alive s s'.
Proof.
  intros [_ H1 H2 _] a. split; [|apply H1]. intros Ha. pose proof (H2 a Ha) as Hc. destruct Ha as [Ha|Ha].
  - left. specialize (H1 a). lia.
  - right. by rewrite Hc.
Qed.
Lemma alive_trans s1 s2 s3 : alive s1 s2 -> alive s2 s3 -> alive s1 s3.
Proof. intros H1 H2 a. split; [intros Ha; by apply H2, H1|]. etrans; [apply H1|apply H2]. Qed.
Lemma vacant_main s s' a : main_trie s' = main_trie s -> vacant s' a -> vacant s a.
Proof. unfold vacant. by intros ->. Qed.
Lemma vacant_modify s a f s' acc b : modify_account s a f = Ok s' -> f (get_account s a) = Ok acc ->
  vacant s' b -> (b = a /\ acc = EMPTY_ACCOUNT) \/ vacant s b.
Proof.
  intros (acc' & Hf & Hm)%modify_main Hf'. unfold vacant. rewrite Hm.
  destruct (decide (a = b)) as [<-|Hn].
  - rewrite lookup_insert. intros [= <-]. left. split; [done|congruence].
  - rewrite lookup_insert_ne by done. by right.
Qed.
Lemma vacant_touch s a b : vacant (touch_account s a) b -> vacant s b \/ b = a.
Proof. unfold vacant. rewrite touch_main. destruct (decide _) as [[-> _]|]; auto. Qed.
Lemma vacant_balance s a k s' b : pow_set_account_balance s a k = Ok s' -> vacant s' b ->
  (b = a /\ k = 0 /\ ~ solid s a) \/ vacant s b.
Proof.
  intros H Hv. destruct (vacant_modify _ _ _ _ _ b H eq_refl Hv) as [[-> E]|]; [left|by right].
  split; [done|]. unfold EMPTY_ACCOUNT in E. injection E as E1 E2 E3. split; [done|].
  unfold solid. rewrite E1, E3. by intros [|].
Qed.
Lemma vacant_nonce s a s' b : pow_increment_nonce s a = Ok s' -> vacant s' b -> vacant s b.
Proof.
  intros H Hv. destruct (vacant_modify _ _ _ _ _ b H eq_refl Hv) as [[-> E]|]; [|done].
  unfold EMPTY_ACCOUNT in E. injection E as E _. lia.
Qed.
Lemma nonce_solid s a s' : pow_increment_nonce s a = Ok s' -> solid s' a.
Proof.
  intros H. left. rewrite (modify_account_get _ _ _ _ _ a H eq_refl), decide_True by done. cbn. lia.
Qed.
Lemma vacant_move s a b k s' c : move_ether_pow s a b k = Ok s' -> solid s a -> k <> 0 ->
  vacant s' c -> vacant s c.
Proof.
  intros (Hk & s1 & E1 & F1 & E2 & F2)%move_pow_inv Hs Hn Hv.
  destruct (vacant_modify _ _ _ _ _ c E2 F2 Hv) as [[-> E]|Hv1].
  { unfold EMPTY_ACCOUNT in E. injection E as _ E _. lia. }
  destruct (vacant_modify _ _ _ _ _ c E1 F1 Hv1) as [[-> E]|]; [|done].
  exfalso. unfold EMPTY_ACCOUNT in E. injection E as E3 _ E4. destruct Hs; congruence.
Qed.

Section Empty.
  Context (cr : crypto) (n : pow_name) (env : pow_env).
  Context (Hfork : PowVm.since SpuriousDragon n = true).
  Notation pm te := (pow_process_message cr n env te).
  Notation pcm te := (pow_process_create_message cr n env te).
  Notation pmc te := (pow_process_message_call cr n env te).

  Definition empty_pre (_ : gset address) (m : message) (w : world) : Prop :=
    (m_code m <> [] -> solid (st w) (m_current_target m)) /\
    (m_should_transfer_value m = true -> m_value m <> 0 -> solid (st w) (m_caller m)).
  Definition empty_cpre (_ : gset address) (m : message) (w : world) : Prop :=
    m_value m <> 0 -> solid (st w) (m_caller m).
  Definition empty_inv (_ : gset address) (m : message) (w0 : world) (e : evm) (t : gset address)
      (w : world) : Prop :=
    alive (st w0) (st w) /\
    forall a, vacant (st w) a -> vacant (st w0) a \/ a ∈ t \/ a = m_current_target m.
  Definition empty_post (_ : gset address) (m : message) (w0 : world) (e : evm) (t : gset address)
      (w : world) : Prop :=
    alive (st w0) (st w) /\
    forall a, vacant (st w) a -> vacant (st w0) a \/
      e_error e = None /\ (a ∈ t \/ a = m_current_target m).

  Definition empty_cpost (_ : gset address) (m : message) (w0 : world) (e : evm) (t : gset address)
      (w : world) : Prop :=
    alive (st w0) (st w) /\ forall a, vacant (st w) a -> vacant (st w0) a \/ e_error e = None /\ a ∈ t.

  Lemma touched_empty s a b : vacant s a -> b = a -> a ∈ touched_if_empty n s b.
  Proof using Hfork.
    intros Hv ->. unfold touched_if_empty. rewrite Hfork. apply empty_spec in Hv. rewrite Hv. cbn. set_solver.
  Qed.
  Lemma restored_post i m w0 e t w : restored w0 w -> empty_post i m w0 e t w.
  Proof using.
    clear. intros [Hm _ _ _ _]. split.
    - eapply grows_alive, (grows_main London). done.
    - intros a Ha. left. by eapply vacant_main.
  Qed.
  Lemma restored_cpost i m w0 e t w : restored w0 w -> empty_cpost i m w0 e t w.
  Proof using.
    clear. intros [Hm _ _ _ _]. split.
    - eapply grows_alive, (grows_main London). done.
    - intros a Ha. left. by eapply vacant_main.
  Qed.
  Lemma at_code m w0 e w o : fstruct m w0 e w -> pat_op n e o -> m_code m <> [].
  Proof using.
    clear. intros Hf [(_ & Hp & _) _]. rewrite <- (fs_code _ _ _ _ Hf). intros E. rewrite E, lenN_nil in Hp. lia.
  Qed.
  Lemma empty_rule te : pframe_rule cr n env te (fun _ => True)
    empty_pre empty_cpre empty_inv empty_post empty_cpost.
  Proof using Hfork.
    constructor; try done.
    - (* start *)
      intros i m w s1 [_ Hp] _ H. pose proof (grows_transfer n _ _ _ H) as Hg%grows_alive. split; [exact Hg|].
      intros a Ha. cbn [st set_st] in Ha. unfold ptransfer in H. cbv zeta in H.
      destruct (m_should_transfer_value m) eqn:Et; cbn [andb] in H.
      + destruct (N.eqb_spec (m_value m) 0) as [|Hz]; cbn [negb] in H.
        * injection H as <-. apply vacant_touch in Ha as [Ha|Ha]; auto.
        * eapply vacant_move in H; [|..|exact Ha]; [| |done].
          -- apply vacant_touch in H as [Ha'|Ha']; auto.
          -- eapply (grows_alive n); [apply grows_touch|]. by apply Hp.
      + injection H as <-. apply vacant_touch in Ha as [Ha|Ha]; auto.
    - (* done *)
      intros i m w0 e t w o t1 e' w' [Hp1 _] Hf [Hi1 Hi2] Hat [_ He] _.
      pose proof (grows_effect n _ _ _ _ _ _ _ He) as Hg%grows_alive.
      split; [by eapply alive_trans|]. intros a Ha.
      assert (Hw : (vacant (st w) a \/ a ∈ t1) -> vacant (st w0) a \/ a ∈ t ∪ t1 \/ a = m_current_target m).
      { intros [H|H]; [destruct (Hi2 a H) as [|[|]]|]; set_solver. }
      apply Hw. clear Hw.
      assert (Hsol : solid (st w) (m_current_target (e_message e))).
      { rewrite (fs_msg _ _ _ _ Hf). apply Hi1, Hp1. by eapply at_code. }
      destruct He as [Hw _ _ Ht|? ? ? s' _ _ _ Hs Hw _ _ _ _ _ Ht
        |b s1 s2 _ _ _ Hs1 Hs2 Hw _ _ _ _ Ht|s' _ _ Hn Hw _ _ _ Ht]; subst w'.
      + by left.
      + apply set_storage_frame in Hs as (_ & _ & Hs). left. by eapply vacant_main.
      + cbn [st set_st] in *. assert (Hsol1 : solid s1 (m_current_target (e_message e))).
        { eapply (grows_alive n); [by eapply grows_balance|done]. }
        destruct (vacant_balance _ _ _ _ _ Hs2 Ha) as [(-> & _ & H)|Ha1]; [done|].
        destruct (vacant_balance _ _ _ _ _ Hs1 Ha1) as [(-> & _ & H)|Ha2]; [|by left].
        right. subst t1. by apply touched_empty.
      + left. by eapply vacant_nonce.
    - (* call *)
      intros i m w0 e t w o m' e1 os oz [Hp1 _] Hf [Hi1 Hi2] Hat Hc. cbv zeta.
      assert (Hsol : solid (st w) (m_current_target (e_message e))).
      { rewrite (fs_msg _ _ _ _ Hf). apply Hi1, Hp1. by eapply at_code. }
      split.
      + split.
        * intros Hcode. destruct (pco_code _ _ _ _ _ _ _ _ Hc) as (ca & _ & Hca & _ & [->| ->] & _); [|done].
          right. congruence.
        * intros Htr Hv. pose proof (pco_kind _ _ _ _ _ _ _ _ Hc) as Hk. destruct o; try done.
          -- destruct Hk as (-> & _). done.
          -- destruct Hk as (-> & _). done.
          -- destruct Hk as (_ & _ & Hk & _). congruence.
          -- destruct Hk as (-> & _). done.
      + intros c tc w1 Hps Hpo. split; [|done]. intros e2 w2 Hr _.
        apply resume_call_sets in Hr as [-> _]. split; [eapply alive_trans; [exact Hi1|apply Hpo]|].
        destruct Hpo as [_ Hpo]. intros a Ha. destruct (Hpo a Ha) as [Hv|[He Ht]].
        * destruct (Hi2 a Hv) as [|[|]]; set_solver.
        * right. left. unfold touched_by_child. rewrite He, (pps_msg _ _ _ _ _ Hps).
          destruct Ht as [Ht|Ht]; [set_solver|]. pose proof (touched_empty _ _ _ Ha (eq_sym Ht)). set_solver.
    - (* create *)
      intros i m w0 e t w o m' e1 wi [Hp1 _] Hf [Hi1 Hi2] Hat Hc. cbv zeta.
      assert (Hsol : solid (st w) (m_current_target (e_message e))).
      { rewrite (fs_msg _ _ _ _ Hf). apply Hi1, Hp1. by eapply at_code. }
      destruct (pcr_nonce _ _ _ _ _ _ _ _ Hc) as (s1 & Hn & Hwi). subst wi.
      pose proof (grows_nonce n _ _ _ Hn) as Hg%grows_alive. split.
      + intros _. rewrite (pcr_caller _ _ _ _ _ _ _ _ Hc). by apply Hg.
      + intros c tc w1 Hps Hpo. split; [|done]. intros e2 w2 Hr _.
        apply resume_create_sets in Hr as [-> _]. split.
        { eapply alive_trans; [exact Hi1|]. eapply alive_trans; [exact Hg|apply Hpo]. }
        destruct Hpo as [_ Hpo]. intros a Ha. destruct (Hpo a Ha) as [Hv|[He Ht]].
        * cbn [st set_st] in Hv. eapply vacant_nonce in Hv; [|done]. destruct (Hi2 a Hv) as [|[|]]; set_solver.
        * right. left. unfold touched_by_child. rewrite He, (pps_msg _ _ _ _ _ Hps).
          set_solver.
    - intros i m w0 e t w _ Hps He _. destruct (e_error e) as [x|] eqn:E; [|done].
      destruct (pps_fail _ _ _ _ _ Hps x E) as (Hre & _). by apply restored_post.
    - intros i m w0 e t w w3 _ Hf [H1 H2] Hc _.
      pose proof (grows_commit n _ _ Hc) as Hg%grows_alive. apply commit_same in Hc as (Hc & _). split.
      + by eapply alive_trans.
      + intros a Ha. apply (vacant_main (st w)) in Ha; [|done].
        destruct (H2 a Ha) as [|Ht]; [by left|right]. split; [apply (fs_err _ _ _ _ Hf)|done].
    - (* entry *)
      intros i m w w3 Hp H. split.
      + intros _. unfold pcreate_entry in H. rewrite Hfork in H. cbv zeta in H.
        destruct (pow_increment_nonce _ _) as [s|] eqn:E; [|done]. injection H as <-. cbn. by eapply nonce_solid.
      + intros _ Hv. eapply (grows_alive n); [by eapply grows_entry|]. by apply Hp.
    - intros i m w w3 e t w4 e' w5 _ _ _ _ _ _ Hre _ _. by apply restored_cpost.
    - intros i m w w3 e t w4 h e' w6 _ _ _ _ _ _ Hh _ _. exfalso. clear -Hfork Hh. by destruct n.
    - (* deposit *)
      intros i m w w3 e t w4 e' s5 w6 _ He3 Hps [H1 H2] He Hd Hs Hc _.
      assert (Hn3 : nonce (get_account (st w3) (m_current_target m)) <> 0).
      { unfold pcreate_entry in He3. rewrite Hfork in He3. cbv zeta in He3.
        destruct (pow_increment_nonce _ _) as [s|] eqn:E; [|done]. injection He3 as <-. cbn [st set_st].
        rewrite (modify_account_get _ _ _ _ _ (m_current_target m) E eq_refl), decide_True by done. cbn. lia. }
      apply commit_same in Hc as (Hc & _). cbn [st set_st] in Hc.
      assert (HG : forall a, get_account (st w6) a = get_account s5 a).
      { intros a. rewrite !get_lookup. by rewrite Hc. }
      pose proof (grows_entry n _ _ _ He3) as Hg%grows_alive.
      pose proof (alive_trans _ _ _ Hg H1) as H14.
      assert (Hn4 : nonce (get_account (st w4) (m_current_target m)) <> 0).
      { destruct (H1 (m_current_target m)) as [_ Hn]. lia. }
      split.
      + intros a. unfold solid. rewrite !HG, (modify_account_get _ _ _ _ _ a Hs eq_refl).
        destruct (decide (m_current_target m = a)) as [<-|]; [|apply H14]. cbn [nonce code].
        split; [by left|apply H14].
      + intros a Ha. apply (vacant_main s5) in Ha; [|done].
        destruct (vacant_modify _ _ _ _ _ a Hs eq_refl Ha) as [[-> E]|Ha4].
        { unfold EMPTY_ACCOUNT in E. injection E as E _. congruence. }
        assert (He' : e_error e' = None).
        { pose proof (f_equal snd Hd) as Hd'. cbn in Hd'. rewrite <- Hd'. unfold pow_deposit. by
            repeat match goal with |- context [if ?b then _ else _] => destruct b end; destruct e. }
        destruct (H2 a Ha4) as [Hv|Ht]; [left|right].
        * unfold pcreate_entry in He3. rewrite Hfork in He3. cbv zeta in He3.
          destruct (pow_increment_nonce _ _) as [s|] eqn:E; [|done]. injection He3 as <-. cbn [st set_st] in Hv.
          eapply vacant_nonce in Hv; [|done]. eapply vacant_main; [|exact Hv].
          destruct (PowVm.since Istanbul n); cbn; by rewrite destroy_storage_main.
        * split; [done|]. destruct Ht as [_ [Ht| ->]]; [done|]. exfalso.
          eapply vacant_solid; [exact Ha4|]. by left.
  Qed.

  (** A message that ran code leaves no empty account that was not empty before,
      apart from those it reports as touched and its own target. *)
  Theorem C78_message te i m w e t w' : pm te i m w = PPRet e t w' ->
    (m_code m <> [] -> solid (st w) (m_current_target m)) ->
    (m_should_transfer_value m = true -> m_value m <> 0 -> solid (st w) (m_caller m)) ->
    forall a, vacant (st w') a -> vacant (st w) a \/
      e_error e = None /\ (a ∈ t \/ a = m_current_target m).
  Proof using Hfork.
    intros H H1 H2. pose proof (prule_message _ _ _ _ _ _ _ _ _ _ i m w (empty_rule te) (conj H1 H2)) as R.
    rewrite H in R. apply R.
  Qed.
  Theorem C78_create te i m w e t w' : pcm te i m w = PPRet e t w' ->
    (m_value m <> 0 -> solid (st w) (m_caller m)) ->
    forall a, vacant (st w') a -> vacant (st w) a \/ e_error e = None /\ a ∈ t.
  Proof using Hfork.
    intros H H1. pose proof (prule_create _ _ _ _ _ _ _ _ _ _ i m w (empty_rule te) H1) as R.
    rewrite H in R. apply R.
  Qed.
  (** From outside *)
  Theorem C78_call te m w o w' : pmc te m w = PCRet o w' ->
    (forall a, m_target m = Some a -> m_current_target m = a /\ m_code m = code (get_account (st w) a)) ->
    (m_value m <> 0 -> solid (st w) (m_caller m)) ->
    forall a, vacant (st w') a -> vacant (st w) a \/ a ∈ co_touched_accounts o.
  Proof using Hfork.
    assert (HF : forall e t w1, pow_finish_call e t w1 = PCRet o w' ->
      w' = w1 /\ (e_error e = None -> co_touched_accounts o = t)).
    { intros e t w1. unfold pow_finish_call. destruct (e_error e); [by intros [= <- <-]|].
      destruct (_ || _); [done|]. by intros [= <- <-]. }
    unfold pow_process_message_call. intros H Hm Hv a Ha. destruct (m_target m) as [b|].
    - destruct (Hm b eq_refl) as [Hb Hc].
      destruct (pm te ∅ m w) as [e t w1|] eqn:E; [|done]. apply HF in H as [-> Ht].
      destruct (C78_message _ _ _ _ _ _ _ E) with (a := a) as [|[He Hat]]; [| |done|by left|right].
      + intros Hne. rewrite Hb. right. congruence.
      + intros _. exact Hv.
      + rewrite (Ht He). destruct Hat as [Hat|Hat]; [set_solver|].
        assert (Hab : b = a) by congruence. pose proof (touched_empty _ _ _ Ha Hab). set_solver.
    - destruct (_ || _). { injection H as _ <-. by left. }
      destruct (pcm te ∅ m w) as [e t w1|] eqn:E; [|done]. apply HF in H as [-> Ht].
      destruct (C78_create _ _ _ _ _ _ _ E Hv a Ha) as [|[He Hat]]; [by left|right]. by rewrite (Ht He).
  Qed.

  (** No transaction leaves an empty account that was not there before. *)
  Theorem C78_transaction bo tx s sender price o s2 r s' a :
    pow_transacted cr n env (pow_evm cr n) bo tx s sender price o s2 r s' ->
    vacant s' a -> vacant s a.
  Proof using Hfork.
    intros (te & m & _ & _ & _ & _ & Hm & He & _ & [H _ _] & _) Ha.
    set (s1 := charged s sender (tx_gas tx * price)) in *.
    unfold pow_evm in He. destruct (pmc te m _) as [o' w|] eqn:E; [|done]. injection He as -> <-.
    assert (Hsol : solid s1 sender).
    { left. unfold s1. rewrite charged_get, decide_True by done. cbn. lia. }
    assert (Hsol2 : solid (st w) sender).
    { eapply (grows_alive n); [by eapply C77_call in E|done]. }
    unfold vacant in Ha. rewrite H in Ha. destruct (decide (a ∈ _ \/ _)) as [|Hn]; [done|].
    destruct (decide (a = sender \/ _)) as [Hs|]; [|done]. apply (inj Some) in Ha.
    assert (Hne : a <> sender).
    { intros ->. unfold credit, EMPTY_ACCOUNT in Ha. injection Ha as A1 _ A2. destruct Hsol2; congruence. }
    assert (Hnc : a <> pe_coinbase env).
    { intros ->. apply Hn. right. split; [done|]. auto. }
    assert (Hv : vacant (st w) a).
    { destruct Hs as [|[|[acc Hs]]]; [done|done|]. unfold vacant. rewrite Hs. f_equal.
      rewrite <- Ha. unfold credit. rewrite !decide_False by done. rewrite get_lookup, Hs. cbn.
      rewrite !N.add_0_r. by destruct acc. }
    assert (HC : vacant s1 a \/ a ∈ co_touched_accounts o).
    { eapply (C78_call te m (World s1 empty_transient)); [exact E| | |exact Hv].
      - intros b Hb. pose proof (po_kind _ _ _ _ _ _ Hm) as Hk. rewrite <- (po_target _ _ _ _ _ _ Hm), Hb in Hk.
        by destruct Hk as (-> & _ & _ & ->).
      - intros _. by rewrite (po_caller _ _ _ _ _ _ Hm). }
    destruct HC as [Hv'|Ht].
    - unfold vacant, s1, charged in Hv'. cbn [main_trie] in Hv'. by rewrite lookup_insert_ne in Hv' by done.
    - exfalso. apply Hn. right. split; [done|]. auto.
  Qed.
  Theorem C78_transactions g s txs rs s' a :
    pow_sequence cr n env (pow_evm cr n) g s txs rs s' -> vacant s' a -> vacant s a.
  Proof using Hfork.
    induction 1 as [g s|bo s tx txs sender price o s2 r rs s1 s' Hk Ht HR IH]; [done|].
    intros Ha. eapply C78_transaction; [exact Ht|by apply IH].
  Qed.
End Empty.

(** Rewards go to accounts that are not empty then. *)
Lemma vacant_ether s a k s' b : create_ether s a k = Ok s' -> k <> 0 -> vacant s' b -> vacant s b.
Proof.
  unfold create_ether. intros H Hk Hv.
  destruct (increase_recipient_balance k (get_account s a)) as [acc|] eqn:E.
  - destruct (vacant_modify _ _ _ _ _ b H E Hv) as [[-> Ea]|]; [|done]. exfalso. subst acc.
    unfold increase_recipient_balance in E. destruct (_ <? _); [|done].
    unfold EMPTY_ACCOUNT in E. injection E as _ E _. lia.
  - apply modify_main in H as (acc & H & _). congruence.
Qed.
Lemma vacant_ommers R k ommers : forall s u s' a, pay_ommers R k ommers s = (Done u, s') ->
  (forall o, In o ommers -> (8 - (k - ph_number o)) * R / 8 <> 0) -> vacant s' a -> vacant s a.
Proof.
  induction ommers as [|o ommers IH]; intros s u s' a H Hz Hv; cbn [pay_ommers] in H.
  - apply sret_inv in H as [_ ->]. done.
  - apply sbind_inv in H as (age & s1 & H1 & H). apply lift_inv in H1 as [H1 ->]. apply usub_inv in H1 as [_ ->].
    apply sbind_inv in H as (age' & s1 & H1 & H). apply lift_inv in H1 as [H1 ->]. apply u256_inv in H1 as [<- _].
    apply sbind_inv in H as (sh & s1 & H1 & H). apply lift_inv in H1 as [H1 ->]. apply usub_inv in H1 as [_ ->].
    apply sbind_inv in H as (pr & s1 & H1 & H). apply lift_inv in H1 as [H1 ->]. apply u256_inv in H1 as [<- _].
    apply sbind_inv in H as (v & s1 & H1 & H). apply modifies_inv in H1.
    eapply vacant_ether; [exact H1|apply Hz; by left|].
    eapply IH; [exact H| |done]. intros o' Ho. apply Hz. by right.
Qed.
Lemma vacant_rewards R k c ommers s u s' a : pay_rewards R k c ommers s = (Done u, s') -> R <> 0 ->
  (forall o, In o ommers -> (8 - (k - ph_number o)) * R / 8 <> 0) -> vacant s' a -> vacant s a.
Proof.
  unfold pay_rewards. intros H HR Hz Hv.
  apply sbind_inv in H as (count & s1 & H1 & H). apply lift_inv in H1 as [H1 ->]. apply u256_inv in H1 as [<- _].
  apply sbind_inv in H as (extra & s1 & H1 & H). apply lift_inv in H1 as [H1 ->]. apply u256_inv in H1 as [<- _].
  apply sbind_inv in H as (miner & s1 & H1 & H). apply lift_inv in H1 as [H1 ->]. apply u256_inv in H1 as [<- _].
  apply sbind_inv in H as (v & s1 & H1 & H). apply modifies_inv in H1.
  eapply vacant_ether; [exact H1|generalize (lenN ommers * (R / 32)); lia|].
  by eapply vacant_ommers.
Qed.

(** An accepted block leaves no empty account that was not there before. *)
Theorem C78_block cr k512 n c b c' a : PowVm.since SpuriousDragon n = true ->
  lenN (pb_transactions b) < 2 ^ 256 ->
  pow_state_transition cr k512 n (pow_evm cr n) c b = (Done tt, c') ->
  vacant (pc_state c') a -> vacant (pc_state c) a.
Proof.
  intros Hf Hl H Hv. unfold pow_state_transition in H. pose proof H as H'.
  apply C65_block in H' as (out & s & He & _ & _ & _ & _ & _ & Hr).
  apply PropOmmers.transition_done in H as (_ & _ & (out' & Ha & _) & _).
  unfold apply_body in Ha. apply sbind_inv in Ha as (out1 & s1 & He1 & Ha).
  rewrite He in He1. injection He1 as <- <-.
  apply sbind_inv in Ha as ([] & s1 & Hp & Ha). apply sret_inv in Ha as [_ <-].
  apply C72_execute in He as (env & txs & rs & tt & rt & _ & _ & Hs & _); [|done].
  eapply C78_transactions; [done|exact Hs|]. eapply vacant_rewards; [exact Hp|..|done].
  - clear. destruct n; vm_compute; discriminate.
  - intros o Ho. rewrite Forall_forall in Hr. apply elem_of_list_In, Hr in Ho as [Ho _].
    assert (2 * pf_block_reward (fork_of n) / 8 <> 0) by (clear; destruct n; vm_compute; discriminate).
    revert Ho H. generalize (2 * pf_block_reward (fork_of n) / 8). clear. intros k H1 H2. lia.
Qed.

(** ** Examples *)

(** A transaction without value: its target 0xaa calls 0xee, which does not
    exist, and destroys itself in favour of 0xdd, which does not exist either.
    In Homestead both come into being, since Spurious Dragon neither does. *)
Definition ex_empty_code : bytes :=
  bs [0x60; 0; 0x60; 0; 0x60; 0; 0x60; 0; 0x60; 0; 0x60; 0xee; 0x61; 0x03; 0xe8; 0xf1; 0x60; 0xdd; 0xff].
Definition ex_empty_run (n : pow_name) :=
  match pow_process_transaction one_key_crypto (rules_of n) ex_run_env (pow_evm one_key_crypto n)
          empty_pow_block_output (Legacy (LegacyTx 5 10 99000 (Some 0xaa) 0 [] 27 11 12)) 0
          (State {[ ex_sender := Account 5 10000000 []; 0xaa := Account 1 0 ex_empty_code;
                    0xcc := EMPTY_ACCOUNT ]} ∅ [] ∅) with
  | (Done bo, s) => Some (map (fun a => main_trie s !! a) [0xaa; 0xcc; 0xdd; 0xee])
  | _ => None
  end.
Example C78_nonvacuous :
  ex_empty_run Homestead = Some [None; Some EMPTY_ACCOUNT; Some EMPTY_ACCOUNT; Some EMPTY_ACCOUNT] /\
  ex_empty_run SpuriousDragon = Some [None; Some EMPTY_ACCOUNT; None; None] /\
  ex_empty_run London = Some [None; Some EMPTY_ACCOUNT; None; None].
Proof. vm_compute. repeat split. Qed.

(** Before Spurious Dragon the claim is false. *)
Theorem C78_homestead_refuted : ~ forall tx s bo s' a,
  pow_process_transaction one_key_crypto (rules_of Homestead) ex_run_env (pow_evm one_key_crypto Homestead)
    empty_pow_block_output tx 0 s = (Done bo, s') -> vacant s' a -> vacant s a.
Proof.
  intros H.
  set (s := State {[ ex_sender := Account 5 10000000 [] ]} ∅ [] ∅).
  set (tx := Legacy (LegacyTx 5 10 99000 (Some 0xdd) 0 [] 27 11 12)).
  assert (E : match pow_process_transaction one_key_crypto (rules_of Homestead) ex_run_env
      (pow_evm one_key_crypto Homestead) empty_pow_block_output tx 0 s with
    | (Done bo, s') => main_trie s' !! 0xdd = Some EMPTY_ACCOUNT | _ => False end) by (vm_compute; reflexivity).
  specialize (H tx s). destruct (pow_process_transaction _ _ _ _ _ _ _ _) as [[bo|] s']; [|done].
  by specialize (H bo s' 0xdd eq_refl E).
Qed.

Definition PropPowEmpty_theorems :=
  (@C78_message, @C78_create, @C78_call, @C78_transaction, @C78_transactions, @C78_block, @C78_homestead_refuted).
Print Assumptions PropPowEmpty_theorems.
