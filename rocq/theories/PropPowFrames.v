(** * PropPowFrames: what frames of the proof-of-work forks may change (C75, C77).

    Static frames change nothing (C75); nonces never fall, accounts do not
    vanish inside a message, and code is only ever written by creations, within
    the limits of the fork (C77). *)
From Verif Require Import Base State Rlp Bloom Transactions Trie Blocks Requests Fork Ethash Pow PowTx.
From Verif Require Import Vm Instructions Precompiles Interpreter PowVm StateSpec
  StateProofs NumericProofs ArithProofs EvmStep EvmLocal EvmPlan EvmPlanProofs EvmCallProofs
  EvmFrame EvmAccounts EvmRule EvmInv PowVmPlan PowVmOps PowVmCalls PowVmFrame PowVmRule PowVmInv PowVmKeep.
From Verif Require Import EvmExamples PropExec ForkProofs PropRewards PropPowTx PropPowRun PropPowBody
  PropPowExamples PropPowVm.
From Coq Require Import ZifyBool ZifyN ZifyNat.
Ltac Zify.zify_post_hook ::= idtac.

Local Opaque to_u256 from_be_bytes calculate_memory_gas_cost ceil32 N.compare.

(** ** State *)
Lemma modify_main s a f s' : modify_account s a f = Ok s' ->
  exists acc, f (get_account s a) = Ok acc /\ main_trie s' = <[a := acc]> (main_trie s).
Proof. intros (acc & Hf & ->)%modify_account_inv. by exists acc. Qed.
Lemma touch_main s a b : main_trie (touch_account s a) !! b =
  if decide (a = b /\ main_trie s !! a = None) then Some EMPTY_ACCOUNT else main_trie s !! b.
Proof.
  unfold touch_account, account_exists, get_account_optional.
  destruct (main_trie s !! a) as [acc|] eqn:E.
  - by rewrite decide_False by (by intros []).
  - cbn. destruct (decide (a = b)) as [<-|Hn].
    + rewrite lookup_insert. by rewrite decide_True.
    + rewrite lookup_insert_ne by done. by rewrite decide_False by (by intros []).
Qed.

Section Frames.
  Context (cr : crypto) (n : pow_name) (env : pow_env).
  Notation pm te := (pow_process_message cr n env te).
  Notation pcm te := (pow_process_create_message cr n env te).
  Notation pmc te := (pow_process_message_call cr n env te).

  (** ** C77: accounts *)

  (** The codes that may be deposited: at most 0x6000 bytes since Spurious
      Dragon (EIP-170), not beginning with 0xEF since London (EIP-3541). *)
  Definition code_allowed (c : bytes) : Prop :=
    (since SpuriousDragon n = true -> lenN c <= 24576) /\
    (since London n = true -> head c <> Some Byte.xef).

  Record grows (s s' : state) : Prop := {
    gr_exists : forall a, main_trie s !! a <> None -> main_trie s' !! a <> None;
    gr_nonce : forall a, nonce (get_account s a) <= nonce (get_account s' a);
    gr_code : forall a, nonce (get_account s a) <> 0 \/ code (get_account s a) <> [] ->
      code (get_account s' a) = code (get_account s a);
    gr_allowed : forall a, code (get_account s' a) = code (get_account s a) \/
      code_allowed (code (get_account s' a));
  }.
  (** The same for a creation of [t], whose code may change *)
  Record grows_but (t : address) (s s' : state) : Prop := {
    gb_exists : forall a, main_trie s !! a <> None -> main_trie s' !! a <> None;
    gb_nonce : forall a, nonce (get_account s a) <= nonce (get_account s' a);
    gb_code : forall a, a <> t -> nonce (get_account s a) <> 0 \/ code (get_account s a) <> [] ->
      code (get_account s' a) = code (get_account s a);
    gb_allowed : forall a, code (get_account s' a) = code (get_account s a) \/
      code_allowed (code (get_account s' a));
  }.
  Lemma grows_weak t s s' : grows s s' -> grows_but t s s'.
  Proof using. clear. intros []. constructor; auto. Qed.
  Lemma grows_strong t s s' : grows_but t s s' ->
    (nonce (get_account s t) <> 0 \/ code (get_account s t) <> [] ->
      code (get_account s' t) = code (get_account s t)) -> grows s s'.
  Proof using.
    clear. intros [] H. constructor; auto. intros a Ha. destruct (decide (a = t)) as [->|]; auto.
  Qed.
  Lemma grows_but_trans t s1 s2 s3 : grows_but t s1 s2 -> grows_but t s2 s3 -> grows_but t s1 s3.
  Proof using.
    clear. intros [A1 A2 A3 A4] [B1 B2 B3 B4]. constructor; auto.
    - intros a. etrans; [apply A2|apply B2].
    - intros a Ht Hs. rewrite <- (A3 a Ht Hs). apply B3; [done|].
      rewrite (A3 a Ht Hs). destruct Hs as [Hs|Hs]; [left|by right]. specialize (A2 a). lia.
    - intros a. destruct (B4 a) as [->|?]; [apply A4|by right].
  Qed.
  Lemma grows_trans s1 s2 s3 : grows s1 s2 -> grows s2 s3 -> grows s1 s3.
  Proof using.
    clear. intros [A1 A2 A3 A4] [B1 B2 B3 B4]. constructor; auto.
    - intros a. etrans; [apply A2|apply B2].
    - intros a Hs. rewrite <- (A3 a Hs). apply B3.
      rewrite (A3 a Hs). destruct Hs as [Hs|Hs]; [left|by right]. specialize (A2 a). lia.
    - intros a. destruct (B4 a) as [->|?]; [apply A4|by right].
  Qed.
  Lemma grows_main s s' : main_trie s' = main_trie s -> grows s s'.
  Proof using.
    clear. intros H. constructor; try (by rewrite H); intros a; rewrite (get_account_main _ _ H); auto.
  Qed.
  Lemma grows_get s s' : (forall a, main_trie s !! a <> None -> main_trie s' !! a <> None) ->
    (forall a, nonce (get_account s a) <= nonce (get_account s' a) /\
       code (get_account s' a) = code (get_account s a)) -> grows s s'.
  Proof using. clear. intros H1 H2. constructor; auto; intros a; by destruct (H2 a); auto. Qed.
  Lemma modify_exists s a f s' b : modify_account s a f = Ok s' ->
    main_trie s !! b <> None -> main_trie s' !! b <> None.
  Proof using.
    clear. intros (acc & _ & ->)%modify_main. destruct (decide (a = b)) as [<-|].
    - by rewrite lookup_insert. - by rewrite lookup_insert_ne.
  Qed.
  Lemma grows_modify s a f s' acc : modify_account s a f = Ok s' -> f (get_account s a) = Ok acc ->
    nonce (get_account s a) <= nonce acc -> code acc = code (get_account s a) -> grows s s'.
  Proof using.
    clear. intros H Hf Hn Hc. apply grows_get; [intros b; by apply (modify_exists _ _ _ _ b H)|].
    intros b. rewrite (modify_account_get _ _ _ _ _ b H Hf). by destruct (decide (a = b)) as [<-|].
  Qed.
  Lemma grows_touch s a : grows s (touch_account s a).
  Proof using.
    clear. apply grows_get.
    - intros b. rewrite touch_main. by destruct (decide _).
    - intros b. by rewrite touch_get.
  Qed.
  Lemma grows_move s a b k s' : move_ether_pow s a b k = Ok s' -> grows s s'.
  Proof using.
    clear. intros (Hk & s1 & E1 & F1 & E2 & F2)%move_pow_inv.
    eapply grows_trans; [by eapply grows_modify|by eapply grows_modify].
  Qed.
  Lemma grows_transfer m w s : ptransfer m w = Ok s -> grows (st w) s.
  Proof using.
    clear. unfold ptransfer. cbv zeta. destruct (_ && _).
    - intros H%grows_move. eapply grows_trans; [apply grows_touch|exact H].
    - intros [= <-]. apply grows_touch.
  Qed.
  Lemma grows_nonce s a s' : pow_increment_nonce s a = Ok s' -> grows s s'.
  Proof using. clear. intros H. eapply grows_modify; [exact H|reflexivity|cbn; lia|done]. Qed.
  Lemma grows_balance s a k s' : pow_set_account_balance s a k = Ok s' -> grows s s'.
  Proof using. clear. intros H. eapply grows_modify; [exact H|reflexivity|done|done]. Qed.
  Lemma grows_effect i o e w t e' w' : peffect n i o e w t e' w' -> grows (st w) (st w').
  Proof using.
    clear. intros He.
    destruct He as [Hw _ Hd _|? ? ? s' _ _ _ Hs Hw _ _ _ Hd _ _
      |b s1 s2 _ _ _ Hs1 Hs2 Hw Hd _ _ _ _|s' _ _ Hn Hw _ _ Hd _]; subst w'.
    - by apply grows_main.
    - apply set_storage_frame in Hs as (_ & _ & Hs). by apply grows_main.
    - apply grows_balance in Hs1, Hs2. by eapply grows_trans.
    - by apply grows_nonce in Hn.
  Qed.
  Lemma grows_entry w a w3 : pcreate_entry n w a = Ok w3 -> grows (st w) (st w3).
  Proof using.
    clear. unfold pcreate_entry. cbv zeta.
    set (s1 := destroy_storage _ a). set (s2 := if PowVm.since Istanbul n then _ else s1).
    assert (H : main_trie s2 = main_trie (st w)).
    { transitivity (main_trie s1); [unfold s2; by destruct (PowVm.since Istanbul n)|].
      unfold s1. by rewrite destroy_storage_main. }
    apply grows_main in H.
    destruct (PowVm.since SpuriousDragon n).
    - destruct (pow_increment_nonce s2 a) as [s|] eqn:E; [|done]. intros [= <-]. cbn.
      eapply grows_trans; [exact H|]. by apply grows_nonce in E.
    - by intros [= <-].
  Qed.
  Lemma deposit_allowed e e' : pow_deposit n e = (None, e') -> code_allowed (e_output e).
  Proof using.
    clear. unfold pow_deposit, code_allowed.
    destruct (PowVm.since London n && _) eqn:E1; [done|]. destruct (_ <? _); [done|].
    destruct (PowVm.since SpuriousDragon n && _) eqn:E2; [done|]. intros _. split.
    - intros H. change (PowVm.since SpuriousDragon n = true) in H. rewrite H in E2. cbn [andb] in E2. apply N.ltb_ge in E2. exact E2.
    - intros H. change (PowVm.since London n = true) in H. rewrite H in E1. cbn [andb] in E1. destruct (e_output e) as [|x l]; [done|]. cbn.
      intros [= ->]. done.
  Qed.
  Lemma grows_code t s a s' : pow_set_code s t a = Ok s' -> code_allowed a -> grows_but t s s'.
  Proof using.
    clear. intros H Ha. constructor.
    - intros b. apply (modify_exists _ _ _ _ b H).
    - intros b. rewrite (modify_account_get _ _ _ _ _ b H eq_refl). by destruct (decide (t = b)) as [<-|].
    - intros b Hb _. rewrite (modify_account_get _ _ _ _ _ b H eq_refl). by rewrite decide_False by done.
    - intros b. rewrite (modify_account_get _ _ _ _ _ b H eq_refl).
      destruct (decide (t = b)); [by right|by left].
  Qed.
  Lemma grows_commit w w' : commit_transaction w = Ok w' -> grows (st w) (st w').
  Proof using. clear. intros (H & _)%commit_same. by apply grows_main. Qed.
  Lemma grows_restored w w' : restored w w' -> grows (st w) (st w').
  Proof using. clear. intros []. by apply grows_main. Qed.

  Lemma grows_rule te : pframe_rule cr n env te (fun _ => True)
    (fun _ _ _ => True) (fun _ _ _ => True)
    (fun _ _ w0 e _ w => grows (st w0) (st w))
    (fun _ _ w0 e _ w => grows (st w0) (st w))
    (fun _ m w0 e _ w => grows_but (m_current_target m) (st w0) (st w)).
  Proof.
    constructor; try done.
    - intros i m w s1 _ _ H%grows_transfer.
      eapply grows_trans; [|exact H]. by apply grows_main.
    - intros i m w0 e t w o t1 e' w' _ _ H1 _ [_ He] _. apply grows_effect in He. by eapply grows_trans.
    - intros i m w0 e t w o m' e1 os oz _ _ H1 _ Hc. split; [done|].
      intros c tc w1 Hps Hpo. split; [|done].
      intros e2 w2 Hr _. apply resume_call_sets in Hr as [-> _]. by eapply grows_trans.
    - intros i m w0 e t w o m' e1 wi _ _ H1 _ Hc. split; [done|].
      intros c tc w1 Hps Hpo. split; [|done].
      intros e2 w2 Hr _. apply resume_create_sets in Hr as [-> _].
      destruct (pcr_nonce _ _ _ _ _ _ _ _ Hc) as (s1 & Hn & Hwi). apply grows_nonce in Hn.
      assert (Hn' : grows (st w) (st wi)) by (by subst wi).
      eapply grows_trans; [exact H1|]. apply (grows_strong (m_current_target m')).
      + eapply grows_but_trans; [by apply grows_weak|exact Hpo].
      + intros Hs. exfalso. destruct (pcr_fresh _ _ _ _ _ _ _ _ Hc) as [Hf _].
        assert (solid (st w) (m_current_target m')) as Hs'%solid_spec by exact Hs. congruence.
    - intros i m w0 e t w _ Hps He _. destruct (e_error e) as [x|] eqn:E; [|done].
      destruct (pps_fail _ _ _ _ _ Hps x E) as (Hre & _). by apply grows_restored.
    - intros i m w0 e t w w3 _ Hf H1 Hc _. apply grows_commit in Hc. by eapply grows_trans.
    - intros i m w w3 e t w4 e' w5 _ _ _ _ _ _ Hre _ _. by apply grows_weak, grows_restored.
    - intros i m w w3 e t w4 h e' w6 _ He3 _ H1 He Hd _ Hc _.
      apply grows_entry in He3. apply grows_commit in Hc. apply grows_weak.
      eapply grows_trans; [exact He3|]. by eapply grows_trans.
    - intros i m w w3 e t w4 e' s5 w6 _ He3 _ H1 He Hd Hs Hc _.
      apply grows_entry in He3. apply grows_commit in Hc. cbn in Hc.
      apply grows_code in Hs; [|by eapply deposit_allowed].
      eapply grows_but_trans; [apply grows_weak; by eapply grows_trans|].
      eapply grows_but_trans; [exact Hs|]. by apply grows_weak.
  Qed.

  (** Accounts do not vanish, nonces do not fall; an account that had a nonce or
      code keeps its code, and new code is allowed. *)
  Theorem C77_message te i m w e t w' : pm te i m w = PPRet e t w' -> grows (st w) (st w').
  Proof.
    intros H. pose proof (prule_message _ _ _ _ _ _ _ _ _ _ i m w (grows_rule te) Logic.I) as R.
    rewrite H in R. apply R.
  Qed.
  Theorem C77_create te i m w e t w' : pcm te i m w = PPRet e t w' ->
    grows_but (m_current_target m) (st w) (st w').
  Proof.
    intros H. pose proof (prule_create _ _ _ _ _ _ _ _ _ _ i m w (grows_rule te) Logic.I) as R.
    rewrite H in R. apply R.
  Qed.
  Theorem C77_call te m w o w' : pmc te m w = PCRet o w' -> grows (st w) (st w').
  Proof.
    assert (HF : forall e t w1, pow_finish_call e t w1 = PCRet o w' -> w' = w1).
    { intros e t w1. unfold pow_finish_call. destruct (e_error e); [intros [= _ <-]; done|].
      destruct (_ || _); [done|]. intros [= _ <-]. done. }
    unfold pow_process_message_call. intros H. destruct (m_target m).
    - destruct (pm te ∅ m w) as [e t w1|] eqn:E; [|done]. apply HF in H as ->. by eapply C77_message.
    - destruct (account_has_code_or_nonce _ _) eqn:Hf; cbn [orb] in H.
      { injection H as _ <-. by apply grows_main. }
      destruct (account_has_storage _ _). { injection H as _ <-. by apply grows_main. }
      destruct (pcm te ∅ m w) as [e t w1|] eqn:E; [|done]. apply HF in H as ->.
      apply C77_create in E. eapply grows_strong; [exact E|]. intros Hs. exfalso.
      assert (solid (st w) (m_current_target m)) as Hs'%solid_spec by exact Hs. congruence.
  Qed.

  (** After a transaction: the codes are those from before, or allowed; deleted
      accounts have none. *)
  Definition codes_allowed (s : state) : Prop := forall a, code_allowed (code (get_account s a)).
  Theorem C77_transaction bo tx s sender price o s2 r s' a :
    pow_transacted cr n env (pow_evm cr n) bo tx s sender price o s2 r s' ->
    (a ∉ co_accounts_to_delete o ->
     (nonce (get_account s a) <= nonce (get_account s' a) /\
      (nonce (get_account s a) <> 0 \/ code (get_account s a) <> [] ->
       code (get_account s' a) = code (get_account s a)))) /\
    (code (get_account s' a) = [] \/ code (get_account s' a) = code (get_account s a) \/
     code_allowed (code (get_account s' a))).
  Proof.
    intros Ht. pose proof (C71_accounts _ _ _ _ _ _ _ _ _ _ _ _ _ a Ht) as HA.
    destruct Ht as (te & m & _ & _ & _ & _ & _ & Ev & _).
    unfold pow_evm in Ev. destruct (pow_process_message_call cr n env te m (World _ empty_transient)) as [o1 w1|] eqn:E; [|done].
    injection Ev as -> <-. apply C77_call in E. cbn [st] in E.
    assert (HC : get_account (charged s sender (tx_gas tx * price)) a =
      if decide (a = sender) then Account (nonce (get_account s a) + 1)
        (balance (get_account s a) - tx_gas tx * price) (code (get_account s a)) else get_account s a).
    { rewrite !get_lookup. cbn [charged main_trie]. destruct (decide (a = sender)) as [->|Hn].
      - rewrite lookup_insert. cbn [default from_option id]. by rewrite <- get_lookup.
      - by rewrite lookup_insert_ne by done. }
    destruct E as [_ E2 E3 E4]. specialize (E2 a). specialize (E3 a). specialize (E4 a).
    rewrite HC in E2, E3, E4.
    destruct (decide (a ∈ co_accounts_to_delete o)).
    { rewrite HA. split; [done|]. by left. }
    rewrite HA. unfold credit. cbn [nonce code]. destruct (decide (a = sender)); cbn [nonce code] in E2, E3, E4.
    - split; [|by right]. intros _. split; [lia|]. intros _. apply E3. left. lia.
    - split; [|by right]. done.
  Qed.
  Theorem C77_transactions g s txs rs s' :
    pow_sequence cr n env (pow_evm cr n) g s txs rs s' -> codes_allowed s -> codes_allowed s'.
  Proof.
    induction 1 as [g s|bo s tx txs sender price o s2 r rs s1 s' Hk Ht HR IH]; [done|].
    intros Ha. apply IH. intros a.
    destruct (C77_transaction _ _ _ _ _ _ _ _ _ a Ht) as [_ [->|[->|Hc]]]; [|done|done].
    split; [by rewrite lenN_nil|done].
  Qed.
End Frames.

(** Over a block: if all codes were allowed, they still are. *)
Theorem C77_block cr k512 n c b c' : lenN (pb_transactions b) < 2 ^ 256 ->
  pow_state_transition cr k512 n (pow_evm cr n) c b = (Done tt, c') ->
  codes_allowed n (pc_state c) -> codes_allowed n (pc_state c').
Proof.
  intros Hl H Ha.
  destruct (C72_block cr n (pow_evm cr n) k512 c b c' Hl H)
    as (env & txs & rs & ts & rcs & s & _ & _ & Hs & _ & _ & _ & _ & _ & _ & _ & Hc & _).
  apply C77_transactions in Hs; [|done]. intros a. rewrite Hc. apply Hs.
Qed.

Section Static.
  Context (cr : crypto) (n : pow_name) (env : pow_env) (te : tx_env).

  (** ** C75: static frames *)

  (** Nothing differs but that some empty accounts may exist that did not. *)
  Record unchanged (s s' : state) : Prop := {
    un_main : forall a, main_trie s' !! a = main_trie s !! a \/
      main_trie s !! a = None /\ main_trie s' !! a = Some EMPTY_ACCOUNT;
    un_storage : storage_tries s' = storage_tries s;
  }.
  Lemma unchanged_get s s' a : unchanged s s' -> get_account s' a = get_account s a.
  Proof using. clear. intros [H _]. rewrite !get_lookup. by destruct (H a) as [->|[-> ->]]. Qed.
  Lemma unchanged_trans s1 s2 s3 : unchanged s1 s2 -> unchanged s2 s3 -> unchanged s1 s3.
  Proof using.
    clear. intros [A1 A2] [B1 B2]. constructor; [|congruence]. intros a.
    destruct (A1 a) as [A|[A A']], (B1 a) as [B|[B B']]; rewrite ?B, ?B', ?A; auto; try congruence.
    right. split; congruence.
  Qed.
  Lemma unchanged_refl s s' : main_trie s' = main_trie s -> storage_tries s' = storage_tries s ->
    unchanged s s'.
  Proof using. clear. intros H1 H2. constructor; [|done]. intros a. left. by rewrite H1. Qed.
  Lemma unchanged_touch s a : unchanged s (touch_account s a).
  Proof using.
    clear. constructor.
    - intros b. rewrite touch_main. destruct (decide _) as [[<- H]|]; auto.
    - apply touch_account_frame.
  Qed.
  Lemma unchanged_move s a k s' : main_trie s !! a <> None -> move_ether_pow s a a k = Ok s' -> unchanged s s'.
  Proof using.
    clear. intros He Hm. pose proof (move_ether_pow_frame _ _ _ _ _ Hm) as (_ & _ & Hst).
    apply move_pow_inv in Hm as (Hk & s1 & E1 & F1 & E2 & F2).
    constructor; [|done]. intros b. left.
    pose proof (modify_account_get _ _ _ _ _ a E1 F1) as G1. rewrite decide_True in G1 by done.
    destruct (modify_main _ _ _ _ E1) as (acc1 & F1' & M1). destruct (modify_main _ _ _ _ E2) as (acc2 & F2' & M2).
    rewrite M2, M1. destruct (decide (a = b)) as [<-|Hn].
    - rewrite lookup_insert. rewrite F2 in F2'. injection F2' as <-. rewrite G1. cbn [nonce balance code].
      destruct (main_trie s !! a) as [[x y z]|] eqn:E; [|done]. rewrite get_lookup, E in *.
      cbn [default from_option id nonce balance code] in *. do 2 f_equal. lia.
    - by rewrite !lookup_insert_ne.
  Qed.

  (** A static message that moves ether at most from an account to itself, as
      every static message started by an instruction *)
  Definition static_pre (m : message) : Prop :=
    m_is_static m = true /\
    (m_should_transfer_value m = true -> m_value m = 0 \/ m_caller m = m_current_target m).

  Lemma static_rule : pframe_rule cr n env te (fun _ => True)
    (fun _ m _ => static_pre m) (fun _ _ _ => False)
    (fun _ m w0 e t w => unchanged (st w0) (st w) /\
       e_logs e = [] /\ e_accounts_to_delete e = ∅ /\ e_refund_counter e = 0%Z)
    (fun _ m w0 e t w => unchanged (st w0) (st w) /\
       (e_error e = None -> e_logs e = [] /\ e_accounts_to_delete e = ∅ /\ e_refund_counter e = 0%Z))
    (fun _ _ _ _ _ _ => True).
  Proof.
    constructor; try done.
    - intros i m w s1 [_ Hv] _ Ht. split; [|done].
      unfold ptransfer in Ht. cbv zeta in Ht.
      set (s0 := touch_account (st (begin_transaction w)) (m_current_target m)) in *.
      assert (H0 : unchanged (st w) s0).
      { eapply unchanged_trans; [|apply unchanged_touch]. by apply unchanged_refl. }
      destruct (m_should_transfer_value m) eqn:E; cbn [andb] in Ht; [|by injection Ht as <-].
      destruct (N.eqb_spec (m_value m) 0) as [Hz|Hz]; cbn [negb] in Ht; [by injection Ht as <-|].
      destruct (Hv eq_refl) as [?|Hc]; [done|]. rewrite Hc in Ht.
      eapply unchanged_trans; [exact H0|]. eapply unchanged_move; [|exact Ht].
      unfold s0. rewrite touch_main. destruct (decide _) as [|Hn]; [done|].
      intros E'. apply Hn. done.
    - intros i m w0 w a p e' _ _ HI _ _ _ (_ & -> & _). done.
    - intros i m w0 e t w o t1 e' w' [Hst _] Hf (H1 & H3 & H4 & H5) _ [Hl He] _.
      assert (Hst' : m_is_static (e_message e) = true) by (by rewrite (fs_msg _ _ _ _ Hf)).
      destruct He as [-> Hr Hd _|? ? ? s' _ Hs _ _ _ _ _ _ _ _ _
        |b s1 s2 _ Hs _ _ _ _ _ _ _ _ _|s' _ Hs _ _ _ _ _ _]; try (by rewrite Hst' in Hs).
      split; [done|]. split; [|split; congruence].
      destruct (ls_logs _ _ _ _ _ _ _ Hl) as [->|[Hs _]]; [done|]. by rewrite Hst' in Hs.
    - intros i m w0 e t w o m' e1 os oz [Hst Hv] Hf (H1 & H3 & H4 & H5) _ Hc.
      assert (Hst' : m_is_static (e_message e) = true) by (by rewrite (fs_msg _ _ _ _ Hf)).
      pose proof (pco_wait _ _ _ _ _ _ _ _ Hc) as Hwa.
      split.
      + split; [by apply (wa_static _ _ _ _ Hwa)|]. intros Htr.
        pose proof (pco_kind _ _ _ _ _ _ _ _ Hc) as Hk. destruct o; try done.
        * destruct Hk as (_ & _ & Hs & Hz & _). left. apply Hz. congruence.
        * right. destruct Hk as (Hk1 & Hk2 & _). congruence.
        * destruct Hk as (_ & _ & Hk & _). congruence.
        * left. apply Hk.
      + intros c tc w1 Hps [P1 P2]. split; [|done]. intros e2 w2 Hr Hf2.
        apply resume_call_sets in Hr as [-> Hr]. split; [by eapply unchanged_trans|].
        destruct Hwa. destruct (e_error c).
        * destruct Hr as (_ & _ & -> & -> & ->). by rewrite wa_logs, wa_del, wa_refund, H3, H4, H5.
        * destruct Hr as (_ & _ & -> & -> & ->). destruct (P2 eq_refl) as (-> & -> & ->).
          rewrite wa_logs, wa_del, wa_refund, H3, H4, H5. split; [done|]. split; [|done]. clear. set_solver.
    - intros i m w0 e t w o m' e1 wi [Hst _] Hf _ _ Hc. exfalso.
      destruct (pcr_static _ _ _ _ _ _ _ _ Hc) as [H _]. rewrite (fs_msg _ _ _ _ Hf) in H. congruence.
    - intros i m w0 e t w _ Hps He _. destruct (e_error e) as [x|] eqn:E; [|done].
      destruct (pps_fail _ _ _ _ _ Hps x E) as ([] & _). split; [|done]. by apply unchanged_refl.
    - intros i m w0 e t w w3 _ Hf (H1 & H3) Hc _. apply commit_same in Hc as (C1 & C2 & _).
      split; [|done]. eapply unchanged_trans; [exact H1|]. by apply unchanged_refl.
  Qed.

  (** A static message changes no account and no storage, logs nothing, refunds
      nothing and destroys nothing; it may leave empty accounts it touched. *)
  Theorem C75_static i m w e t w' : pow_process_message cr n env te i m w = PPRet e t w' ->
    m_is_static m = true ->
    (m_should_transfer_value m = true -> m_value m = 0 \/ m_caller m = m_current_target m) ->
    unchanged (st w) (st w') /\
    (e_error e = None -> e_logs e = [] /\ e_accounts_to_delete e = ∅ /\ e_refund_counter e = 0%Z).
  Proof.
    intros H Hs Hv. pose proof (prule_message _ _ _ _ _ _ _ _ _ _ i m w static_rule (conj Hs Hv)) as R.
    rewrite H in R. apply R.
  Qed.

  (** STATICCALL, whatever is called, and any call from a static frame. *)
  Theorem C75_call i o e w t e' w' :
    o = STATICCALL \/ m_is_static (e_message e) = true /\ In o [CALL; CALLCODE; DELEGATECALL; CREATE; CREATE2] ->
    pow_available n o = true -> lenN (e_stack e) <= 1024 -> lenN (e_memory e) mod 32 = 0 ->
    e_running e = true ->
    pow_op cr n env te i (pow_process_message cr n env te) (pow_process_create_message cr n env te) o e w
      = Ret t e' w' ->
    unchanged (st w) (st w') /\ e_logs e' = e_logs e /\
    e_accounts_to_delete e' = e_accounts_to_delete e /\ e_refund_counter e' = e_refund_counter e.
  Proof.
    intros Ho Hav Hs1 Hs2 Hr H.
    assert (Hok : op_ok o). { destruct Ho as [->|[_ Ho]]; [done|]. cbn in Ho. by repeat destruct Ho as [<-|Ho]. }
    destruct (pow_op_plan cr n env te i o e w Hok Hav) as (p & Hp & E); [by constructor|done|].
    rewrite E in H. destruct p as [r|m e1 os oz|m e1 w1]; cbn [pinterp pplan_ok] in Hp, H.
    - subst r. destruct Hp as [Hl He].
      assert (Hlog : e_logs e' = e_logs e).
      { destruct (ls_logs _ _ _ _ _ _ _ Hl) as [->|[Hf (l & Hll & _ & Hg & _)]]; [done|]. exfalso.
        destruct Ho as [->|[Hst _]]; [|congruence].
        pose proof (staticcall_keeps_logs cr n env te i e w) as Hk. rewrite E in Hk. cbn in Hk.
        rewrite Hk in Hll. apply (f_equal length) in Hll. rewrite app_length in Hll. cbn in Hll.
        clear -Hll. lia. }
      destruct He as [-> Hr' Hd _|? ? ? s' Heq Hs _ _ _ _ _ _ _ _ _
        |b s1 s2 Heq Hs _ _ _ _ _ _ _ _ _|s' Heq Hs _ _ _ _ _ _].
      + split; [by apply unchanged_refl|]. done.
      + subst o. destruct Ho as [|[_ Ho]]; [done|]. cbn in Ho. by repeat destruct Ho as [?|Ho].
      + subst o. destruct Ho as [|[_ Ho]]; [done|]. cbn in Ho. by repeat destruct Ho as [?|Ho].
      + destruct Ho as [->|[Ho _]]; [by destruct Heq|congruence].
    - destruct (pow_process_message cr n env te (e_accounts_to_delete e1 ∪ i) m w) as [c tc w1|] eqn:E'; [|done].
      unfold resumed in H. destruct (resume_call e1 os oz c w1) as [[] e2 w2|] eqn:R; [|done].
      injection H as <- <- <-. apply resume_call_sets in R as [-> R].
      pose proof (pco_kind _ _ _ _ _ _ _ _ Hp) as Hk. destruct (pco_wait _ _ _ _ _ _ _ _ Hp).
      destruct (C75_static _ _ _ _ _ _ E') as [H1 H2].
      + destruct Ho as [->|[Hst _]]; [apply Hk|]. by apply wa_static.
      + intros Htr. destruct Ho as [->|[Hst Ho]]; [left; apply Hk|]. destruct o; try done.
        * destruct Hk as (_ & _ & Hs & Hz & _). left. apply Hz. congruence.
        * right. destruct Hk as (Hk1 & Hk2 & _). congruence.
        * destruct Hk as (_ & _ & Hk & _). congruence.
        * left. apply Hk.
      + split; [done|]. destruct (e_error c).
        * destruct R as (_ & _ & -> & -> & ->). done.
        * destruct R as (_ & _ & -> & -> & ->). destruct (H2 eq_refl) as (-> & -> & ->).
          rewrite wa_logs, wa_del, wa_refund, app_nil_r. split; [done|]. split; [|lia]. clear. set_solver.
    - exfalso. destruct (pcr_static _ _ _ _ _ _ _ _ Hp) as [Hf _]. destruct (pcr_op _ _ _ _ _ _ _ _ Hp);
        destruct Ho as [?|[? _]]; congruence.
  Qed.
End Static.

(** ** Examples *)

(** A static call into code that writes storage fails and changes nothing; one
    into code that only reads succeeds. *)
Definition ex_static_code : bytes :=
  bs [0x60; 0; 0x60; 0; 0x60; 0; 0x60; 0; 0x60; 0xbb; 0x61; 0x75; 0x30; 0xfa; 0x60; 1; 0x01; 0x60; 0; 0x55; 0].
Definition ex_static_run (n : pow_name) (callee : bytes) :=
  match pow_process_transaction one_key_crypto (rules_of n) ex_run_env (pow_evm one_key_crypto n)
          empty_pow_block_output ex_vm_tx 0
          (State {[ ex_sender := Account 5 10000000 []; 0xaa := Account 1 100 ex_static_code;
                    0xbb := Account 1 50 callee ]} ∅ [] ∅) with
  | (Done bo, s) => Some (get_storage s 0xaa 0, get_storage s 0xbb 0, balance (get_account s 0xbb))
  | _ => None
  end.
Example C75_nonvacuous :
  ex_static_run Byzantium (bs [0x60; 1; 0x60; 0; 0x55]) = Some (1, 0, 50) /\
  ex_static_run Byzantium (bs [0x60; 0; 0x54; 0x50; 0x30; 0x31; 0x50; 0]) = Some (2, 0, 50) /\
  ex_static_run Byzantium ex_destroy_code = Some (1, 0, 50) /\
  ex_static_run SpuriousDragon (bs [0x60; 0; 0x54; 0x50; 0x30; 0x31; 0x50; 0]) = Some (0, 0, 50).
Proof. vm_compute. repeat split. Qed.

(** A creation returning the single byte 0xEF is refused since London; its
    nonce is 1 since Spurious Dragon. *)
Definition ex_create_run (n : pow_name) :=
  match pow_process_transaction one_key_crypto (rules_of n) ex_run_env (pow_evm one_key_crypto n)
          empty_pow_block_output
          (Legacy (LegacyTx 5 10 99000 None 7 (bs [0x60; 0xef; 0x60; 0; 0x53; 0x60; 1; 0x60; 0; 0xf3]) 27 11 12)) 0
          (State {[ ex_sender := Account 5 10000000 [] ]} ∅ [] ∅) with
  | (Done bo, s) => Some (get_account s (compute_contract_address one_key_crypto ex_sender 5))
  | _ => None
  end.
Example C77_nonvacuous :
  map ex_create_run [Frontier; SpuriousDragon; Berlin; London] =
  [Some (Account 0 7 (bs [0xef])); Some (Account 1 7 (bs [0xef])); Some (Account 1 7 (bs [0xef]));
   Some EMPTY_ACCOUNT].
Proof. vm_compute. reflexivity. Qed.
Example C77_allowed_nonvacuous :
  code_allowed London (bs [0x60]) /\ ~ code_allowed London (bs [0xef]) /\ code_allowed Berlin (bs [0xef]).
Proof. split; [done|]. split; [intros [_ H]; by apply H|done]. Qed.

Definition PropPowFrames_theorems :=
  (@C75_static, @C75_call, @C77_message, @C77_create, @C77_call, @C77_transaction, @C77_transactions, @C77_block).
Print Assumptions PropPowFrames_theorems.
