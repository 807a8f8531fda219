(** * PropPowSafe: internal errors of the proof-of-work forks (C76).

    An exception that is neither an exceptional halt nor Revert leaves the
    interpreter and aborts the whole block.  In every proof-of-work fork the
    only such exception is the OverflowError of the MODEXP precompile, which
    exists since Byzantium, provided the ether in existence is below 2^255. *)
From Verif Require Import Base State Rlp Bloom Transactions Trie Blocks Requests Fork Ethash Pow PowTx.
From Verif Require Import Vm Instructions Precompiles Interpreter PowVm StateSpec
  StateProofs NumericProofs ArithProofs EvmStep EvmLocal EvmPlan EvmPlanProofs EvmCallProofs
  EvmFrame EvmAccounts EvmRule EvmInv PowVmPlan PowVmOps PowVmCalls PowVmFrame PowVmRule PowVmInv PowVmKeep.
From Verif Require Import EvmExamples PropExec ForkProofs PropRewards PropPowTx PropPowRun PropPowBody
  PropPowExamples PropPowVm PropPowFrames.
From Coq Require Import ZifyBool ZifyN ZifyNat.
Ltac Zify.zify_post_hook ::= idtac.

Local Opaque to_u256 from_be_bytes calculate_memory_gas_cost ceil32 N.compare.

(** ** State *)
Lemma modify_some s a f acc : f (get_account s a) = Ok acc -> exists s', modify_account s a f = Ok s'.
Proof. intros H. unfold modify_account. rewrite H. by eexists. Qed.
Lemma move_pow_ok s a b k : k <= balance (get_account s a) -> total_balance s < 2 ^ 256 ->
  exists s', move_ether_pow s a b k = Ok s'.
Proof.
  intros Hk Ht. unfold move_ether_pow.
  assert (F1 : reduce_sender_balance k (get_account s a) = Ok (Account (nonce (get_account s a))
      (balance (get_account s a) - k) (code (get_account s a)))).
  { unfold reduce_sender_balance. destruct (N.ltb_spec (balance (get_account s a)) k); [lia|done]. }
  destruct (modify_some _ _ _ _ F1) as [s1 E1]. rewrite E1.
  pose proof (modify_account_total _ _ _ _ _ E1 F1) as T1. cbn in T1.
  pose proof (balance_le_total s1 b) as B.
  assert (Hlt : balance (get_account s1 b) + k < U256_CEIL).
  { change U256_CEIL with (2 ^ 256). generalize dependent (2 ^ 256). intros. lia. }
  eapply modify_some. unfold increase_recipient_balance. apply N.ltb_lt in Hlt. by rewrite Hlt.
Qed.
Lemma ptransfer_exists m w s : ptransfer m w = Ok s -> main_trie s !! m_current_target m <> None.
Proof.
  unfold ptransfer. cbv zeta.
  assert (H : main_trie (touch_account (st w) (m_current_target m)) !! m_current_target m <> None).
  { rewrite touch_main. by destruct (decide _) as [|Hn]; [|intros E; apply Hn]. }
  destruct (_ && _).
  - intros (_ & s1 & E1 & _ & E2 & _)%move_pow_inv.
    eapply modify_exists; [exact E2|]. eapply modify_exists; [exact E1|]. done.
  - by intros [= <-].
Qed.
Lemma ptransfer_code m w s a : ptransfer m w = Ok s -> code (get_account s a) = code (get_account (st w) a).
Proof.
  unfold ptransfer. cbv zeta. destruct (_ && _).
  - intros (_ & s1 & E1 & F1 & E2 & F2)%move_pow_inv.
    rewrite (modify_account_get _ _ _ _ _ a E2 F2).
    destruct (decide (_ = a)) as [<-|]; cbn; rewrite (modify_account_get _ _ _ _ _ _ E1 F1);
      (destruct (decide _) as [->|]; cbn; by rewrite touch_get).
  - intros [= <-]. by rewrite touch_get.
Qed.
Lemma peffect_code n i o e w t e' w' a : peffect n i o e w t e' w' ->
  code (get_account (st w') a) = code (get_account (st w) a).
Proof.
  intros He.
  destruct He as [Hw _ Hd _|? ? ? s' _ _ _ Hs Hw _ _ _ Hd _ _
    |b s1 s2 _ _ _ Hs1 Hs2 Hw Hd _ _ _ _|s' _ _ Hn Hw _ _ Hd _]; subst w'; cbn.
  - done.
  - apply set_storage_frame in Hs as (_ & _ & Hs). by rewrite (get_account_main _ _ Hs).
  - rewrite (modify_account_get _ _ _ _ _ a Hs2 eq_refl).
    destruct (decide (_ = a)) as [<-|]; cbn; rewrite (modify_account_get _ _ _ _ _ _ Hs1 eq_refl);
      by destruct (decide _) as [->|].
  - rewrite (modify_account_get _ _ _ _ _ a Hn eq_refl). by destruct (decide (_ = a)) as [<-|].
Qed.
Lemma peffect_total n i o e w t e' w' : peffect n i o e w t e' w' ->
  total_balance (st w') <= total_balance (st w).
Proof.
  intros He.
  destruct He as [Hw _ Hd _|? ? ? s' _ _ _ Hs Hw _ _ _ Hd _ _
    |b s1 s2 _ _ _ Hs1 Hs2 Hw Hd _ _ _ _|s' _ _ Hn Hw _ _ Hd _]; subst w'; cbn.
  - done.
  - apply set_storage_total in Hs. lia.
  - by destruct (selfdestruct_total _ _ _ _ _ Hs1 Hs2).
  - apply pow_nonce_total in Hn. lia.
Qed.
Lemma peffect_slots n i o e w t e' w' : frame_ok e w -> peffect n i o e w t e' w' ->
  forall a k, get_storage (st w') a k < 2 ^ 256.
Proof.
  intros Hf He a k. pose proof (wo_storage _ (fo_world _ _ Hf)) as Hw.
  destruct He as [? _ Hd _|? ? ? s' _ _ _ Hs ? _ _ _ Hd Hb _
    |b s1 s2 _ _ _ Hs1 Hs2 ? Hd _ _ _ _|s' _ _ Hn ? _ _ Hd _]; subst w'; cbn.
  - apply Hw.
  - rewrite (set_storage_get _ _ _ _ _ Hs a k). destruct (decide _); [by apply Hb|apply Hw].
  - unfold pow_set_account_balance in Hs1, Hs2.
    apply modify_account_frame in Hs1 as (_ & _ & E1).
    apply modify_account_frame in Hs2 as (_ & _ & E2).
    rewrite get_storage_slot, E2, E1, <- get_storage_slot. apply Hw.
  - unfold pow_increment_nonce in Hn. apply modify_account_frame in Hn as (_ & _ & E).
    rewrite get_storage_slot, E, <- get_storage_slot. apply Hw.
Qed.
Lemma memory_small g k : k mod 32 = 0 -> g + memcost k < 2 ^ 256 -> k < 2 ^ 256.
Proof.
  intros H1 H2. destruct (N.lt_ge_cases k (2 ^ 256)); [done|].
  exfalso. by eapply mem_bound.
Qed.
Lemma entry_same n w a w3 : pcreate_entry n w a = Ok w3 ->
  (forall b, balance (get_account (st w3) b) = balance (get_account (st w) b) /\
     code (get_account (st w3) b) = code (get_account (st w) b)) /\
  storage_tries (st w3) = delete a (storage_tries (st w)).
Proof.
  unfold pcreate_entry. cbv zeta.
  set (s1 := destroy_storage _ a). set (s2 := if PowVm.since Istanbul n then _ else s1).
  assert (H : main_trie s2 = main_trie (st w) /\ storage_tries s2 = delete a (storage_tries (st w))).
  { assert (H1 : main_trie s1 = main_trie (st w) /\ storage_tries s1 = delete a (storage_tries (st w)))
      by (unfold s1; by rewrite destroy_storage_main, destroy_storage_storages).
    unfold s2. by destruct (PowVm.since Istanbul n). }
  destruct H as [Hm Hs].
  destruct (PowVm.since SpuriousDragon n).
  - destruct (pow_increment_nonce s2 a) as [s|] eqn:E; [|done]. intros [= <-]. cbn.
    split.
    + intros b. rewrite (modify_account_get _ _ _ _ _ b E eq_refl).
      destruct (decide (a = b)) as [<-|]; cbn; by rewrite (get_account_main _ _ Hm).
    + unfold pow_increment_nonce in E. apply modify_account_frame in E as (_ & _ & E). by rewrite E.
  - intros [= <-]. cbn. split; [|done]. intros b. by rewrite (get_account_main _ _ Hm).
Qed.

Lemma slot_of_delete m a b k :
  slot_of (delete a m) b k = if decide (a = b) then 0 else slot_of m b k.
Proof.
  unfold slot_of. destruct (decide (a = b)) as [<-|]; [by rewrite lookup_delete|].
  by rewrite lookup_delete_ne.
Qed.

Section Safe.
  Context (cr : crypto) (n : pow_name) (env : pow_env) (te : tx_env).
  Notation be := (pow_block_env env).

  (** ** Words *)
  (** Messages whose values fit their types. *)
  Record msg_bounds (m : message) : Prop := {
    mb_gas : m_gas m < 2 ^ 256;
    mb_code : lenN (m_code m) < 2 ^ 256;
    mb_data : lenN (m_data m) < 2 ^ 256;
    mb_value : m_value m < 2 ^ 256;
    mb_target : m_current_target m < 2 ^ 160;
    mb_caller : m_caller m < 2 ^ 160;
  }.
  Definition funded (m : message) (w : world) : Prop :=
    m_should_transfer_value m = true -> m_value m <= balance (get_account (st w) (m_caller m)).
  (** The stored words and the codes fit their types; the ether in existence is
      below 2^255. *)
  Definition bounded (w : world) : Prop := world_ok w /\ total_balance (st w) < 2 ^ 255.
  Definition lasting (w0 w : world) : Prop :=
    forall a, main_trie (st w0) !! a <> None -> main_trie (st w) !! a <> None.

  Definition safe_pre (i : gset address) (m : message) (w : world) : Prop :=
    msg_bounds m /\ funded m w /\ bounded w.
  Definition safe_inv (i : gset address) (m : message) (w0 : world) (e : evm) (t : gset address)
      (w : world) : Prop :=
    (bounded w /\ lasting w0 w /\ main_trie (st w) !! m_current_target m <> None) /\
    stack_words (e_stack e) /\ lenN (e_return_data e) < 2 ^ 256 /\ lenN (e_output e) < 2 ^ 256.
  Definition safe_post (i : gset address) (m : message) (w0 : world) (e : evm) (t : gset address)
      (w : world) : Prop :=
    bounded w /\ lasting w0 w /\ lenN (e_output e) < 2 ^ 256.

  Lemma safe_frame i m w0 e t w o :
    msg_bounds m -> fstruct m w0 e w -> safe_inv i m w0 e t w -> pat_op n e o -> frame_ok e w.
  Proof.
    intros Hb Hf ((Hw & Ho & Hx) & Hs & Hr & _) Ha. destruct Hf, Hb, Hw.
    destruct Ha as [(_ & Ha & _) _].
    constructor; try done; try congruence; try lia.
  Qed.

  Lemma bounded_at w s : bounded w -> (forall a, code (get_account s a) = code (get_account (st w) a)) ->
    total_balance s <= total_balance (st w) -> (forall a k, get_storage s a k < 2 ^ 256) ->
    bounded (set_st s w).
  Proof using.
    clear. intros [[] H] Hc Ht Hs. split; [|cbn; lia]. constructor; try done; cbn.
    - lia.
    - intros a. by rewrite Hc.
  Qed.
  Lemma bounded_restored w w' : bounded w -> restored w w' -> bounded w'.
  Proof using.
    clear. intros [[] H] Hre. split; [|rewrite (restored_total _ _ Hre); done].
    destruct Hre. constructor.
    - by rewrite (total_main _ _ re_main).
    - intros a. by rewrite (get_account_main _ _ re_main).
    - intros a k. rewrite get_storage_slot, re_sto; apply wo_storage.
    - intros a k. by rewrite re_ts.
  Qed.
  Lemma bounded_commit w w' : bounded w -> commit_transaction w = Ok w' -> bounded w'.
  Proof using.
    clear. intros [[] H] Hc. split; [|rewrite (commit_total _ _ Hc); done].
    apply commit_same in Hc as (H1 & H2 & H3). constructor.
    - by rewrite (total_main _ _ H1).
    - intros a. by rewrite (get_account_main _ _ H1).
    - intros a k. rewrite get_storage_slot, H2. apply wo_storage.
    - intros a k. unfold get_transient_storage. rewrite H3. apply wo_transient.
  Qed.
  Lemma lasting_trans w1 w2 w3 : lasting w1 w2 -> lasting w2 w3 -> lasting w1 w3.
  Proof using. clear. intros H1 H2 a H. by apply H2, H1. Qed.
  Lemma lasting_grows w w' : grows n (st w) (st w') -> lasting w w'.
  Proof using. clear. intros [] a. auto. Qed.

  (** The exceptions that are allowed to escape *)
  Definition overflows (x : exn) : Prop :=
    x = ECrash OverflowError /\ PowVm.since Byzantium n = true.

  Lemma crash_byzantium a p e w e' w' :
    pow_precompile cr n a = Some p -> p e w = Exc (ECrash OverflowError) e' w' ->
    PowVm.since Byzantium n = true.
  Proof using env te.
    intros Hp He. destruct (PowVm.since Byzantium n) eqn:Eb; [done|]. exfalso.
    assert (Hin : exists b, pre_compiled_contracts cr Osaka b = Some p).
    { unfold pow_precompile in Hp. rewrite Eb in Hp.
      assert (Ei : PowVm.since Istanbul n = false) by (by destruct n).
      rewrite Ei in Hp.
      repeat match type of Hp with
      | context [match ?a with _ => _ end] => destruct a; try discriminate Hp
      end; injection Hp as <-; first [by exists 1|by exists 2|by exists 3|by exists 4]. }
    destruct Hin as (b & Hb).
    pose proof (pre_spec cr be te b p e w Hb) as H. rewrite He in H.
    destruct H as (_ & [[h Hh]|(_ & Hh & _)] & _); [done|discriminate Hh].
  Qed.

  Context (Henv : env_ok cr be te).

  Lemma safe_rule : pframe_rule cr n env te overflows safe_pre safe_pre safe_inv safe_post safe_post.
  Proof.
    constructor.
    - intros i m w c (Hb & Hfu & Hw) _ Ht. exfalso. unfold ptransfer in Ht. cbv zeta in Ht.
      destruct (_ && _) eqn:E; [|done]. apply andb_true_iff in E as [E _].
      destruct (move_pow_ok (touch_account (st (begin_transaction w)) (m_current_target m))
        (m_caller m) (m_current_target m) (m_value m)) as [s' Hs'].
      + rewrite touch_get. by apply Hfu.
      + rewrite touch_total. apply Hw.
      + congruence.
    - intros i m w s1 (Hb & Hfu & Hw) _ Ht.
      pose proof (ptransfer_total _ _ _ Ht) as Htt.
      split; [|split; [constructor|done]]. split; [|split].
      + apply (bounded_at (begin_transaction w)).
        * destruct Hw as [[] Hw]. split; [by constructor|done].
        * intros a. by rewrite (ptransfer_code _ _ _ a Ht).
        * rewrite Htt. done.
        * intros a k. apply ptransfer_frame in Ht as (_ & _ & Ht).
          rewrite get_storage_slot, Ht. change (get_storage (st w) a k < 2 ^ 256). apply Hw.
      + apply (grows_transfer n) in Ht. destruct Ht as [Ht _ _ _]. exact Ht.
      + by apply ptransfer_exists in Ht.
    - intros i m w0 w a p e' (Hb & _) Hf (HI & Hs & Hr & Hout) _ _ _ (_ & -> & _ & Hlen).
      split; [done|]. split; [done|]. split; [done|]. apply Hlen; try done. apply Hb.
    - intros i m w0 w a p e' _ _ _ _ Hp He _. split; [done|]. by eapply crash_byzantium.
    - intros i m w0 e t w o t1 e' w' (Hb & _) Hf HI Ha [Hl He] Hf'.
      pose proof (safe_frame _ _ _ _ _ _ _ Hb Hf HI Ha) as Hfo.
      destruct HI as ((Hw & Hoi & Hx) & Hs & Hr & Hout).
      pose proof (grows_effect _ _ _ _ _ _ _ _ He) as Hg.
      split; [split; [|split]|split; [|split]].
      + pose proof (peffect_total _ _ _ _ _ _ _ _ He) as Ht.
        pose proof (peffect_slots _ _ _ _ _ _ _ _ Hfo He) as Hsl.
        assert (Hc := fun a => peffect_code _ _ _ _ _ _ _ _ a He).
        pose proof (peffect_frame _ _ _ _ _ _ _ _ He) as (_ & Hts & _).
        destruct Hw as [[] Hw]. split; [|lia]. constructor.
        * lia.
        * intros a. by rewrite Hc.
        * done.
        * by rewrite Hts.
      + eapply lasting_trans; [done|by apply lasting_grows].
      + by apply Hg.
      + by apply (ls_words _ _ _ _ _ _ _ Hl).
      + destruct (ls_ret _ _ _ _ _ _ _ Hl) as [->| ->]; [done|]. by rewrite lenN_nil.
      + destruct (ls_out _ _ _ _ _ _ _ Hl) as [->|Hle]; [done|].
        eapply N.le_lt_trans; [exact Hle|]. eapply memory_small; [apply (ls_mem32 _ _ _ _ _ _ _ Hl)|].
        eapply N.le_lt_trans; [apply (fs_memgas _ _ _ _ Hf')|apply Hb].
    - intros i m w0 e t w o x e' (Hb & _) Hf HI Ha [_ (_ & _ & Hx)] Hnh. exfalso.
      pose proof (safe_frame _ _ _ _ _ _ _ Hb Hf HI Ha) as Hfo.
      destruct x; try done; try (by apply Hnh).
      apply Hx; [done|done|]. apply HI.
    - intros i m w0 e t w o m' e1 os oz (Hb & _) Hf HI Ha Hc.
      pose proof (safe_frame _ _ _ _ _ _ _ Hb Hf HI Ha) as Hfo.
      destruct HI as ((Hw & Hoi & Hx) & Hs & Hr & Hout).
      pose proof (pco_wait _ _ _ _ _ _ _ _ Hc) as Hwa.
      destruct (pco_bounds _ _ _ _ _ _ _ _ Hc Hfo) as (B1 & B2 & B3).
      assert (Hm : lenN (e_memory e1) < 2 ^ 256).
      { eapply memory_small; [apply (wa_mem32 _ _ _ _ Hwa)|].
        eapply N.le_lt_trans; [apply (wa_memgas _ _ _ _ Hwa)|]. apply Hfo. }
      split.
      + split; [|split; [|done]].
        * constructor; try done.
          -- pose proof (wa_gas _ _ _ _ Hwa). pose proof (fo_gas _ _ Hfo). lia.
          -- destruct (pco_code _ _ _ _ _ _ _ _ Hc) as (ca & _ & -> & _). apply (proj1 Hw).
          -- pose proof (pco_data _ _ _ _ _ _ _ _ Hc). lia.
        * intros Htr. pose proof (pco_kind _ _ _ _ _ _ _ _ Hc) as Hk. destruct o; try done.
          -- apply Hk.
          -- apply Hk.
          -- destruct Hk as (_ & _ & Hk & _). congruence.
          -- destruct Hk as (_ & _ & _ & ->). lia.
      + intros c tc w1 Hps (P1 & P2 & P4). split.
        * intros e2 w2 Hre _.
          destruct (resume_call_vals _ _ _ _ _ _ _ Hre) as (R1 & R2 & R3).
          apply resume_call_sets in Hre as [-> _].
          split; [split; [done|split; [by eapply lasting_trans|by apply P2]]|split; [|split]].
          -- rewrite R1. constructor; [by destruct (e_error c)|]. by apply (wa_words _ _ _ _ Hwa).
          -- by rewrite R2.
          -- by rewrite R3, (wa_out _ _ _ _ Hwa).
        * intros x e2 w2 Hre. exfalso. unfold resume_call in Hre.
          destruct (to_u256 (lenN (e_output c))) eqn:E; [done|].
          apply to_u256_raise in E as [_ E]. lia.
    - intros i m w0 e t w o m' e1 wi (Hb & _) Hf HI Ha Hc.
      pose proof (safe_frame _ _ _ _ _ _ _ Hb Hf HI Ha) as Hfo.
      destruct HI as ((Hw & Hoi & Hx) & Hs & Hr & Hout).
      pose proof (pcr_wait _ _ _ _ _ _ _ _ Hc) as Hwa.
      destruct (pcr_bounds _ _ _ _ _ _ _ _ Hc Hfo) as (B1 & B3).
      destruct (pcr_nonce _ _ _ _ _ _ _ _ Hc) as (s1 & Hn & Hwi).
      assert (Hg : lasting w wi).
      { apply lasting_grows. subst wi. apply (grows_nonce n) in Hn. exact Hn. }
      assert (Hm : lenN (e_memory e1) < 2 ^ 256).
      { eapply memory_small; [apply (wa_mem32 _ _ _ _ Hwa)|].
        eapply N.le_lt_trans; [apply (wa_memgas _ _ _ _ Hwa)|]. apply Hfo. }
      assert (Hbi : bounded wi).
      { subst wi. apply bounded_at; [done|..].
        - intros a. rewrite (modify_account_get _ _ _ _ _ a Hn eq_refl). by destruct (decide (_ = a)) as [<-|].
        - apply pow_nonce_total in Hn. lia.
        - intros a k. unfold pow_increment_nonce in Hn. apply modify_account_frame in Hn as (_ & _ & E).
          rewrite get_storage_slot, E, <- get_storage_slot. apply (proj1 Hw). }
      split.
      + split; [|split; [|done]].
        * constructor; try done.
          -- pose proof (wa_gas _ _ _ _ Hwa). pose proof (fo_gas _ _ Hfo). lia.
          -- pose proof (pcr_code _ _ _ _ _ _ _ _ Hc). lia.
          -- by rewrite (pcr_data _ _ _ _ _ _ _ _ Hc).
          -- apply (pcr_addr _ _ _ _ _ _ _ _ Hc).
        * intros _. subst wi. cbn. rewrite (modify_account_get _ _ _ _ _ (m_caller m') Hn eq_refl).
          pose proof (pcr_value _ _ _ _ _ _ _ _ Hc) as Hv.
          destruct (decide _) as [E|]; [|done]. cbn. by rewrite E.
      + intros c tc w1 Hps (P1 & P2 & P4).
        assert (Ht : m_current_target (e_message c) < 2 ^ 256).
        { rewrite (pps_msg _ _ _ _ _ Hps). pose proof (pcr_addr _ _ _ _ _ _ _ _ Hc).
          assert (2 ^ 160 < 2 ^ 256) by done. lia. }
        split.
        * intros e2 w2 Hre _.
          destruct (resume_create_vals _ _ _ _ _ Hre) as (R1 & R2 & R3).
          apply resume_create_sets in Hre as [-> _].
          split; [split; [done|split; [by do 2 (eapply lasting_trans; [done|])|by apply P2, Hg]]|split; [|split]].
          -- rewrite R1. constructor; [by destruct (e_error c)|]. by apply (wa_words _ _ _ _ Hwa).
          -- rewrite R2. by destruct (e_error c).
          -- by rewrite R3, (wa_out _ _ _ _ Hwa).
        * intros x e2 w2 Hre. exfalso. unfold resume_create in Hre.
          destruct (e_error c); [done|].
          destruct (to_u256 (m_current_target (e_message c))) eqn:E; [done|].
          apply to_u256_raise in E as [_ E]. lia.
    - intros i m w0 e t w (Hb & _ & Hw) Hps He Hei. destruct (e_error e) as [x|] eqn:E; [|done].
      destruct (pps_fail _ _ _ _ _ Hps x E) as (Hre & _ & Hh).
      split; [exact (bounded_restored _ _ Hw Hre)|].
      split; [by apply lasting_grows, grows_restored|].
      destruct Hei as (e0 & w1 & Hf & HI & _ & [(_ & [-> | ->])|(e1 & Ha & Hd & ->)]).
      + apply HI.
      + by rewrite lenN_nil.
      + destruct Hd as (_ & _ & _ & _ & Hlen).
        assert (Hfo : frame_ok e0 w1) by (by eapply safe_frame).
        destruct e1. cbn in *. by apply Hlen.
    - intros i m w0 e t w w3 Hp Hf ((Hw & Hoi & _) & Hs & Hr & Hout) Hc _.
      split; [by eapply bounded_commit|]. split; [|done].
      eapply lasting_trans; [done|]. by apply lasting_grows, grows_commit.
    - intros i m w w3 (Hb & Hfu & Hw) He.
      destruct (entry_same _ _ _ _ He) as (E1 & E2).
      pose proof (entry_total _ _ _ _ He) as Ht.
      pose proof (pcreate_entry_frame _ _ _ _ He) as (_ & Hts & _).
      split_and!; try done.
      + intros Htr. destruct (E1 (m_caller m)) as [-> _]. by apply Hfu.
      + destruct Hw as [[] Hw]. split; [|rewrite Ht; exact Hw]. constructor.
        * rewrite Ht. exact wo_total.
        * intros a. by destruct (E1 a) as [_ ->].
        * intros a k. rewrite get_storage_slot, E2. rewrite slot_of_delete.
          destruct (decide _); [done|]. rewrite <- get_storage_slot. apply wo_storage.
        * intros a k. rewrite Hts. apply wo_transient.
    - intros i m w w3 e t w4 e' w5 (Hb & Hfu & Hw) He3 Hps (P1 & P2 & P3) _ _ Hre _ Heq.
      split; [exact (bounded_restored _ _ Hw Hre)|].
      split; [by apply lasting_grows, grows_restored|].
      destruct Heq as [->|(_ & [-> | ->])]; [done|done|by rewrite lenN_nil].
    - intros i m w w3 e t w4 h e' w6 (Hb & Hfu & Hw) He3 Hps (P1 & P2 & P3) He Hd _ Hc _.
      split; [exact (bounded_commit _ _ P1 Hc)|]. split.
      + eapply lasting_trans; [by apply lasting_grows; eapply grows_entry|].
        eapply lasting_trans; [exact P2|]. by apply lasting_grows, grows_commit.
      + apply pow_deposit_eq in Hd as (g & _ & ->). destruct e; cbn. by rewrite lenN_nil.
    - intros i m w w3 e t w4 e' s5 w6 (Hb & Hfu & Hw) He3 Hps (P1 & P2 & P3) He Hd Hs Hc _.
      assert (P5 : bounded (set_st s5 w4)).
      { pose proof (pow_code_total _ _ _ _ Hs) as Ht. destruct P1 as [[] P1]. split; [|cbn; lia].
        assert (Hsto : storage_tries s5 = storage_tries (st w4)).
        { unfold pow_set_code in Hs. by apply modify_account_frame in Hs as (_ & _ & Hs). }
        constructor; cbn [st ts set_st].
        - rewrite Ht. exact wo_total.
        - intros a. rewrite (modify_account_get _ _ _ _ _ a Hs eq_refl).
          by destruct (decide (_ = a)).
        - intros a k. rewrite get_storage_slot, Hsto, <- get_storage_slot. apply wo_storage.
        - done. }
      split; [exact (bounded_commit _ _ P5 Hc)|]. split.
      + eapply lasting_trans; [by apply lasting_grows; eapply grows_entry|].
        eapply lasting_trans; [exact P2|].
        eapply lasting_trans; [|by apply lasting_grows; eapply grows_commit].
        intros a. apply (modify_exists _ _ _ _ a Hs).
      + apply pow_deposit_eq in Hd as (g & _ & ->). by destruct e.
  Qed.
End Safe.

From Verif Require PropPowRefund PropTotal.

(** ** C76: reference *)
(** The numbers of a block environment have their sizes, and the hashes of the
    up to 256 previous blocks are at hand. *)
Record pow_fits (env : pow_env) : Prop := {
  pf_chain : pe_chain_id env < 2 ^ 256;
  pf_gas : pe_block_gas_limit env < 2 ^ 240;
  pf_coinbase : pe_coinbase env < 2 ^ 160;
  pf_number : pe_number env < 2 ^ 256;
  pf_base_fee : pe_base_fee_per_gas env < 2 ^ 256;
  pf_time : pe_time env < 2 ^ 256;
  pf_difficulty : pe_difficulty env < 2 ^ 256;
  pf_hashes : forall k, k < pe_number env -> pe_number env <= k + 256 ->
    pe_number env - k - 1 < lenN (pe_block_hashes env);
  pf_hash_sizes : Forall (fun h => lenN h <= 32) (pe_block_hashes env);
}.
(** A state between two transactions, with less than 2^255 wei in existence. *)
Record sound (s : state) : Prop := {
  so_total : total_balance s < 2 ^ 255;
  so_code : forall a, lenN (code (get_account s a)) < 2 ^ 256;
  so_storage : forall a k, get_storage s a k < 2 ^ 256;
  so_closed : snapshots s = [];
}.
Definition tx_fits (tx : transaction) : Prop :=
  lenN (tx_data tx) < 2 ^ 256 /\ forall a, tx_to tx = Some a -> a < 2 ^ 160.

Lemma pow_env_ok cr env te : PropTotal.digests cr -> pow_fits env ->
  t_origin te < 2 ^ 160 -> t_gas_price te < 2 ^ 256 -> t_blob_versioned_hashes te = [] ->
  env_ok cr (pow_block_env env) te.
Proof.
  intros HD [] Ho Hp Hb. assert (H240 : 2 ^ 240 < 2 ^ 256) by (by vm_compute).
  apply PropTotal.block_env_ok; [done| |done|done|by rewrite Hb].
  constructor; cbn [pow_block_env b_fork b_coinbase b_time b_number b_prev_randao b_block_gas_limit b_chain_id
    b_base_fee_per_gas b_excess_blob_gas b_block_hashes]; try done.
  - by eapply N.lt_trans.
  - assert (E : fork_blob_gas_price Osaka 0 = Some 1) by (by vm_compute). rewrite E.
    intros p [= <-]. by vm_compute.
  - intros k H1 H2. unfold lenN. rewrite map_length. by apply pf_hashes0.
  - rewrite Forall_map. eapply Forall_impl; [exact pf_hash_sizes0|]. intros h Hh. cbn.
    by apply from_be_lt_32.
Qed.

Section C76.
  Context (cr : crypto) (n : pow_name) (env : pow_env).
  Notation pm te := (pow_process_message cr n env te).
  Notation pcm te := (pow_process_create_message cr n env te).
  Notation pmc te := (pow_process_message_call cr n env te).

  (** C76.  The exceptions that leave a message.  [msg_bounds], [funded] and
      [bounded] say that the numbers have their sizes, that the caller can pay,
      and that fewer than 2^255 wei exist. *)
  Theorem C76_message te i m w x w' : env_ok cr (pow_block_env env) te ->
    msg_bounds m -> funded m w -> bounded w -> m_depth m <= 1024 ->
    pm te i m w = PPExc x w' \/ pcm te i m w = PPExc x w' ->
    x = ECrash OverflowError /\ PowVm.since Byzantium n = true.
  Proof.
    intros He Hm Hf Hb Hd [H|H].
    - pose proof (prule_message _ _ _ _ _ _ _ _ _ _ i m w (safe_rule cr n env te He)
        (conj Hm (conj Hf Hb))) as R. rewrite H in R. by destruct (R Hd).
    - pose proof (prule_create _ _ _ _ _ _ _ _ _ _ i m w (safe_rule cr n env te He)
        (conj Hm (conj Hf Hb))) as R. rewrite H in R. by destruct (R Hd).
  Qed.
  (** Frontier to Spurious Dragon: every message comes to an end. *)
  Corollary C76_early te i m w : env_ok cr (pow_block_env env) te ->
    msg_bounds m -> funded m w -> bounded w -> m_depth m <= 1024 ->
    PowVm.since Byzantium n = false ->
    (exists e t w', pm te i m w = PPRet e t w') /\ (exists e t w', pcm te i m w = PPRet e t w').
  Proof.
    intros He Hm Hf Hb Hd Hn. split.
    - destruct (pm te i m w) as [e t w'|x w'] eqn:E; [by exists e, t, w'|]. exfalso.
      destruct (C76_message te i m w x w') as [_ ?]; [done..|by left|congruence].
    - destruct (pcm te i m w) as [e t w'|x w'] eqn:E; [by exists e, t, w'|]. exfalso.
      destruct (C76_message te i m w x w') as [_ ?]; [done..|by right|congruence].
  Qed.
  (** A call from outside, and the bounds after it. *)
  Theorem C76_call te m w : env_ok cr (pow_block_env env) te ->
    msg_bounds m -> funded m w -> bounded w -> m_depth m <= 1024 -> m_gas m < 2 ^ 240 ->
    snapshots (st w) = [] ->
    match pmc te m w with
    | PCRet o w' => bounded w' /\ snapshots (st w') = [] /\ co_gas_left o <= m_gas m
    | PCExc x _ => x = ECrash OverflowError /\ PowVm.since Byzantium n = true
    end.
  Proof.
    intros He Hm Hf Hb Hd Hg Hs. destruct (pmc te m w) as [o w'|x w'] eqn:E.
    - unfold pow_process_message_call in E.
      assert (HF : forall e t w1, ppstruct n m w e w1 -> bounded w1 ->
        pow_finish_call e t w1 = PCRet o w' ->
        bounded w' /\ snapshots (st w') = [] /\ co_gas_left o <= m_gas m).
      { intros e t w1 Hps Hb1. pose proof (pps_snap _ _ _ _ _ Hps) as Hsn.
        pose proof (pps_gas _ _ _ _ _ Hps) as Hg1. unfold pow_finish_call. destruct (e_error e).
        - intros [= <- <-]. split; [done|]. split; [congruence|exact Hg1].
        - destruct ((e_refund_counter e <? 0)%Z || _); [discriminate|].
          intros [= <- <-]. split; [done|]. split; [congruence|exact Hg1]. }
      destruct (m_target m).
      + pose proof (prule_message _ _ _ _ _ _ _ _ _ _ ∅ m w (safe_rule cr n env te He)
          (conj Hm (conj Hf Hb))) as R.
        destruct (pm te ∅ m w) as [e t w1|]; [|done]. destruct R as [R1 (R2 & _)].
        by eapply HF.
      + destruct (account_has_code_or_nonce _ _ || _).
        { injection E as <- <-. split; [done|]. split; [done|]. apply N.le_0_l. }
        pose proof (prule_create _ _ _ _ _ _ _ _ _ _ ∅ m w (safe_rule cr n env te He)
          (conj Hm (conj Hf Hb))) as R.
        destruct (pcm te ∅ m w) as [e t w1|]; [|done]. destruct R as [R1 (R2 & _)].
        by eapply HF.
    - eapply (C76_message te ∅ m w x w'); try done.
      by apply (PropPowRefund.C79_call cr n env te m w x w' E Hs Hg).
  Qed.

  (** ** Transactions *)
  Lemma pow_sender_small c tx a : pow_recover_sender cr (rules_of n) c tx = Done a -> a < 2 ^ 160.
  Proof.
    unfold pow_recover_sender. destruct (_ || _); [done|]. destruct (_ || _); [done|].
    intros H. apply obind_inv in H as (pk & _ & [= <-]).
    change (2 ^ 160) with (256 ^ 20). apply from_be_lt_n.
    unfold sliceN. rewrite takeN_firstn, dropN_skipn. unfold lenN. rewrite firstn_length. lia.
  Qed.
  Lemma created_small sender k : PropOuter.created_by cr sender k < 2 ^ 160.
  Proof.
    unfold PropOuter.created_by, PropCalls.low20. change (2 ^ 160) with (256 ^ 20). apply from_be_lt_n.
    rewrite dropN_skipn. unfold lenN. rewrite skipn_length. lia.
  Qed.
  Lemma bounded_sound s : bounded (World s empty_transient) -> snapshots s = [] -> sound s.
  Proof. intros [[] ?] ?. by constructor. Qed.
  Lemma sound_bounded s : sound s -> bounded (World s empty_transient).
  Proof.
    intros []. split; [constructor|]; try done. cbn [st].
    eapply N.lt_trans; [exact so_total0|by vm_compute].
  Qed.

  Lemma sound_charged s sender fee : sound s -> fee <= balance (get_account s sender) ->
    sound (charged s sender fee).
  Proof.
    intros [] Hf. pose proof (total_charged env (pow_evm cr n) s sender fee Hf) as T. constructor.
    - clear -so_total0 T. lia.
    - intros a. rewrite charged_get. destruct (decide (a = sender)) as [->|]; [exact (so_code0 sender)|apply so_code0].
    - intros a k. exact (so_storage0 a k).
    - done.
  Qed.
  Lemma sound_settled bo evm tx s sender price o s2 r s' :
    pow_transacted cr n env evm bo tx s sender price o s2 r s' -> sound s -> sound s2 ->
    total_balance s2 <= total_balance (charged s sender (tx_gas tx * price)) -> sound s'.
  Proof.
    intros Ht [] [] HT. constructor.
    - pose proof (C71_total _ _ _ _ _ _ _ _ _ _ _ _ _ Ht) as T. cbv zeta in T.
      revert T. generalize (gas_paid n tx o * base_fee n env). clear -HT so_total0. lia.
    - intros a. rewrite (C71_accounts _ _ _ _ _ _ _ _ _ _ _ _ _ a Ht).
      destruct (decide (a ∈ _)); [by vm_compute|exact (so_code1 a)].
    - intros a k. destruct Ht as (te & m & _ & _ & _ & _ & _ & _ & _ & [_ H _] & _).
      rewrite get_storage_slot. unfold slot_of. rewrite H. destruct (decide _); [done|].
      exact (so_storage1 a k).
    - destruct Ht as (te & m & _ & _ & _ & _ & _ & _ & _ & [_ _ [H _]] & _). congruence.
  Qed.
  Lemma message_exists tx sender price s : nonce (get_account s sender) = tx_nonce tx + 1 ->
    exists m, pow_prepare_message cr (rules_of n) (env_of n tx sender price) tx s = Done m.
  Proof.
    intros H. unfold pow_prepare_message. destruct (tx_to tx); [by eexists|].
    cbn [env_of t_origin]. rewrite H, usub_le by lia. by eexists.
  Qed.

  (** An accepted transaction goes through, unless MODEXP overflows. *)
  Theorem C76_accepted bo tx i s sender price : PropTotal.digests cr -> pow_fits env ->
    known n tx -> tx_fits tx -> sound s ->
    intrinsic n tx <= tx_gas tx -> tx_nonce tx < 2 ^ 64 - 1 ->
    pow_acceptable cr n env bo tx s sender price ->
    (exists bo' s', pow_process_transaction cr (rules_of n) env (pow_evm cr n) bo tx i s
                    = (Done bo', s') /\ sound s') \/
    PowVm.since Byzantium n = true /\
    exists s', pow_process_transaction cr (rules_of n) env (pow_evm cr n) bo tx i s
               = (Fail (FEvm (ECrash OverflowError)), s').
  Proof.
    intros HD HF Hk [Hdat Hto] Hs V1 V2 Ha.
    destruct (acceptable_fee cr n env (pow_evm cr n) _ _ _ _ _ Ha) as (Hb & Hf1 & Hf2).
    set (s1 := charged s sender (tx_gas tx * price)).
    assert (Hfee : tx_gas tx * price <= balance (get_account s sender)) by (by etransitivity).
    assert (Hs1 : sound s1) by (by apply sound_charged).
    assert (Hn : nonce (get_account s1 sender) = tx_nonce tx + 1).
    { unfold s1. rewrite charged_get, decide_True by done. cbn. by rewrite (pa_nonce _ _ _ _ _ _ _ _ Ha). }
    pose proof (balance_le_total s sender) as Hbt. pose proof (so_total _ Hs) as Ht255.
    assert (H255 : 2 ^ 255 < 2 ^ 256) by (by vm_compute).
    assert (Hgas : tx_gas tx < 2 ^ 240).
    { pose proof (pa_gas _ _ _ _ _ _ _ _ Ha) as A. pose proof (pf_gas _ HF) as B. clear -A B. lia. }
    assert (H1g : 1 <= tx_gas tx).
    { revert V1. unfold intrinsic. clear. lia. }
    assert (Hp : price < 2 ^ 256).
    { assert (price <= tx_gas tx * price).
      { rewrite <- (N.mul_1_l price) at 1. by apply N.mul_le_mono_r. }
      clear -H Hfee Hbt Ht255 H255. lia. }
    assert (Hval : tx_value tx <= balance (get_account s1 sender)).
    { unfold s1. rewrite charged_get, decide_True by done. cbn [balance].
      pose proof (pa_balance _ _ _ _ _ _ _ _ Ha) as A. clear -A Hf1. lia. }
    pose proof (pow_sender_small _ _ _ (pa_sender _ _ _ _ _ _ _ _ Ha)) as Hss.
    destruct (message_exists tx sender price s1 Hn) as [m Hm].
    pose proof (proj1 (message_spec cr n env (pow_evm cr n) _ _ _ _ _ Hn) Hm) as Ho.
    assert (He : env_ok cr (pow_block_env env) (env_of n tx sender price)) by (by apply pow_env_ok).
    assert (H240 : 2 ^ 240 < 2 ^ 256) by (by vm_compute).
    assert (Hmg : m_gas m < 2 ^ 240) by (rewrite (po_gas _ _ _ _ _ _ Ho); clear -Hgas; lia).
    assert (Hmb : msg_bounds m).
    { pose proof (po_kind _ _ _ _ _ _ Ho) as K. constructor.
      - by eapply N.lt_trans.
      - destruct (tx_to tx); destruct K as (_ & _ & _ & ->); [apply Hs1|done].
      - destruct (tx_to tx); destruct K as (_ & _ & -> & _); [done|by rewrite lenN_nil].
      - rewrite (po_value _ _ _ _ _ _ Ho). pose proof (balance_le_total s1 sender) as A.
        pose proof (so_total _ Hs1) as B. clear -A B H255 Hval. lia.
      - destruct (tx_to tx); destruct K as (-> & _); [by apply Hto|apply created_small].
      - by rewrite (po_caller _ _ _ _ _ _ Ho). }
    pose proof (C76_call (env_of n tx sender price) m (World s1 empty_transient) He Hmb) as HC.
    assert (Hfu : funded m (World s1 empty_transient)).
    { intros _. by rewrite (po_caller _ _ _ _ _ _ Ho), (po_value _ _ _ _ _ _ Ho). }
    specialize (HC Hfu (sound_bounded _ Hs1)).
    assert (Hd : m_depth m <= 1024) by (rewrite (po_depth _ _ _ _ _ _ Ho); by vm_compute).
    specialize (HC Hd Hmg (so_closed _ Hs1)).
    destruct (pmc (env_of n tx sender price) m (World s1 empty_transient)) as [o w2|x w2] eqn:E.
    - left. destruct HC as (Hb2 & Hsn2 & Hgl).
      assert (Ev : pow_evm cr n env (env_of n tx sender price) m s1 = (Done o, st w2)).
      { unfold pow_evm. by rewrite E. }
      assert (Hs2 : sound (st w2)). { destruct Hb2 as [[] ?]. by constructor. }
      destruct (pow_call_total _ _ _ _ _ _ _ _ E) as [HT _]. cbn [st] in HT.
      set (used := gas_paid n tx o). pose proof (gas_paid_le n tx o) as Hu. fold used in Hu.
      set (s3 := refunded (st w2) sender ((tx_gas tx - used) * price)).
      set (s4 := rewarded n env s3 (used * (price - base_fee n env))).
      pose proof (total_charged env (pow_evm cr n) s sender (tx_gas tx * price) Hfee) as T1. fold s1 in T1.
      pose proof (total_refunded env (pow_evm cr n) (st w2) sender ((tx_gas tx - used) * price)) as T3. fold s3 in T3.
      pose proof (total_rewarded n env (pow_evm cr n) s3 (used * (price - base_fee n env))) as T4. fold s4 in T4.
      assert (M : (tx_gas tx - used) * price + used * (price - base_fee n env) <= tx_gas tx * price).
      { transitivity ((tx_gas tx - used) * price + used * price).
        - apply N.add_le_mono_l, N.mul_le_mono_l. lia.
        - rewrite <- N.mul_add_distr_r. apply N.mul_le_mono_r. lia. }
      assert (Hst : exists s', settles n env tx sender price used o (st w2) s').
      { eexists. apply (settles_spec n env (pow_evm cr n)). done. }
      destruct Hst as [s' Hst].
      assert (Hcl : snapshots s' = []).
      { destruct Hst as [_ _ [-> _]]. apply Hs2. }
      assert (Hout : exists out, outcome_of cr n o s' out).
      { unfold outcome_of. destruct (since Byzantium n); [by eexists|].
        destruct (PropTotal.state_root_done cr s' Hcl) as [root Hr]. by exists (PostState root), root. }
      destruct Hout as [out Hout].
      set (r := PowReceipt out (pbo_block_gas_used bo + used) (logs_bloom cr (co_logs o)) (co_logs o)).
      assert (Htr : pow_transacted cr n env (pow_evm cr n) bo tx s sender price o (st w2) r s').
      { exists (env_of n tx sender price), m. fold s1. fold used.
        split; [done|]. split; [done|]. split; [done|].
        split; [by apply environment_spec|]. split; [done|]. split; [done|].
        split. { rewrite (po_gas _ _ _ _ _ _ Ho) in Hgl. clear -Hgl. lia. }
        split; [done|].
        pose proof (balance_le_total s3 sender) as B3.
        pose proof (balance_le_total s4 (pe_coinbase env)) as B4.
        split. { clear -Hbt Ht255 H255. lia. }
        split. { pose proof (balance_le_total (st w2) sender) as B2.
          clear -B2 T3 T4 HT T1 M Ht255 H255. fold s1 in HT. lia. }
        split; [|done].
        assert (Hc : balance (credit n env tx sender price used (st w2) (pe_coinbase env)) <=
          total_balance s3 + used * (price - base_fee n env)).
        { rewrite credit_s3. cbn [balance]. rewrite decide_True by done.
          apply N.add_le_mono_r, balance_le_total. }
        clear -Hc T3 T4 HT T1 M Ht255 H255. fold s1 in HT. lia. }
      exists (recorded bo tx i r), s'. split.
      + apply C71_transaction; [done|]. by exists sender, price, o, (st w2), r.
      + eapply sound_settled; [exact Htr|done|done|exact HT].
    - right. destruct HC as [-> Hby]. split; [done|]. exists (st w2).
      unfold pow_process_transaction.
      eapply sbind_go; [apply lift_done, C69_validate; done|].
      eapply sbind_go; [done|].
      eapply sbind_go; [apply lift_done, (C71_accepts _ _ _ (pow_evm cr n)); done|]. cbv beta zeta iota.
      eapply sbind_go; [done|].
      eapply sbind_go; [apply lift_done; by apply usub_le|].
      eapply sbind_go; [apply (charge_spec env (pow_evm cr n)); split; [done|split; [|done]]; clear -Hbt Ht255 H255; lia|].
      destruct (pow_access_list_of tx) as [al sl] eqn:El.
      replace (TxEnv _ _ _ _ _ _ _) with (env_of n tx sender price) by (unfold env_of; by rewrite El).
      eapply sbind_go; [done|].
      eapply sbind_go; [apply lift_done; exact Hm|].
      unfold sbind at 1. unfold pow_evm. fold s1. by rewrite E.
  Qed.
  (** C76.  Any transaction the fork knows goes through, or is turned down
      without a trace, or ends in the overflow. *)
  Theorem C76_transaction bo tx i s : PropTotal.digests cr -> pow_fits env ->
    known n tx -> tx_fits tx -> sound s -> pbo_block_gas_used bo <= pe_block_gas_limit env ->
    let run := pow_process_transaction cr (rules_of n) env (pow_evm cr n) bo tx i s in
    (exists bo' s', run = (Done bo', s') /\ sound s') \/
    (exists e, run = (Fail e, s) /\ PropTotal.rejection e) \/
    PowVm.since Byzantium n = true /\ exists s', run = (Fail (FEvm (ECrash OverflowError)), s').
  Proof.
    intros HD HF Hk Hx Hs Hl run.
    assert (Hcase : (exists sender price, intrinsic n tx <= tx_gas tx /\ tx_nonce tx < 2 ^ 64 - 1 /\
        pow_acceptable cr n env bo tx s sender price) \/
      ~ exists sender price, intrinsic n tx <= tx_gas tx /\ tx_nonce tx < 2 ^ 64 - 1 /\
        pow_acceptable cr n env bo tx s sender price).
    { destruct (pow_validate_transaction (rules_of n) tx) as [g|] eqn:Ev.
      - apply C69_validate in Ev as (-> & V1 & V2).
        destruct (pow_check_transaction cr (rules_of n) env bo tx s) as [[sender price]|] eqn:Ec.
        + left. exists sender, price. split; [done|]. split; [done|].
          by apply (C71_accepts _ _ _ (pow_evm cr n)).
        + right. intros (sender & price & _ & _ & A).
          apply (C71_accepts _ _ _ (pow_evm cr n)) in A; [|done]. congruence.
      - right. intros (sender & price & V1 & V2 & _).
        assert (E : pow_validate_transaction (rules_of n) tx = Done (intrinsic n tx))
          by (by apply C69_validate). congruence. }
    destruct Hcase as [(sender & price & V1 & V2 & A)|Hno].
    - destruct (C76_accepted bo tx i s sender price HD HF Hk Hx Hs V1 V2 A) as [?|?]; auto.
    - destruct (C71_rejected cr n env (pow_evm cr n) bo tx i s Hk Hl Hno) as (e & E & He).
      right. left. exists e. split; [done|]. destruct He as [->|[x ->]]; exact Logic.I.
  Qed.
End C76.

(** ** The two provisos are needed *)

(** C76 (found).  Since Byzantium a call of MODEXP that announces a base of
    2^256-1 bytes aborts the block, in every fork, with any gas and in any
    environment; it should run out of gas instead. *)
Definition huge_base : bytes := repeat Byte.xff 32.
Definition modexp_message (gas : N) : message := {|
  m_caller := 0xaa; m_target := Some 5; m_current_target := 5; m_gas := gas;
  m_value := 0; m_data := huge_base; m_code_address := Some 5; m_code := []; m_depth := 0;
  m_should_transfer_value := true; m_is_static := false;
  m_accessed_addresses := ∅; m_accessed_storage_keys := ∅; m_disable_precompiles := false |}.
Definition nothing : world := World (State ∅ ∅ [] ∅) empty_transient.
Theorem C76_modexp_refuted cr n env te gas : PowVm.since Byzantium n = true -> gas < 2 ^ 256 ->
  msg_bounds (modexp_message gas) /\ funded (modexp_message gas) nothing /\ bounded nothing /\
  exists w', pow_process_message cr n env te ∅ (modexp_message gas) nothing
             = PPExc (ECrash OverflowError) w'.
Proof.
  intros Hn Hg. split; [by constructor|]. split; [intros _; cbn; lia|]. split.
  { split; [|by vm_compute]. constructor; intros; by vm_compute. }
  rewrite C74_recursion. change (1024 <? m_depth (modexp_message gas)) with false. cbv iota.
  generalize (pow_process_message cr n env te), (pow_process_create_message cr n env te). intros pm pcm.
  destruct n; try discriminate; eexists; vm_compute; reflexivity.
Qed.

(** C76 (found).  With 2^255 wei a contract that destroys itself for its own
    benefit aborts the block, in every fork: the balance is added to itself
    before it is set to zero. *)
Definition hoarder (k : N) : world :=
  World (State {[ 0x100 := Account 1 k (bs [0x30; 0xff]) ]} ∅ [] ∅) empty_transient.
Definition hoarder_message : message := {|
  m_caller := 0xaa; m_target := Some 0x100; m_current_target := 0x100; m_gas := 8000;
  m_value := 0; m_data := []; m_code_address := Some 0x100; m_code := bs [0x30; 0xff]; m_depth := 0;
  m_should_transfer_value := true; m_is_static := false;
  m_accessed_addresses := ∅; m_accessed_storage_keys := ∅; m_disable_precompiles := false |}.
Theorem C76_selfdestruct_refuted cr n env te :
  msg_bounds hoarder_message /\ funded hoarder_message (hoarder (2 ^ 255)) /\
  world_ok (hoarder (2 ^ 255)) /\ total_balance (st (hoarder (2 ^ 255))) = 2 ^ 255 /\
  (exists w', pow_process_message cr n env te ∅ hoarder_message (hoarder (2 ^ 255))
              = PPExc (ECrash OverflowError) w') /\
  exists e t w', pow_process_message cr n env te ∅ hoarder_message (hoarder (2 ^ 255 - 1))
              = PPRet e t w' /\ e_error e = None /\ total_balance (st w') = 0.
Proof.
  split; [by constructor|]. split; [intros _; cbn; lia|].
  split. { constructor; intros.
    - by vm_compute.
    - rewrite get_lookup. cbn [hoarder st main_trie].
      destruct (decide (a = 0x100)) as [->|Hne]; [by vm_compute|]. rewrite lookup_singleton_ne by done. by vm_compute.
    - by vm_compute.
    - by vm_compute. }
  split; [by vm_compute|].
  rewrite !C74_recursion. change (1024 <? m_depth hoarder_message) with false. cbv iota.
  generalize (pow_process_message cr n env te), (pow_process_create_message cr n env te). intros pm pcm.
  split.
  - destruct n; eexists; vm_compute; reflexivity.
  - destruct n; do 3 eexists; (split; [vm_compute; reflexivity|]); split; vm_compute; reflexivity.
Qed.

(** ** Examples *)
Definition sized_crypto : crypto := {|
  keccak256 := toy_hash; sha256_digest := toy_hash; ripemd160_digest := fun b => takeN 20 (toy_hash b);
  secp256k1_recover := fun r s v h => Some (bs [1; 2; 3]); secp256r1_verify := fun _ _ _ _ _ => false;
  bn128_add := fun p _ => p; bn128_mul := fun p _ => p;
  bn128_g2_mul := fun p _ => p; bn128_pairing_is_one := fun _ => true;
  bls_g1_add := fun p _ => p; bls_g1_mul := fun p _ => p; bls_g2_add := fun p _ => p;
  bls_g2_mul := fun p _ => p; bls_g2_neg := fun p => p; bls_map_to_g1 := fun x => (x, x);
  bls_map_to_g2 := fun x => (x, x); bls_pairing_is_one := fun _ => true;
  bls_g1_generator := (1, 2); bls_g2_generator := ((1, 2), (3, 4));
  bls_pubkey_to_g1 := fun _ => None; bls_signature_to_g2 := fun _ => None;
  bls_key_validate := fun _ => false |}.
Definition ex_safe_env : pow_env := PowEnv 1 100000 [zeros 32; zeros 32] 0xc0 2 3 1000 131072.
Definition ex_safe_state : state := ex_vm_state ex_destroy_code.
Definition ex_safe_tx (gas : N) (to : address) (data : bytes) : transaction :=
  Legacy (LegacyTx 5 10 gas (Some to) 7 data 27 11 12).
Definition ex_safe_run (n : pow_name) (tx : transaction) :=
  match fst (pow_process_transaction sized_crypto (rules_of n) ex_safe_env (pow_evm sized_crypto n)
          empty_pow_block_output tx 0 ex_safe_state) with
  | Done bo => inl (pbo_block_gas_used bo) | Fail e => inr e end.
(** A transaction that goes through, one that is turned down and one that calls
    MODEXP (a mere address before Byzantium). *)
Example C76_nonvacuous :
  PropTotal.digests sized_crypto /\ pow_fits ex_safe_env /\ sound ex_safe_state /\
  (forall n, known n (ex_safe_tx 99000 0xaa []) /\ known n (ex_safe_tx 99000 5 huge_base)) /\
  tx_fits (ex_safe_tx 99000 0xaa []) /\ tx_fits (ex_safe_tx 99000 5 huge_base) /\
  map (fun n => ex_safe_run n (ex_safe_tx 99000 0xaa [])) [Frontier; Byzantium; London] =
    [inl 23887; inl 54433; inl 84730] /\
  map (fun n => ex_safe_run n (ex_safe_tx 100001 0xaa [])) [Frontier; Byzantium; London] =
    repeat (inr (FInvalidTransaction GasUsedExceedsLimitError)) 3 /\
  map (fun n => ex_safe_run n (ex_safe_tx 99000 5 huge_base)) [Frontier; Byzantium; London] =
    [inl 23176; inr (FEvm (ECrash OverflowError)); inr (FEvm (ECrash OverflowError))].
Proof.
  split. { constructor; intros b; cbn [sized_crypto keccak256 sha256_digest ripemd160_digest];
    unfold toy_hash; rewrite ?takeN_firstn; unfold lenN; rewrite ?firstn_length, ?app_length;
    change (length (zeros 32)) with 32%nat; lia. }
  split. { constructor; [vm_compute; reflexivity..| |].
    - intros k H1 H2. revert H1 H2. cbn [ex_safe_env pe_number pe_block_hashes].
      change (lenN [zeros 32; zeros 32]) with 2. lia.
    - constructor; [vm_compute; discriminate|]. constructor; [vm_compute; discriminate|]. constructor. }
  split. { constructor.
    - vm_compute; reflexivity.
    - intros a. unfold ex_safe_state, ex_vm_state. rewrite get_lookup. cbn [main_trie].
      destruct (_ !! a) as [acc|] eqn:E; [|by vm_compute].
      repeat (apply lookup_insert_Some in E as [[_ <-]|[_ E]]; [by vm_compute|]).
      apply lookup_singleton_Some in E as [_ <-]. by vm_compute.
    - intros a k. rewrite get_storage_slot. unfold slot_of. cbn [ex_safe_state ex_vm_state storage_tries].
      rewrite lookup_empty. vm_compute; reflexivity.
    - reflexivity. }
  split; [by intros n; destruct n|]. split; [by split; [vm_compute|intros a [= <-]; vm_compute]|].
  split; [by split; [vm_compute|intros a [= <-]; vm_compute]|].
  vm_compute. repeat split.
Qed.

Definition PropPowSafe_theorems :=
  (@C76_message, @C76_early, @C76_call, @C76_accepted, @C76_transaction,
   @C76_modexp_refuted, @C76_selfdestruct_refuted).
Print Assumptions PropPowSafe_theorems.
