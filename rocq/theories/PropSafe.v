(** * PropSafe: C07, C10, C17 (static calls, stack bounds, internal errors). *)
From Verif Require Import Base State Rlp Vm Instructions Precompiles Interpreter
  StateSpec StateProofs NumericProofs ArithProofs EvmStep EvmLocal EvmPlan
  EvmPlanProofs EvmCallProofs EvmFrame EvmAccounts EvmRule EvmInv EvmExamples PropExec PropAccounts.
From Coq Require Import ZifyBool ZifyN ZifyNat.
Ltac Zify.zify_post_hook ::= idtac.

Local Opaque to_u256 from_be_bytes calculate_memory_gas_cost ceil32 N.compare.

(** A transfer from an account with a nonce or code to itself changes nothing. *)
Lemma move_ether_self s a n s' : move_ether s a a n = Ok s' -> solid s a -> n <> 0 ->
  main_trie s' = main_trie s /\ storage_tries s' = storage_tries s.
Proof.
  intros H Hs Hn. pose proof (move_ether_inv _ _ _ _ _ H) as (s1 & Hle & H1 & H2 & _).
  pose proof (modify_state_inv _ _ _ _ H1) as (acc1 & F1 & C1).
  pose proof (modify_state_inv _ _ _ _ H2) as (acc2 & F2 & C2).
  assert (E1 : acc1 = Account (nonce (get_account s a)) (balance (get_account s a) - n)
    (code (get_account s a))).
  { revert F1. unfold reduce_sender_balance. destruct (_ <? _); [done|]. by intros [= <-]. }
  assert (N1 : acc1 <> EMPTY_ACCOUNT).
  { rewrite E1. intros [= A B C]. destruct Hs as [Hs|Hs]; done. }
  destruct C1 as [[_ ->]|[? _]]; [|done].
  assert (G1 : get_account (set_account s a (Some acc1)) a = acc1)
    by (rewrite get_account_set; by rewrite decide_True).
  rewrite G1 in F2.
  assert (E2 : acc2 = get_account s a).
  { revert F2. unfold increase_recipient_balance. destruct (_ <? _); [|done]. rewrite E1.
    intros [= <-]. destruct (get_account s a); cbn in *. f_equal. lia. }
  assert (N2 : acc2 <> EMPTY_ACCOUNT).
  { rewrite E2. intros E. destruct Hs as [Hs|Hs]; by rewrite E in Hs. }
  destruct C2 as [[_ ->]|[? _]]; [|done].
  unfold set_account; cbn. split; [|done]. rewrite insert_insert.
  apply insert_id. rewrite E2. clear -Hle Hn. revert Hle.
  unfold get_account, get_account_optional. destruct (main_trie s !! a); [done|].
  cbn. lia.
Qed.

Section Safe.
  Context (cr : crypto) (be : block_env) (te : tx_env).
  Notation pm := (process_message cr be te).
  Notation pcm := (process_create_message cr be te).
  Notation step := (exec_step cr be te pm pcm).
  Notation visits := (visits cr be te).
  Notation invokes := (invokes cr be te).
  Notation frame_rule := (frame_rule cr be te).

  (** ** Static calls *)
  (** A static message that, as every static message of an execution, moves
      ether at most from an account to itself. *)
  Definition static_pre (m : message) (w : world) : Prop :=
    m_is_static m = true /\
    (m_should_transfer_value m = true -> m_value m = 0 \/
       m_caller m = m_current_target m /\ solid (st w) (m_current_target m)) /\
    (m_code m <> [] -> solid (st w) (m_current_target m)).

  Definition untouched (w w' : world) : Prop :=
    main_trie (st w') = main_trie (st w) /\ storage_tries (st w') = storage_tries (st w) /\
    ts_tries (ts w') = ts_tries (ts w).
  Lemma untouched_trans w1 w2 w3 : untouched w1 w2 -> untouched w2 w3 -> untouched w1 w3.
  Proof. intros (?&?&?) (?&?&?). split_and!; congruence. Qed.
  Lemma untouched_solid w w' a : untouched w w' -> solid (st w) a -> solid (st w') a.
  Proof. intros (H & _) Hs. by apply (rises_main _ _ H). Qed.

  Lemma static_rule : frame_rule static_pre (fun _ _ => False)
    (fun m w0 e w => untouched w0 w /\ e_logs e = [] /\ e_accounts_to_delete e = ∅)
    (fun m w0 e w => untouched w0 w /\
       (e_error e = None -> e_logs e = [] /\ e_accounts_to_delete e = ∅))
    (fun _ _ _ _ => True).
  Proof.
    constructor.
    - intros m w s1 (_ & Hv & _) _ Ht. split; [|done].
      unfold transfer in Ht. destruct (m_should_transfer_value m) eqn:E; cbn in Ht.
      + destruct (N.eqb_spec (m_value m) 0) as [Hz|Hz]; cbn in Ht; [by injection Ht as <-|].
        destruct (Hv eq_refl) as [?|[Hc Hs]]; [done|]. rewrite Hc in Ht.
        apply move_ether_self in Ht as [Ht1 Ht2]; [|done|done]. by split_and!.
      + by injection Ht as <-.
    - intros m w0 w e' _ _ HI (_ & -> & _). done.
    - intros m w0 e w o e' w' (Hst & _) Hf (HI & Hl & Hd) _ [Hls He] _.
      assert (Hst' : m_is_static (e_message e) = true) by (by rewrite (fs_msg _ _ _ _ Hf)).
      destruct He as [-> _ Hd'|? ? ? ? _ Hf'|? ? _ Hf'|? ? ? _ _ Hf'|? ? ? ? _ _ Hf'|? _ Hf'];
        try (rewrite Hst' in Hf'; done).
      split; [done|]. split; [|congruence].
      destruct (ls_logs _ _ _ _ _ _ _ Hls) as [->|[Hf' _]]; [done|]. by rewrite Hst' in Hf'.
    - intros m w0 e w o m' e1 os oz (Hst & _ & Hso) Hf (HI & Hl & Hd) Ha Hc.
      assert (Hst' : m_is_static (e_message e) = true) by (by rewrite (fs_msg _ _ _ _ Hf)).
      assert (Hcs : solid (st w) (m_current_target (e_message e))).
      { rewrite (fs_msg _ _ _ _ Hf). eapply untouched_solid; [done|]. apply Hso.
        rewrite <- (fs_code _ _ _ _ Hf). by eapply at_op_code. }
      split.
      + split_and!.
        * by apply (wa_static _ _ _ _ (co_wait _ _ _ _ _ _ _ _ Hc)).
        * intros Htr. pose proof (co_kind _ _ _ _ _ _ _ _ Hc) as Hk. destruct o; try done.
          -- destruct Hk as (_ & _ & Hs & Hz & _). left. apply Hz. congruence.
          -- destruct Hk as (Hk1 & Hk2 & _). right. rewrite Hk2. split; [congruence|done].
          -- destruct Hk as (_ & _ & Hk & _). congruence.
          -- left. apply Hk.
        * by eapply call_solid.
      + intros c w1 e2 w2 Hp [HP1 HP2] Hr _. apply resume_call_sets in Hr as [-> Hr].
        destruct (co_wait _ _ _ _ _ _ _ _ Hc) as [].
        split; [by eapply untouched_trans|].
        destruct (e_error c); destruct Hr as (_ & _ & -> & _ & ->); rewrite wa_logs, wa_del, Hl, Hd;
          [done|]. destruct (HP2 eq_refl) as [-> ->]. split; [done|]. set_solver.
    - intros m w0 e w o m' e1 wi (Hst & _) Hf _ _ Hc. exfalso.
      destruct (cr_static _ _ _ _ _ _ _ _ Hc) as [H _]. rewrite (fs_msg _ _ _ _ Hf) in H. congruence.
    - intros m w0 e w _ Hp He _. destruct (e_error e) as [x|] eqn:E; [|done].
      destruct (ps_fail _ _ _ _ Hp x E) as [[] _]. split; [|done].
      split_and!; [done|done|]. by rewrite re_ts.
    - intros m w0 e w w3 _ Hf (HI & Hl & Hd) Hc _. apply commit_same in Hc.
      split; [|done]. by eapply untouched_trans.
    - intros m w w3 [].
    - intros m w w3 e w4 e' w5 [].
    - done.
  Qed.

  (** C07.  The account map, the storage tries and the transient storage
      tries are exactly those before the call; there are no logs and no
      deletions.  The premises hold for every static message started by
      STATICCALL or from inside a static frame ([C07_static_calls]). *)
  Theorem C07_static m w e w' :
    pm m w = PRet e w' -> m_is_static m = true ->
    (m_should_transfer_value m = true -> m_value m = 0 \/
       m_caller m = m_current_target m /\ solid (st w) (m_current_target m)) ->
    (m_code m <> [] -> solid (st w) (m_current_target m)) ->
    main_trie (st w') = main_trie (st w) /\ storage_tries (st w') = storage_tries (st w) /\
    ts_tries (ts w') = ts_tries (ts w) /\
    (e_error e = None -> e_logs e = [] /\ e_accounts_to_delete e = ∅).
  Proof.
    intros H H1 H2 H3.
    destruct (rule_message _ _ _ _ _ _ _ _ _ _ _ _ static_rule (conj H1 (conj H2 H3)) H)
      as [_ [(?&?&?) ?]]. done.
  Qed.

  (** The storage context of a running frame has a nonce or code. *)
  Lemma solid_rule : frame_rule
    (fun m w => m_code m <> [] -> solid (st w) (m_current_target m)) (fun _ _ => True)
    (fun m w0 e w => rises (st w0) (st w)) (fun m w0 e w => rises (st w0) (st w))
    (fun m w0 e w => rises (st w0) (st w)).
  Proof.
    assert (Hsol : forall m w0 e w o,
      (m_code m <> [] -> solid (st w0) (m_current_target m)) -> fstruct m w0 e w ->
      rises (st w0) (st w) -> at_op e o -> solid (st w) (m_current_target (e_message e))).
    { intros m w0 e w o Hs Hf Hr Ha%at_op_code.
      rewrite (fs_code _ _ _ _ Hf) in Ha. rewrite (fs_msg _ _ _ _ Hf). apply Hr. auto. }
    constructor.
    - intros m w s1 _ _ Ht. by apply transfer_keeps, keeps_rises in Ht.
    - done.
    - intros m w0 e w o e' w' _ _ HI _ [_ He] _. apply effect_keeps, keeps_rises in He.
      by eapply rises_trans.
    - intros m w0 e w o m' e1 os oz Hp Hf HI Ha Hc. split.
      + eapply call_solid; [exact Hc|]. by eapply Hsol.
      + intros c w1 e2 w2 _ Hpo Hr _. apply resume_call_sets in Hr as [-> _].
        by eapply rises_trans.
    - intros m w0 e w o m' e1 wi Hp Hf HI Ha Hc. split; [done|].
      intros c w1 e2 w2 _ Hpo Hr _. apply resume_create_sets in Hr as [-> _].
      destruct (cr_nonce _ _ _ _ _ _ _ _ Hc) as (s1 & Hn & ->).
      apply increment_nonce_keeps, keeps_rises in Hn. eapply rises_trans; [done|].
      by eapply rises_trans.
    - intros m w0 e w _ Hp He _. destruct (e_error e) as [x|] eqn:E; [|done].
      destruct (ps_fail _ _ _ _ Hp x E) as [[] _]. by apply rises_main.
    - intros m w0 e w w3 _ _ HI Hc _. apply commit_main in Hc as [Hc _].
      eapply rises_trans; [done|]. by apply rises_main.
    - intros m w w3 _ He _. left. rewrite (create_entry_get _ _ _ He), decide_True by done. cbn. lia.
    - intros m w w3 e w4 e' w5 _ _ _ _ _ _ [] _ _. by apply rises_main.
    - intros m w w3 e w4 e' s5 w6 _ He3 _ Hpo _ _ Hs Hc _.
      pose proof (create_entry_get _ _ _ He3 (m_current_target m)) as Hg.
      rewrite decide_True in Hg by done.
      apply create_entry_keeps, keeps_rises in He3. apply commit_main in Hc as [Hc _].
      assert (Hn4 : nonce (get_account (st w4) (m_current_target m)) <> 0).
      { pose proof (proj1 (Hpo (m_current_target m))) as Hle. rewrite Hg in Hle. cbn in Hle. lia. }
      assert (Hr5 : rises (st w4) s5).
      { intros a. unfold solid. rewrite (set_code_get _ _ _ _ Hs a).
        destruct (decide _) as [<-|]; [|done]. cbn. split; [done|]. intros _. by left. }
      eapply rises_trans; [done|]. eapply rises_trans; [done|].
      eapply rises_trans; [done|]. by apply rises_main.
  Qed.

  (** Every static call made during any execution is as [C07_static] wants
      (the top-level message only has to run in an account with a nonce or
      code, if it runs code at all): so it changes nothing. *)
  Theorem C07_static_calls m w e w1 m' c w2 :
    visits m w e w1 -> m_depth m <= 1024 ->
    (m_code m <> [] -> solid (st w) (m_current_target m)) ->
    starts_call cr be te e w1 m' -> m_is_static m' = true -> pm m' w1 = PRet c w2 ->
    main_trie (st w2) = main_trie (st w1) /\ storage_tries (st w2) = storage_tries (st w1) /\
    ts_tries (ts w2) = ts_tries (ts w1) /\
    (e_error c = None -> e_logs c = [] /\ e_accounts_to_delete c = ∅).
  Proof.
    intros Hv Hd Hp Hst Hs Hr.
    destruct (rule_visits _ _ _ _ _ _ _ _ _ _ _ _ solid_rule Hv Hp Hd)
      as (m0 & w0 & Hp0 & _ & Hf & HI).
    destruct (starts_call_inv _ _ _ _ _ _ (fs_shape _ _ _ _ Hf) Hst) as (o & e1 & os & oz & Ha & Hc & _).
    assert (Hso : solid (st w1) (m_current_target (e_message e))).
    { pose proof (at_op_code _ _ Ha) as Hne. rewrite (fs_code _ _ _ _ Hf) in Hne.
      rewrite (fs_msg _ _ _ _ Hf). apply HI. auto. }
    eapply C07_static; [exact Hr|done| |].
    - intros Htr. pose proof (co_kind _ _ _ _ _ _ _ _ Hc) as Hk. destruct o; try done.
      + destruct Hk as (_ & _ & Hk & Hz & _). left. by apply Hz.
      + destruct Hk as (Hk1 & Hk2 & _). right. rewrite Hk2. split; [congruence|done].
      + destruct Hk as (_ & _ & Hk & _). congruence.
      + left. apply Hk.
    - by eapply call_solid.
  Qed.
  (** STATICCALL starts a static message, and so does any call from a static
      frame; a static frame starts no creation. *)
  Theorem C07_inherited m w e w1 m' :
    visits m w e w1 -> m_depth m <= 1024 -> starts_call cr be te e w1 m' ->
    nthN (e_code e) (e_pc e) = Some Byte.xfa \/ m_is_static (e_message e) = true ->
    m_is_static m' = true.
  Proof.
    intros Hv Hd Hst Hor. destruct (visits_struct _ _ _ _ _ _ _ Hv Hd) as (m0 & w0 & _ & Hf).
    destruct (starts_call_inv _ _ _ _ _ _ (fs_shape _ _ _ _ Hf) Hst) as (o & e1 & os & oz & Ha & Hc & _).
    destruct Hor as [Hop|Hs]; [|by apply (wa_static _ _ _ _ (co_wait _ _ _ _ _ _ _ _ Hc))].
    destruct Ha as (_ & _ & b & Hb & Hde). rewrite Hop in Hb. injection Hb as <-.
    injection Hde as <-. apply (co_kind _ _ _ _ _ _ _ _ Hc).
  Qed.
  Theorem C07_no_creation m w e w1 m' w' :
    visits m w e w1 -> m_depth m <= 1024 -> m_is_static (e_message e) = true ->
    ~ starts_create cr be te e w1 m' w'.
  Proof.
    intros Hv Hd Hs Hst. destruct (visits_struct _ _ _ _ _ _ _ Hv Hd) as (m0 & w0 & _ & Hf).
    destruct (starts_create_inv _ _ _ _ _ _ _ (fs_shape _ _ _ _ Hf) Hst) as (o & e1 & Ha & Hc & _).
    destruct (cr_static _ _ _ _ _ _ _ _ Hc). congruence.
  Qed.

  (** Every moment of a static execution, at any depth. *)
  Theorem C07_always m w e w1 :
    visits m w e w1 -> m_depth m <= 1024 -> static_pre m w ->
    m_is_static (e_message e) = true /\ e_logs e = [] /\ e_accounts_to_delete e = ∅.
  Proof.
    intros Hv Hd Hp. destruct (rule_visits _ _ _ _ _ _ _ _ _ _ _ _ static_rule Hv Hp Hd)
      as (m' & w0 & (Hs & _) & _ & Hf & _ & Hl & Hdel).
    by rewrite (fs_msg _ _ _ _ Hf).
  Qed.

  (** ** Words and internal errors *)
  (** Message calls whose values fit their types and that can be started. *)
  Record msg_bounds (m : message) : Prop := {
    mb_gas : m_gas m < 2 ^ 256;
    mb_code : lenN (m_code m) < 2 ^ 256;
    mb_data : lenN (m_data m) < 2 ^ 256;
    mb_value : m_value m < 2 ^ 256;
    mb_target : m_current_target m < 2 ^ 160;
    mb_caller : m_caller m < 2 ^ 160;
  }.
  Definition funded (m : message) (w : world) : Prop :=
    m_should_transfer_value m = true -> m_value m <= balance (get_account (st w) (m_caller m)).
  Definition safe_pre (m : message) (w : world) : Prop :=
    msg_bounds m /\ funded m w /\ world_ok w /\ owned_pre m w.
  Definition safe_cpre (m : message) (w : world) : Prop :=
    msg_bounds m /\ funded m w /\ world_ok w /\ owned (st w).
  Definition safe_inv (m : message) (w0 : world) (e : evm) (w : world) : Prop :=
    world_ok w /\ owned_inv w0 w /\ stack_words (e_stack e) /\
    lenN (e_return_data e) < 2 ^ 256 /\ lenN (e_output e) < 2 ^ 256.
  Definition safe_post (m : message) (w0 : world) (e : evm) (w : world) : Prop :=
    world_ok w /\ owned_inv w0 w /\ lenN (e_output e) < 2 ^ 256.

  Lemma safe_frame m w0 e w o :
    msg_bounds m /\ owned_pre m w0 -> fstruct m w0 e w -> safe_inv m w0 e w -> at_op e o ->
    frame_ok e w.
  Proof.
    intros (Hb & Hp) Hf (Hw & Ho & Hs & Hr & _) Ha.
    pose proof (main_some_solid _ _ (owned_solid _ _ _ _ _ Hp Hf Ho Ha)) as Hso. destruct Hf, Hb.
    destruct Ha as (_ & Ha & _).
    constructor; try done; try congruence; try lia.
  Qed.

  Lemma safe_weak m w : safe_pre m w -> msg_bounds m /\ owned_pre m w.
  Proof. by intros (? & _ & _ & ?). Qed.

  Lemma world_ok_same w s : world_ok w -> same_code (st w) s ->
    total_balance s <= total_balance (st w) -> (forall a k, get_storage s a k < 2 ^ 256) ->
    world_ok (set_st s w).
  Proof.
    intros [] Hc Ht Hs. constructor; try done; cbn.
    - lia.
    - intros a. by rewrite Hc.
  Qed.
  Lemma world_ok_restored w w' : world_ok w -> restored w w' -> world_ok w'.
  Proof.
    intros [] []. constructor.
    - by rewrite (total_main _ _ re_main).
    - intros a. by rewrite (get_account_main _ _ re_main).
    - intros a k. rewrite get_storage_slot, re_sto; apply wo_storage.
    - intros a k. by rewrite re_ts.
  Qed.
  Lemma world_ok_commit w w' : world_ok w -> commit_transaction w = Ok w' -> world_ok w'.
  Proof.
    intros [] (H1 & H2 & H3)%commit_same. constructor.
    - by rewrite (total_main _ _ H1).
    - intros a. by rewrite (get_account_main _ _ H1).
    - intros a k. rewrite get_storage_slot, H2. apply wo_storage.
    - intros a k. unfold get_transient_storage. rewrite H3. apply wo_transient.
  Qed.
  Lemma world_ok_begin w : world_ok w -> world_ok (begin_transaction w).
  Proof. intros []. by constructor. Qed.

  Lemma world_ok_effect f o e w e' w' : frame_ok e w -> owned (st w) -> effect f o e w e' w' ->
    world_ok w'.
  Proof.
    intros Hf Ho He. pose proof (fo_world _ _ Hf) as Hw.
    destruct (effect_storage _ _ _ _ _ _ He Ho) as [Hc Hs].
    destruct (effect_total _ _ _ _ _ _ He) as (Ht & _).
    assert (Hsb : forall a k, get_storage (st w') a k < 2 ^ 256).
    { destruct Hs as [Hs|(k & v & _ & _ & Hs & Hb)].
      - intros a k. rewrite Hs. apply Hw.
      - intros a j. rewrite (set_storage_get _ _ _ _ _ Hs a j).
        destruct (decide _); [by apply Hb|apply Hw]. }
    assert (Hts : forall a k, get_transient_storage (ts w') a k < 2 ^ 256).
    { destruct He as [-> _ _|? ? ? ? _ _ _ _ ->|k v _ _ -> _ _ Hb|? ? ? _ _ _ _ _ ->|? ? ? ? _ _ _ _ _ _ ->|? _ _ _ ->];
        try apply Hw.
      intros a j. cbn. rewrite set_transient_unfold.
      change (slot_of (storages_set (ts_tries (ts w)) (m_current_target (e_message e)) k v) a j < 2 ^ 256).
      rewrite slot_of_set. destruct (decide _); [by apply Hb|]. apply (wo_transient _ Hw). }
    destruct Hw. constructor; try done; [lia|]. intros a. by rewrite Hc.
  Qed.
  Lemma memory_small g n : n mod 32 = 0 -> g + memcost n < 2 ^ 256 -> n < 2 ^ 256.
  Proof.
    intros H1 H2. destruct (N.lt_ge_cases n (2 ^ 256)); [done|].
    exfalso. by eapply mem_bound.
  Qed.

  Context (Henv : env_ok cr be te).

  Ltac conj3 := refine (conj _ (conj _ _)).
  Ltac conj5 := refine (conj _ (conj _ (conj _ (conj _ _)))).

  Lemma safe_rule : frame_rule safe_pre safe_cpre safe_inv safe_post safe_post.
  Proof.
    constructor.
    - intros m w s1 (Hb & Hfu & Hw & Ho) _ Ht.
      pose proof (owned_start _ _ _ Ho Ht) as Hoi. pose proof (transfer_total _ _ _ Ht) as Htt.
      apply transfer_same in Ht as [Hs Hc]. specialize (Hs (proj1 Ho)).
      conj5; try done.
      + apply world_ok_same; [by apply world_ok_begin|done|rewrite Htt; done|].
        intros a k. rewrite Hs. apply (wo_storage _ Hw).
      + constructor.
    - intros m w0 w e' (Hb & _) Hf (Hw & Ho & Hs & Hr & Hout) (_ & -> & _ & Hlen).
      conj5; try done. apply Hlen; try done. apply Hb.
    - intros m w0 e w o e' w' Hp Hf HI Ha [Hl He] Hf'.
      pose proof (safe_frame _ _ _ _ _ (safe_weak _ _ Hp) Hf HI Ha) as Hfo.
      destruct Hp as (Hb & Hfu & Hw0 & Ho). destruct HI as (Hw & Hoi & Hs & Hr & Hout).
      conj5.
      + eapply world_ok_effect; [done|apply Hoi|done].
      + exact (owned_done _ _ _ _ _ _ _ _ Ho Hf Hoi Ha He).
      + by apply (ls_words _ _ _ _ _ _ _ Hl).
      + destruct (ls_ret _ _ _ _ _ _ _ Hl) as [->| ->]; [done|]. by rewrite lenN_nil.
      + destruct (ls_out _ _ _ _ _ _ _ Hl) as [->|Hle]; [done|].
        eapply N.le_lt_trans; [exact Hle|]. eapply memory_small; [apply (ls_mem32 _ _ _ _ _ _ _ Hl)|].
        eapply N.le_lt_trans; [apply (fs_memgas _ _ _ _ Hf')|apply Hb].
    - intros m w0 e w o m' e1 os oz Hp Hf HI Ha Hc.
      pose proof (safe_frame _ _ _ _ _ (safe_weak _ _ Hp) Hf HI Ha) as Hfo.
      pose proof (owned_solid _ _ _ _ _ (proj2 (proj2 (proj2 Hp))) Hf (proj1 (proj2 HI)) Ha) as Hso.
      destruct Hp as (Hb & Hfu & Hw0 & Ho). destruct HI as (Hw & Hoi & Hs & Hr & Hout).
      pose proof (co_wait _ _ _ _ _ _ _ _ Hc) as Hwa.
      destruct (co_bounds _ _ _ _ _ _ _ _ Hc Hfo) as (B1 & B2 & B3).
      assert (Hm : lenN (e_memory e1) < 2 ^ 256).
      { eapply memory_small; [apply (wa_mem32 _ _ _ _ Hwa)|].
        eapply N.le_lt_trans; [apply (wa_memgas _ _ _ _ Hwa)|]. apply Hfo. }
      split.
      + split; [|split; [|split; [done|split; [apply Hoi|by eapply call_solid]]]].
        * constructor; try done.
          -- pose proof (wa_gas _ _ _ _ Hwa). pose proof (fo_gas _ _ Hfo). lia.
          -- destruct (co_code _ _ _ _ _ _ _ _ Hc) as (a & ca & _ & Hres & _).
             unfold resolved in Hres. destruct (at_least Prague (b_fork be));
               [destruct (get_delegated_code_address _)|];
               destruct Hres as (_ & _ & ->); apply Hw.
          -- pose proof (co_data _ _ _ _ _ _ _ _ Hc). lia.
        * intros Htr. pose proof (co_kind _ _ _ _ _ _ _ _ Hc) as Hk. destruct o; try done.
          -- apply Hk.
          -- apply Hk.
          -- destruct Hk as (_ & _ & Hk & _). congruence.
          -- destruct Hk as (_ & _ & _ & ->). lia.
      + intros c w1 e2 w2 Hps (P1 & [P2 P3] & P4) Hre _.
        destruct (resume_call_vals _ _ _ _ _ _ _ Hre) as (R1 & R2 & R3).
        apply resume_call_sets in Hre as [-> _].
        conj5; [done|split; [done|eapply rises_trans; [apply Hoi|done]]| | |].
        * rewrite R1. constructor; [by destruct (e_error c)|]. by apply (wa_words _ _ _ _ Hwa).
        * by rewrite R2.
        * by rewrite R3, (wa_out _ _ _ _ Hwa).
    - intros m w0 e w o m' e1 wi Hp Hf HI Ha Hc.
      pose proof (safe_frame _ _ _ _ _ (safe_weak _ _ Hp) Hf HI Ha) as Hfo.
      destruct Hp as (Hb & Hfu & Hw0 & Ho). destruct HI as (Hw & Hoi & Hs & Hr & Hout).
      pose proof (cr_wait _ _ _ _ _ _ _ _ Hc) as Hwa.
      destruct (cr_bounds _ _ _ _ _ _ _ _ Hc Hfo) as (B1 & B3).
      pose proof (owned_create _ _ _ _ _ _ _ _ _ Hoi Hc) as Hoi'.
      assert (Hm : lenN (e_memory e1) < 2 ^ 256).
      { eapply memory_small; [apply (wa_mem32 _ _ _ _ Hwa)|].
        eapply N.le_lt_trans; [apply (wa_memgas _ _ _ _ Hwa)|]. apply Hfo. }
      split.
      + destruct (cr_nonce _ _ _ _ _ _ _ _ Hc) as (s1 & Hn & ->).
        split; [|split; [|split; [|apply Hoi']]].
        * constructor; try done.
          -- pose proof (wa_gas _ _ _ _ Hwa). pose proof (fo_gas _ _ Hfo). lia.
          -- pose proof (cr_code _ _ _ _ _ _ _ _ Hc). lia.
          -- by rewrite (cr_data _ _ _ _ _ _ _ _ Hc).
          -- apply (cr_addr _ _ _ _ _ _ _ _ Hc).
        * intros _. cbn. rewrite (increment_nonce_get _ _ _ Hn).
          pose proof (cr_value _ _ _ _ _ _ _ _ Hc) as Hv.
          destruct (decide _) as [E|]; [|done]. cbn. by rewrite E.
        * pose proof (increment_nonce_total _ _ _ Hn) as Ht.
          apply increment_nonce_same in Hn as [Hn1 Hn2].
          apply world_ok_same; [done|done|lia|].
          intros a k. rewrite Hn1; [apply (wo_storage _ Hw)|apply Hoi].
      + intros c w1 e2 w2 Hps (P1 & [P2 P3] & P4) Hre _.
        assert (Hri : rises (st w0) (st w1)) by (eapply rises_trans; [apply Hoi'|done]).
        assert (Ht : m_current_target (e_message c) < 2 ^ 256).
        { rewrite (ps_msg _ _ _ _ Hps). pose proof (cr_addr _ _ _ _ _ _ _ _ Hc).
          assert (2 ^ 160 < 2 ^ 256) by done. lia. }
        destruct (resume_create_vals _ _ _ _ _ Hre) as (R1 & R2 & R3).
        apply resume_create_sets in Hre as [-> _].
        conj5; [done|done| | |].
        * rewrite R1. constructor; [by destruct (e_error c)|]. by apply (wa_words _ _ _ _ Hwa).
        * rewrite R2. by destruct (e_error c).
        * by rewrite R3, (wa_out _ _ _ _ Hwa).
    - intros m w0 e w (Hb & _ & Hw & Ho) Hps He Hei. destruct (e_error e) as [x|] eqn:E; [|done].
      destruct (ps_fail _ _ _ _ Hps x E) as (Hre & _ & Hh).
      split; [by eapply world_ok_restored|]. split; [eapply owned_restored; [apply Ho|done]|].
      destruct Hei as (e0 & w1 & Hf & HI & _ & [[h Eh]|(e1 & Ha & Hd & ->)]).
      + rewrite E in Eh. destruct (Hh h) as [_ ->]; [congruence|]. done.
      + destruct Hd as (_ & _ & _ & _ & Hlen).
        assert (Hfo : frame_ok e0 w1).
        { eapply safe_frame; [|done..]. split; done. }
        destruct e1. cbn in *. by apply Hlen.
    - intros m w0 e w w3 Hp Hf (Hw & Hoi & Hs & Hr & Hout) Hc _.
      conj3; [by eapply world_ok_commit|by eapply owned_commit|done].
    - intros m w w3 (Hb & Hfu & Hw & Ho) He.
      destruct (owned_entry _ _ _ Ho He) as [Ho1 Ho2].
      destruct (create_entry_same _ _ _ He Ho) as (E1 & _ & _ & E2 & E3).
      split_and!; try done.
      + intros Htr. rewrite E3. by apply Hfu.
      + pose proof (create_entry_total _ _ _ He) as Ht.
        pose proof (create_entry_frame _ _ _ He) as (_ & Hts & _).
        destruct Hw. constructor.
        * lia.
        * intros a. by rewrite E1.
        * intros a k. rewrite E2. by destruct (decide _).
        * intros a k. rewrite Hts. apply wo_transient.
    - intros m w w3 e w4 e' w5 (Hb & Hfu & Hw & Ho) He3 Hps (P1 & P2 & P3) _ _ Hre _ Heq.
      conj3; [exact (world_ok_restored _ _ Hw Hre)|by apply owned_restored|].
      destruct Heq as [->|(h & e1 & ->)]; [done|]. by destruct e1.
    - intros m w w3 e w4 e' s5 w6 (Hb & Hfu & Hw & Ho) He3 Hps (P1 & P2 & P3) He Hd Hs Hc _.
      destruct (owned_cok _ _ _ _ _ _ _ He3 Ho P2 Hs Hc) as [H1 H2].
      destruct (deposit_code_eq _ _ _ Hd) as (g & _ & ->).
      conj3; [|done|by destruct e].
      pose proof (set_code_total _ _ _ _ Hs) as Ht.
      apply commit_same in Hc as (C1 & C2 & C3). cbn in C1, C2, C3. destruct P1. constructor.
      + rewrite (total_main _ _ C1). lia.
      + intros a. rewrite (get_account_main _ _ C1), (set_code_get _ _ _ _ Hs).
        by destruct (decide _).
      + intros a k. by rewrite H2.
      + intros a k. unfold get_transient_storage. rewrite C3. apply wo_transient.
  Qed.

  Lemma transfer_ok m w : funded m w -> world_ok w ->
    exists s, transfer m (begin_transaction w) = Ok s.
  Proof.
    intros Hf Hw. unfold transfer. destruct (_ && _) eqn:E; [|by eexists].
    apply andb_true_iff in E as [E _]. apply move_ether_ok; [by apply Hf|].
    apply (wo_total _ Hw).
  Qed.
  Lemma rollback_ok w : snapshots (st w) <> [] -> ts_snapshots (ts w) <> [] ->
    exists w', rollback_transaction w = Ok w'.
  Proof.
    intros H1 H2. unfold rollback_transaction. destruct (snapshots (st w)) as [|[? ?] l]; [done|].
    destruct (ts_snapshots (ts w)); [done|]. by eexists.
  Qed.
  Lemma commit_ok w : snapshots (st w) <> [] -> ts_snapshots (ts w) <> [] ->
    exists w', commit_transaction w = Ok w'.
  Proof.
    intros H1 H2. unfold commit_transaction. destruct (snapshots (st w)) as [|[? ?] l]; [done|].
    destruct (ts_snapshots (ts w)); [done|]. by eexists.
  Qed.

  (** What may escape from a message: nothing since Osaka; before it, an
      [OverflowError] (from the old price of modular exponentiation, or from
      the old SELFDESTRUCT). *)
  Definition escapes (x : exn) : Prop :=
    x = ECrash OverflowError /\ at_least Osaka (b_fork be) = false.
  Definition returns (r : pmres) : Prop := match r with PRet _ _ => True | PExc x _ => escapes x end.

  Lemma no_crash :
    (forall m w r, frun cr be te m w r -> m_depth m <= 1024 -> safe_pre m w -> returns r) /\
    (forall m w r, xrun cr be te m w r -> forall w0, safe_pre m w0 ->
       fstruct m w0 (init_evm m) w -> safe_inv m w0 (init_evm m) w -> returns r) /\
    (forall e w ox e' w', lrun cr be te e w ox e' w' -> forall m w0, safe_pre m w0 ->
       fstruct m w0 e w -> safe_inv m w0 e w ->
       match ox with Some x => handled x \/ escapes x | None => True end) /\
    (forall m w r, crun cr be te m w r -> m_depth m <= 1024 -> safe_cpre m w -> returns r).
  Proof.
    destruct (frame_rule_sound cr be te _ _ _ _ _ safe_rule) as (SF & SX & SL & SC).
    apply (run_mutind cr be te
      (fun m w r _ => m_depth m <= 1024 -> safe_pre m w -> returns r)
      (fun m w r _ => forall w0, safe_pre m w0 ->
         fstruct m w0 (init_evm m) w -> safe_inv m w0 (init_evm m) w -> returns r)
      (fun e w ox e' w' _ => forall m w0, safe_pre m w0 ->
         fstruct m w0 e w -> safe_inv m w0 e w ->
         match ox with Some x => handled x \/ escapes x | None => True end)
      (fun m w r _ => m_depth m <= 1024 -> safe_cpre m w -> returns r)); try done;
      try (intros; left; done).
    - intros m w H H'. lia.
    - intros m w c _ Ht _ (_ & Hf & Hw & _).
      destruct (transfer_ok _ _ Hf Hw) as [s Hs]. congruence.
    - intros m w s1 x w2 Hd Ht Hx IH _ Hp.
      apply (IH w Hp (fstruct_init _ _ _ Ht)). by apply (r_start _ _ _ _ _ _ _ _ safe_rule).
    - intros m w s1 e w2 c Hd Ht Hx IH Hpop _ Hp. exfalso.
      pose proof (fstruct_init _ _ _ Ht) as Hf.
      pose proof (r_start _ _ _ _ _ _ _ _ safe_rule _ _ _ Hp Hd Ht) as HI.
      assert (Hs : snapshots (st w2) <> [] /\ ts_snapshots (ts w2) <> []).
      { assert (Hfin : forall w', (exists e, fstruct m w e w') ->
          snapshots (st w') <> [] /\ ts_snapshots (ts w') <> []).
        { intros w' [e' Hf']. by rewrite (fs_snap _ _ _ _ Hf'), (fs_tsnap _ _ _ _ Hf'). }
        apply Hfin. inversion Hx as [|? ? r Hpr Hm Hw Heq|? ? ox e' w' Hl Hm Hw Heq]; subst.
        - eauto.
        - destruct r as [? ? ?|x ? ?]; [injection Heq as <- <-|destruct x; try done; injection Heq as <- <-];
            destruct Hpr as (-> & _); eauto.
        - specialize (SL _ _ _ _ _ Hl _ _ Hp Hf HI). destruct ox as [x|].
          + destruct x; try done; injection Heq as <- <-;
              destruct (SL Logic.I) as (_ & _ & e0 & Hf0 & _); eauto.
          + injection Heq as <- <-. destruct SL. eauto. }
      destruct Hs as [S1 S2].
      destruct (rollback_ok w2 S1 S2), (commit_ok w2 S1 S2).
      destruct Hpop; congruence.
    - intros m w r Hpr w0 Hp Hf HI. destruct r as [? ? ?|x ? ?]; [done|].
      destruct Hpr as (_ & [[h ->]|(-> & Ho & _)] & _); done.
    - intros m w ox e' w' Hl IH w0 Hp Hf HI. specialize (IH _ _ Hp Hf HI).
      destruct ox as [x|]; [|done]. destruct x; try done; by destruct IH.
    - intros e w o e1 w1 ox e' w' Ha Hd Hl IH m w0 Hp Hf HI.
      pose proof (fstruct_step _ _ _ _ _ _ _ _ _ _ Hf Hd) as Hf'.
      apply (IH _ _ Hp Hf'). exact (r_done _ _ _ _ _ _ _ _ safe_rule _ _ _ _ _ _ _ Hp Hf HI Ha Hd Hf').
    - intros e w o x e' w' Ha Hd m w0 Hp Hf HI.
      pose proof (safe_frame _ _ _ _ _ (safe_weak _ _ Hp) Hf HI Ha) as Hfo.
      destruct Hd as (_ & _ & _ & Hx). destruct x; try done; try (by left). right.
      destruct (Hx Henv Hfo) as (-> & _ & Hca & _). split; [done|]. by destruct (b_fork be).
    - intros e w o m' e1 os oz c w1 e2 w2 ox e' w' Ha Hc Hr IHr Hs Hl IHl m w0 Hp Hf HI.
      destruct (r_call _ _ _ _ _ _ _ _ safe_rule _ _ _ _ _ _ _ _ _ Hp Hf HI Ha Hc) as [Hpre Hk].
      destruct (SF _ _ _ Hr Hpre) as [Hps Hpo].
      pose proof (fstruct_call _ _ _ _ _ _ _ _ _ _ _ _ _ _ Hf Hc Hps Hs) as Hf'.
      apply (IHl _ _ Hp Hf'). exact (Hk _ _ _ _ Hps Hpo Hs Hf').
    - intros e w o m' e1 os oz c w1 x e2 w2 Ha Hc Hr IHr Hs m w0 Hp Hf HI. exfalso.
      destruct (r_call _ _ _ _ _ _ _ _ safe_rule _ _ _ _ _ _ _ _ _ Hp Hf HI Ha Hc) as [Hpre Hk].
      destruct (SF _ _ _ Hr Hpre) as [Hps (_ & _ & Hlen)].
      revert Hs. unfold resume_call. by rewrite (to_u256_ok _ Hlen).
    - intros e w o m' e1 os oz x w1 Ha Hc Hr IHr m w0 Hp Hf HI. right.
      destruct (r_call _ _ _ _ _ _ _ _ safe_rule _ _ _ _ _ _ _ _ _ Hp Hf HI Ha Hc) as [Hpre Hk].
      apply (IHr (wa_depth_le _ _ _ _ (co_wait _ _ _ _ _ _ _ _ Hc)) Hpre).
    - intros e w o m' e1 wi c w1 e2 w2 ox e' w' Ha Hc Hr IHr Hs Hl IHl m w0 Hp Hf HI.
      destruct (r_create _ _ _ _ _ _ _ _ safe_rule _ _ _ _ _ _ _ _ Hp Hf HI Ha Hc) as [Hpre Hk].
      destruct (SC _ _ _ Hr Hpre) as [Hps Hpo].
      pose proof (fstruct_create _ _ _ _ _ _ _ _ _ _ _ _ _ _ Hf Hc Hps Hs) as Hf'.
      apply (IHl _ _ Hp Hf'). exact (Hk _ _ _ _ Hps Hpo Hs Hf').
    - intros e w o m' e1 wi c w1 x e2 w2 Ha Hc Hr IHr Hs m w0 Hp Hf HI. exfalso.
      destruct (r_create _ _ _ _ _ _ _ _ safe_rule _ _ _ _ _ _ _ _ Hp Hf HI Ha Hc) as [Hpre Hk].
      destruct (SC _ _ _ Hr Hpre) as [Hps _].
      assert (Ht : m_current_target (e_message c) < 2 ^ 256).
      { rewrite (ps_msg _ _ _ _ Hps). pose proof (cr_addr _ _ _ _ _ _ _ _ Hc).
        assert (2 ^ 160 < 2 ^ 256) by done. lia. }
      revert Hs. unfold resume_create. destruct (e_error c); [done|]. by rewrite (to_u256_ok _ Ht).
    - intros e w o m' e1 wi x w1 Ha Hc Hr IHr m w0 Hp Hf HI. right.
      destruct (r_create _ _ _ _ _ _ _ _ safe_rule _ _ _ _ _ _ _ _ Hp Hf HI Ha Hc) as [Hpre Hk].
      apply (IHr (wa_depth_le _ _ _ _ (cr_wait _ _ _ _ _ _ _ _ Hc)) Hpre).
    - intros m w w3 x w4 He3 Hf IH Hd Hp.
      apply (IH Hd). by apply (r_entry _ _ _ _ _ _ _ _ safe_rule) in He3.
    - intros m w w3 e w4 c He3 Hf IH Hpop Hd Hp. exfalso.
      pose proof (r_entry _ _ _ _ _ _ _ _ safe_rule _ _ _ Hp He3) as Hp3.
      destruct (SF _ _ _ Hf Hp3) as [Hps _].
      destruct (create_entry_frame _ _ _ He3) as (E1 & E2 & _).
      assert (S1 : snapshots (st w4) <> []) by (by rewrite (ps_snap _ _ _ _ Hps), E1).
      assert (S2 : ts_snapshots (ts w4) <> []) by (by rewrite (ps_tsnap _ _ _ _ Hps), E2).
      destruct Hpop as [Hpop|(s5 & Hs5 & Hpop)].
      + destruct (rollback_ok w4 S1 S2). congruence.
      + apply set_code_frame in Hs5 as [Hs5 _].
        destruct (commit_ok (set_st s5 w4)); [cbn; by rewrite Hs5|done|]. congruence.
  Qed.

  (** C17.  From a well-formed environment, world and message, a message call
      or creation always comes back with a frame; the only errors it can
      report are EVM errors.  Before Osaka it may also end in an OverflowError,
      and in no other Python exception. *)
  Theorem C17_message m w :
    msg_bounds m -> funded m w -> world_ok w -> owned (st w) ->
    (m_code m <> [] -> solid (st w) (m_current_target m)) -> m_depth m <= 1024 ->
    (exists e w', pm m w = PRet e w' /\
      (e_error e = None \/ e_error e = Some ERevert \/ exists h, e_error e = Some (EHalt h)) /\
      world_ok w' /\ owned (st w')) \/
    (at_least Osaka (b_fork be) = false /\
     exists w', pm m w = PExc (ECrash OverflowError) w').
  Proof.
    intros H1 H2 H3 H4 H5 Hd. pose proof (conj H1 (conj H2 (conj H3 (conj H4 H5))) : safe_pre m w) as Hp.
    destruct no_crash as [F _].
    specialize (F m w _ (process_message_run cr be te m w) Hd Hp).
    destruct (pm m w) as [e w'|x w'] eqn:E; [left|right; destruct F as [-> ?]; eauto].
    exists e, w'. split; [done|].
    destruct (rule_message _ _ _ _ _ _ _ _ _ _ _ _ safe_rule Hp E) as [Hps (Hw & [Ho _] & _)].
    split; [|done]. destruct (e_error e) as [x|] eqn:Ex; [right|by left].
    destruct (ps_fail _ _ _ _ Hps x Ex) as (_ & Hh & _).
    destruct x; try done; eauto.
  Qed.
  Theorem C17_create m w :
    msg_bounds m -> funded m w -> world_ok w -> owned (st w) -> m_depth m <= 1024 ->
    (exists e w', pcm m w = PRet e w' /\
      (e_error e = None \/ e_error e = Some ERevert \/ exists h, e_error e = Some (EHalt h)) /\
      world_ok w' /\ owned (st w')) \/
    (at_least Osaka (b_fork be) = false /\
     exists w', pcm m w = PExc (ECrash OverflowError) w').
  Proof.
    intros H1 H2 H3 H4 Hd. pose proof (conj H1 (conj H2 (conj H3 H4)) : safe_cpre m w) as Hp.
    destruct no_crash as (_ & _ & _ & F).
    specialize (F m w _ (process_create_run cr be te m w) Hd Hp).
    destruct (pcm m w) as [e w'|x w'] eqn:E; [left|right; destruct F as [-> ?]; eauto].
    exists e, w'. split; [done|].
    destruct (rule_create _ _ _ _ _ _ _ _ _ _ _ _ safe_rule Hp E) as [Hps (Hw & [Ho _] & _)].
    split; [|done]. destruct (e_error e) as [x|] eqn:Ex; [right|by left].
    destruct (ps_fail _ _ _ _ Hps x Ex) as (_ & Hh & _).
    destruct x; try done; eauto.
  Qed.

  (** C10 (second half): every stack item is a word. *)
  Theorem C10_words m w e w1 :
    msg_bounds m -> funded m w -> world_ok w -> owned (st w) ->
    (m_code m <> [] -> solid (st w) (m_current_target m)) -> m_depth m <= 1024 ->
    visits m w e w1 -> Forall (fun x => x < 2 ^ 256) (e_stack e).
  Proof.
    intros H1 H2 H3 H4 H5 Hd Hv. pose proof (conj H1 (conj H2 (conj H3 (conj H4 H5))) : safe_pre m w) as Hp.
    destruct (rule_visits _ _ _ _ _ _ _ _ _ _ _ _ safe_rule Hv Hp Hd)
      as (m' & w0 & _ & _ & _ & _ & _ & Hs & _). done.
  Qed.
End Safe.

Section Stack.
  Context (cr : crypto) (be : block_env) (te : tx_env).
  (** C10 (first half), with no assumption on states or environment. *)
  Theorem C10_stack_size m w e w1 : visits cr be te m w e w1 -> m_depth m <= 1024 ->
    lenN (e_stack e) <= 1024.
  Proof.
    intros Hv Hd. destruct (visits_struct _ _ _ _ _ _ _ Hv Hd) as (m0 & w0 & _ & Hf).
    apply (fs_shape _ _ _ _ Hf).
  Qed.
End Stack.

(** ** Examples *)
(** 0x200 STATICCALLs 0x300, whose code tries to store: the child fails and
    nothing changes; with harmless code it succeeds. *)
Definition code_static : bytes := bs
  [0x60;0; 0x60;0; 0x60;0; 0x60;0; 0x61;3;0; 0x61;0xff;0xff; 0xFA;
   0x60;1; 0x55; 0x00].
Definition static_world (child : bytes) : world :=
  toy_world [(0xaa, Account 5 1000 []); (0x200, Account 1 50 code_static);
             (0x300, Account 1 9 child)] ∅.
Definition static_msg (child : bytes) : message :=
  let m := toy_message 0x300 500000 0 [] child in
  {| m_caller := m_caller m; m_target := m_target m; m_current_target := m_current_target m;
     m_gas := m_gas m; m_value := m_value m; m_data := m_data m;
     m_code_address := m_code_address m; m_code := m_code m; m_depth := 1;
     m_should_transfer_value := true; m_is_static := true;
     m_accessed_addresses := m_accessed_addresses m;
     m_accessed_storage_keys := m_accessed_storage_keys m; m_disable_precompiles := false |}.
Definition code_harmless : bytes := bs [0x60;32; 0x60;0; 0x20; 0x50; 0x00].

Example C07_nonvacuous :
  match toy_run (static_msg code_succeeds) (static_world code_succeeds),
        toy_run (static_msg code_harmless) (static_world code_harmless),
        toy_run (toy_message 0x200 500000 0 [] code_static) (static_world code_succeeds),
        toy_run (toy_message 0x200 500000 0 [] code_static) (static_world code_harmless) with
  | PRet e1 w1, PRet e2 w2, PRet e3 w3, PRet e4 w4 =>
      e_error e1 = Some (EHalt WriteInStaticContext) /\ e_error e2 = None /\
      get_storage (st w3) 0x200 1 = 0 /\ get_storage (st w4) 0x200 1 = 1
  | _, _, _, _ => False
  end.
Proof. vm_compute. repeat split. Qed.
Example C07_premises :
  m_is_static (static_msg code_harmless) = true /\ m_value (static_msg code_harmless) = 0 /\
  solid (st (static_world code_harmless)) (m_current_target (static_msg code_harmless)).
Proof. split_and!; try done. by left. Qed.

(** The premises of C10 and C17 are met by an ordinary message. *)
Lemma toy_hash_len b : lenN (toy_hash b) = 32.
Proof.
  unfold toy_hash. rewrite lenN_takeN, lenN_app, lenN_zeros. lia.
Qed.
Lemma toy_env_ok : env_ok toy_crypto toy_block toy_tx.
Proof.
  constructor; try done.
  - intros b. change (lenN (toy_hash b) <= 32). by rewrite toy_hash_len.
  - intros b. change (lenN (toy_hash b) < 2 ^ 256). by rewrite toy_hash_len.
  - intros b. change (lenN (toy_hash b) <= 32). by rewrite toy_hash_len.
  - assert (E : fork_blob_gas_price (b_fork toy_block) (b_excess_blob_gas toy_block) = Some 1)
      by (vm_compute; reflexivity).
    intros p. rewrite E. by intros [= <-].
  - intros n. unfold lenN. cbn. lia.
  - repeat constructor.
  - constructor.
Qed.
Example C17_nonvacuous :
  msg_bounds (toy_message 0x200 500000 7 [] code_parent) /\
  funded (toy_message 0x200 500000 7 [] code_parent) (ex_world2 code_succeeds) /\
  world_ok (ex_world2 code_succeeds) /\ owned (st (ex_world2 code_succeeds)) /\
  solid (st (ex_world2 code_succeeds)) 0x200.
Proof.
  split_and!.
  - by constructor.
  - intros _. vm_compute. done.
  - constructor.
    + by vm_compute.
    + intros a. unfold get_account, get_account_optional, ex_world2, toy_world. cbn.
      repeat (rewrite lookup_insert_Some || idtac).
      destruct (_ !! a) as [acc|] eqn:E; [|done].
      repeat (apply lookup_insert_Some in E as [[<- <-]|[_ E]]; [done|]). done.
    + done.
    + done.
  - intros a k. by vm_compute.
  - by left.
Qed.

Definition PropSafe_theorems :=
  (@C07_static, @C07_always, @C07_static_calls, @C07_inherited, @C07_no_creation,
   @C10_stack_size, @C10_words, @C17_message, @C17_create).
Print Assumptions PropSafe_theorems.
