(** * EvmInv: invariants of executions from well-formed states.

    [owned]: only accounts with a nonce or code have storage.  [msg_ok]: a
    message call that can be started without internal errors. *)
From Verif Require Import Base State Rlp Vm Instructions Precompiles Interpreter
  StateSpec StateProofs NumericProofs ArithProofs EvmStep EvmLocal EvmPlan
  EvmPlanProofs EvmCallProofs EvmFrame EvmAccounts EvmRule.
From Coq Require Import ZifyBool ZifyN ZifyNat.
Ltac Zify.zify_post_hook ::= idtac.

Local Opaque to_u256 from_be_bytes calculate_memory_gas_cost ceil32 N.compare.

(** No storage under an account that has neither nonce nor code. *)
Definition owned (s : state) : Prop :=
  forall a k, get_storage s a k <> 0 -> solid s a.
Definition same_storage (s s' : state) : Prop :=
  forall a k, get_storage s' a k = get_storage s a k.
Definition same_code (s s' : state) : Prop :=
  forall a, code (get_account s' a) = code (get_account s a).

Lemma get_storage_tries s s' : storage_tries s' = storage_tries s -> same_storage s s'.
Proof. intros H a k. by rewrite !get_storage_slot, H. Qed.
Lemma owned_rises s s' : owned s -> rises s s' -> same_storage s s' -> owned s'.
Proof. intros Ho Hr Hs a k. rewrite Hs. intros H%Ho. by apply Hr. Qed.
Lemma same_storage_trans s1 s2 s3 :
  same_storage s1 s2 -> same_storage s2 s3 -> same_storage s1 s3.
Proof. intros H1 H2 a k. by rewrite H2. Qed.
Lemma same_code_trans s1 s2 s3 : same_code s1 s2 -> same_code s2 s3 -> same_code s1 s3.
Proof. intros H1 H2 a. by rewrite H2. Qed.
Lemma same_code_main s s' : main_trie s' = main_trie s -> same_code s s'.
Proof. intros H a. by rewrite (get_account_main s' s H). Qed.

Lemma modify_state_same s a f s' :
  modify_state s a f = Ok s' ->
  (forall acc acc', f acc = Ok acc' -> nonce acc <= nonce acc' /\ code acc' = code acc) ->
  (owned s -> same_storage s s') /\ same_code s s'.
Proof.
  intros H Hf. pose proof (modify_state_inv _ _ _ _ H) as (acc & Ha & _).
  pose proof (modify_state_get _ _ _ _ _ H Ha) as Hg. split.
  - intros Ho b k. destruct (modify_state_storages _ _ _ _ H) as [E|(_ & Hem & E)].
    + by apply get_storage_tries.
    + rewrite !get_storage_slot, E. unfold slot_of at 1.
      destruct (decide (a = b)) as [<-|Hne].
      * rewrite lookup_delete.
        destruct (N.eq_dec (slot_of (storage_tries s) a k) 0) as [E0|E0]; [done|].
        exfalso. rewrite <- get_storage_slot in E0. apply Ho in E0.
        apply Hf in Hem as [Hn Hc]. cbn in Hn, Hc. destruct E0 as [E0|E0]; [lia|done].
      * by rewrite lookup_delete_ne.
  - intros b. rewrite Hg. destruct (decide (a = b)) as [<-|]; [|done]. by apply Hf in Ha as [_ ->].
Qed.
Lemma move_ether_same s a b n s' : move_ether s a b n = Ok s' ->
  (owned s -> same_storage s s') /\ same_code s s'.
Proof.
  unfold move_ether. destruct (modify_state s a _) as [s1|] eqn:E; [|done]. intros H.
  assert (H1 := modify_state_same _ _ _ _ E).
  assert (H1' := modify_state_keeps _ _ _ _ E).
  assert (H2 := modify_state_same _ _ _ _ H).
  assert (F1 : forall acc acc', reduce_sender_balance n acc = Ok acc' ->
    nonce acc <= nonce acc' /\ code acc' = code acc).
  { intros acc acc'. unfold reduce_sender_balance. destruct (_ <? _); [done|]. by intros [= <-]. }
  assert (F2 : forall acc acc', increase_recipient_balance n acc = Ok acc' ->
    nonce acc <= nonce acc' /\ code acc' = code acc).
  { intros acc acc'. unfold increase_recipient_balance. destruct (_ <? _); [|done]. by intros [= <-]. }
  destruct (H1 F1) as [A1 B1]. destruct (H2 F2) as [A2 B2]. split.
  - intros Ho. specialize (A1 Ho). eapply same_storage_trans; [exact A1|]. apply A2.
    eapply owned_rises; [exact Ho|by apply keeps_rises, H1'|done].
  - by eapply same_code_trans.
Qed.
Lemma transfer_same m w s : transfer m w = Ok s ->
  (owned (st w) -> same_storage (st w) s) /\ same_code (st w) s.
Proof. unfold transfer. destruct (_ && _); [apply move_ether_same|]. by intros [= <-]. Qed.
Lemma increment_nonce_same s a s' : increment_nonce s a = Ok s' ->
  (owned s -> same_storage s s') /\ same_code s s'.
Proof.
  intros H. eapply modify_state_same; [exact H|]. intros acc acc' [= <-]. cbn. split; [lia|done].
Qed.
Lemma set_balance_same s a n s' : set_account_balance s a n = Ok s' ->
  (owned s -> same_storage s s') /\ same_code s s'.
Proof. intros H. eapply modify_state_same; [exact H|]. by intros acc acc' [= <-]. Qed.
(** When the account has a nonce, setting its code does not remove it. *)
Lemma set_code_same s a c s' : set_code s a c = Ok s' -> nonce (get_account s a) <> 0 ->
  same_storage s s'.
Proof.
  intros H Hn. destruct (modify_state_storages _ _ _ _ H) as [E|(_ & Hem & E)].
  - by apply get_storage_tries.
  - exfalso. injection Hem as Hem _ _. done.
Qed.
Lemma set_storage_get s a k v s' : set_storage s a k v = Ok s' ->
  forall b j, get_storage s' b j = if decide (a = b /\ k = j) then v else get_storage s b j.
Proof.
  intros H b j. apply set_storage_inv in H as [_ ->]. rewrite !get_storage_slot. cbn.
  apply slot_of_set.
Qed.

(** Storage after an instruction. *)
Lemma effect_storage f o e w e' w' : effect f o e w e' w' -> owned (st w) ->
  same_code (st w) (st w') /\
  (same_storage (st w) (st w') \/
   exists k v, o = SSTORE /\ m_is_static (e_message e) = false /\
     set_storage (st w) (m_current_target (e_message e)) k v = Ok (st w') /\
     (frame_ok e w -> v < 2 ^ 256)).
Proof.
  intros [Hw _ _|k v ? ? Ho' Hst _ Hs Hw _ _ _ Hb|? ? _ _ Hw|? ? ? _ _ _ Hm Hd Hw
    |? ? ? ? _ _ _ _ Ha Hb Hw|? _ _ Hn Hw] Ho; subst w'.
  - split; [done|]. by left.
  - split; [by apply set_storage_inv in Hs as [_ ->]|].
    right. exists k, v. split_and!; [done|done|done|]. intros H. by apply Hb in H as [_ ?].
  - split; [done|]. by left.
  - pose proof (move_ether_keeps _ _ _ _ _ Hm) as Hk.
    apply move_ether_same in Hm as [Hm1 Hm2]. cbn.
    destruct Hd as [(_ & Hd & _)|(_ & -> & _)]; [|split; [done|left; auto]].
    apply set_balance_same in Hd as [Hd1 Hd2].
    split; [by eapply same_code_trans|]. left. eapply same_storage_trans; [by apply Hm1|].
    apply Hd1. eapply owned_rises; [exact Ho|by apply keeps_rises|auto].
  - pose proof (set_balance_keeps _ _ _ _ Ha) as Hk. cbn.
    apply set_balance_same in Ha as [Ha1 Ha2]. apply set_balance_same in Hb as [Hb1 Hb2].
    split; [by eapply same_code_trans|]. left. eapply same_storage_trans; [by apply Ha1|].
    apply Hb1. eapply owned_rises; [exact Ho|by apply keeps_rises|auto].
  - apply increment_nonce_same in Hn as [Hn1 Hn2]. split; [done|]. left. by apply Hn1.
Qed.

Lemma create_entry_same w a w3 : create_entry w a = Ok w3 -> owned (st w) ->
  same_code (st w) (st w3) /\ solid (st w3) a /\ nonce (get_account (st w3) a) <> 0 /\
  (forall b k, get_storage (st w3) b k = if decide (a = b) then 0 else get_storage (st w) b k) /\
  (forall b, balance (get_account (st w3) b) = balance (get_account (st w) b)).
Proof.
  intros H Ho. pose proof (create_entry_get _ _ _ H) as Hg.
  assert (Hn : nonce (get_account (st w3) a) <> 0).
  { rewrite Hg, decide_True by done. cbn. lia. }
  split_and!; [|by left|done| |].
  - intros b. rewrite Hg. destruct (decide (a = b)) as [<-|]; done.
  - revert H. unfold create_entry. destruct (increment_nonce _ _) as [s|] eqn:E; [|done].
    intros [= <-] b k. cbn.
    apply increment_nonce_same in E as [E _]. rewrite E.
    + rewrite !get_storage_slot. cbn. rewrite destroy_storage_storages. cbn.
      unfold slot_of. destruct (decide (a = b)) as [<-|];
        [by rewrite lookup_delete|by rewrite lookup_delete_ne].
    + intros b' k'. rewrite get_storage_slot. cbn. rewrite destroy_storage_storages. cbn.
      unfold slot_of. destruct (decide (a = b')) as [<-|Hne]; [by rewrite lookup_delete|].
      rewrite lookup_delete_ne by done. intros H%(Ho b' k'). unfold solid.
      erewrite get_account_main; [exact H|]. cbn. by rewrite destroy_storage_main.
  - intros b. rewrite Hg. destruct (decide (a = b)) as [<-|]; done.
Qed.

Lemma commit_same w w' : commit_transaction w = Ok w' ->
  main_trie (st w') = main_trie (st w) /\ storage_tries (st w') = storage_tries (st w) /\
  ts_tries (ts w') = ts_tries (ts w).
Proof.
  unfold commit_transaction. destruct (snapshots (st w)) as [|[? ?] l]; [done|].
  destruct (ts_snapshots (ts w)); [done|]. by intros [= <-].
Qed.

Lemma designator_nonempty c a : get_delegated_code_address c = Some a -> c <> [].
Proof. by intros H ->. Qed.
(** The storage context of a call to code has a nonce or code. *)
Lemma call_solid be o e w m e1 os oz :
  call_ok be o e w m e1 os oz -> solid (st w) (m_current_target (e_message e)) ->
  m_code m <> [] -> solid (st w) (m_current_target m).
Proof.
  intros Hc Hs Hne. destruct (co_code _ _ _ _ _ _ _ _ Hc) as (a & ca & _ & Hr & [Ht|Ht] & _);
    rewrite Ht; [|done].
  unfold resolved in Hr. destruct (at_least Prague (b_fork be));
    [destruct (get_delegated_code_address _) eqn:E|].
  - right. by eapply designator_nonempty.
  - destruct Hr as (_ & _ & Hr). right. by rewrite <- Hr.
  - destruct Hr as (_ & _ & Hr). right. by rewrite <- Hr.
Qed.

Lemma at_op_code e o : at_op e o -> e_code e <> [].
Proof. intros (_ & Hp & _) E. rewrite E, lenN_nil in Hp. lia. Qed.

Lemma resume_call_vals e1 os oz c w1 e2 w2 :
  resume_call e1 os oz c w1 = Ret tt e2 w2 ->
  e_stack e2 = match e_error c with Some _ => 0 | None => 1 end :: e_stack e1 /\
  e_return_data e2 = e_output c /\ e_output e2 = e_output e1.
Proof.
  unfold resume_call, child_return. destruct (to_u256 _); [|done]. intros [= <- _].
  destruct (e_error c), e1, c; done.
Qed.
Lemma resume_create_vals e1 c w1 e2 w2 :
  resume_create e1 c w1 = Ret tt e2 w2 ->
  e_stack e2 = match e_error c with
    | Some _ => 0 | None => m_current_target (e_message c) end :: e_stack e1 /\
  e_return_data e2 = match e_error c with Some _ => e_output c | None => [] end /\
  e_output e2 = e_output e1.
Proof.
  unfold resume_create, child_return. destruct (e_error c).
  - intros [= <- _]. destruct e1, c; done.
  - destruct (to_u256 _) eqn:E; [|done]. apply to_u256_inv in E as [-> _].
    intros [= <- _]. destruct e1, c; done.
Qed.

(** ** Ownership of storage is preserved *)
Section Owned.
  Context (cr : crypto) (be : block_env) (te : tx_env).
  Notation frame_rule := (frame_rule cr be te).

  Definition owned_pre (m : message) (w : world) : Prop :=
    owned (st w) /\ (m_code m <> [] -> solid (st w) (m_current_target m)).
  Definition owned_inv (w0 w : world) : Prop := owned (st w) /\ rises (st w0) (st w).

  Lemma owned_solid m w0 e w o : owned_pre m w0 -> fstruct m w0 e w -> owned_inv w0 w ->
    at_op e o -> solid (st w) (m_current_target (e_message e)).
  Proof.
    intros [_ Hs] Hf [_ Hr] Ha. apply at_op_code in Ha.
    rewrite (fs_code _ _ _ _ Hf) in Ha. rewrite (fs_msg _ _ _ _ Hf). apply Hr. auto.
  Qed.
  Lemma owned_start m w s1 : owned_pre m w -> transfer m (begin_transaction w) = Ok s1 ->
    owned_inv w (set_st s1 (begin_transaction w)).
  Proof.
    intros [Ho _] Ht. pose proof (transfer_keeps _ _ _ Ht) as Hk. apply transfer_same in Ht as [Hs _].
    split; [|by apply keeps_rises]. eapply owned_rises; [exact Ho|by apply keeps_rises|]. by apply Hs.
  Qed.
  Lemma owned_done m w0 e w o e' w' : owned_pre m w0 -> fstruct m w0 e w -> owned_inv w0 w ->
    at_op e o -> effect (b_fork be) o e w e' w' -> owned_inv w0 w'.
  Proof.
    intros Hp Hf HI Ha He. pose proof (owned_solid _ _ _ _ _ Hp Hf HI Ha) as Hso.
    destruct HI as [Ho Hr]. pose proof (effect_keeps _ _ _ _ _ _ He) as Hk.
    split; [|eapply rises_trans; [done|by apply keeps_rises]].
    destruct (effect_storage _ _ _ _ _ _ He Ho) as [_ [Hs|(k & v & _ & _ & Hs & _)]].
    - eapply owned_rises; [exact Ho|by apply keeps_rises|done].
    - intros a j. rewrite (set_storage_get _ _ _ _ _ Hs a j).
      destruct (decide _) as [[<- _]|]; intros H; apply keeps_rises in Hk; apply Hk; [done|by eapply Ho].
  Qed.
  Lemma owned_create o e w m' e1 wi w0 : owned_inv w0 w -> create_ok cr be o e w m' e1 wi ->
    owned_inv w0 wi.
  Proof.
    intros [Ho Hr] Hc. destruct (cr_nonce _ _ _ _ _ _ _ _ Hc) as (s1 & Hn & ->).
    pose proof (increment_nonce_keeps _ _ _ Hn) as Hk%keeps_rises.
    apply increment_nonce_same in Hn as [Hs _]. specialize (Hs Ho).
    split; [by eapply owned_rises|by eapply rises_trans].
  Qed.
  Lemma owned_restored w w' : owned (st w) -> restored w w' -> owned_inv w w'.
  Proof.
    intros Ho []. apply rises_main in re_main. apply get_storage_tries in re_sto.
    split; [|done]. by eapply owned_rises.
  Qed.
  Lemma owned_commit w0 w w' : owned_inv w0 w -> commit_transaction w = Ok w' -> owned_inv w0 w'.
  Proof.
    intros [Ho Hr] (Hc1 & Hc2 & _)%commit_same. apply rises_main in Hc1. apply get_storage_tries in Hc2.
    split; [by eapply owned_rises|by eapply rises_trans].
  Qed.
  Lemma owned_entry m w w3 : owned (st w) -> create_entry w (m_current_target m) = Ok w3 ->
    owned_pre m w3 /\ owned_inv w w3.
  Proof.
    intros Ho H. pose proof (create_entry_keeps _ _ _ H) as Hk%keeps_rises.
    destruct (create_entry_same _ _ _ H Ho) as (_ & Hs & _ & Hst & _).
    assert (owned (st w3)).
    { intros a k. rewrite Hst. destruct (decide _) as [|]; [done|]. intros Hne%Ho. by apply Hk. }
    split; split; done.
  Qed.
  Lemma owned_cok m w w3 w4 c s5 w6 : create_entry w (m_current_target m) = Ok w3 ->
    owned (st w) -> owned_inv w3 w4 -> set_code (st w4) (m_current_target m) c = Ok s5 ->
    commit_transaction (set_st s5 w4) = Ok w6 ->
    owned_inv w w6 /\ same_storage (st w4) (st w6).
  Proof.
    intros He Ho [Ho4 Hr4] Hs Hc.
    destruct (create_entry_same _ _ _ He Ho) as (_ & _ & Hn & _ & _).
    pose proof (create_entry_keeps _ _ _ He) as Hk%keeps_rises.
    assert (Hn4 : nonce (get_account (st w4) (m_current_target m)) <> 0).
    { pose proof (proj1 (Hr4 (m_current_target m))). lia. }
    pose proof (set_code_same _ _ _ _ Hs Hn4) as Hss.
    assert (Hr5 : rises (st w4) s5).
    { intros a. unfold solid. rewrite (set_code_get _ _ _ _ Hs a).
      destruct (decide _) as [<-|]; [|done]. cbn. split; [done|]. intros _. by left. }
    apply commit_same in Hc as (Hc1 & Hc2 & _). cbn in Hc1, Hc2.
    pose proof (rises_main _ _ Hc1) as Hr6. apply get_storage_tries in Hc2.
    assert (Hss6 : same_storage (st w4) (st w6)) by (by eapply same_storage_trans).
    split; [|done]. split.
    - eapply owned_rises; [exact Ho4| |done]. by eapply rises_trans.
    - eapply rises_trans; [exact Hk|]. eapply rises_trans; [exact Hr4|]. by eapply rises_trans.
  Qed.
End Owned.
