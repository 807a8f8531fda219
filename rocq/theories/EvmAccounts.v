(** * EvmAccounts: what state operations do to balances, nonces and code. *)
From Verif Require Import Base State Rlp Vm Instructions Precompiles Interpreter
  StateSpec StateProofs NumericProofs ArithProofs EvmStep EvmLocal EvmPlan
  EvmPlanProofs EvmCallProofs EvmFrame.
From Coq Require Import ZifyBool ZifyN ZifyNat.
Ltac Zify.zify_post_hook ::= idtac.

Local Opaque to_u256 from_be_bytes calculate_memory_gas_cost ceil32 N.compare.

(** No nonce falls and no code is replaced. *)
Definition keeps (s s' : state) : Prop := forall a,
  nonce (get_account s a) <= nonce (get_account s' a) /\
  (code (get_account s a) <> [] -> code (get_account s' a) = code (get_account s a)).

(** No nonce falls and an account with a nonce or code keeps one. *)
Definition rises (s s' : state) : Prop := forall a,
  nonce (get_account s a) <= nonce (get_account s' a) /\
  (solid s a -> solid s' a).

Lemma keeps_refl s : keeps s s.
Proof. by intros a. Qed.
Lemma keeps_trans s1 s2 s3 : keeps s1 s2 -> keeps s2 s3 -> keeps s1 s3.
Proof.
  intros H1 H2 a. destruct (H1 a) as [A1 B1], (H2 a) as [A2 B2]. split; [lia|].
  intros Hc. rewrite B2; [by apply B1|]. by rewrite B1.
Qed.
Lemma keeps_rises s s' : keeps s s' -> rises s s'.
Proof.
  intros H a. destruct (H a) as [A B]. split; [done|]. intros [Hs|Hs].
  - left. lia.
  - right. by rewrite B.
Qed.
Lemma rises_refl s : rises s s.
Proof. by intros a. Qed.
Lemma rises_trans s1 s2 s3 : rises s1 s2 -> rises s2 s3 -> rises s1 s3.
Proof.
  intros H1 H2 a. destruct (H1 a) as [A1 B1], (H2 a) as [A2 B2]. split; [lia|auto].
Qed.
Lemma keeps_main s s' : main_trie s' = main_trie s -> keeps s s'.
Proof. intros H a. by rewrite (get_account_main s' s H). Qed.
Lemma rises_main s s' : main_trie s' = main_trie s -> rises s s'.
Proof. intros H. by apply keeps_rises, keeps_main. Qed.
Lemma solid_dec s a : solid s a \/ ~ solid s a.
Proof.
  unfold solid. destruct (N.eq_dec (nonce (get_account s a)) 0) as [E|E]; [|by left; left].
  destruct (code (get_account s a)); [right; intros [?|?]; done|by left; right].
Qed.
Lemma solid_spec s a : solid s a <-> account_has_code_or_nonce s a = true.
Proof.
  unfold solid, account_has_code_or_nonce. rewrite orb_true_iff. unfold bytes_eqb.
  rewrite !negb_true_iff, N.eqb_neq, bool_decide_eq_false. done.
Qed.

Lemma modify_state_keeps s a f s' :
  modify_state s a f = Ok s' ->
  (forall acc acc', f acc = Ok acc' -> nonce acc <= nonce acc' /\ code acc' = code acc) ->
  keeps s s'.
Proof.
  intros H Hf b. pose proof (modify_state_inv _ _ _ _ H) as (acc & Ha & _).
  rewrite (modify_state_get _ _ _ _ _ H Ha b). destruct (decide (a = b)) as [<-|]; [|done].
  by apply Hf in Ha as [? ->].
Qed.
Lemma move_ether_keeps s a b n s' : move_ether s a b n = Ok s' -> keeps s s'.
Proof.
  unfold move_ether. destruct (modify_state s a _) as [s1|] eqn:E; [|done]. intros H.
  eapply keeps_trans; (eapply modify_state_keeps; [eassumption|]).
  - intros acc acc'. unfold reduce_sender_balance. destruct (_ <? _); [done|]. by intros [= <-].
  - intros acc acc'. unfold increase_recipient_balance. destruct (_ <? _); [|done]. by intros [= <-].
Qed.
Lemma transfer_keeps m w s : transfer m w = Ok s -> keeps (st w) s.
Proof.
  unfold transfer. destruct (_ && _); [apply move_ether_keeps|]. intros [= <-]. apply keeps_refl.
Qed.
Lemma increment_nonce_keeps s a s' : increment_nonce s a = Ok s' -> keeps s s'.
Proof.
  intros H. eapply modify_state_keeps; [exact H|]. intros acc acc' [= <-]. cbn. split; [lia|done].
Qed.
Lemma increment_nonce_get s a s' : increment_nonce s a = Ok s' ->
  forall b, get_account s' b = if decide (a = b) then
    Account (nonce (get_account s a) + 1) (balance (get_account s a)) (code (get_account s a))
    else get_account s b.
Proof. intros H. by apply (modify_state_get _ _ _ _ _ H). Qed.
Lemma set_balance_keeps s a n s' : set_account_balance s a n = Ok s' -> keeps s s'.
Proof. intros H. eapply modify_state_keeps; [exact H|]. by intros acc acc' [= <-]. Qed.
Lemma set_code_get s a c s' : set_code s a c = Ok s' ->
  forall b, get_account s' b = if decide (a = b) then
    Account (nonce (get_account s a)) (balance (get_account s a)) c
    else get_account s b.
Proof. intros H. by apply (modify_state_get _ _ _ _ _ H). Qed.

Lemma effect_keeps f o e w e' w' : effect f o e w e' w' -> keeps (st w) (st w').
Proof.
  intros [Hw _ _|? ? ? ? _ _ _ Hs Hw|? ? _ _ Hw|? ? ? _ _ _ Hm Hd Hw
    |? ? ? ? _ _ _ _ Ha Hb Hw|? _ _ Hn Hw]; subst w'.
  - apply keeps_refl.
  - apply set_storage_inv in Hs as [_ ->]. by apply keeps_main.
  - by apply keeps_main.
  - apply move_ether_keeps in Hm. cbn.
    destruct Hd as [(_ & Hd & _)|(_ & -> & _)]; [|done].
    eapply keeps_trans; [done|]. by eapply set_balance_keeps.
  - cbn. eapply keeps_trans; by eapply set_balance_keeps.
  - by apply increment_nonce_keeps in Hn.
Qed.

Lemma create_entry_get w a w3 : create_entry w a = Ok w3 ->
  forall b, get_account (st w3) b = if decide (a = b) then
    Account (nonce (get_account (st w) a) + 1) (balance (get_account (st w) a))
      (code (get_account (st w) a))
    else get_account (st w) b.
Proof.
  unfold create_entry. destruct (increment_nonce _ _) as [s|] eqn:E; [|done]. intros [= <-] b.
  cbn. rewrite (increment_nonce_get _ _ _ E b).
  assert (Hg : forall s c, get_account (mark_account_created (destroy_storage s a) a) c = get_account s c).
  { intros s0 c. apply get_account_main. apply destroy_storage_main. }
  rewrite !Hg. done.
Qed.
Lemma create_entry_keeps w a w3 : create_entry w a = Ok w3 -> keeps (st w) (st w3).
Proof.
  intros H b. rewrite (create_entry_get _ _ _ H b). destruct (decide (a = b)) as [<-|]; [|done].
  cbn. split; [lia|done].
Qed.

(** Total balance. *)
Lemma total_main s s' : main_trie s' = main_trie s -> total_balance s' = total_balance s.
Proof. unfold total_balance. by intros ->. Qed.
Lemma transfer_total m w s : transfer m w = Ok s -> total_balance s = total_balance (st w).
Proof. unfold transfer. destruct (_ && _); [apply move_ether_total|]. by intros [= <-]. Qed.
Lemma increment_nonce_total s a s' : increment_nonce s a = Ok s' ->
  total_balance s' = total_balance s.
Proof. intros H. pose proof (modify_state_total _ _ _ _ _ H eq_refl) as E. cbn in E. lia. Qed.
Lemma set_code_total s a c s' : set_code s a c = Ok s' -> total_balance s' = total_balance s.
Proof. intros H. pose proof (modify_state_total _ _ _ _ _ H eq_refl) as E. cbn in E. lia. Qed.
Lemma set_balance_total s a s' : set_account_balance s a 0 = Ok s' ->
  total_balance s' + balance (get_account s a) = total_balance s.
Proof. intros H. pose proof (modify_state_total _ _ _ _ _ H eq_refl) as E. cbn in E. lia. Qed.
Lemma create_entry_total w a w3 : create_entry w a = Ok w3 ->
  total_balance (st w3) = total_balance (st w).
Proof.
  unfold create_entry. destruct (increment_nonce _ _) as [s|] eqn:E; [|done]. intros [= <-].
  cbn. rewrite (increment_nonce_total _ _ _ E). apply total_main.
  cbn. by rewrite destroy_storage_main.
Qed.
