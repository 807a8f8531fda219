(** * TxProofs: what a message call started by a transaction, a whole
    transaction and a whole block do to the accounts. *)
From Verif Require Import Base State Rlp Vm Instructions Precompiles Interpreter StateSpec StateProofs
  NumericProofs EvmStep EvmLocal EvmPlan EvmPlanProofs EvmCallProofs EvmFrame EvmAccounts EvmRule
  PropAccounts EvmInv EvmPlain PropRefund PropDelegation Trie Bloom Transactions Blocks Requests Fork ForkProofs
  PropWithdrawals.
From Coq Require Import ZifyBool ZifyN ZifyNat.
Ltac Zify.zify_post_hook ::= idtac.

Local Opaque to_u256 from_be_bytes calculate_memory_gas_cost ceil32 N.compare.

(** No transaction is open, as between two transactions. *)
Definition settled (s : state) : Prop := snapshots s = [] /\ created_accounts s = ∅.

(** Real code: neither empty nor a delegation designator (0xef0100 and an
    address). *)
Definition has_real_code (s : state) (a : address) : Prop :=
  code (get_account s a) <> [] /\
  ~ exists d, code (get_account s a) = [Byte.xef; Byte.x01; Byte.x00] ++ d /\ length d = 20%nat.

Lemma commit_settles w w' : commit_transaction w = Ok w' -> snapshots (st w') = [] ->
  created_accounts (st w') = ∅.
Proof.
  unfold commit_transaction. destruct (snapshots (st w)) as [|x rest]; [done|].
  destruct (ts_snapshots (ts w)); [done|]. intros [= <-]. cbn. by intros ->.
Qed.
Lemma rollback_settles w w' : rollback_transaction w = Ok w' -> snapshots (st w') = [] ->
  created_accounts (st w') = ∅.
Proof.
  unfold rollback_transaction. destruct (snapshots (st w)) as [|[x y] rest]; [done|].
  destruct (ts_snapshots (ts w)); [done|]. intros [= <-]. cbn. by intros ->.
Qed.

Section Call.
  Context (cr : crypto) (be : block_env) (te : tx_env).
  Notation pm := (process_message cr be te).
  Notation pcm := (process_create_message cr be te).

  Lemma message_settles m w e w' : pm m w = PRet e w' -> settled (st w) -> settled (st w').
  Proof.
    intros H [Hs _]. assert (Hs' : snapshots (st w') = []).
    { apply message_struct in H. by rewrite (ps_snap _ _ _ _ H). }
    split; [done|]. revert H. unfold process_message.
    destruct (N.to_nat (1025 - m_depth m)) as [|f]; cbn [process_message_fuel].
    { by destruct (_ <? _). }
    destruct (_ <? _); [done|]. unfold process_message_body.
    destruct (if _ && _ then _ else _) as [s1|]; [|done].
    destruct (execute_code _ _ _ _ _ _ _) as [e1 w2|]; [|done].
    destruct (e_error e1).
    - destruct (rollback_transaction w2) as [w3|] eqn:E; [|done]. intros [= _ <-]. by eapply rollback_settles.
    - destruct (commit_transaction w2) as [w3|] eqn:E; [|done]. intros [= _ <-]. by eapply commit_settles.
  Qed.
  Lemma create_settles m w e w' : pcm m w = PRet e w' -> settled (st w) -> settled (st w').
  Proof.
    intros H [Hs _]. assert (Hs' : snapshots (st w') = []).
    { apply create_struct in H. by rewrite (ps_snap _ _ _ _ H). }
    split; [done|]. revert H. unfold process_create_message, process_create_message_with.
    destruct (increment_nonce _ _) as [s3|]; [|done].
    destruct (process_message _ _ _ _ _) as [e1 w4|]; [|done].
    destruct (e_error e1).
    - destruct (rollback_transaction w4) as [w5|] eqn:E; [|done]. intros [= _ <-]. by eapply rollback_settles.
    - destruct (deposit_code e1) as [[h|] e2].
      + destruct (rollback_transaction w4) as [w5|] eqn:E; [|done]. intros [= _ <-]. by eapply rollback_settles.
      + destruct (set_code _ _ _) as [s5|]; [|done].
        destruct (commit_transaction _) as [w6|] eqn:E; [|done]. intros [= _ <-]. by eapply commit_settles.
  Qed.

  (** ** Delegations *)
  Lemma real_code_not_delegable s a : has_real_code s a -> ~ delegable s a.
  Proof. intros [H1 H2] [H|H]; done. Qed.

  Record delegated (s s' : state) : Prop := {
    de_frame : snapshots s' = snapshots s /\ created_accounts s' = created_accounts s;
    de_rises : rises s s';
    de_code : forall a, has_real_code s a -> get_account s' a = get_account s a;
    de_balance : forall a, balance (get_account s' a) = balance (get_account s a);
    de_total : total_balance s' = total_balance s;
    de_storage : rooted s -> rooted s' /\ same_storage s s';
  }.
  Lemma delegated_refl s : delegated s s.
  Proof. constructor; try done; try apply rises_refl. Qed.
  Lemma delegated_trans s1 s2 s3 : delegated s1 s2 -> delegated s2 s3 -> delegated s1 s3.
  Proof.
    intros [A1 A2 A3 A4 A5 A6] [B1 B2 B3 B4 B5 B6]. constructor.
    - destruct A1, B1. split; congruence.
    - by eapply rises_trans.
    - intros a Ha. rewrite B3; [by apply A3|]. destruct Ha. split; by rewrite A3.
    - congruence.
    - congruence.
    - intros Hr. destruct (A6 Hr) as [Hr2 Hs]. destruct (B6 Hr2) as [? Hs2].
      split; [done|]. by eapply same_storage_trans.
  Qed.
  Lemma delegation_step_total s acc r t s' acc' r' :
    set_delegation_step cr be (s, acc, r) t = Ok (s', acc', r') -> total_balance s' = total_balance s.
  Proof.
    unfold set_delegation_step. destruct (negb _); [by intros [= <- _ _]|].
    destruct (_ <=? _); [by intros [= <- _ _]|].
    destruct (recover_authority _ _) as [au|]; [|by intros [= <- _ _]].
    destruct (_ && _); [by intros [= <- _ _]|]. destruct (negb _); [by intros [= <- _ _]|].
    destruct (if account_exists s au then _ else _) as [rc|]; [|done].
    destruct (set_code _ _ _) as [s1|] eqn:E1; [|done].
    destruct (increment_nonce _ _) as [s2|] eqn:E2; [|done]. intros [= <- _ _].
    rewrite (increment_nonce_total _ _ _ E2). by apply set_code_total in E1.
  Qed.
  Lemma delegation_step s acc r t s' acc' r' :
    set_delegation_step cr be (s, acc, r) t = Ok (s', acc', r') -> delegated s s'.
  Proof.
    intros H. pose proof (delegation_step_total _ _ _ _ _ _ _ H) as HT.
    apply step_spec in H as [_ [(au & Hap & [Hg Hst Hf] & _)|(_ & -> & _)]]; [|apply delegated_refl].
    constructor; try done.
    - intros a. unfold solid. rewrite Hg. destruct (decide (au = a)) as [<-|]; [|done]. cbn.
      split; [lia|]. intros _. left. lia.
    - intros a Ha. rewrite Hg. destruct (decide (au = a)) as [<-|]; [|done]. exfalso.
      by apply (real_code_not_delegable _ _ Ha), Hap.
    - intros a. rewrite Hg. by destruct (decide (au = a)) as [<-|].
    - intros Hr. split; [|by apply Hst]. by eapply applied_rooted.
  Qed.
  Lemma delegation_loop L : forall s acc r s' acc' r',
    set_delegation_loop cr be (s, acc, r) L = Ok (s', acc', r') -> delegated s s'.
  Proof.
    induction L as [|t L IH]; intros s acc r s' acc' r'; cbn [set_delegation_loop].
    { intros [= <- _ _]. apply delegated_refl. }
    destruct (set_delegation_step _ _ _ t) as [[[s1 acc1] r1]|] eqn:E; [|done].
    intros H. eapply delegated_trans; [by eapply delegation_step|by eapply IH].
  Qed.
  Lemma set_delegation_facts m w r m' w' : set_delegation cr be te m w = inr (r, m', w') ->
    delegated (st w) (st w') /\ ts w' = ts w /\
    exists ca acc, m_code_address m = Some ca /\
      m' = set_m_code (code (get_account (st w') ca)) (set_m_accessed acc m).
  Proof.
    unfold set_delegation. destruct (set_delegation_loop _ _ _ _) as [[[s acc] rc]|] eqn:E; [|done].
    destruct (m_code_address m) as [ca|]; [|done]. intros [= <- <- <-].
    split; [by eapply delegation_loop|]. split; [done|]. by exists ca, acc.
  Qed.

  (** ** A message call *)
  (** [process_message_call] is: apply the authorizations (giving [w1]), then
      run the message or the creation, then collect the output. *)
  Lemma call_cases m w o w' : process_message_call cr be te m w = MCRet o w' ->
    (m_target m = None /\
     (account_has_code_or_nonce (st w) (m_current_target m) = true \/
      account_has_storage (st w) (m_current_target m) = true) /\ w' = w /\
     o = MessageCallOutput 0 0 [] ∅ (Some (EHalt AddressCollision)) []) \/
    (m_target m = None /\ account_has_code_or_nonce (st w) (m_current_target m) = false /\
     account_has_storage (st w) (m_current_target m) = false /\
     exists e, pcm m w = PRet e w' /\ finish_call 0 e w' = MCRet o w') \/
    (m_target m <> None /\ exists r m1 m2 w1 e,
       ((t_authorizations te = [] \/ at_least Prague (b_fork be) = false) /\
        r = 0 /\ m1 = m /\ w1 = w \/
        t_authorizations te <> [] /\ at_least Prague (b_fork be) = true /\
        set_delegation cr be te m w = inr (r, m1, w1)) /\
       delegated (st w) (st w1) /\ ts w1 = ts w /\
       (m2 = m1 /\ (at_least Prague (b_fork be) = true ->
          get_delegated_code_address (m_code m1) = None) \/
        exists a, at_least Prague (b_fork be) = true /\ get_delegated_code_address (m_code m1) = Some a /\
          m2 = set_m_delegated a (code (get_account (st w1) a)) m1) /\
       m_gas m2 = m_gas m /\ m_current_target m2 = m_current_target m /\
       pm m2 w1 = PRet e w' /\ finish_call r e w' = MCRet o w').
  Proof.
    unfold process_message_call. destruct (m_target m) as [tgt|].
    - intros H. right; right. split; [done|].
      destruct (match t_authorizations te with [] => _ | _ => _ end) as [|[[r m1] w1]] eqn:Ed; [done|].
      assert (Hd : (t_authorizations te = [] \/ at_least Prague (b_fork be) = false) /\
          r = 0 /\ m1 = m /\ w1 = w \/
        t_authorizations te <> [] /\ at_least Prague (b_fork be) = true /\
        set_delegation cr be te m w = inr (r, m1, w1)).
      { destruct (t_authorizations te); [left|destruct (at_least Prague _); [right; by split_and!|left]];
          injection Ed as <- <- <-; auto. }
      assert (Hf : delegated (st w) (st w1) /\ ts w1 = ts w /\ m_gas m1 = m_gas m /\
        m_current_target m1 = m_current_target m).
      { destruct Hd as [(_ & _ & -> & ->)|(_ & _ & Hd)]; [by split; [apply delegated_refl|]|].
        apply set_delegation_facts in Hd as (? & ? & ca & acc & _ & ->). by destruct m. }
      destruct Hf as (Hf1 & Hf2 & Hf3 & Hf4).
      destruct (if at_least Prague _ then get_delegated_code_address (m_code m1) else None) as [a|] eqn:Ea;
        (destruct (process_message _ _ _ _ _) as [e w2|] eqn:E; [|done]);
        (assert (Hw : w2 = w') by (revert H; unfold finish_call; destruct (e_error e);
           [by intros [= _ ->]|]; destruct (_ || _ || _); [done|]; by intros [= _ ->]));
        subst w2.
      + exists r, m1, (set_m_delegated a (code (get_account (st w1) a)) m1), w1, e.
        split_and!; try done. right. exists a. by destruct (at_least Prague _).
      + exists r, m1, m1, w1, e. split_and!; try done. left. split; [done|]. intros Hpr. by rewrite Hpr in Ea.
    - destruct (account_has_code_or_nonce _ _) eqn:E1; cbn [orb].
      { intros [= <- <-]. left. split_and!; try done. by left. }
      destruct (account_has_storage _ _) eqn:E2.
      { intros [= <- <-]. left. split_and!; try done. by right. }
      destruct (process_create_message _ _ _ _ _) as [e w2|] eqn:E; [|done]. intros H.
      right; left. split_and!; try done. exists e.
      assert (Hw : w2 = w') by (revert H; unfold finish_call; destruct (e_error e);
           [by intros [= _ ->]|]; destruct (_ || _ || _); [done|]; by intros [= _ ->]).
      by subst w2.
  Qed.

  Lemma finish_cases r e w o w' : finish_call r e w = MCRet o w' -> w' = w /\
    o_gas_left o = e_gas_left e /\ o_error o = e_error e /\ o_return_data o = e_output e /\
    match e_error e with
    | Some _ => o_logs o = [] /\ o_accounts_to_delete o = ∅ /\ o_refund_counter o = r
    | None => o_logs o = e_logs e /\ o_accounts_to_delete o = e_accounts_to_delete e /\
        (0 <= e_refund_counter e)%Z /\ o_refund_counter o = r + Z.to_N (e_refund_counter e)
    end.
  Proof.
    unfold finish_call. destruct (e_error e).
    - by intros [= <- <-].
    - destruct (_ || _ || _) eqn:E; [done|]. intros [= <- <-]. cbn. split_and!; try done. lia.
  Qed.

  Record call_facts (m : message) (s : state) (o : message_call_output) (s' : state) : Prop := {
    cf_settled : settled s';
    cf_nonce : forall a, nonce (get_account s a) <= nonce (get_account s' a);
    cf_code : forall a, has_real_code s a -> code (get_account s' a) = code (get_account s a);
    cf_kept : at_least Cancun (b_fork be) = true -> forall a, solid s a -> a ∉ o_accounts_to_delete o;
    cf_plain : at_least Prague (b_fork be) = false -> forall n a, plain n a s ->
      (m_target m <> None -> m_current_target m = a -> m_code m = []) ->
      plain n a s' /\ a ∉ o_accounts_to_delete o;
    cf_total : total_balance s' <= total_balance s;
    cf_burnt : total_balance s' <> total_balance s ->
      o_error o = None /\ exists a, a ∈ o_accounts_to_delete o;
    cf_gas : o_gas_left o <= m_gas m;
    cf_error : o_error o <> None -> o_logs o = [] /\ o_accounts_to_delete o = ∅ /\
      (forall a, balance (get_account s' a) = balance (get_account s a)) /\
      (t_authorizations te = [] -> main_trie s' = main_trie s /\ storage_tries s' = storage_tries s);
  }.

  Lemma call_message_facts m s o s' : call_message cr be te m s = (Done o, s') -> settled s ->
    call_facts m s o s'.
  Proof.
    unfold call_message. destruct (process_message_call _ _ _ _ _) as [o1 w'|] eqn:H; [|done].
    intros [= <- <-] Hs.
    apply call_cases in H as [(_ & _ & -> & ->)|[(_ & Hc & _ & e & He & Hf)|(Htgt & r & m1 & m2 & w1 & e & Hd & Hde & _ & Hm & Hg & Ht & He & Hf)]].
    - constructor; cbn; try done; try lia.
    - apply finish_cases in Hf as (_ & F1 & F2 & _ & F3).
      assert (Hcode : code (get_account s (m_current_target m)) = []).
      { destruct (code _) eqn:E; [done|]. exfalso. cbn in Hc.
        assert (solid s (m_current_target m)) as Hso by (right; by rewrite E).
        apply solid_spec in Hso. cbn in Hc. congruence. }
      destruct (C05_create _ _ _ _ _ _ _ He) as [T1 T2]. cbn in T1, T2.
      constructor.
      + by eapply create_settles.
      + intros a. by apply (C18_create _ _ _ _ _ _ _ a He).
      + intros a [Ha _]. by apply (C19_create _ _ _ _ _ _ _ a He).
      + intros Hfork a Ha. destruct (e_error e) eqn:Ee.
        * destruct F3 as (_ & -> & _). apply not_elem_of_empty.
        * destruct F3 as (_ & -> & _). eapply (C19_create_not_deleted _ _ _ _ _ _ _ _ Hfork He); try done. apply Hs.
      + intros _ n a Hp _. destruct (plain_create _ _ _ n a _ _ _ _ He Hp) as [P1 P2].
        { intros <-. apply plain_solid, solid_spec in Hp. cbn [st] in Hc, Hp. congruence. }
        split; [done|]. destruct (e_error e); destruct F3 as (_ & -> & _); [apply not_elem_of_empty|by apply P2].
      + done.
      + intros Hne. destruct (T2 Hne) as [E (a & Ha)]. rewrite F2. split; [done|]. rewrite E in F3.
        exists a. by destruct F3 as (_ & -> & _).
      + rewrite F1. apply create_struct in He. apply (ps_gas _ _ _ _ He).
      + rewrite F2. intros Hne. apply create_struct in He. destruct (e_error e) as [x|] eqn:Ee; [|done].
        destruct F3 as (-> & -> & _). destruct (ps_fail _ _ _ _ He x Ee) as ([] & _). cbn in *.
        split_and!; try done. intros a. by rewrite (get_account_main _ _ re_main).
    - apply finish_cases in Hf as (_ & F1 & F2 & _ & F3). cbn in Hde.
      destruct (C05_message _ _ _ _ _ _ _ He) as [T1 T2].
      destruct Hde as [D1 D2 D3 D4 D5 D6].
      assert (Hs1 : settled (st w1)) by (destruct D1, Hs; split; congruence).
      constructor.
      + by eapply message_settles.
      + intros a. etrans; [apply D2|]. by apply (C18_message _ _ _ _ _ _ _ a He).
      + intros a Ha. rewrite (C19_message _ _ _ _ _ _ _ a He); [by rewrite D3|]. rewrite D3 by done. by destruct Ha.
      + intros Hfork a Ha. destruct (e_error e) eqn:Ee.
        * destruct F3 as (_ & -> & _). apply not_elem_of_empty.
        * destruct F3 as (_ & -> & _). eapply (C19_not_deleted _ _ _ _ _ _ _ _ Hfork He); try done; [apply Hs1|].
          by apply D2.
      + intros Hpr n a Hp Hcode.
        assert (w1 = World s (ts w1) /\ m1 = m) as [Ew ->].
        { destruct Hd as [(_ & _ & -> & ->)|(_ & Hpr' & _)]; [done|congruence]. }
        assert (m2 = m) as ->.
        { destruct Hm as [[-> _]|(x & Hpr' & _)]; [done|congruence]. }
        destruct (plain_message _ _ _ n a _ _ _ _ He) as [P1 P2]; [by rewrite Ew|auto|].
        split; [done|]. destruct (e_error e); destruct F3 as (_ & -> & _); [apply not_elem_of_empty|by apply P2].
      + lia.
      + rewrite <- D5. intros Hne. destruct (T2 Hne) as [E (a & Ha)]. rewrite F2. split; [done|]. rewrite E in F3.
        exists a. by destruct F3 as (_ & -> & _).
      + rewrite F1, <- Hg. apply message_struct in He. apply (ps_gas _ _ _ _ He).
      + rewrite F2. intros Hne. apply message_struct in He. destruct (e_error e) as [x|] eqn:Ee; [|done].
        destruct F3 as (-> & -> & _). destruct (ps_fail _ _ _ _ He x Ee) as ([] & _).
        split_and!; try done.
        * intros a. rewrite (get_account_main _ _ re_main). apply D4.
        * intros Ht0. destruct Hd as [(_ & _ & _ & ->)|(? & _)]; done.
  Qed.
End Call.

(** ** Deleting accounts *)
Lemma destroy_account_get s a b :
  get_account (destroy_account s a) b = if decide (a = b) then EMPTY_ACCOUNT else get_account s b.
Proof.
  unfold destroy_account. rewrite get_account_set. destruct (decide (a = b)); [done|].
  by rewrite (get_account_main _ s (destroy_storage_main s a)).
Qed.
Lemma destroy_account_total s a :
  total_balance (destroy_account s a) + balance (get_account s a) = total_balance s.
Proof.
  unfold destroy_account. pose proof (total_set_account (destroy_storage s a) a None) as H.
  rewrite total_destroy_storage in H. rewrite (get_account_main _ s (destroy_storage_main s a)) in H.
  cbn in H. lia.
Qed.
Lemma destroy_account_frame s a : snapshots (destroy_account s a) = snapshots s /\
  created_accounts (destroy_account s a) = created_accounts s.
Proof.
  unfold destroy_account. rewrite set_account_snapshots, set_account_created.
  by rewrite destroy_storage_snapshots, destroy_storage_created.
Qed.
Lemma destroy_accounts_facts l : forall s, NoDup l ->
  (forall b, get_account (fold_left destroy_account l s) b =
     if decide (b ∈ l) then EMPTY_ACCOUNT else get_account s b) /\
  total_balance (fold_left destroy_account l s)
    + sumN (map (fun a => balance (get_account s a)) l) = total_balance s /\
  snapshots (fold_left destroy_account l s) = snapshots s /\
  created_accounts (fold_left destroy_account l s) = created_accounts s.
Proof.
  induction l as [|a l IH]; intros s Hnd; cbn [fold_left map sumN fold_right].
  { split_and!; [|lia|done|done]. intros b. by rewrite decide_False by apply not_elem_of_nil. }
  apply NoDup_cons in Hnd as [Ha Hnd].
  destruct (IH (destroy_account s a) Hnd) as (I1 & I2 & I3 & I4).
  destruct (destroy_account_frame s a) as [F1 F2].
  split_and!; [| |congruence|congruence].
  - intros b. rewrite I1, destroy_account_get. destruct (decide (b ∈ a :: l)) as [Hb|Hb].
    + apply elem_of_cons in Hb as [->|Hb].
      * rewrite decide_False by done. by rewrite decide_True.
      * by rewrite decide_True.
    + apply not_elem_of_cons in Hb as [Hb1 Hb2]. rewrite decide_False by done. by rewrite decide_False.
  - pose proof (destroy_account_total s a) as H.
    assert (E : map (fun b => balance (get_account (destroy_account s a) b)) l
      = map (fun b => balance (get_account s b)) l).
    { apply map_ext_in. intros b Hb. rewrite destroy_account_get. rewrite decide_False; [done|].
      intros ->. apply Ha. by apply elem_of_list_In. }
    rewrite E in I2. fold (sumN (map (fun b => balance (get_account s b)) l)). lia.
Qed.

Lemma set_balance_get s a n s' : set_account_balance s a n = Ok s' ->
  forall b, get_account s' b = if decide (a = b) then
    Account (nonce (get_account s a)) n (code (get_account s a)) else get_account s b.
Proof. intros H. by apply (modify_state_get _ _ _ _ _ H). Qed.
Lemma set_balance_total' s a n s' : set_account_balance s a n = Ok s' ->
  total_balance s' + balance (get_account s a) = total_balance s + n.
Proof. intros H. pose proof (modify_state_total _ _ _ _ _ H eq_refl) as E. cbn in E. lia. Qed.
(** Writing a non-empty account touches no storage. *)
Lemma modify_state_solid s a f s' acc : modify_state s a f = Ok s' -> f (get_account s a) = Ok acc ->
  acc <> EMPTY_ACCOUNT -> storage_tries s' = storage_tries s.
Proof.
  intros H Hf Hne. apply modify_state_inv in H as (acc' & Hf' & [[_ ->]|[-> _]]).
  - apply set_account_storages.
  - congruence.
Qed.

Section Transaction.
  Context (cr : crypto) (be : block_env).

  Definition tx_auths (tx : transaction) : list authorization :=
    match tx with SetCode t => ct_authorizations t | _ => [] end.
  Definition blob_fee_of (tx : transaction) : outcome N :=
    match tx with Blob _ => calculate_data_fee (b_fork be) (b_excess_blob_gas be) tx | _ => Done 0 end.

  (** What happens in [process_transaction], step by step. *)
  Record tx_trace := TxTrace {
    tr_intrinsic : N; tr_floor : N;
    tr_sender : address; tr_price : N; tr_hashes : list N; tr_blob_gas : N; tr_blob_fee : N;
    tr_te : tx_env; tr_message : message;
    tr_output : message_call_output; tr_used : N;
    tr_s1 : state;  (* the fees are taken *)
    tr_s2 : state;  (* the message has been executed *)
    tr_s3 : state;  (* the rest of the gas is paid back *)
    tr_s4 : state;  (* the coinbase is paid *)
  }.
  Record tx_run (bo : block_output) (tx : transaction) (i : N) (s : state) (t : tx_trace)
      (bo' : block_output) (s' : state) : Prop := {
    tr_valid : validate_transaction (b_fork be) tx = Done (tr_intrinsic t, tr_floor t);
    tr_check : check_transaction cr be bo tx s
      = Done (tr_sender t, tr_price t, tr_hashes t, tr_blob_gas t);
    tr_blobs : blob_fee_of tx = Done (tr_blob_fee t);
    tr_gas : tr_intrinsic t <= tx_gas tx;
    tr_funds : tx_gas tx * tr_price t + tr_blob_fee t <= balance (get_account s (tr_sender t));
    tr_get1 : forall b, get_account (tr_s1 t) b = if decide (tr_sender t = b) then
      Account (nonce (get_account s (tr_sender t)) + 1)
        (balance (get_account s (tr_sender t)) - tx_gas tx * tr_price t - tr_blob_fee t)
        (code (get_account s (tr_sender t))) else get_account s b;
    tr_sto1 : storage_tries (tr_s1 t) = storage_tries s;
    tr_frame1 : snapshots (tr_s1 t) = snapshots s /\ created_accounts (tr_s1 t) = created_accounts s;
    tr_total1 : total_balance (tr_s1 t) + (tx_gas tx * tr_price t + tr_blob_fee t) = total_balance s;
    tr_env : t_origin (tr_te t) = tr_sender t /\ t_gas_price (tr_te t) = tr_price t /\
      t_gas (tr_te t) = tx_gas tx - tr_intrinsic t /\ t_authorizations (tr_te t) = tx_auths tx /\
      t_blob_versioned_hashes (tr_te t) = tr_hashes t /\
      t_access_list_addresses (tr_te t) = fst (access_list_of be tx) /\
      t_access_list_storage_keys (tr_te t) = snd (access_list_of be tx);
    tr_prepare : prepare_message cr be (tr_te t) tx (tr_s1 t) = Done (tr_message t);
    tr_call : call_message cr be (tr_te t) (tr_message t) (tr_s1 t) = (Done (tr_output t), tr_s2 t);
    tr_charged : charged_gas (tx_gas tx) (o_gas_left (tr_output t)) (o_refund_counter (tr_output t))
      (tr_floor t) = Done (tr_used t);
    tr_used_le : tr_used t <= tx_gas tx;
    tr_base : b_base_fee_per_gas be <= tr_price t;
    tr_get3 : forall b, get_account (tr_s3 t) b = if decide (tr_sender t = b) then
      Account (nonce (get_account (tr_s2 t) b))
        (balance (get_account (tr_s2 t) b) + (tx_gas tx - tr_used t) * tr_price t)
        (code (get_account (tr_s2 t) b)) else get_account (tr_s2 t) b;
    tr_total3 : total_balance (tr_s3 t) = total_balance (tr_s2 t) + (tx_gas tx - tr_used t) * tr_price t;
    tr_sto3 : nonce (get_account (tr_s2 t) (tr_sender t)) <> 0 ->
      storage_tries (tr_s3 t) = storage_tries (tr_s2 t);
    tr_get4 : forall b, get_account (tr_s4 t) b = if decide (b_coinbase be = b) then
      Account (nonce (get_account (tr_s3 t) b))
        (balance (get_account (tr_s3 t) b) + tr_used t * (tr_price t - b_base_fee_per_gas be))
        (code (get_account (tr_s3 t) b)) else get_account (tr_s3 t) b;
    tr_total4 : total_balance (tr_s4 t) =
      total_balance (tr_s3 t) + tr_used t * (tr_price t - b_base_fee_per_gas be);
    tr_sto4 : owned (tr_s3 t) -> same_storage (tr_s3 t) (tr_s4 t);
    tr_frame4 : snapshots (tr_s4 t) = snapshots (tr_s2 t) /\
      created_accounts (tr_s4 t) = created_accounts (tr_s2 t);
    tr_end : s' = fold_left destroy_account (elements (o_accounts_to_delete (tr_output t))) (tr_s4 t);
    tr_out : bo' = BlockOutput (bo_block_gas_used bo + tr_used t)
      (trie_set (bo_transactions_trie bo) (encode (RUint i)) (Some (encode_transaction tx)))
      (trie_set (bo_receipts_trie bo) (encode (RUint i))
         (Some (make_receipt cr tx (o_error (tr_output t)) (bo_block_gas_used bo + tr_used t)
                  (o_logs (tr_output t)))))
      (bo_receipt_keys bo ++ [encode (RUint i)])
      (bo_block_logs bo ++ o_logs (tr_output t))
      (bo_withdrawals_trie bo) (bo_blob_gas_used bo + tr_blob_gas t) (bo_requests bo);
  }.

  Lemma refund_facts a n s u s' : refund_sender a n s = (Done u, s') ->
    (forall b, get_account s' b = if decide (a = b) then
      Account (nonce (get_account s b)) (balance (get_account s b) + n) (code (get_account s b))
      else get_account s b) /\
    total_balance s' = total_balance s + n /\
    (snapshots s' = snapshots s /\ created_accounts s' = created_accounts s) /\
    (nonce (get_account s a) <> 0 -> storage_tries s' = storage_tries s).
  Proof.
    unfold refund_sender. intros H. sm_step H. sm_step H. sm_step H. sm_step H.
    apply u256_inv in E as [_ ->]. apply u256_inv in E0 as [_ ->].
    split_and!.
    - intros b. rewrite (set_balance_get _ _ _ _ H b). by destruct (decide (a = b)) as [<-|].
    - apply set_balance_total' in H. lia.
    - by apply set_balance_frame in H as [? _].
    - by apply set_balance_frame in H as [_ ?].
    - intros Hn. apply (modify_state_solid _ _ _ _ _ H eq_refl). intros E'. by injection E' as E' _ _.
  Qed.
  Lemma coinbase_facts n s u s' : pay_coinbase be n s = (Done u, s') ->
    (forall b, get_account s' b = if decide (b_coinbase be = b) then
      Account (nonce (get_account s b)) (balance (get_account s b) + n) (code (get_account s b))
      else get_account s b) /\
    total_balance s' = total_balance s + n /\
    (snapshots s' = snapshots s /\ created_accounts s' = created_accounts s) /\
    (owned s -> same_storage s s').
  Proof.
    unfold pay_coinbase. intros H. sm_step H. sm_step H. sm_step H.
    apply u256_inv in E as [_ ->]. apply u256_inv in E0 as [_ ->].
    destruct (N.eqb_spec (balance (get_account s (b_coinbase be)) + n) 0) as [Hz|Hz]; cbn [negb] in H; sm_step H.
    - injection H as <-. assert (n = 0) as -> by lia.
      destruct (account_exists_and_is_empty s (b_coinbase be)) eqn:Ee.
      + assert (Ha : get_account s (b_coinbase be) = EMPTY_ACCOUNT).
        { revert Ee. unfold account_exists_and_is_empty, get_account.
          destruct (get_account_optional s (b_coinbase be)) as [acc|]; [|done].
          change (account_is_empty acc = true -> acc = EMPTY_ACCOUNT). by rewrite account_is_empty_spec. }
        split_and!.
        * intros b. rewrite destroy_account_get. destruct (decide (b_coinbase be = b)) as [<-|]; [|done].
          by rewrite Ha.
        * pose proof (destroy_account_total s (b_coinbase be)) as HT. rewrite Ha in HT. cbn in HT. lia.
        * apply destroy_account_frame.
        * apply destroy_account_frame.
        * intros Ho b k. rewrite !get_storage_slot. unfold destroy_account.
          rewrite set_account_storages, destroy_storage_storages.
          destruct (decide (b_coinbase be = b)) as [<-|Hb].
          -- rewrite <- (get_storage_slot s). destruct (decide (get_storage s (b_coinbase be) k = 0)) as [->|Hk].
             ++ unfold slot_of. by rewrite lookup_delete.
             ++ destruct (Ho _ _ Hk) as [Hn|Hn]; rewrite Ha in Hn; done.
          -- unfold slot_of. by rewrite lookup_delete_ne.
      + split_and!; [|lia|done..].
        intros b. destruct (decide (b_coinbase be = b)) as [<-|]; [|done].
        rewrite N.add_0_r. by destruct (get_account s (b_coinbase be)).
    - split_and!.
      + intros b. rewrite (set_balance_get _ _ _ _ H b). by destruct (decide (b_coinbase be = b)) as [<-|].
      + apply set_balance_total' in H. lia.
      + by apply set_balance_frame in H as [? _].
      + by apply set_balance_frame in H as [_ ?].
      + apply set_balance_same in H as [? _]. done.
  Qed.
  Lemma charge_facts a acc fee bfee s u s' : acc = get_account s a ->
    charge_sender a acc fee bfee s = (Done u, s') ->
    fee + bfee <= balance (get_account s a) /\
    (forall b, get_account s' b = if decide (a = b) then
      Account (nonce (get_account s a) + 1) (balance (get_account s a) - fee - bfee) (code (get_account s a))
      else get_account s b) /\
    storage_tries s' = storage_tries s /\
    (snapshots s' = snapshots s /\ created_accounts s' = created_accounts s) /\
    total_balance s' + (fee + bfee) = total_balance s.
  Proof.
    intros -> H. unfold charge_sender in H. do 5 sm_step H.
    apply usub_inv in E0 as [H1 ->]. apply usub_inv in E1 as [H2 ->]. apply u256_inv in E2 as [_ ->].
    pose proof (increment_nonce_get _ _ _ E) as G1. pose proof (set_balance_get _ _ _ _ H) as G2.
    pose proof (G1 a) as Ga. rewrite decide_True in Ga by done.
    split_and!.
    - lia.
    - intros b. rewrite G2. destruct (decide (a = b)) as [<-|]; [by rewrite Ga|].
      rewrite G1. by rewrite decide_False.
    - rewrite (modify_state_solid _ _ _ _ _ H eq_refl); [rewrite (modify_state_solid _ _ _ _ _ E eq_refl); [done|]|].
      + intros E'. injection E' as E' _ _. lia.
      + rewrite Ga. intros E'. injection E' as E' _ _. lia.
    - apply set_balance_frame in H as [-> _]. by apply increment_nonce_frame in E as [-> _].
    - apply set_balance_frame in H as [_ ->]. by apply increment_nonce_frame in E as [_ ->].
    - apply increment_nonce_total in E. apply set_balance_total' in H. rewrite Ga in H. cbn in H. lia.
  Qed.

  Lemma process_transaction_run bo tx i s bo' s' :
    process_transaction cr be bo tx i s = (Done bo', s') ->
    exists t, tx_run bo tx i s t bo' s'.
  Proof.
    unfold process_transaction. intros H.
    sm_step H. destruct v as [intrinsic floor]. sm_step H. sm_step H.
    destruct v as [[[sender price] hashes] blob_gas]. sm_step H. sm_step H. rename v into blob_fee.
    sm_step H. apply usub_inv in E2 as [Hgas ->]. sm_step H. rename s0 into s1.
    destruct (access_list_of be tx) as [aa ak] eqn:Eal.
    sm_step H. sm_step H. sm_step H. rename s0 into s2, v0 into m, v1 into o.
    sm_step H. rename v0 into used. sm_step H. apply usub_inv in E6 as [Hu ->].
    sm_step H. apply usub_inv in E6 as [Hb ->].
    sm_step H. rename s0 into s3. sm_step H. rename s0 into s4. sm_step H. rename s0 into s5.
    sm_step H. apply u64_inv in E9 as [_ ->]. apply sret_inv in H as [<- ->].
    apply (charge_facts _ _ _ _ _ _ _ eq_refl) in E2 as (C1 & C2 & C3 & C4 & C5).
    apply refund_facts in E6 as (R1 & R2 & [R3 R4] & R5).
    apply coinbase_facts in E7 as (P1 & P2 & [P3 P4] & P5).
    unfold delete_accounts in E8. apply modifies_inv in E8. injection E8 as <-.
    eexists (TxTrace intrinsic floor sender price hashes blob_gas blob_fee _ m o used s1 s2 s3 s4).
    constructor; cbn [tr_intrinsic tr_floor tr_sender tr_price tr_hashes tr_blob_gas tr_blob_fee
      tr_te tr_message tr_output tr_used tr_s1 tr_s2 tr_s3 tr_s4];
      try eassumption; try done.
    - by rewrite Eal.
    - split; congruence.
  Qed.

  Lemma charged_gas_inv gas left refund floor used :
    charged_gas gas left refund floor = Done used ->
    left <= gas /\ used = N.max (gas - left - N.min ((gas - left) / 5) refund) floor.
  Proof.
    unfold charged_gas. intros (a & H1 & H)%obind_inv. apply obind_inv in H as (b & H2 & H).
    apply usub_inv in H1 as [? ->]. apply usub_inv in H2 as [? ->]. injection H as <-. done.
  Qed.
End Transaction.
