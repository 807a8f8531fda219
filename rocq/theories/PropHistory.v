(** * PropHistory: what holds along whole blocks and chains.

    C18 (nonces), C19 (code), C36 (no replay) and C48 (supply) for blocks and
    chains, and C40 (chain ids). *)
From Verif Require Import Base State Rlp Vm Instructions Precompiles Interpreter StateSpec StateProofs
  NumericProofs EvmStep EvmAccounts EvmInv PropFees PropTx PropDelegation Trie TrieProofs PropTrie Bloom
  Transactions Blocks Requests Fork ForkProofs PropWithdrawals TxProofs PropTransaction PropChain
  EvmExamples ForkExamples PropHeader.
From Coq Require Import ZifyBool ZifyN ZifyNat.
Ltac Zify.zify_post_hook ::= idtac.

Local Opaque to_u256 from_be_bytes.

(** What no block undoes. *)
Record grows (s s' : state) : Prop := {
  gr_settled : settled s';
  gr_nonce : forall a, nonce (get_account s a) <= nonce (get_account s' a);
  gr_code : forall a, has_real_code s a -> code (get_account s' a) = code (get_account s a);
}.
Lemma sumN_app l1 l2 : PropWithdrawals.sumN (l1 ++ l2) = PropWithdrawals.sumN l1 + PropWithdrawals.sumN l2.
Proof. induction l1 as [|x l1 IH]; [done|]. cbn [app PropWithdrawals.sumN fold_right] in *.
  fold (PropWithdrawals.sumN (l1 ++ l2)) (PropWithdrawals.sumN l1). lia. Qed.
Lemma grows_refl s : settled s -> grows s s.
Proof. intros H. by constructor. Qed.
Lemma grows_trans s1 s2 s3 : grows s1 s2 -> grows s2 s3 -> grows s1 s3.
Proof.
  intros [A1 A2 A3] [B1 B2 B3]. constructor; [done| |].
  - intros a. specialize (A2 a). specialize (B2 a). lia.
  - intros a Ha. rewrite B3; [by apply A3|]. unfold has_real_code. by rewrite A3.
Qed.

(** A transaction that a fork can decode is decoded alike by the later ones. *)
Lemma decode_later f etx tx : decode_transaction f etx = Done tx -> decode_transaction Osaka etx = Done tx.
Proof.
  destruct etx as [t|[|b data]]; cbn [decode_transaction]; [done|done|].
  destruct (Byte.to_N b =? 1); [done|]. destruct (Byte.to_N b =? 2); [done|].
  change (at_least Cancun Osaka) with true. change (at_least Prague Osaka) with true. cbn [andb].
  assert (HP : at_least Prague f = true -> at_least Cancun f = true) by (by destruct f).
  destruct (at_least Cancun f), (at_least Prague f); cbn [andb]; try done.
  all: destruct (N.eqb_spec (Byte.to_N b) 3); try done; destruct (N.eqb_spec (Byte.to_N b) 4); try done. congruence.
Qed.

(** The sender and nonce of a transaction of a block. *)
Definition tx_id (cr : crypto) (chain_id : N) (etx : encoded_tx) : option (address * N) :=
  match decode_transaction Osaka etx with
  | Done tx =>
      match recover_sender cr chain_id tx with
      | Done sender => Some (sender, tx_nonce tx)
      | Fail _ => None
      end
  | Fail _ => None
  end.

Section Block.
  Context (cr : crypto) (be : block_env).

  (** ** System transactions and withdrawals *)
  Lemma system_grows target c data s o s' :
    process_system_transaction cr be target c data s = (Done o, s') -> settled s ->
    grows s s' /\ total_balance s' <= total_balance s.
  Proof.
    intros H Hs. unfold process_system_transaction in H. destruct (call_message_facts _ _ _ _ _ _ _ H Hs).
    split; [by constructor|done].
  Qed.
  Lemma unchecked_grows target data s o s' :
    process_unchecked_system_transaction cr be target data s = (Done o, s') -> settled s ->
    grows s s' /\ total_balance s' <= total_balance s.
  Proof. unfold process_unchecked_system_transaction. intros H. sm_step H. by eapply system_grows. Qed.
  Lemma checked_grows target data s o s' :
    process_checked_system_transaction cr be target data s = (Done o, s') -> settled s ->
    grows s s' /\ total_balance s' <= total_balance s.
  Proof.
    unfold process_checked_system_transaction. intros H. sm_step H. sm_step H. sm_step H. sm_step H.
    apply sret_inv in H as [-> ->]. by eapply system_grows.
  Qed.
  Lemma requests_grow bo s bo' s' :
    process_general_purpose_requests cr be bo s = (Done bo', s') -> settled s ->
    grows s s' /\ total_balance s' <= total_balance s /\
    bo_block_gas_used bo' = bo_block_gas_used bo /\ bo_blob_gas_used bo' = bo_blob_gas_used bo.
  Proof.
    unfold process_general_purpose_requests. intros H Hs. sm_step H. cbn zeta in H. sm_step H. sm_step H.
    apply sret_inv in H as [<- ->].
    apply checked_grows in E0 as [G1 T1]; [|done]. apply checked_grows in E1 as [G2 T2]; [|apply G1].
    split; [by eapply grows_trans|]. split; [lia|]. unfold add_request.
    by repeat destruct (_ =? 0).
  Qed.
  Lemma withdrawals_grow bo wds i s bo' s' :
    process_withdrawals bo wds i s = (Done bo', s') -> settled s ->
    grows s s' /\ total_balance s' = total_balance s + 10 ^ 9 * PropWithdrawals.sumN (map wd_amount wds) /\
    bo_block_gas_used bo' = bo_block_gas_used bo /\ bo_blob_gas_used bo' = bo_blob_gas_used bo.
  Proof using.
    clear. revert bo i s. induction wds as [|w wds IH]; intros bo i s H Hs.
    - apply sret_inv in H as [-> ->]. split; [by apply grows_refl|]. cbn. lia.
    - apply withdrawal_step in H as (s1 & E & H).
      pose proof E as E'. apply modify_state_inv in E' as (acc & Hf & _).
      pose proof (modify_state_get _ _ _ _ _ E Hf) as G.
      pose proof (modify_state_total _ _ _ _ _ E Hf) as HT.
      pose proof (credit_inv _ _ _ Hf) as [-> Hlt]. cbn [balance] in HT.
      apply IH in H as (H1 & H2 & H3 & H4).
      2:{ split; [by rewrite (modify_state_snapshots _ _ _ _ E); apply Hs
         |by rewrite (modify_state_created _ _ _ _ E); apply Hs]. }
      split.
      + eapply grows_trans; [|exact H1]. constructor.
        * split; [by rewrite (modify_state_snapshots _ _ _ _ E); apply Hs
            |by rewrite (modify_state_created _ _ _ _ E); apply Hs].
        * intros a. rewrite G. destruct (decide (wd_address w = a)) as [<-|]; cbn; lia.
        * intros a _. rewrite G. by destruct (decide (wd_address w = a)) as [<-|].
      + split; [|done]. rewrite H2. cbn [map PropWithdrawals.sumN fold_right].
        fold (PropWithdrawals.sumN (map wd_amount wds)). lia.
  Qed.

  (** ** Transactions *)
  Lemma transactions_supply bo txs i s bo' s' :
    process_transactions cr be bo txs i s = (Done bo', s') -> settled s ->
    settled s' /\
    (exists blob_price, fork_blob_gas_price (b_fork be) (b_excess_blob_gas be) = Some blob_price /\
       total_balance s' + (bo_block_gas_used bo' - bo_block_gas_used bo) * b_base_fee_per_gas be
         + (bo_blob_gas_used bo' - bo_blob_gas_used bo) * blob_price <= total_balance s) /\
    bo_block_gas_used bo <= bo_block_gas_used bo' /\ bo_blob_gas_used bo <= bo_blob_gas_used bo'.
  Proof.
    revert bo i s. induction txs as [|etx txs IH]; intros bo i s H Hs.
    { apply sret_inv in H as [-> ->]. split; [done|].
      split; [|done]. destruct (blob_gas_price_done (b_fork be) (b_excess_blob_gas be)) as (bp & _ & Hbp). exists bp. split; [done|].
      rewrite !N.sub_diag. lia. }
    cbn [process_transactions] in H. sm_step H. rename v into tx. sm_step H. rename v into bo1, s0 into s1.
    pose proof (settled_transaction _ _ _ _ _ _ _ _ E0 Hs) as Hs1.
    destruct (C34_transaction _ _ _ _ _ _ _ _ E0) as (_ & L1 & _ & L2).
    destruct (C35_fees _ _ _ _ _ _ _ _ E0 Hs) as (se & p & bp & used & rf & te & m & o & t1 & t2 & _ & Hbp & _ & _ & _ & _ & Hu & _ & _ & _ & _ & _ & _ & _ & _ & HT & _).
    apply IH in H as (S2 & (bp' & Hbp' & HB) & HL1 & HL2); [|done].
    rewrite Hbp in Hbp'. injection Hbp' as <-.
    split; [done|]. split.
    { exists bp. split; [done|]. rewrite L2 in HB, HL2. rewrite Hu in HB, HL1, L1.
      assert (exists x y, bo_block_gas_used bo' = bo_block_gas_used bo + used + x /\
        bo_blob_gas_used bo' = bo_blob_gas_used bo + blob_gas tx + y) as (x & y & Hx & Hy).
      { exists (bo_block_gas_used bo' - (bo_block_gas_used bo + used)),
          (bo_blob_gas_used bo' - (bo_blob_gas_used bo + blob_gas tx)). lia. }
      rewrite Hx, Hy in HB |- *.
      replace (bo_block_gas_used bo + used + x - (bo_block_gas_used bo + used)) with x in HB by lia.
      replace (bo_blob_gas_used bo + blob_gas tx + y - (bo_blob_gas_used bo + blob_gas tx)) with y in HB by lia.
      replace (bo_block_gas_used bo + used + x - bo_block_gas_used bo) with (used + x) by lia.
      replace (bo_blob_gas_used bo + blob_gas tx + y - bo_blob_gas_used bo) with (blob_gas tx + y) by lia.
      lia. }
    lia.
  Qed.
  Lemma transactions_grow bo txs i s bo' s' : at_least Cancun (b_fork be) = true ->
    process_transactions cr be bo txs i s = (Done bo', s') -> settled s -> grows s s'.
  Proof.
    intros Hfork. revert bo i s. induction txs as [|etx txs IH]; intros bo i s H Hs.
    { apply sret_inv in H as [-> ->]. by apply grows_refl. }
    cbn [process_transactions] in H. sm_step H. rename v into tx. sm_step H. rename v into bo1, s0 into s1.
    pose proof (settled_transaction _ _ _ _ _ _ _ _ E0 Hs) as Hs1.
    destruct (C18_transaction _ _ _ _ _ _ _ _ Hfork E0 Hs) as (N1 & _).
    assert (G1 : grows s s1).
    { constructor; [done|done|]. intros a Ha. by eapply (C19_transaction _ _ _ _ _ _ _ _ _ Hfork). }
    eapply grows_trans; [exact G1|]. by eapply IH.
  Qed.

  (** A sender and a nonce that is used up, in a state reached by blocks up to
      fork [f]: before Prague the sender has no code. *)
  Definition spent (f : pos_fork) (s : state) (x : address * N) : Prop :=
    snd x < nonce (get_account s (fst x)) /\
    (at_least Prague f = false -> code (get_account s (fst x)) = []).
  Lemma spent_later f f' s x : fork_rank f <= fork_rank f' -> spent f s x -> spent f' s x.
  Proof.
    intros Hr [H1 H2]. split; [done|]. intros Hf. apply H2. revert Hf. unfold at_least.
    rewrite !N.leb_gt. lia.
  Qed.
  Lemma spent_transaction bo tx i s bo' s' x :
    process_transaction cr be bo tx i s = (Done bo', s') -> settled s ->
    spent (b_fork be) s x -> spent (b_fork be) s' x.
  Proof.
    intros H Hs [H1 H2]. destruct (at_least Prague (b_fork be)) eqn:Hpr.
    - assert (at_least Cancun (b_fork be) = true) as Hca by (by destruct (b_fork be)).
      destruct (C18_transaction _ _ _ _ _ _ _ _ Hca H Hs) as [K _].
      specialize (K (fst x)). split; [lia|congruence].
    - destruct (C18_plain _ _ _ _ _ _ _ _ (fst x) H Hs) as [K1 K2]; [lia|auto|].
      split; [lia|]. intros _. auto.
  Qed.
  Lemma spent_unchecked target data s o s' x :
    process_unchecked_system_transaction cr be target data s = (Done o, s') -> settled s ->
    spent (b_fork be) s x -> spent (b_fork be) s' x.
  Proof.
    unfold process_unchecked_system_transaction, process_system_transaction. intros H Hs [H1 H2].
    sm_step H.
    destruct (call_message_facts _ _ _ _ _ _ _ H Hs). split; [pose proof (cf_nonce (fst x)); lia|].
    intros Hpr. destruct (cf_plain Hpr (nonce (get_account s (fst x))) (fst x)) as [[_ P] _].
    - split; [lia|auto].
    - cbn. intros _ ->. auto.
    - done.
  Qed.
  (** No two transactions have the same sender and nonce. *)
  Lemma transactions_spent bo txs i s bo' s' l0 :
    process_transactions cr be bo txs i s = (Done bo', s') -> settled s ->
    Forall (spent (b_fork be) s) l0 ->
    exists ids, map (tx_id cr (b_chain_id be)) txs = map Some ids /\ NoDup ids /\
      (forall x, x ∈ ids -> x ∉ l0) /\ Forall (spent (b_fork be) s') (l0 ++ ids).
  Proof.
    revert bo i s l0. induction txs as [|etx txs IH]; intros bo i s l0 H Hs Hl.
    { apply sret_inv in H as [-> ->]. exists []. split; [done|]. split; [constructor|].
      split; [by intros x ?%elem_of_nil|]. by rewrite app_nil_r. }
    cbn [process_transactions] in H. sm_step H. rename v into tx. sm_step H. rename v into bo1, s0 into s1.
    pose proof (settled_transaction _ _ _ _ _ _ _ _ E0 Hs) as Hs1.
    destruct (C18_sender _ _ _ _ _ _ _ _ E0 Hs) as (sender & R1 & R2 & R3 & R4).
    assert (Hl1 : Forall (spent (b_fork be) s1) (l0 ++ [(sender, tx_nonce tx)])).
    { apply Forall_app. split.
      - eapply Forall_impl; [exact Hl|]. intros x Hx. by eapply spent_transaction.
      - constructor; [|constructor]. by split. }
    destruct (IH _ _ _ _ H Hs1 Hl1) as (ids & I1 & I2 & I3 & I4).
    exists ((sender, tx_nonce tx) :: ids). split.
    { cbn [map]. rewrite I1. f_equal. unfold tx_id. by rewrite (decode_later _ _ _ E), R1. }
    split; [|split].
    - constructor; [|done]. intros Hin. apply (I3 _ Hin). apply elem_of_app. right. by apply elem_of_list_singleton.
    - intros x [->|Hin]%elem_of_cons.
      + intros Hin. rewrite Forall_forall in Hl. destruct (Hl _ Hin) as [K _]. cbn in K. lia.
      + intros Hin'. apply (I3 _ Hin). apply elem_of_app. by left.
    - by rewrite <- app_assoc in I4.
  Qed.

  Lemma body_supply txs wds s bo s' :
    apply_body cr be txs wds s = (Done bo, s') -> settled s ->
    settled s' /\
    (exists blob_price, fork_blob_gas_price (b_fork be) (b_excess_blob_gas be) = Some blob_price /\
       total_balance s' + bo_block_gas_used bo * b_base_fee_per_gas be + bo_blob_gas_used bo * blob_price
         <= total_balance s + match b_fork be with Paris => 0 | _ => 10 ^ 9 * PropWithdrawals.sumN (map wd_amount wds) end).
  Proof.
    intros H Hs. apply apply_body_inv in H as (s1 & s2 & bo1 & s3 & bo2 & s4 & E1 & E2 & E3 & E4 & E5).
    assert (settled s1 /\ total_balance s1 <= total_balance s) as [S1 T1].
    { destruct (at_least Cancun (b_fork be)).
      - destruct E1 as (o & E1). apply unchecked_grows in E1 as [[] ?]; done.
      - by subst s1. }
    assert (settled s2 /\ total_balance s2 <= total_balance s1) as [S2 T2].
    { destruct (at_least Prague (b_fork be)).
      - destruct E2 as (h & o & _ & E2). apply unchecked_grows in E2 as [[] ?]; done.
      - by subst s2. }
    apply transactions_supply in E3 as (S3 & (bp & Hbp & T3) & _ & _); [|done].
    assert (settled s4 /\ total_balance s4 = total_balance s3 +
      match b_fork be with Paris => 0 | _ => 10 ^ 9 * PropWithdrawals.sumN (map wd_amount wds) end /\
      bo_block_gas_used bo2 = bo_block_gas_used bo1 /\ bo_blob_gas_used bo2 = bo_blob_gas_used bo1) as (S4 & T4 & L1 & L2).
    { destruct (b_fork be); [destruct E4 as [-> ->]; split; [done|]; rewrite N.add_0_r; done|..].
      all: apply withdrawals_grow in E4 as ([] & ? & ? & ?); done. }
    assert (settled s' /\ total_balance s' <= total_balance s4 /\
      bo_block_gas_used bo = bo_block_gas_used bo2 /\ bo_blob_gas_used bo = bo_blob_gas_used bo2)
      as (S5 & T5 & L3 & L4).
    { destruct (at_least Prague (b_fork be)).
      - apply requests_grow in E5 as ([] & ?); done.
      - by destruct E5 as [-> ->]. }
    split; [done|].
    exists bp. split; [done|]. rewrite L3, L4, L1, L2. cbn [bo_block_gas_used bo_blob_gas_used empty_block_output] in T3.
    rewrite !N.sub_0_r in T3. lia.
  Qed.
  Lemma body_grows txs wds s bo s' : at_least Cancun (b_fork be) = true ->
    apply_body cr be txs wds s = (Done bo, s') -> settled s -> grows s s'.
  Proof.
    intros Hfork H Hs. apply apply_body_inv in H as (s1 & s2 & bo1 & s3 & bo2 & s4 & E1 & E2 & E3 & E4 & E5).
    rewrite Hfork in E1. destruct E1 as [o1 E1].
    assert (at_least Shanghai (b_fork be) = true) as Hsh by (by destruct (b_fork be)). rewrite Hsh in E4.
    apply unchecked_grows in E1 as [G1 _]; [|done].
    assert (grows s1 s2) as G2.
    { destruct (at_least Prague (b_fork be)).
      - destruct E2 as (h & o & _ & E2). apply unchecked_grows in E2 as [? _]; [done|apply G1].
      - subst s2. apply grows_refl, G1. }
    apply transactions_grow in E3 as G3; [|done|apply G2].
    apply withdrawals_grow in E4 as (G4 & _); [|apply G3].
    assert (grows s4 s') as G5.
    { destruct (at_least Prague (b_fork be)).
      - apply requests_grow in E5 as [? _]; [done|apply G4].
      - destruct E5 as [-> ->]. apply grows_refl, G4. }
    eapply grows_trans; [exact G1|]. eapply grows_trans; [exact G2|]. eapply grows_trans; [exact G3|].
    by eapply grows_trans.
  Qed.
  Lemma body_spent txs wds s bo s' l0 :
    apply_body cr be txs wds s = (Done bo, s') -> settled s ->
    Forall (spent (b_fork be) s) l0 ->
    exists ids, map (tx_id cr (b_chain_id be)) txs = map Some ids /\ NoDup ids /\
      (forall x, x ∈ ids -> x ∉ l0) /\ Forall (spent (b_fork be) s') (l0 ++ ids).
  Proof.
    intros H Hs Hl. apply apply_body_inv in H as (s1 & s2 & bo1 & s3 & bo2 & s4 & E1 & E2 & E3 & E4 & E5).
    assert (settled s1 /\ Forall (spent (b_fork be) s1) l0) as [S1 L1].
    { destruct (at_least Cancun (b_fork be)); [|by subst s1]. destruct E1 as (o & E1). split.
      - by apply unchecked_grows in E1 as [[] ?].
      - eapply Forall_impl; [exact Hl|]. intros x. by eapply spent_unchecked. }
    assert (settled s2 /\ Forall (spent (b_fork be) s2) l0) as [S2 L2].
    { destruct (at_least Prague (b_fork be)); [|by subst s2]. destruct E2 as (h & o & _ & E2). split.
      - by apply unchecked_grows in E2 as [[] ?].
      - eapply Forall_impl; [exact L1|]. intros x. by eapply spent_unchecked. }
    destruct (transactions_supply _ _ _ _ _ _ E3 S2) as (S3 & _).
    destruct (transactions_spent _ _ _ _ _ _ _ E3 S2 L2) as (ids & I1 & I2 & I3 & I4).
    exists ids. split; [done|]. split; [done|]. split; [done|].
    assert (settled s4 /\ Forall (spent (b_fork be) s4) (l0 ++ ids)) as [S4 L4].
    { destruct (at_least Shanghai (b_fork be)); [|by destruct E4 as [_ ->]].
      split; [by apply withdrawals_grow in E4 as ([] & _)|].
      destruct (C41_balances _ _ _ _ _ _ E4) as (_ & _ & K & _).
      eapply Forall_impl; [exact I4|]. intros x [H1 H2]. destruct (K (fst x)) as [K1 K2].
      split; [by rewrite K1|by rewrite K2]. }
    destruct (at_least Prague (b_fork be)) eqn:Hpr; [|by destruct E5 as [_ ->]].
    apply requests_grow in E5 as ([_ K _] & _); [|done].
    eapply Forall_impl; [exact L4|]. intros x [H1 H2]. split; [|congruence].
    specialize (K (fst x)). lia.
  Qed.
End Block.

Section Chain.
  Context (cr : crypto).

  (** Chains built from [c0] by accepting the blocks [l]. *)
  Inductive accepted (c0 : block_chain) : block_chain -> list block -> Prop :=
  | ac_start : accepted c0 c0 []
  | ac_block c l b c' : accepted c0 c l -> state_transition cr c b = (Done tt, c') ->
      accepted c0 c' (l ++ [b]).

  (** Blocks of Cancun and later: before, SELFDESTRUCT removed accounts with
      their nonce and code (C85). *)
  Definition since_cancun (l : list block) : Prop := Forall (fun b => has_blobs (h_fork (bl_header b))) l.

  Lemma transition_supply c b c' :
    state_transition cr c b = (Done tt, c') -> settled (bc_state c) ->
    settled (bc_state c') /\ bc_chain_id c' = bc_chain_id c /\
    exists blob_price, fork_blob_gas_price (h_fork (bl_header b)) (h_excess_blob_gas (bl_header b)) = Some blob_price /\
       total_balance (bc_state c') + h_gas_used (bl_header b) * h_base_fee_per_gas (bl_header b)
         + match h_fork (bl_header b) with Paris | Shanghai => 0 | _ => h_blob_gas_used (bl_header b) * blob_price end
       <= total_balance (bc_state c) + match h_fork (bl_header b) with Paris => 0
           | _ => 10 ^ 9 * PropWithdrawals.sumN (map wd_amount (bl_withdrawals b)) end.
  Proof.
    intros H Hs. apply transition_done in H as (_ & _ & _ & (bo & H & HC) & Hi & _).
    apply body_supply in H as (S & bp & Hbp & HT); [|done].
    split; [done|]. split; [done|]. exists bp. split; [done|].
    apply check_output_iff in HC as [HG HC _ _ _ _ _ _].
    change (b_fork (block_env_of cr c (bl_header b))) with (h_fork (bl_header b)) in HT.
    change (b_base_fee_per_gas (block_env_of cr c (bl_header b))) with (h_base_fee_per_gas (bl_header b)) in HT.
    rewrite <- HG. destruct (h_fork (bl_header b)).
    1,2: etransitivity; [|exact HT]; rewrite N.add_0_r; apply N.le_add_r.
    all: rewrite <- (HC Logic.I); exact HT.
  Qed.
  Lemma transition_grows c b c' : has_blobs (h_fork (bl_header b)) ->
    state_transition cr c b = (Done tt, c') -> settled (bc_state c) ->
    grows (bc_state c) (bc_state c').
  Proof.
    intros Hf H Hs. apply transition_done in H as (_ & _ & _ & (bo & H & HC) & Hi & _).
    apply body_grows in H; [done|by apply has_blobs_spec|done].
  Qed.
  Lemma transition_spent c b c' l0 :
    state_transition cr c b = (Done tt, c') -> settled (bc_state c) ->
    Forall (spent (h_fork (bl_header b)) (bc_state c)) l0 ->
    exists ids, map (tx_id cr (bc_chain_id c)) (bl_transactions b) = map Some ids /\ NoDup ids /\
      (forall x, x ∈ ids -> x ∉ l0) /\ Forall (spent (h_fork (bl_header b)) (bc_state c')) (l0 ++ ids).
  Proof.
    intros H Hs Hl. apply transition_done in H as (_ & _ & _ & (bo & H & HC) & Hi & _).
    apply (body_spent cr _ _ _ _ _ _ l0) in H; done.
  Qed.

  (** ** C18, C19 *)
  Lemma accepted_settled c0 c l : accepted c0 c l -> settled (bc_state c0) ->
    settled (bc_state c) /\ bc_chain_id c = bc_chain_id c0.
  Proof.
    intros H Hs. induction H as [|c l b c' H [S Hi] E]; [done|].
    destruct (transition_supply _ _ _ E S) as (S' & Hi' & _). split; [done|congruence].
  Qed.
  Lemma accepted_grows c0 c l : accepted c0 c l -> since_cancun l -> settled (bc_state c0) ->
    grows (bc_state c0) (bc_state c).
  Proof.
    intros H Hf Hs. induction H as [|c l b c' H IH E]; [by apply grows_refl|].
    apply Forall_app in Hf as [Hf1 Hf2]. apply Forall_cons in Hf2 as [Hf2 _].
    specialize (IH Hf1). pose proof (transition_grows _ _ _ Hf2 E (gr_settled _ _ IH)) as G'.
    by eapply grows_trans.
  Qed.

  Theorem C18_chain c0 c l a : accepted c0 c l -> since_cancun l -> settled (bc_state c0) ->
    nonce (get_account (bc_state c0) a) <= nonce (get_account (bc_state c) a).
  Proof. intros H Hf Hs. by apply accepted_grows in H as []. Qed.

  Theorem C19_chain c0 c l a : accepted c0 c l -> since_cancun l -> settled (bc_state c0) -> has_real_code (bc_state c0) a ->
    code (get_account (bc_state c) a) = code (get_account (bc_state c0) a).
  Proof. intros H Hf Hs. apply accepted_grows in H as []; auto. Qed.

  (** ** C36: no replay *)
  (** The blocks of a chain come in the order of their forks. *)
  Definition in_order (l : list block) : Prop := forall i j b1 b2,
    l !! i = Some b1 -> l !! j = Some b2 -> (i < j)%nat ->
    fork_rank (h_fork (bl_header b1)) <= fork_rank (h_fork (bl_header b2)).
  Lemma in_order_app l b : in_order (l ++ [b]) ->
    in_order l /\ Forall (fun b1 => fork_rank (h_fork (bl_header b1)) <= fork_rank (h_fork (bl_header b))) l.
  Proof.
    intros H. split.
    - intros i j b1 b2 H1 H2. apply (H i j); by apply lookup_app_l_Some.
    - apply Forall_forall. intros b1 [i Hi]%elem_of_list_lookup.
      apply (H i (length l)); [by apply lookup_app_l_Some| |by eapply lookup_lt_Some].
      rewrite lookup_app_r by done. by rewrite Nat.sub_diag.
  Qed.
  Lemma accepted_spent c0 c l f l0 : accepted c0 c l -> in_order l -> settled (bc_state c0) ->
    Forall (spent Paris (bc_state c0)) l0 ->
    Forall (fun b => fork_rank (h_fork (bl_header b)) <= fork_rank f) l ->
    exists ids, map (tx_id cr (bc_chain_id c0)) (concat (map bl_transactions l)) = map Some ids /\
      NoDup ids /\ (forall x, x ∈ ids -> x ∉ l0) /\ Forall (spent f (bc_state c)) (l0 ++ ids).
  Proof.
    intros H Ho Hs Hl. revert f. induction H as [|c l b c' H IH E]; intros f Hf.
    { exists []. split; [done|]. split; [constructor|]. split; [by intros x ?%elem_of_nil|].
      rewrite app_nil_r. eapply Forall_impl; [exact Hl|]. intros x. apply spent_later.
      apply N.le_0_l. }
    apply in_order_app in Ho as [Ho Hb]. destruct (IH Ho _ Hb) as (ids & I1 & I2 & I3 & I4).
    destruct (accepted_settled _ _ _ H Hs) as [S Hi].
    destruct (transition_spent _ _ _ _ E S I4) as (ids' & J1 & J2 & J3 & J4).
    exists (ids ++ ids'). split.
    { rewrite map_app, concat_app, !map_app, I1. cbn [map concat]. rewrite app_nil_r.
      by rewrite <- Hi, J1. }
    split; [|split].
    - apply NoDup_app. split; [done|]. split; [|done]. intros x H1 H2. apply (J3 _ H2).
      apply elem_of_app. by right.
    - intros x [Hx|Hx]%elem_of_app Hx'; [by apply (I3 _ Hx)|]. apply (J3 _ Hx). apply elem_of_app. by left.
    - rewrite app_assoc. eapply Forall_impl; [exact J4|]. intros x. apply spent_later.
      apply Forall_app in Hf as [_ Hf]. by apply Forall_cons in Hf as [Hf _].
  Qed.

  (** Over the whole life of a chain no two transactions have the same sender
      and nonce, and each used nonce stays below the sender's. *)
  Theorem C36_once c0 c l : accepted c0 c l -> in_order l -> settled (bc_state c0) ->
    exists ids, map (tx_id cr (bc_chain_id c0)) (concat (map bl_transactions l)) = map Some ids /\
      NoDup ids /\ Forall (fun '(a, n) => n < nonce (get_account (bc_state c) a)) ids.
  Proof.
    intros H Ho Hs. destruct (accepted_spent _ _ _ Osaka [] H Ho Hs) as (ids & I1 & I2 & _ & I3).
    { constructor. }
    { apply Forall_forall. intros b _. by destruct (h_fork (bl_header b)). }
    exists ids. split; [done|]. split; [done|]. eapply Forall_impl; [exact I3|].
    by intros [a n] [K _].
  Qed.

  (** In every later state of the chain, a transaction with the sender and the
      nonce of one that was processed is rejected, whatever its kind and
      content and whatever the block. *)
  Theorem C36_no_replay c0 c l etx tx bo be sender n :
    accepted c0 c l -> in_order l -> settled (bc_state c0) ->
    In etx (concat (map bl_transactions l)) -> tx_id cr (bc_chain_id c0) etx = Some (sender, n) ->
    b_chain_id be = bc_chain_id c0 ->
    recover_sender cr (bc_chain_id c0) tx = Done sender -> tx_nonce tx = n ->
    exists e, check_transaction cr be bo tx (bc_state c) = Fail e.
  Proof.
    intros H Hf Hs Hin Hid Hc Hr Hn.
    destruct (C36_once _ _ _ H Hf Hs) as (ids & I1 & _ & I3).
    destruct (check_transaction cr be bo tx (bc_state c)) as [[[[a p] hs] bg]|e] eqn:E; [|by exists e].
    exfalso. apply C36_accepts in E as [[] _].
    rewrite Hc in *. assert (a = sender) as -> by congruence.
    apply (in_map (tx_id cr (bc_chain_id c0))) in Hin. rewrite I1, Hid in Hin.
    apply in_map_iff in Hin as (p' & [= ->] & Hin). rewrite Forall_forall in I3.
    specialize (I3 _ (proj2 (elem_of_list_In _ _) Hin)). cbn in I3. lia.
  Qed.

  (** ** C48: the supply *)
  (** A block destroys at least the base fee of all gas used and (since Cancun)
      the blob fees, and creates only the ether withdrawn (since Shanghai) from
      the beacon chain. *)
  Theorem C48_block c b c' : state_transition cr c b = (Done tt, c') -> settled (bc_state c) ->
    exists blob_price, fork_blob_gas_price (h_fork (bl_header b)) (h_excess_blob_gas (bl_header b)) = Some blob_price /\
       total_balance (bc_state c') + h_gas_used (bl_header b) * h_base_fee_per_gas (bl_header b)
         + match h_fork (bl_header b) with Paris | Shanghai => 0 | _ => h_blob_gas_used (bl_header b) * blob_price end
       <= total_balance (bc_state c) + match h_fork (bl_header b) with Paris => 0
           | _ => 10 ^ 9 * PropWithdrawals.sumN (map wd_amount (bl_withdrawals b)) end.
  Proof. intros H Hs. by apply transition_supply in H as (_ & _ & H). Qed.

  Theorem C48_chain c0 c l : accepted c0 c l -> settled (bc_state c0) ->
    total_balance (bc_state c) <= total_balance (bc_state c0)
      + 10 ^ 9 * PropWithdrawals.sumN (map wd_amount (concat (map bl_withdrawals l))).
  Proof.
    intros H Hs. induction H as [|c l b c' H IH E]; [cbn; lia|].
    destruct (accepted_settled _ _ _ H Hs) as [S _].
    destruct (C48_block _ _ _ E S) as (bp & _ & E').
    rewrite map_app, concat_app, map_app, sumN_app. cbn [map concat]. rewrite app_nil_r.
    assert (match h_fork (bl_header b) with Paris => 0
           | _ => 10 ^ 9 * PropWithdrawals.sumN (map wd_amount (bl_withdrawals b)) end
      <= 10 ^ 9 * PropWithdrawals.sumN (map wd_amount (bl_withdrawals b))) by (destruct (h_fork (bl_header b)); lia).
    rewrite N.mul_add_distr_l. clear -E' H0 IH.
    set (W := 10 ^ 9 * PropWithdrawals.sumN (map wd_amount (bl_withdrawals b))) in *.
    set (W' := match h_fork (bl_header b) with Paris => 0 | _ => W end) in *.
    set (X := match h_fork (bl_header b) with Paris | Shanghai => 0 | _ => _ end) in *. lia.
  Qed.

  (** ** C40 *)
  (** A legacy transaction whose [v] names another chain is rejected. *)
  Theorem C40_check_legacy be bo t s c : lt_v t = 35 + 2 * c \/ lt_v t = 36 + 2 * c -> c <> b_chain_id be ->
    exists e, check_transaction cr be bo (Legacy t) s = Fail e.
  Proof.
    intros Hv Hc. destruct (check_transaction _ _ _ _ _) as [[[[a p] hs] bg]|e] eqn:E; [|by exists e].
    exfalso. apply C36_accepts in E as [[] _].
    by rewrite (C40_legacy cr _ _ _ Hv Hc) in ac_sender.
  Qed.
End Chain.

(** The chain id of a typed transaction (types 1 to 4) plays no role in the
    recovery of its sender, nor anywhere else: *)
Definition is_typed (tx : transaction) : Prop := match tx with Legacy _ => False | _ => True end.
Theorem C40_typed_ignored cr c1 c2 tx : is_typed tx -> recover_sender cr c1 tx = recover_sender cr c2 tx.
Proof. by destruct tx. Qed.

(** so a block of chain 1 with a transaction made for chain 5 is accepted. *)
Definition ex_foreign_tx : transaction :=
  FeeMarket (FeeMarketTx 5 0 2 20 50000 (Some 0xcccc) 3 [] [] 0 0xaaaa 1).
Definition ex_foreign_block : block := default ex_genesis (ex_seal ex_chain
  (Block (ex_open_header (bl_header ex_genesis) 112) [encode_transaction ex_foreign_tx] [] [])).
Theorem C40_typed_refuted : exists cr chain b chain',
  state_transition cr chain b = (Done tt, chain') /\ bc_chain_id chain = 1 /\
  exists t etx, bl_transactions b = [etx] /\ decode_transaction Osaka etx = Done (FeeMarket t) /\ ft_chain_id t = 5.
Proof.
  exists ex_crypto, ex_chain, ex_foreign_block, (snd (state_transition ex_crypto ex_chain ex_foreign_block)).
  split.
  - assert (H : fst (state_transition ex_crypto ex_chain ex_foreign_block) = Done tt) by (vm_compute; done).
    rewrite <- H. by destruct (state_transition _ _ _).
  - split; [done|].
    exists (FeeMarketTx 5 0 2 20 50000 (Some 0xcccc) 3 [] [] 0 0xaaaa 1), (encode_transaction ex_foreign_tx).
    split; vm_compute; done.
Qed.

(** ** Non-vacuity *)
Definition ex_next : block_chain := snd (state_transition ex_crypto ex_chain ex_block).
Lemma ex_accepted : accepted ex_crypto ex_chain ex_next [ex_block].
Proof.
  apply (ac_block _ _ ex_chain [] ex_block); [constructor|].
  assert (H : fst (state_transition ex_crypto ex_chain ex_block) = Done tt) by (vm_compute; done).
  unfold ex_next. rewrite <- H. by destruct (state_transition _ _ _).
Qed.
Lemma ex_settled : settled (bc_state ex_chain).
Proof. by split; vm_compute. Qed.

Example C18_chain_nonvacuous :
  accepted ex_crypto ex_chain ex_next [ex_block] /\ since_cancun [ex_block] /\ in_order [ex_block] /\ settled (bc_state ex_chain) /\
  nonce (get_account (bc_state ex_chain) 0xaaaa) = 0 /\ nonce (get_account (bc_state ex_next) 0xaaaa) = 2.
Proof.
  split; [apply ex_accepted|]. split; [constructor; [vm_compute; exact Logic.I|constructor]|].
  split; [by intros [|i] [|j] b1 b2 H1 H2 Hl; try lia|].
  split; [apply ex_settled|]. vm_compute. done.
Qed.
Example C19_chain_nonvacuous :
  has_real_code (bc_state ex_chain) 0xbbbb.
Proof.
  split.
  - by vm_compute.
  - intros (d & E & _). revert E. assert (H : code (get_account (bc_state ex_chain) 0xbbbb) = code_succeeds) by (vm_compute; done).
    rewrite H. by destruct d.
Qed.
Example C36_no_replay_nonvacuous :
  map (tx_id ex_crypto 1) (bl_transactions ex_block) = [Some (0xaaaa, 0); Some (0xaaaa, 1)] /\
  check_transaction ex_crypto ex_be empty_block_output ex_tx1 (bc_state ex_next) = invalid NonceMismatchError.
Proof. vm_compute. done. Qed.
(** 64643 gas at a base fee of 7 are destroyed and 5 Gwei created. *)
Example C48_nonvacuous :
  total_balance (bc_state ex_chain) = 100000000 /\
  total_balance (bc_state ex_next) = 100000000 - 64643 * 7 + 5 * 10 ^ 9.
Proof. vm_compute. done. Qed.
Example C40_nonvacuous :
  exists t, lt_v t = 35 + 2 * 5 /\ 5 <> b_chain_id ex_be /\
  check_transaction ex_crypto ex_be empty_block_output (Legacy t) ex_state
    = invalid InvalidSignatureError /\
  is_done (check_transaction ex_crypto ex_be empty_block_output
    (Legacy (LegacyTx 0 10 100000 (Some 0xbbbb) 5 [] 37 0xaaaa 1)) ex_state, ex_state) = true.
Proof. exists (LegacyTx 0 10 100000 (Some 0xbbbb) 5 [] 45 0xaaaa 1). vm_compute. repeat split; discriminate. Qed.

Definition PropHistory_theorems :=
  (@C18_chain, @C19_chain, @C36_once, @C36_no_replay, @C48_block, @C48_chain, @C40_check_legacy,
   @C40_typed_ignored, @C40_typed_refuted).
Print Assumptions PropHistory_theorems.
