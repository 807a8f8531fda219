(** * PropPowVm: running code in the proof-of-work forks (C73, C74).

    The machine of every fork from Frontier to Gray Glacier never creates ether
    (C73); failing frames are undone and no gas comes from nowhere (C74). *)
From Verif Require Import Base State Rlp Bloom Transactions Trie Blocks Requests Fork Ethash Pow PowTx.
From Verif Require Import Vm Instructions Precompiles Interpreter PowVm StateSpec
  StateProofs NumericProofs ArithProofs EvmStep EvmLocal EvmPlan EvmPlanProofs EvmCallProofs
  EvmFrame EvmRule PowVmPlan PowVmOps PowVmCalls PowVmFrame PowVmRule PowVmInv.
From Verif Require Import EvmExamples PropExec ForkProofs PropRewards PropPowTx PropPowRun PropPowBody PropPowExamples.
From Coq Require Import ZifyBool ZifyN ZifyNat.
Ltac Zify.zify_post_hook ::= idtac.

Section Vm.
  Context (cr : crypto) (n : pow_name) (env : pow_env).
  Notation pm te := (pow_process_message cr n env te).
  Notation pcm te := (pow_process_create_message cr n env te).
  Notation pmc te := (pow_process_message_call cr n env te).

  (** ** C73: ether *)

  (** The total of all balances after a frame, whatever code ran in it and in
      the frames below, is at most the total before; less is left only if some
      account is to be deleted. *)
  Theorem C73_message te i m w e t w' :
    pm te i m w = PPRet e t w' \/ pcm te i m w = PPRet e t w' ->
    total_balance (st w') <= total_balance (st w) /\
    (total_balance (st w') <> total_balance (st w) ->
     e_error e = None /\ exists a, a ∈ e_accounts_to_delete e).
  Proof.
    intros H.
    assert (HP : spends w e w' /\ (e_error e <> None -> total_balance (st w') = total_balance (st w))).
    { destruct H as [H|H].
      - pose proof (prule_message _ _ _ _ _ _ _ _ _ _ i m w (total_rule cr n env te) Logic.I) as R.
        rewrite H in R. apply R.
      - pose proof (prule_create _ _ _ _ _ _ _ _ _ _ i m w (total_rule cr n env te) Logic.I) as R.
        rewrite H in R. apply R. }
    destruct HP as [[H1 H2] H3]. split; [done|]. intros Hne.
    destruct (e_error e); [by destruct Hne; apply H3|]. split; [done|].
    apply set_choose_L. intros E. apply Hne. by apply H2.
  Qed.
  Theorem C73_call te m w o w' : pmc te m w = PCRet o w' ->
    total_balance (st w') <= total_balance (st w) /\
    (total_balance (st w') <> total_balance (st w) ->
     co_error o = None /\ exists a, a ∈ co_accounts_to_delete o).
  Proof.
    intros H. destruct (pow_call_total _ _ _ _ _ _ _ _ H) as [H1 H2]. split; [done|]. intros Hne.
    assert (Hd : co_accounts_to_delete o <> ∅) by (intros E; by apply Hne, H2). split; [|by apply set_choose_L].
    clear -H Hd. unfold pow_process_message_call, pow_finish_call in H.
    repeat match type of H with
    | match ?x with _ => _ end = _ => destruct x; try done
    end; injection H as <- <-; cbn in *; try done.
  Qed.
  Corollary C73_frugal : frugal env (pow_evm cr n).
  Proof.
    intros te m s o s' H. unfold pow_evm in H.
    destruct (pow_process_message_call cr n env te m (World s empty_transient)) as [o1 w1|] eqn:E; [|done].
    injection H as -> <-. by destruct (pow_call_total _ _ _ _ _ _ _ _ E).
  Qed.

  (** A transaction destroys the base fee of the gas paid for and what deleted
      accounts own, and creates nothing. *)
  Theorem C73_transaction bo tx s sender price o s2 r s' :
    pow_transacted cr n env (pow_evm cr n) bo tx s sender price o s2 r s' ->
    let used := gas_paid n tx o in
    total_balance s' + used * base_fee n env <= total_balance s /\
    (co_accounts_to_delete o = ∅ -> total_balance s' + used * base_fee n env = total_balance s).
  Proof.
    intros Ht. pose proof (C71_total _ _ _ _ _ _ _ _ _ _ _ _ _ Ht) as T. cbv zeta in T |- *.
    destruct Ht as (te & m & _ & _ & _ & _ & _ & Ev & _).
    assert (HT : total_balance s2 <= total_balance (charged s sender (tx_gas tx * price)) /\
      (co_accounts_to_delete o = ∅ ->
       total_balance s2 = total_balance (charged s sender (tx_gas tx * price)))).
    { unfold pow_evm in Ev.
      destruct (pow_process_message_call cr n env te m (World _ empty_transient)) as [o1 w1|] eqn:E; [|done].
      injection Ev as -> <-. exact (pow_call_total _ _ _ _ _ _ _ _ E). }
    destruct HT as [H1 H2]. split.
    - revert T. generalize (gas_paid n tx o * base_fee n env). lia.
    - intros Hd. specialize (H2 Hd). rewrite Hd in T. unfold sum_over in T.
      rewrite elements_empty in T. cbn [fold_right] in T. revert T.
      generalize (gas_paid n tx o * base_fee n env). lia.
  Qed.

  (** The transactions of a block, whoever wrote the code they run *)
  Theorem C73_transactions g s txs rs s' :
    pow_sequence cr n env (pow_evm cr n) g s txs rs s' ->
    total_balance s' + base_fee n env * (gas_after g rs - g) <= total_balance s.
  Proof. apply C72_no_mint, C73_frugal. Qed.

  (** ** C74: frames *)

  (** The functions of the model satisfy the recursion of the Python functions:
      no bound on the number of steps or frames shows. *)
  Theorem C74_recursion te i m w :
    pm te i m w = if 1024 <? m_depth m then PPExc (EHalt StackDepthLimitError) w
                  else pow_process_message_body cr n env te i (pm te) (pcm te) m w.
  Proof. apply pow_process_message_eq. Qed.

  (** Only the host language's errors escape from a frame. *)
  Theorem C74_escape te i m w x w' : m_depth m <= 1024 ->
    pm te i m w = PPExc x w' \/ pcm te i m w = PPExc x w' -> exists c, x = ECrash c.
  Proof.
    intros Hd [H|H].
    - pose proof (pmessage_struct cr n env te i m w) as R. rewrite H in R. by apply R.
    - pose proof (pcreate_struct cr n env te i m w) as R. rewrite H in R. by apply R.
  Qed.
  Lemma vm_struct te i m w e t w' :
    pm te i m w = PPRet e t w' \/ pcm te i m w = PPRet e t w' -> ppstruct n m w e w'.
  Proof.
    intros [H|H].
    - pose proof (pmessage_struct cr n env te i m w) as R. by rewrite H in R.
    - pose proof (pcreate_struct cr n env te i m w) as R. by rewrite H in R.
  Qed.

  (** A frame that ends with an error leaves every account, storage slot and open
      transaction as it was. *)
  Theorem C74_failed te i m w e t w' :
    pm te i m w = PPRet e t w' \/ pcm te i m w = PPRet e t w' -> e_error e <> None ->
    same_reads w w' /\ same_snapshots w w'.
  Proof.
    intros H%vm_struct He. destruct (e_error e) as [x|] eqn:Ex; [|done].
    by apply restored_reads, (pps_fail _ _ _ _ _ H x).
  Qed.

  (** A frame leaves at most the gas it got; an exceptional halt leaves none, and
      since Byzantium no output either. *)
  Theorem C74_gas te i m w e t w' :
    pm te i m w = PPRet e t w' \/ pcm te i m w = PPRet e t w' ->
    e_gas_left e <= m_gas m /\
    (forall x, e_error e = Some x -> x = ERevert \/ exists h, x = EHalt h) /\
    (forall h, e_error e = Some (EHalt h) ->
       e_gas_left e = 0 /\ (since Byzantium n = true -> e_output e = [])).
  Proof.
    intros H%vm_struct. split; [apply H|]. split.
    - intros x Hx. destruct (pps_fail _ _ _ _ _ H x Hx) as (_ & Hh & _).
      destruct x; cbn in Hh; eauto; done.
    - intros h Hx. destruct (pps_fail _ _ _ _ _ H _ Hx) as (_ & _ & Hh). by apply (Hh h).
  Qed.

  (** A call from outside that fails changes nothing, refunds nothing, logs
      nothing and deletes nothing. *)
  Theorem C74_failed_call te m w o w' : pmc te m w = PCRet o w' ->
    co_gas_left o <= m_gas m /\
    (co_error o <> None ->
     (same_snapshots w w' /\ main_trie (st w') = main_trie (st w) /\
      storage_tries (st w') = storage_tries (st w)) /\
     co_refund_counter o = 0 /\ co_logs o = [] /\
     co_accounts_to_delete o = ∅ /\ co_touched_accounts o = ∅).
  Proof.
    assert (HF : forall e w1 t', ppstruct n m w e w1 -> pow_finish_call e t' w1 = PCRet o w' ->
      co_gas_left o <= m_gas m /\
      (co_error o <> None ->
       (same_snapshots w w' /\ main_trie (st w') = main_trie (st w) /\
      storage_tries (st w') = storage_tries (st w)) /\
       co_refund_counter o = 0 /\ co_logs o = [] /\
       co_accounts_to_delete o = ∅ /\ co_touched_accounts o = ∅)).
    { intros e w1 t' Hp H. unfold pow_finish_call in H. destruct (e_error e) as [x|] eqn:Ex.
      - injection H as <- <-. cbn. split; [apply Hp|]. intros _. split; [|done].
        destruct (pps_fail _ _ _ _ _ Hp x Ex) as (Hr & _). pose proof (re_main _ _ Hr). pose proof (re_sto _ _ Hr).
        by apply restored_reads in Hr as [_ ?].
      - destruct (_ || _); [done|]. injection H as <- <-. cbn. split; [apply Hp|done]. }
    unfold pow_process_message_call. intros H. destruct (m_target m).
    - destruct (pm te ∅ m w) as [e t w1|] eqn:E; [|done].
      exact (HF e w1 _ (vm_struct _ _ _ _ _ _ _ (or_introl E)) H).
    - destruct (_ || _).
      { injection H as <- <-. cbn. split; [apply N.le_0_l|]. intros _. done. }
      destruct (pcm te ∅ m w) as [e t w1|] eqn:E; [|done].
      exact (HF e w1 _ (vm_struct _ _ _ _ _ _ _ (or_intror E)) H).
  Qed.

  (** A transaction whose message fails changes the sender and the coinbase
      only: the sender's nonce is used up and the gas is paid for. *)
  Theorem C74_failed_transaction bo tx s sender price o s2 r s' a :
    pow_transacted cr n env (pow_evm cr n) bo tx s sender price o s2 r s' ->
    co_error o <> None ->
    pr_logs r = [] /\ gas_paid n tx o = tx_gas tx - co_gas_left o /\
    balance (get_account s' a) + (if decide (a = sender) then gas_paid n tx o * price else 0) =
      balance (get_account s a)
      + (if decide (a = pe_coinbase env) then gas_paid n tx o * (price - base_fee n env) else 0) /\
    nonce (get_account s' a) = nonce (get_account s a) + (if decide (a = sender) then 1 else 0) /\
    code (get_account s' a) = code (get_account s a) /\
    (a <> pe_coinbase env -> storage_tries s' !! a = storage_tries s !! a) /\
    (a <> sender -> a <> pe_coinbase env -> main_trie s' !! a = main_trie s !! a).
  Proof.
    intros Ht He. pose proof (C71_accounts _ _ _ _ _ _ _ _ _ _ _ _ _ a Ht) as HA.
    pose proof (gas_paid_le n tx o) as Hle.
    destruct Ht as (te & m & _ & _ & Ha & _ & _ & Ev & _ & Hs & _ & _ & _ & _ & _ & HL & _).
    pose proof (acceptable_fee cr n env (pow_evm cr n) _ _ _ _ _ Ha) as [Hb Hfee].
    unfold pow_evm in Ev. destruct (pow_process_message_call cr n env te m (World _ empty_transient)) as [o1 w1|] eqn:E; [|done].
    injection Ev as -> <-. apply C74_failed_call in E as [_ E].
    destruct (E He) as ((_ & H3 & H2') & F1 & F2 & F3 & F4). clear E.
    rewrite F3 in HA. rewrite decide_False in HA by (clear; set_solver).
    assert (Hg : gas_paid n tx o = tx_gas tx - co_gas_left o).
    { unfold gas_paid. rewrite F1. rewrite N.min_0_r. lia. }
    split; [congruence|]. split; [exact Hg|]. rewrite HA. clear HA.
    cbn [st] in H3.
    assert (HG : get_account (st w1) a = get_account (charged s sender (tx_gas tx * price)) a).
    { rewrite !get_lookup. by rewrite H3. }
    assert (HC : get_account (charged s sender (tx_gas tx * price)) a =
      if decide (a = sender) then Account (nonce (get_account s a) + 1)
        (balance (get_account s a) - tx_gas tx * price) (code (get_account s a)) else get_account s a).
    { rewrite !get_lookup. cbn [charged main_trie]. destruct (decide (a = sender)) as [->|Hn].
      - rewrite lookup_insert. cbn [default from_option id]. by rewrite <- get_lookup.
      - by rewrite lookup_insert_ne by done. }
    assert (HM : (tx_gas tx - gas_paid n tx o) * price + gas_paid n tx o * price = tx_gas tx * price).
    { rewrite <- N.mul_add_distr_r. f_equal. lia. }
    clear Hg. set (used := gas_paid n tx o) in *. clearbody used.
    unfold credit. rewrite HG, HC. cbn [balance nonce code].
    split.
    { destruct (decide (a = sender)) as [->|]; cbn [balance]; [|lia]. lia. }
    split. { destruct (decide (a = sender)); cbn [nonce]; lia. }
    split. { by destruct (decide (a = sender)). }
    destruct Hs as [Hm Hst _]. split.
    - intros Hc. rewrite Hst. rewrite decide_False.
      + by rewrite H2'.
      + rewrite F3. unfold cleared. rewrite F4. clear -Hc. set_solver.
    - intros Hn Hc. rewrite Hm. rewrite decide_False.
      + rewrite H3. cbn [charged main_trie]. rewrite lookup_insert_ne by done.
        unfold credit. rewrite HG, HC.
        rewrite (decide_False (P := a = sender)), (decide_False (P := a = pe_coinbase env)) by done.
        destruct (decide (a = sender \/ _)) as [[?|[?|i]]|Hx]; [done|done| |].
        * rewrite get_lookup. destruct (main_trie s !! a) as [[]|]; [|by destruct i]. cbn. rewrite decide_False by done. do 2 f_equal. lia.
        * destruct (main_trie s !! a) eqn:Q; [|done]. exfalso. apply Hx. right. right. by eexists.
      + rewrite F3. unfold cleared. rewrite F4. clear -Hc. set_solver.
  Qed.
End Vm.

(** A block, whatever its transactions run: the supply grows by the rewards at
    most, less the base fee of all the gas used. *)
Theorem C73_block cr k512 n c b c' : lenN (pb_transactions b) < 2 ^ 256 ->
  pow_state_transition cr k512 n (pow_evm cr n) c b = (Done tt, c') ->
  exists env, describes cr n c (pb_header b) env /\
    total_balance (pc_state c') + base_fee n env * ph_gas_used (pb_header b)
    <= total_balance (pc_state c)
       + paid (payments (pf_block_reward (fork_of n)) (ph_number (pb_header b))
                 (ph_coinbase (pb_header b)) (pb_ommers b)).
Proof.
  intros Hl H.
  destruct (C72_block cr n (pow_evm cr n) k512 c b c' Hl H)
    as (env & txs & rs & ts & rcs & s & H1 & _ & _ & _ & _ & _ & _ & _ & _ & _ & _ & _ & Hf & _).
  exists env. split; [done|]. apply Hf, C73_frugal.
Qed.

(** ** Concrete cases *)

(** A contract that calls another with 3 wei and stores whether that succeeded;
    the other destroys itself for the benefit of a third address, or reverts
    (FD, an unknown instruction before Byzantium). *)
Definition ex_caller_code : bytes :=
  bs [0x60; 0; 0x60; 0; 0x60; 0; 0x60; 0; 0x60; 3; 0x60; 0xbb; 0x61; 0x75; 0x30; 0xf1; 0x60; 1; 0x01; 0x60; 0; 0x55; 0].
Definition ex_destroy_code : bytes := bs [0x60; 0xdd; 0xff].
Definition ex_revert_code : bytes := bs [0x60; 0; 0x60; 0; 0xfd].
Definition ex_vm_state (callee : bytes) : state :=
  State {[ ex_sender := Account 5 10000000 []; 0xaa := Account 1 100 ex_caller_code;
           0xbb := Account 1 50 callee ]} ∅ [] ∅.
Definition ex_vm_tx : transaction :=
  Legacy (LegacyTx 5 10 99000 (Some 0xaa) 7 [] 27 11 12).
Definition ex_vm_run (n : pow_name) (callee : bytes) :=
  match pow_process_transaction one_key_crypto (rules_of n) ex_run_env (pow_evm one_key_crypto n)
          empty_pow_block_output ex_vm_tx 0 (ex_vm_state callee) with
  | (Done bo, s) => Some (pbo_block_gas_used bo,
      map (fun a => balance (get_account s a)) [0xaa; 0xbb; 0xdd],
      get_storage s 0xaa 0, account_exists s 0xbb, total_balance s)
  | _ => None
  end.
Example C73_nonvacuous :
  ex_vm_run Frontier ex_destroy_code = Some (23887, [104; 0; 53], 2, false, 10000150) /\
  ex_vm_run Istanbul ex_destroy_code = Some (54433, [104; 0; 53], 2, false, 10000150) /\
  ex_vm_run London ex_destroy_code = Some (84730, [107; 50; 0], 1, true, 10000150 - 84730 * 3).
Proof. vm_compute. repeat split. Qed.
(** REVERT keeps the gas of the inner frame from Byzantium on; before, the
    unknown instruction takes it. *)
Example C74_nonvacuous :
  ex_vm_run SpuriousDragon ex_revert_code = Some (80730, [107; 50; 0], 1, true, 10000150) /\
  ex_vm_run Byzantium ex_revert_code = Some (48436, [107; 50; 0], 1, true, 10000150).
Proof. vm_compute. repeat split. Qed.
(** A transaction that fails as a whole *)
Example C74_failed_nonvacuous :
  match pow_process_transaction one_key_crypto (rules_of Homestead) ex_run_env (pow_evm one_key_crypto Homestead)
          empty_pow_block_output (Legacy (LegacyTx 5 10 30000 (Some 0xaa) 7 [] 27 11 12)) 0
          (ex_vm_state ex_destroy_code) with
  | (Done bo, s) => Some (pbo_block_gas_used bo,
      map (fun a => balance (get_account s a)) [ex_sender; 0xaa; 0xbb; 0xc0], nonce (get_account s ex_sender))
  | _ => None
  end = Some (30000, [10000000 - 300000; 100; 50; 300000], 6).
Proof. vm_compute. reflexivity. Qed.

Definition PropPowVm_theorems :=
  (@C73_message, @C73_call, @C73_frugal, @C73_transaction, @C73_transactions, @C73_block,
   @C74_recursion, @C74_escape, @C74_failed, @C74_gas, @C74_failed_call, @C74_failed_transaction).
Print Assumptions PropPowVm_theorems.
