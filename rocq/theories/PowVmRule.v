(** * PowVmRule: an induction rule for frames of the proof-of-work forks.

    As [EvmRule], with three additions: the accounts touched by a frame, the
    deletions inherited from its callers, and a predicate [X] that bounds the
    exceptions which can escape. *)
From Verif Require Import Base State Rlp Bloom Transactions Trie Blocks Requests Fork Ethash Pow PowTx.
From Verif Require Import Vm Instructions Precompiles Interpreter PowVm StateSpec
  StateProofs NumericProofs ArithProofs EvmStep EvmLocal EvmPlan EvmPlanProofs EvmCallProofs
  EvmFrame EvmRule PowVmPlan PowVmOps PowVmCalls PowVmFrame.
From Coq Require Import ZifyBool ZifyN ZifyNat.
Ltac Zify.zify_post_hook ::= idtac.

Local Opaque to_u256 from_be_bytes calculate_memory_gas_cost ceil32 N.compare.

(** Facts about the result of a message call. *)
Record ppstruct (n : pow_name) (m : message) (w0 : world) (e : evm) (w : world) : Prop := {
  pps_msg : e_message e = m;
  pps_gas : e_gas_left e <= m_gas m;
  pps_snap : snapshots (st w) = snapshots (st w0);
  pps_tsnap : ts_snapshots (ts w) = ts_snapshots (ts w0);
  pps_created : snapshots (st w0) <> [] -> created_accounts (st w0) ⊆ created_accounts (st w);
  pps_fail : forall x, e_error e = Some x ->
    restored w0 w /\ handled x /\
    (forall h, x = EHalt h -> e_gas_left e = 0 /\ (since Byzantium n = true -> e_output e = []));
  pps_aa : e_error e = None -> m_accessed_addresses m ⊆ e_accessed_addresses e;
  pps_ak : e_error e = None -> m_accessed_storage_keys m ⊆ e_accessed_storage_keys e;
}.

(** ** State facts *)
Lemma modify_account_inv s a f s' : modify_account s a f = Ok s' ->
  exists acc, f (get_account s a) = Ok acc /\ s' = set_account s a (Some acc).
Proof. unfold modify_account. destruct (f _) as [acc|]; [|done]. intros [= <-]. eauto. Qed.
Lemma modify_account_frame s a f s' : modify_account s a f = Ok s' ->
  snapshots s' = snapshots s /\ created_accounts s' = created_accounts s /\
  storage_tries s' = storage_tries s.
Proof. intros (acc & _ & ->)%modify_account_inv. done. Qed.
Lemma touch_account_frame s a :
  snapshots (touch_account s a) = snapshots s /\
  created_accounts (touch_account s a) = created_accounts s /\
  storage_tries (touch_account s a) = storage_tries s.
Proof. unfold touch_account. by destruct (account_exists s a). Qed.
Lemma move_ether_pow_frame s a b k s' : move_ether_pow s a b k = Ok s' ->
  snapshots s' = snapshots s /\ created_accounts s' = created_accounts s /\
  storage_tries s' = storage_tries s.
Proof.
  unfold move_ether_pow. destruct (modify_account s a _) as [s1|] eqn:E; [|done]. intros H.
  apply modify_account_frame in H as (H1 & H2 & H3). apply modify_account_frame in E as (E1 & E2 & E3).
  split_and!; congruence.
Qed.
Lemma ptransfer_frame m w s : ptransfer m w = Ok s ->
  snapshots s = snapshots (st w) /\ created_accounts s = created_accounts (st w) /\
  storage_tries s = storage_tries (st w).
Proof.
  unfold ptransfer. cbv zeta. destruct (touch_account_frame (st w) (m_current_target m)) as (H1 & H2 & H3).
  destruct (_ && _).
  - intros (E1 & E2 & E3)%move_ether_pow_frame. split_and!; congruence.
  - by intros [= <-].
Qed.

Lemma peffect_frame n inh o e w t e' w' : peffect n inh o e w t e' w' ->
  snapshots (st w') = snapshots (st w) /\ ts w' = ts w /\
  created_accounts (st w') = created_accounts (st w).
Proof.
  intros [Hw _ _ _|? ? ? ? _ _ _ Hs Hw _ _ _ _ _ _|? ? ? _ _ _ Hm Hd Hw _ _ _ _ _|? _ _ Hn Hw _ _ _ _].
  - by subst.
  - subst w'. cbn. by apply set_storage_frame in Hs as (? & ? & _).
  - subst w'. cbn. unfold pow_set_account_balance in Hm, Hd.
    apply modify_account_frame in Hm as (Hm1 & Hm2 & _).
    apply modify_account_frame in Hd as (Hd1 & Hd2 & _). split_and!; congruence.
  - subst w'. cbn. unfold pow_increment_nonce in Hn. by apply modify_account_frame in Hn as (? & ? & _).
Qed.

Lemma pcreate_entry_frame n w a w3 : pcreate_entry n w a = Ok w3 ->
  snapshots (st w3) = (main_trie (st w), storage_tries (st w)) :: snapshots (st w) /\
  ts w3 = ts (begin_transaction w) /\
  created_accounts (st w) ⊆ created_accounts (st w3).
Proof.
  unfold pcreate_entry. cbv zeta.
  set (s1 := destroy_storage _ a). set (s2 := if since Istanbul n then _ else s1).
  assert (Hs1 : snapshots s1 = (main_trie (st w), storage_tries (st w)) :: snapshots (st w) /\
    created_accounts s1 = created_accounts (st w)).
  { unfold s1. rewrite destroy_storage_snapshots, destroy_storage_created. done. }
  assert (Hs2 : snapshots s2 = (main_trie (st w), storage_tries (st w)) :: snapshots (st w) /\
    created_accounts (st w) ⊆ created_accounts s2).
  { unfold s2. destruct Hs1 as [H1 H2]. destruct (since Istanbul n); cbn; rewrite H1, H2; set_solver. }
  destruct (since SpuriousDragon n).
  - destruct (pow_increment_nonce s2 a) as [s|] eqn:E; [|done]. intros [= <-].
    unfold pow_increment_nonce in E. apply modify_account_frame in E as (E1 & E2 & _). cbn. rewrite E1, E2. tauto.
  - intros [= <-]. cbn. tauto.
Qed.

(** ** The rule *)
Section Rule.
  Context (cr : crypto) (n : pow_name) (env : pow_env) (te : tx_env).
  Notation be := (pow_block_env env).
  Notation pdone_ok := (pdone_ok cr n env te).
  Notation pcall_ok := (pcall_ok n).
  Notation pcreate_ok := (pcreate_ok cr n).
  Notation pat_op := (pat_op n).
  Notation pcreate_entry := (pcreate_entry n).
  Notation ppstruct := (ppstruct n).
  Notation pfrun := (pfrun cr n env te).
  Notation pxrun := (pxrun cr n env te).
  Notation plrun := (plrun cr n env te).
  Notation pcrun := (pcrun cr n env te).

  Notation finv := (gset address -> message -> world -> evm -> gset address -> world -> Prop).

  (** How a frame ended with an error: from some configuration of its loop,
      by an exceptional halt or by REVERT; [w] is the world after rollback. *)
  Definition perr_info (I : finv) (i : gset address) (m : message) (w0 : world) (e : evm)
      (t : gset address) (w : world) : Prop :=
    exists e0 w1, fstruct m w0 e0 w1 /\ I i m w0 e0 t w1 /\ rollback_transaction w1 = Ok w /\
      ((exists h, e_error e = Some (EHalt h)) /\ (e_output e = e_output e0 \/ e_output e = []) \/
       (exists e1, pat_op e0 REVERT /\
          pdone_ok i REVERT e0 w1 (Exc ERevert e1 w1) /\ e = set_error (Some ERevert) e1)).

  Record pframe_rule (X : exn -> Prop) (Pre CPre : gset address -> message -> world -> Prop)
      (I Post CPost : finv) : Prop := {
    q_move : forall i m w c,
      Pre i m w -> m_depth m <= 1024 -> ptransfer m (begin_transaction w) = Raise c ->
      X (ECrash c);
    q_start : forall i m w s1,
      Pre i m w -> m_depth m <= 1024 -> ptransfer m (begin_transaction w) = Ok s1 ->
      I i m w (init_evm m) ∅ (set_st s1 (begin_transaction w));
    q_pre : forall i m w0 w a p e',
      Pre i m w0 -> fstruct m w0 (init_evm m) w -> I i m w0 (init_evm m) ∅ w ->
      m_code_address m = Some a -> pow_precompile cr n a = Some p ->
      p (init_evm m) w = Ret tt e' w ->
      pre_res cr be te (init_evm m) w (Ret tt e' w) -> I i m w0 e' ∅ w;
    q_prex : forall i m w0 w a p e',
      Pre i m w0 -> fstruct m w0 (init_evm m) w -> I i m w0 (init_evm m) ∅ w ->
      m_code_address m = Some a -> pow_precompile cr n a = Some p ->
      p (init_evm m) w = Exc (ECrash OverflowError) e' w ->
      modexp_overflow (m_data m) -> X (ECrash OverflowError);
    q_done : forall i m w0 e t w o t1 e' w',
      Pre i m w0 -> fstruct m w0 e w -> I i m w0 e t w -> pat_op e o ->
      pdone_ok i o e w (Ret t1 e' w') -> fstruct m w0 e' w' -> I i m w0 e' (t ∪ t1) w';
    q_exc : forall i m w0 e t w o x e',
      Pre i m w0 -> fstruct m w0 e w -> I i m w0 e t w -> pat_op e o ->
      pdone_ok i o e w (Exc x e' w) -> ~ handled x -> X x;
    q_call : forall i m w0 e t w o m' e1 os oz,
      Pre i m w0 -> fstruct m w0 e w -> I i m w0 e t w -> pat_op e o ->
      pcall_ok o e w m' e1 os oz ->
      let i' := e_accounts_to_delete e1 ∪ i in
      Pre i' m' w /\
      forall c tc w1, ppstruct m' w c w1 -> Post i' m' w c tc w1 ->
        (forall e2 w2, resume_call e1 os oz c w1 = Ret tt e2 w2 -> fstruct m w0 e2 w2 ->
           I i m w0 e2 (t ∪ touched_by_child n c tc (st w1)) w2) /\
        (forall x e2 w2, resume_call e1 os oz c w1 = Exc x e2 w2 -> X x);
    q_create : forall i m w0 e t w o m' e1 wi,
      Pre i m w0 -> fstruct m w0 e w -> I i m w0 e t w -> pat_op e o ->
      pcreate_ok o e w m' e1 wi ->
      let i' := e_accounts_to_delete e1 ∪ i in
      CPre i' m' wi /\
      forall c tc w1, ppstruct m' wi c w1 -> CPost i' m' wi c tc w1 ->
        (forall e2 w2, resume_create e1 c w1 = Ret tt e2 w2 -> fstruct m w0 e2 w2 ->
           I i m w0 e2 (t ∪ touched_by_child n c tc (st w1)) w2) /\
        (forall x e2 w2, resume_create e1 c w1 = Exc x e2 w2 -> X x);
    q_fail : forall i m w0 e t w,
      Pre i m w0 -> ppstruct m w0 e w -> e_error e <> None -> perr_info I i m w0 e t w ->
      Post i m w0 e t w;
    q_ok : forall i m w0 e t w w3,
      Pre i m w0 -> fstruct m w0 e w -> I i m w0 e t w -> commit_transaction w = Ok w3 ->
      ppstruct m w0 e w3 -> Post i m w0 e t w3;
    q_entry : forall i m w w3,
      CPre i m w -> pcreate_entry w (m_current_target m) = Ok w3 -> Pre i m w3;
    q_cfail : forall i m w w3 e t w4 e' w5,
      CPre i m w -> pcreate_entry w (m_current_target m) = Ok w3 ->
      ppstruct m w3 e w4 -> Post i m w3 e t w4 ->
      rollback_transaction w4 = Ok w5 ->
      ppstruct m w e' w5 -> restored w w5 -> e_error e' <> None ->
      (e' = e \/ e_error e = None /\ (e_output e' = e_output e \/ e_output e' = [])) ->
      CPost i m w e' t w5;
    q_cbare : forall i m w w3 e t w4 h e' w6,
      CPre i m w -> pcreate_entry w (m_current_target m) = Ok w3 ->
      ppstruct m w3 e w4 -> Post i m w3 e t w4 -> e_error e = None ->
      pow_deposit n e = (Some h, e') -> since Homestead n = false ->
      commit_transaction w4 = Ok w6 -> ppstruct m w (set_output [] e') w6 ->
      CPost i m w (set_output [] e') t w6;
    q_cok : forall i m w w3 e t w4 e' s5 w6,
      CPre i m w -> pcreate_entry w (m_current_target m) = Ok w3 ->
      ppstruct m w3 e w4 -> Post i m w3 e t w4 -> e_error e = None ->
      pow_deposit n e = (None, e') ->
      pow_set_code (st w4) (m_current_target m) (e_output e) = Ok s5 ->
      commit_transaction (set_st s5 w4) = Ok w6 -> ppstruct m w e' w6 ->
      CPost i m w e' t w6;
  }.

  Lemma pfstruct_step i m w0 e w o t1 e' w' :
    fstruct m w0 e w -> pdone_ok i o e w (Ret t1 e' w') -> fstruct m w0 e' w'.
  Proof.
    intros [] [Hl He]. apply peffect_frame in He as (H1 & H2 & H3).
    destruct Hl. constructor; try congruence.
    - by constructor.
    - lia.
    - by etrans.
    - by etrans.
    - by rewrite H3.
  Qed.
  Lemma pfstruct_call m w0 e w o m' e1 os oz c w1 e2 w2 :
    fstruct m w0 e w -> pcall_ok o e w m' e1 os oz -> ppstruct m' w c w1 ->
    resume_call e1 os oz c w1 = Ret tt e2 w2 -> fstruct m w0 e2 w2.
  Proof.
    intros Hf Hc Hp Hr.
    destruct (presume_call_shape _ _ _ _ _ _ _ _ _ _ _ _ Hc Hr) as (R1 & R2 & R3 & R4 & R5 & R6 & R7 & R8 & R9 & R10).
    destruct (resume_call_sets _ _ _ _ _ _ _ Hr) as (_ & Rs).
    pose proof (resume_call_gas e1 os oz c w1) as Rg. rewrite Hr in Rg.
    destruct (pco_wait _ _ _ _ _ _ _ _ Hc) as []. destruct Hf, Hp. subst w2.
    assert (Hne : snapshots (st w) <> []) by (by rewrite fs_snap).
    constructor; try congruence.
    - rewrite Rg, R4. lia.
    - destruct (e_error c); destruct Rs as (-> & _); [|apply union_subseteq_l']; by etrans.
    - destruct (e_error c); destruct Rs as (_ & -> & _); [|apply union_subseteq_l']; by rewrite wa_ak.
    - etrans; [exact fs_created|]. by apply pps_created0.
  Qed.
  Lemma pfstruct_create m w0 e w o m' e1 wi c w1 e2 w2 :
    fstruct m w0 e w -> pcreate_ok o e w m' e1 wi -> ppstruct m' wi c w1 ->
    resume_create e1 c w1 = Ret tt e2 w2 -> fstruct m w0 e2 w2.
  Proof.
    intros Hf Hc Hp Hr.
    destruct (presume_create_shape _ _ _ _ _ _ _ _ _ _ _ _ Hc Hr) as (R1 & R2 & R3 & R4 & R5 & R6 & R7 & R8 & R9 & R10).
    destruct (resume_create_sets _ _ _ _ _ Hr) as (_ & Rs).
    pose proof (resume_create_gas e1 c w1) as Rg. rewrite Hr in Rg.
    destruct (pcr_nonce _ _ _ _ _ _ _ _ Hc) as (s1 & Hn & Hw).
    unfold pow_increment_nonce in Hn. apply modify_account_frame in Hn as (Hn1 & Hn2 & _).
    assert (Hwi : snapshots (st wi) = snapshots (st w) /\ ts wi = ts w /\
      created_accounts (st wi) = created_accounts (st w)) by (by subst wi).
    destruct Hwi as (Hwi1 & Hwi2 & Hwi3).
    destruct (pcr_wait _ _ _ _ _ _ _ _ Hc) as []. destruct Hf, Hp. subst w2.
    assert (Hne : snapshots (st wi) <> []) by (by rewrite Hwi1, fs_snap).
    constructor; try congruence.
    - rewrite Rg, R4. lia.
    - destruct (e_error c); destruct Rs as (-> & _); [|apply union_subseteq_l']; by etrans.
    - destruct (e_error c); destruct Rs as (_ & -> & _); [|apply union_subseteq_l']; by rewrite wa_ak.
    - etrans; [exact fs_created|]. rewrite <- Hwi3. by apply pps_created0.
  Qed.

  Lemma pfstruct_init m w s1 : ptransfer m (begin_transaction w) = Ok s1 ->
    fstruct m w (init_evm m) (set_st s1 (begin_transaction w)).
  Proof.
    intros H. apply ptransfer_frame in H as (H1 & H2 & _).
    constructor; try done.
    - by rewrite N.add_0_r.
    - cbn. by rewrite H2.
  Qed.

  Lemma ppstruct_ok m w0 e w w3 :
    fstruct m w0 e w -> commit_transaction w = Ok w3 -> ppstruct m w0 e w3.
  Proof.
    intros [] Hc. destruct (commit_frame w0 w w3 fs_snap fs_tsnap Hc) as (H1 & H2 & H3 & H4 & H5 & H6).
    constructor; try done; try congruence.
    - lia.
    - intros Hne. by rewrite (H6 Hne).
  Qed.

  Lemma pow_deposit_eq e h e' : pow_deposit n e = (h, e') ->
    exists g, g <= e_gas_left e /\ e' = set_gas_left g e.
  Proof.
    unfold pow_deposit. intros H.
    repeat match type of H with context [if ?b then _ else _] => destruct b end;
      injection H as <- <-;
      first [exists (e_gas_left e); split; [done|by destruct e]|eexists; split; [|done]; lia].
  Qed.

  Lemma prollback_entry m w w3 e w4 w5 :
    pcreate_entry w (m_current_target m) = Ok w3 -> ppstruct m w3 e w4 ->
    rollback_transaction w4 = Ok w5 -> restored w w5.
  Proof.
    intros H1 [] H2. destruct (pcreate_entry_frame _ _ _ _ H1) as (E1 & E2 & E3).
    eapply rollback_restored; [..|exact H2].
    - congruence.
    - rewrite pps_tsnap0, E2. done.
    - etrans; [exact E3|]. apply pps_created0. by rewrite E1.
  Qed.

  Definition snap_ok (w0 w : world) : Prop :=
    snapshots (st w) = (main_trie (st w0), storage_tries (st w0)) :: snapshots (st w0) /\
    ts_snapshots (ts w) = ts_tries (ts w0) :: ts_snapshots (ts w0).

  Lemma snap_no_pop w0 w c :
    snap_ok w0 w -> rollback_transaction w = Raise c \/ commit_transaction w = Raise c -> False.
  Proof.
    intros [H1 H2]. unfold rollback_transaction, commit_transaction. rewrite H1, H2.
    by intros [|].
  Qed.

  Theorem pframe_rule_sound X Pre CPre I Post CPost :
    pframe_rule X Pre CPre I Post CPost ->
    (forall i m w r, pfrun i m w r -> Pre i m w ->
       match r with
       | PPRet e t w' => ppstruct m w e w' /\ Post i m w e t w'
       | PPExc x _ => m_depth m <= 1024 -> X x /\ ~ handled x
       end) /\
    (forall i m w r, pxrun i m w r -> forall w0, Pre i m w0 -> fstruct m w0 (init_evm m) w ->
       I i m w0 (init_evm m) ∅ w ->
       match r with
       | PPRet e t w' =>
           snap_ok w0 w' /\
           (e_error e = None -> fstruct m w0 e w' /\ I i m w0 e t w') /\
           (forall x, e_error e = Some x ->
             (forall w3, rollback_transaction w' = Ok w3 ->
                restored w0 w3 /\ ppstruct m w0 e w3 /\ perr_info I i m w0 e t w3))
       | PPExc x _ => X x /\ ~ handled x
       end) /\
    (forall i e t w ox e' t' w', plrun i e t w ox e' t' w' ->
       forall m w0, Pre i m w0 -> fstruct m w0 e w -> I i m w0 e t w ->
       match ox with
       | None => fstruct m w0 e' w' /\ I i m w0 e' t' w'
       | Some x =>
           (handled x ->
            e_message e' = m /\ e_gas_left e' <= m_gas m /\
            exists e0, fstruct m w0 e0 w' /\ I i m w0 e0 t' w' /\
              (x = ERevert -> pat_op e0 REVERT /\ pdone_ok i REVERT e0 w' (Exc ERevert e' w')) /\
              (x <> ERevert -> e_output e' = e_output e0)) /\
           (~ handled x -> X x)
       end) /\
    (forall i m w r, pcrun i m w r -> CPre i m w ->
       match r with
       | PPRet e t w' => ppstruct m w e w' /\ CPost i m w e t w'
       | PPExc x _ => m_depth m <= 1024 -> X x /\ ~ handled x
       end).
  Proof.
    intros R.
    apply (prun_mutind cr n env te
      (fun i m w r _ => Pre i m w ->
       match r with
       | PPRet e t w' => ppstruct m w e w' /\ Post i m w e t w'
       | PPExc x _ => m_depth m <= 1024 -> X x /\ ~ handled x
       end)
      (fun i m w r _ => forall w0, Pre i m w0 -> fstruct m w0 (init_evm m) w ->
       I i m w0 (init_evm m) ∅ w ->
       match r with
       | PPRet e t w' =>
           snap_ok w0 w' /\
           (e_error e = None -> fstruct m w0 e w' /\ I i m w0 e t w') /\
           (forall x, e_error e = Some x ->
             (forall w3, rollback_transaction w' = Ok w3 ->
                restored w0 w3 /\ ppstruct m w0 e w3 /\ perr_info I i m w0 e t w3))
       | PPExc x _ => X x /\ ~ handled x
       end)
      (fun i e t w ox e' t' w' _ => forall m w0, Pre i m w0 -> fstruct m w0 e w ->
       I i m w0 e t w ->
       match ox with
       | None => fstruct m w0 e' w' /\ I i m w0 e' t' w'
       | Some x =>
           (handled x ->
            e_message e' = m /\ e_gas_left e' <= m_gas m /\
            exists e0, fstruct m w0 e0 w' /\ I i m w0 e0 t' w' /\
              (x = ERevert -> pat_op e0 REVERT /\ pdone_ok i REVERT e0 w' (Exc ERevert e' w')) /\
              (x <> ERevert -> e_output e' = e_output e0)) /\
           (~ handled x -> X x)
       end)
      (fun i m w r _ => CPre i m w ->
       match r with
       | PPRet e t w' => ppstruct m w e w' /\ CPost i m w e t w'
       | PPExc x _ => m_depth m <= 1024 -> X x /\ ~ handled x
       end)).
    - (* PF_deep *) intros. lia.
    - (* PF_move *)
      intros i m w c w' Hd Ht Hp _. split; [|by intros []].
      by eapply (q_move _ _ _ _ _ _ R).
    - (* PF_raise *)
      intros i m w s1 x w2 Hd Ht Hx IH Hp _.
      exact (IH w Hp (pfstruct_init _ _ _ Ht) (q_start _ _ _ _ _ _ R _ _ _ _ Hp Hd Ht)).
    - (* PF_fail *)
      intros i m w s1 e t x w2 w3 Hd Ht Hx IH He Hr Hp.
      destruct (IH w Hp (pfstruct_init _ _ _ Ht) (q_start _ _ _ _ _ _ R _ _ _ _ Hp Hd Ht))
        as (_ & _ & IH2).
      destruct (IH2 _ He _ Hr) as (_ & Hps & Hi).
      split; [done|]. eapply (q_fail _ _ _ _ _ _ R); eauto. by rewrite He.
    - (* PF_ok *)
      intros i m w s1 e t w2 w3 Hd Ht Hx IH He Hr Hp.
      destruct (IH w Hp (pfstruct_init _ _ _ Ht) (q_start _ _ _ _ _ _ R _ _ _ _ Hp Hd Ht))
        as (_ & IH1 & _).
      destruct (IH1 He) as [Hf Hi]. pose proof (ppstruct_ok _ _ _ _ _ Hf Hr) as Hps.
      split; [done|]. exact (q_ok _ _ _ _ _ _ R _ _ _ _ _ _ _ Hp Hf Hi Hr Hps).
    - (* PF_pop *)
      intros i m w s1 e t w2 c Hd Ht Hx IH Hpop Hp _. exfalso.
      destruct (IH w Hp (pfstruct_init _ _ _ Ht) (q_start _ _ _ _ _ _ R _ _ _ _ Hp Hd Ht))
        as (Hs & _). by eapply snap_no_pop.
    - (* PX_pre *)
      intros i m w a p Ha Hpa w0 Hp Hf Hi.
      pose proof (ppre_spec cr n env te a p (init_evm m) w Hpa) as Hr.
      destruct (p (init_evm m) w) as [[] e' w'|x e' w'] eqn:Ep.
      + assert (w' = w) as -> by apply Hr.
        pose proof (fstruct_pre cr be te _ _ _ _ Hf Hr) as Hf'. split; [|split].
        * split; [apply (fs_snap _ _ _ _ Hf)|apply (fs_tsnap _ _ _ _ Hf)].
        * intros _. split; [done|]. exact (q_pre _ _ _ _ _ _ R _ _ _ _ _ _ _ Hp Hf Hi Ha Hpa Ep Hr).
        * intros x Hx. rewrite (fs_err _ _ _ _ Hf') in Hx. done.
      + destruct Hr as (-> & [[h ->]|[-> Hov]] & He' & _).
        2:{ split; [|by intros []]. exact (q_prex _ _ _ _ _ _ R _ _ _ _ _ _ _ Hp Hf Hi Ha Hpa Ep Hov). }
        rewrite He'. unfold pow_handle_exn. pose proof Hf as [_ _ _ _ _ _ _ _ S1 S2 S3].
        split; [by split|]. split; [by destruct (since Byzantium n); intros [=]|].
        intros x Hx w3 Hw3.
        assert (x = EHalt h) as -> by (by destruct (since Byzantium n); injection Hx).
        pose proof (rollback_restored _ _ _ S1 S2 S3 Hw3) as Hre. split; [done|]. split.
        * pose proof Hre as []. destruct (since Byzantium n);
          (constructor; cbn; try done; try congruence; [lia|]);
          (intros ? [= <-]; split_and!; done).
        * exists (init_evm m), w. split_and!; try done. left. split; [by exists h|].
          by destruct (since Byzantium n); [right|left].
    - (* PX_loop *)
      intros i m w ox e' t' w' Hl IH w0 Hp Hf Hi. specialize (IH _ _ Hp Hf Hi).
      destruct ox as [x|]; cbn [ploop_end].
      2: { destruct IH as [IH1 IH2]. split; [split; [apply (fs_snap _ _ _ _ IH1)|apply (fs_tsnap _ _ _ _ IH1)]|].
        split; [done|]. intros x Hx. rewrite (fs_err _ _ _ _ IH1) in Hx. done. }
      destruct IH as [IH IHX].
      destruct x as [h| |c| |]; cbn [pow_handle_exn];
        try (split; [apply IHX|]; by intros []).
      + destruct (IH Logic.I) as (I1 & I2 & e0 & I3 & I4 & _ & I6).
        split; [split; [apply (fs_snap _ _ _ _ I3)|apply (fs_tsnap _ _ _ _ I3)]|].
        split; [by destruct (since Byzantium n), e'; intros [=]|].
        intros x Hx w3 Hw3.
        assert (x = EHalt h) as -> by (by destruct (since Byzantium n), e'; injection Hx).
        pose proof (rollback_restored _ _ _ (fs_snap _ _ _ _ I3) (fs_tsnap _ _ _ _ I3)
          (fs_created _ _ _ _ I3) Hw3) as Hre.
        split; [done|]. split.
        * pose proof Hre as []. destruct (since Byzantium n) eqn:Eb, e'; cbn in *;
          (constructor; cbn; try done; try congruence; [lia|]);
          (intros ? [= <-]; split_and!; try done);
          (intros ? _; split; [done|]; congruence).
        * exists e0, w'. split_and!; try done. left. split; [exists h; by destruct e'|].
          specialize (I6 ltac:(done)). destruct (since Byzantium n), e'; cbn in *; [by right|by left].
      + destruct (IH Logic.I) as (I1 & I2 & e0 & I3 & I4 & I5 & _).
        split; [split; [apply (fs_snap _ _ _ _ I3)|apply (fs_tsnap _ _ _ _ I3)]|].
        split; [by destruct e'; intros [=]|]. intros x Hx w3 Hw3.
        assert (x = ERevert) as -> by (by destruct e'; injection Hx).
        pose proof (rollback_restored _ _ _ (fs_snap _ _ _ _ I3) (fs_tsnap _ _ _ _ I3)
          (fs_created _ _ _ _ I3) Hw3) as Hre.
        split; [done|]. split.
        * pose proof Hre as []. destruct e'; cbn in *.
          constructor; cbn; try done; try congruence.
          intros x [= <-]. split_and!; done.
        * destruct (I5 eq_refl) as [H1 H2].
          exists e0, w'. split_and!; try done. right. by eexists.
    - (* PL_end *)
      intros i e t w _ m w0 Hp Hf Hi. done.
    - (* PL_bad *)
      intros i e t w h m w0 Hp Hf Hi. split; [|by intros []]. intros _. pose proof Hf as [].
      split_and!; [done|lia|]. by exists e.
    - (* PL_done *)
      intros i e t w o t1 e1 w1 ox e' t' w' Ha Hd Hl IH m w0 Hp Hf Hi.
      pose proof (pfstruct_step _ _ _ _ _ _ _ _ _ Hf Hd) as Hf'.
      apply (IH m w0 Hp Hf'). exact (q_done _ _ _ _ _ _ R _ _ _ _ _ _ _ _ _ _ Hp Hf Hi Ha Hd Hf').
    - (* PL_exc *)
      intros i e t w o x e' w' Ha Hd Hout m w0 Hp Hf Hi. pose proof Hd as Hd'. pose proof Hf as Hf'.
      destruct Hd as (-> & Hg & Hm & Ho).
      split; [|intros Hx; exact (q_exc _ _ _ _ _ _ R _ _ _ _ _ _ _ _ _ Hp Hf Hi Ha Hd' Hx)].
      intros Hx. destruct Hf as [F1 F2 F3 F4 F5 F6 F7 F8 F9 F10 F11].
      split_and!; [congruence|lia|].
      exists e. split_and!; [done|done| |done]. intros ->. destruct Ho as [-> _]. done.
    - (* PL_call *)
      intros i e t w o m' e1 os oz c tc w1 e2 w2 ox e' t' w' Ha Hc Hr IHr Hs Hl IHl m w0 Hp Hf Hi.
      destruct (q_call _ _ _ _ _ _ R _ _ _ _ _ _ _ _ _ _ _ Hp Hf Hi Ha Hc) as [Hpre Hk].
      destruct (IHr Hpre) as [Hps Hpo].
      pose proof (pfstruct_call _ _ _ _ _ _ _ _ _ _ _ _ _ Hf Hc Hps Hs) as Hf'.
      apply (IHl m w0 Hp Hf'). exact (proj1 (Hk _ _ _ Hps Hpo) _ _ Hs Hf').
    - (* PL_call_crash *)
      intros i e t w o m' e1 os oz c tc w1 x e2 w2 Ha Hc Hr IHr Hs m w0 Hp Hf Hi.
      destruct (q_call _ _ _ _ _ _ R _ _ _ _ _ _ _ _ _ _ _ Hp Hf Hi Ha Hc) as [Hpre Hk].
      destruct (IHr Hpre) as [Hps Hpo].
      split; [|intros _; exact (proj2 (Hk _ _ _ Hps Hpo) _ _ _ Hs)].
      intros Hx. revert Hs. unfold resume_call, child_return. destruct (to_u256 _); [done|].
      by intros [= <- <- <-].
    - (* PL_call_exc *)
      intros i e t w o m' e1 os oz x w1 Ha Hc Hr IHr m w0 Hp Hf Hi.
      destruct (q_call _ _ _ _ _ _ R _ _ _ _ _ _ _ _ _ _ _ Hp Hf Hi Ha Hc) as [Hpre Hk].
      destruct (IHr Hpre (wa_depth_le _ _ _ _ (pco_wait _ _ _ _ _ _ _ _ Hc))) as [H1 H2].
      by split.
    - (* PL_create *)
      intros i e t w o m' e1 wi c tc w1 e2 w2 ox e' t' w' Ha Hc Hr IHr Hs Hl IHl m w0 Hp Hf Hi.
      destruct (q_create _ _ _ _ _ _ R _ _ _ _ _ _ _ _ _ _ Hp Hf Hi Ha Hc) as [Hpre Hk].
      destruct (IHr Hpre) as [Hps Hpo].
      pose proof (pfstruct_create _ _ _ _ _ _ _ _ _ _ _ _ Hf Hc Hps Hs) as Hf'.
      apply (IHl m w0 Hp Hf'). exact (proj1 (Hk _ _ _ Hps Hpo) _ _ Hs Hf').
    - (* PL_create_crash *)
      intros i e t w o m' e1 wi c tc w1 x e2 w2 Ha Hc Hr IHr Hs m w0 Hp Hf Hi.
      destruct (q_create _ _ _ _ _ _ R _ _ _ _ _ _ _ _ _ _ Hp Hf Hi Ha Hc) as [Hpre Hk].
      destruct (IHr Hpre) as [Hps Hpo].
      split; [|intros _; exact (proj2 (Hk _ _ _ Hps Hpo) _ _ _ Hs)].
      intros Hx. revert Hs. unfold resume_create, child_return. destruct (e_error c); [done|].
      destruct (to_u256 _); [done|]. by intros [= <- <- <-].
    - (* PL_create_exc *)
      intros i e t w o m' e1 wi x w1 Ha Hc Hr IHr m w0 Hp Hf Hi.
      destruct (q_create _ _ _ _ _ _ R _ _ _ _ _ _ _ _ _ _ Hp Hf Hi Ha Hc) as [Hpre Hk].
      destruct (IHr Hpre (wa_depth_le _ _ _ _ (pcr_wait _ _ _ _ _ _ _ _ Hc))) as [H1 H2].
      by split.
    - (* PC_raise *)
      intros i m w w3 x w4 He3 Hf IH Hp Hd.
      exact (IH (q_entry _ _ _ _ _ _ R _ _ _ _ Hp He3) Hd).
    - (* PC_fail *)
      intros i m w w3 e t x w4 w5 He3 Hf IH He Hr Hp.
      destruct (IH (q_entry _ _ _ _ _ _ R _ _ _ _ Hp He3)) as [Hps Hpo].
      pose proof (prollback_entry _ _ _ _ _ _ He3 Hps Hr) as Hre.
      assert (Hps' : ppstruct m w e w5).
      { destruct Hps, Hre. constructor; try done; try congruence.
        intros y Hy. destruct (pps_fail0 y Hy) as (_ & ? & ?). split_and!; done. }
      split; [done|]. eapply (q_cfail _ _ _ _ _ _ R); eauto. by rewrite He.
    - (* PC_deposit *)
      intros i m w w3 e t h e' w4 w5 He3 Hf IH He Hdc Hho Hr Hp.
      destruct (IH (q_entry _ _ _ _ _ _ R _ _ _ _ Hp He3)) as [Hps Hpo].
      pose proof (prollback_entry _ _ _ _ _ _ He3 Hps Hr) as Hre.
      destruct (pow_deposit_eq _ _ _ Hdc) as (g & Hg & ->).
      match goal with |- ppstruct _ _ ?e _ /\ _ => assert (Hps' : ppstruct m w e w5) end.
      { pose proof Hre as []. destruct Hps, e, (since Byzantium n) eqn:Eb;
        (constructor; cbn in *; try done; try congruence; [lia|]);
        (intros y [= <-]; split_and!; try done);
        (intros h0 _; split; [done|]; congruence). }
      split; [done|]. refine (q_cfail _ _ _ _ _ _ R _ _ _ _ _ _ _ _ _ Hp He3 Hps Hpo Hr Hps' Hre _ _).
      + by destruct (since Byzantium n), e.
      + right. split; [done|]. destruct (since Byzantium n), e; cbn; auto.
    - (* PC_bare *)
      intros i m w w3 e t h e' w4 w6 He3 Hf IH He Hdc Hho Hcm Hp.
      destruct (IH (q_entry _ _ _ _ _ _ R _ _ _ _ Hp He3)) as [Hps Hpo].
      pose proof (pow_deposit_eq _ _ _ Hdc) as (g & Hg & Heq).
      assert (Hps' : ppstruct m w (set_output [] e') w6).
      { destruct (pcreate_entry_frame _ _ _ _ He3) as (E1 & E2 & E3). subst e'.
        destruct Hps.
        destruct (commit_frame w w4 w6) as (M1 & M2 & M3 & M4 & M5 & M6);
          [congruence|rewrite pps_tsnap0, E2; done|done|].
        destruct e. constructor; cbn in *; try done; try congruence; try lia; auto.
        intros Hne. rewrite (M6 Hne). etrans; [exact E3|]. apply pps_created0. by rewrite E1. }
      split; [done|]. eapply (q_cbare _ _ _ _ _ _ R); eauto.
    - (* PC_ok *)
      intros i m w w3 e t e' w4 s5 w6 He3 Hf IH He Hdc Hsc Hcm Hp.
      destruct (IH (q_entry _ _ _ _ _ _ R _ _ _ _ Hp He3)) as [Hps Hpo].
      pose proof (pow_deposit_eq _ _ _ Hdc) as (g & Hg & Heq).
      assert (Hps' : ppstruct m w e' w6).
      { destruct (pcreate_entry_frame _ _ _ _ He3) as (E1 & E2 & E3). subst e'.
        unfold pow_set_code in Hsc. apply modify_account_frame in Hsc as (S1 & S2 & _). destruct Hps.
        destruct (commit_frame w (set_st s5 w4) w6) as (M1 & M2 & M3 & M4 & M5 & M6);
          [cbn; congruence|cbn; rewrite pps_tsnap0, E2; done|done|].
        destruct e. constructor; cbn in *; try done; try congruence; try lia; auto.
        intros Hne. rewrite (M6 Hne). cbn. rewrite S2.
        etrans; [exact E3|]. apply pps_created0. by rewrite E1. }
      split; [done|]. eapply (q_cok _ _ _ _ _ _ R); eauto.
    - (* PC_pop *)
      intros i m w w3 e t w4 c He3 Hf IH Hpop Hp _. exfalso.
      destruct (IH (q_entry _ _ _ _ _ _ R _ _ _ _ Hp He3)) as [Hps _].
      destruct (pcreate_entry_frame _ _ _ _ He3) as (E1 & E2 & E3). destruct Hps.
      assert (Hs : snap_ok w w4).
      { split; [congruence|]. rewrite pps_tsnap0, E2. done. }
      destruct Hpop as [H|[H|(s5 & H1 & H2)]]; [eapply snap_no_pop; [exact Hs|by left]
        |eapply snap_no_pop; [exact Hs|by right]|].
      unfold pow_set_code in H1. apply modify_account_frame in H1 as (S1 & S2 & _).
      eapply (snap_no_pop w (set_st s5 w4)); [|right; exact H2].
      destruct Hs as [Hs1 Hs2]. split; cbn; congruence.
  Qed.

  Notation pm := (pow_process_message cr n env te).
  Notation pcm := (pow_process_create_message cr n env te).

  Corollary prule_message X Pre CPre I Post CPost i m w :
    pframe_rule X Pre CPre I Post CPost -> Pre i m w ->
    match pm i m w with
    | PPRet e t w' => ppstruct m w e w' /\ Post i m w e t w'
    | PPExc x _ => m_depth m <= 1024 -> X x /\ ~ handled x
    end.
  Proof.
    intros R Hp. destruct (pframe_rule_sound _ _ _ _ _ _ R) as [F _].
    exact (F i m w _ (pow_message_run cr n env te i m w) Hp).
  Qed.
  Corollary prule_create X Pre CPre I Post CPost i m w :
    pframe_rule X Pre CPre I Post CPost -> CPre i m w ->
    match pcm i m w with
    | PPRet e t w' => ppstruct m w e w' /\ CPost i m w e t w'
    | PPExc x _ => m_depth m <= 1024 -> X x /\ ~ handled x
    end.
  Proof.
    intros R Hp. destruct (pframe_rule_sound _ _ _ _ _ _ R) as (_ & _ & _ & F).
    exact (F i m w _ (pow_create_run cr n env te i m w) Hp).
  Qed.

  (** The structural facts alone; the fuel of the model is never exhausted. *)
  Lemma prule_true : pframe_rule (fun x => x <> EOutOfFuel /\ x <> EInvalidBlock)
    (fun _ _ _ => True) (fun _ _ _ => True)
    (fun _ _ _ _ _ _ => True) (fun _ _ _ _ _ _ => True) (fun _ _ _ _ _ _ => True).
  Proof.
    constructor; try done.
    - intros. destruct H3 as (_ & _ & _ & Hx). by destruct x.
    - intros. split; [done|]. intros c tc w1 _ _. split; [done|]. intros x e2 w2.
      unfold resume_call. by destruct (to_u256 _); intros [=]; subst.
    - intros. split; [done|]. intros c tc w1 _ _. split; [done|]. intros x e2 w2.
      unfold resume_create. destruct (e_error c); [done|]. by destruct (to_u256 _); intros [=]; subst.
  Qed.
  Corollary pmessage_struct i m w :
    match pm i m w with
    | PPRet e t w' => ppstruct m w e w'
    | PPExc x _ => m_depth m <= 1024 -> exists c, x = ECrash c
    end.
  Proof.
    pose proof (prule_message _ _ _ _ _ _ i m w prule_true Logic.I) as H.
    destruct (pm i m w); [tauto|]. intros Hd. destruct (H Hd) as [[H1 H2] H3].
    destruct x; first [by destruct H3|by eexists|done].
  Qed.
  Corollary pcreate_struct i m w :
    match pcm i m w with
    | PPRet e t w' => ppstruct m w e w'
    | PPExc x _ => m_depth m <= 1024 -> exists c, x = ECrash c
    end.
  Proof.
    pose proof (prule_create _ _ _ _ _ _ i m w prule_true Logic.I) as H.
    destruct (pcm i m w); [tauto|]. intros Hd. destruct (H Hd) as [[H1 H2] H3].
    destruct x; first [by destruct H3|by eexists|done].
  Qed.
End Rule.
