(** * EvmRule: an induction rule for frames.

    To show that a property holds of every frame, give a loop invariant and
    check it for one instruction at a time, with the results of child frames
    described by the same property.  The structural facts [fstruct] and
    [pstruct] hold for every frame and are available in each obligation. *)
From Verif Require Import Base State Rlp Vm Instructions Precompiles Interpreter
  StateSpec StateProofs NumericProofs ArithProofs EvmStep EvmLocal EvmPlan
  EvmPlanProofs EvmCallProofs EvmFrame.
From Coq Require Import ZifyBool ZifyN ZifyNat.
Ltac Zify.zify_post_hook ::= idtac.

Local Opaque to_u256 from_be_bytes calculate_memory_gas_cost ceil32 N.compare.

Definition handled (x : exn) : Prop :=
  match x with EHalt _ | ERevert => True | _ => False end.

(** [w'] is [w], up to the set of accounts marked as created. *)
Record restored (w w' : world) : Prop := {
  re_main : main_trie (st w') = main_trie (st w);
  re_sto : storage_tries (st w') = storage_tries (st w);
  re_snap : snapshots (st w') = snapshots (st w);
  re_ts : ts w' = ts w;
  re_created : snapshots (st w) <> [] -> created_accounts (st w) ⊆ created_accounts (st w');
}.

(** Facts about a frame of message [m], called in world [w0]. *)
Record fstruct (m : message) (w0 : world) (e : evm) (w : world) : Prop := {
  fs_msg : e_message e = m;
  fs_err : e_error e = None;
  fs_shape : shape_ok e;
  fs_memgas : e_gas_left e + memcost (lenN (e_memory e)) <= m_gas m;
  fs_code : e_code e = m_code m;
  fs_vjd : e_valid_jump_destinations e = get_valid_jump_destinations (m_code m);
  fs_aa : m_accessed_addresses m ⊆ e_accessed_addresses e;
  fs_ak : m_accessed_storage_keys m ⊆ e_accessed_storage_keys e;
  fs_snap : snapshots (st w) = (main_trie (st w0), storage_tries (st w0)) :: snapshots (st w0);
  fs_tsnap : ts_snapshots (ts w) = ts_tries (ts w0) :: ts_snapshots (ts w0);
  fs_created : created_accounts (st w0) ⊆ created_accounts (st w);
}.

(** Facts about the result of a message call. *)
Record pstruct (m : message) (w0 : world) (e : evm) (w : world) : Prop := {
  ps_msg : e_message e = m;
  ps_gas : e_gas_left e <= m_gas m;
  ps_snap : snapshots (st w) = snapshots (st w0);
  ps_tsnap : ts_snapshots (ts w) = ts_snapshots (ts w0);
  ps_created : snapshots (st w0) <> [] -> created_accounts (st w0) ⊆ created_accounts (st w);
  ps_fail : forall x, e_error e = Some x ->
    restored w0 w /\ handled x /\ (forall h, x = EHalt h -> e_gas_left e = 0 /\ e_output e = []);
  ps_aa : e_error e = None -> m_accessed_addresses m ⊆ e_accessed_addresses e;
  ps_ak : e_error e = None -> m_accessed_storage_keys m ⊆ e_accessed_storage_keys e;
}.

(** ** State facts *)
Lemma move_ether_frame s a b n s' : move_ether s a b n = Ok s' ->
  snapshots s' = snapshots s /\ created_accounts s' = created_accounts s.
Proof.
  unfold move_ether. intros H. destruct (modify_state s a _) as [s1|] eqn:E; [|done].
  apply modify_state_snapshots in H as H1. apply modify_state_snapshots in E as E1.
  apply modify_state_created in H as H2. apply modify_state_created in E as E2.
  split; congruence.
Qed.
Lemma transfer_frame m w s : transfer m w = Ok s ->
  snapshots s = snapshots (st w) /\ created_accounts s = created_accounts (st w).
Proof.
  unfold transfer. destruct (_ && _); [apply move_ether_frame|]. by intros [= <-].
Qed.
Lemma set_storage_frame s a k v s' : set_storage s a k v = Ok s' ->
  snapshots s' = snapshots s /\ created_accounts s' = created_accounts s /\
  main_trie s' = main_trie s.
Proof. intros H. apply set_storage_inv in H as [_ ->]. done. Qed.
Lemma set_transient_snap t a k v :
  ts_snapshots (set_transient_storage t a k v) = ts_snapshots t.
Proof. by rewrite set_transient_unfold. Qed.
Lemma increment_nonce_frame s a s' : increment_nonce s a = Ok s' ->
  snapshots s' = snapshots s /\ created_accounts s' = created_accounts s.
Proof.
  unfold increment_nonce. intros H. split; [by eapply modify_state_snapshots|by eapply modify_state_created].
Qed.
Lemma set_code_frame s a c s' : set_code s a c = Ok s' ->
  snapshots s' = snapshots s /\ created_accounts s' = created_accounts s.
Proof.
  unfold set_code. intros H. split; [by eapply modify_state_snapshots|by eapply modify_state_created].
Qed.
Lemma set_balance_frame s a c s' : set_account_balance s a c = Ok s' ->
  snapshots s' = snapshots s /\ created_accounts s' = created_accounts s.
Proof.
  unfold set_account_balance. intros H. split; [by eapply modify_state_snapshots|by eapply modify_state_created].
Qed.

Lemma effect_frame f o e w e' w' : effect f o e w e' w' ->
  snapshots (st w') = snapshots (st w) /\ ts_snapshots (ts w') = ts_snapshots (ts w) /\
  created_accounts (st w') = created_accounts (st w).
Proof.
  intros [Hw _ _|? ? ? ? _ _ _ Hs Hw|? ? _ _ Hw|? ? ? _ _ _ Hm Hd Hw
    |? ? ? ? _ _ _ _ Ha Hb Hw|? _ _ Hn Hw].
  - by subst.
  - subst w'. cbn. by apply set_storage_frame in Hs as (? & ? & _).
  - subst w'. cbn. by rewrite set_transient_snap.
  - subst w'. cbn. apply move_ether_frame in Hm as [Hm1 Hm2].
    destruct Hd as [(_ & Hd & _)|(_ & -> & _)].
    + apply set_balance_frame in Hd as [Hd1 Hd2]. split; [congruence|split; congruence].
    + done.
  - subst w'. cbn. apply set_balance_frame in Ha as [Ha1 Ha2]. apply set_balance_frame in Hb as [Hb1 Hb2].
    split; [congruence|split; congruence].
  - subst w'. cbn. by apply increment_nonce_frame in Hn as [? ?].
Qed.

Lemma create_entry_frame w a w3 : create_entry w a = Ok w3 ->
  snapshots (st w3) = (main_trie (st w), storage_tries (st w)) :: snapshots (st w) /\
  ts w3 = ts (begin_transaction w) /\
  created_accounts (st w3) = {[a]} ∪ created_accounts (st w).
Proof.
  unfold create_entry. destruct (increment_nonce _ _) as [s|] eqn:E; [|done]. intros [= <-].
  apply increment_nonce_frame in E as [E1 E2]. cbn.
  rewrite E1, E2. cbn. rewrite destroy_storage_snapshots, destroy_storage_created. done.
Qed.

Lemma rollback_restored w0 w2 w3 :
  snapshots (st w2) = (main_trie (st w0), storage_tries (st w0)) :: snapshots (st w0) ->
  ts_snapshots (ts w2) = ts_tries (ts w0) :: ts_snapshots (ts w0) ->
  created_accounts (st w0) ⊆ created_accounts (st w2) ->
  rollback_transaction w2 = Ok w3 -> restored w0 w3.
Proof.
  intros H1 H2 H3. unfold rollback_transaction. rewrite H1, H2. intros [= <-].
  constructor; cbn; try done.
  - by destruct (ts w0).
  - by destruct (snapshots (st w0)).
Qed.
Lemma commit_frame w0 w2 w3 :
  snapshots (st w2) = (main_trie (st w0), storage_tries (st w0)) :: snapshots (st w0) ->
  ts_snapshots (ts w2) = ts_tries (ts w0) :: ts_snapshots (ts w0) ->
  commit_transaction w2 = Ok w3 ->
  main_trie (st w3) = main_trie (st w2) /\ storage_tries (st w3) = storage_tries (st w2) /\
  snapshots (st w3) = snapshots (st w0) /\ ts_snapshots (ts w3) = ts_snapshots (ts w0) /\
  ts_tries (ts w3) = ts_tries (ts w2) /\
  (snapshots (st w0) <> [] -> created_accounts (st w3) = created_accounts (st w2)).
Proof.
  intros H1 H2. unfold commit_transaction. rewrite H1, H2. intros [= <-]. cbn.
  by destruct (snapshots (st w0)).
Qed.

Lemma resume_call_sets e1 os oz c w1 e2 w2 :
  resume_call e1 os oz c w1 = Ret tt e2 w2 ->
  w2 = w1 /\
  match e_error c with
  | None =>
      e_accessed_addresses e2 = e_accessed_addresses e1 ∪ e_accessed_addresses c /\
      e_accessed_storage_keys e2 = e_accessed_storage_keys e1 ∪ e_accessed_storage_keys c /\
      e_logs e2 = e_logs e1 ++ e_logs c /\
      e_refund_counter e2 = (e_refund_counter e1 + e_refund_counter c)%Z /\
      e_accounts_to_delete e2 = e_accounts_to_delete e1 ∪ e_accounts_to_delete c
  | Some _ =>
      e_accessed_addresses e2 = e_accessed_addresses e1 /\
      e_accessed_storage_keys e2 = e_accessed_storage_keys e1 /\
      e_logs e2 = e_logs e1 /\
      e_refund_counter e2 = e_refund_counter e1 /\
      e_accounts_to_delete e2 = e_accounts_to_delete e1
  end.
Proof.
  unfold resume_call, child_return. destruct (to_u256 _); [|done]. intros [= <- <-].
  destruct (e_error c), e1, c; done.
Qed.
Lemma resume_create_sets e1 c w1 e2 w2 :
  resume_create e1 c w1 = Ret tt e2 w2 ->
  w2 = w1 /\
  match e_error c with
  | None =>
      e_accessed_addresses e2 = e_accessed_addresses e1 ∪ e_accessed_addresses c /\
      e_accessed_storage_keys e2 = e_accessed_storage_keys e1 ∪ e_accessed_storage_keys c /\
      e_logs e2 = e_logs e1 ++ e_logs c /\
      e_refund_counter e2 = (e_refund_counter e1 + e_refund_counter c)%Z /\
      e_accounts_to_delete e2 = e_accounts_to_delete e1 ∪ e_accounts_to_delete c
  | Some _ =>
      e_accessed_addresses e2 = e_accessed_addresses e1 /\
      e_accessed_storage_keys e2 = e_accessed_storage_keys e1 /\
      e_logs e2 = e_logs e1 /\
      e_refund_counter e2 = e_refund_counter e1 /\
      e_accounts_to_delete e2 = e_accounts_to_delete e1
  end.
Proof.
  unfold resume_create, child_return. destruct (e_error c) eqn:Ec.
  - intros [= <- <-]. by destruct e1.
  - destruct (to_u256 _); [|done]. intros [= <- <-]. by destruct e1, c.
Qed.

(** ** The rule *)
Section Rule.
  Context (cr : crypto) (be : block_env) (te : tx_env).
  Notation done_ok := (done_ok cr be te).
  Notation create_ok := (create_ok cr be).
  Notation frun := (frun cr be te).
  Notation xrun := (xrun cr be te).
  Notation lrun := (lrun cr be te).
  Notation crun := (crun cr be te).

  (** How a frame ended with an error: from some configuration of its loop,
      by an exceptional halt or by REVERT; [w] is the world after rollback. *)
  Definition err_info (I : message -> world -> evm -> world -> Prop)
      (m : message) (w0 : world) (e : evm) (w : world) : Prop :=
    exists e0 w1, fstruct m w0 e0 w1 /\ I m w0 e0 w1 /\ rollback_transaction w1 = Ok w /\
      ((exists h, e_error e = Some (EHalt h)) \/
       (exists e1, at_op e0 REVERT /\
          done_ok REVERT e0 w1 (Exc ERevert e1 w1) /\ e = set_error (Some ERevert) e1)).

  Record frame_rule (Pre CPre : message -> world -> Prop)
      (I Post CPost : message -> world -> evm -> world -> Prop) : Prop := {
    r_start : forall m w s1,
      Pre m w -> m_depth m <= 1024 -> transfer m (begin_transaction w) = Ok s1 ->
      I m w (init_evm m) (set_st s1 (begin_transaction w));
    r_pre : forall m w0 w e',
      Pre m w0 -> fstruct m w0 (init_evm m) w -> I m w0 (init_evm m) w ->
      pre_res cr be te (init_evm m) w (Ret tt e' w) -> I m w0 e' w;
    r_done : forall m w0 e w o e' w',
      Pre m w0 -> fstruct m w0 e w -> I m w0 e w -> at_op e o ->
      done_ok o e w (Ret tt e' w') -> fstruct m w0 e' w' -> I m w0 e' w';
    r_call : forall m w0 e w o m' e1 os oz,
      Pre m w0 -> fstruct m w0 e w -> I m w0 e w -> at_op e o ->
      call_ok be o e w m' e1 os oz ->
      Pre m' w /\
      forall c w1 e2 w2, pstruct m' w c w1 -> Post m' w c w1 ->
        resume_call e1 os oz c w1 = Ret tt e2 w2 -> fstruct m w0 e2 w2 -> I m w0 e2 w2;
    r_create : forall m w0 e w o m' e1 wi,
      Pre m w0 -> fstruct m w0 e w -> I m w0 e w -> at_op e o ->
      create_ok o e w m' e1 wi ->
      CPre m' wi /\
      forall c w1 e2 w2, pstruct m' wi c w1 -> CPost m' wi c w1 ->
        resume_create e1 c w1 = Ret tt e2 w2 -> fstruct m w0 e2 w2 -> I m w0 e2 w2;
    r_fail : forall m w0 e w,
      Pre m w0 -> pstruct m w0 e w -> e_error e <> None -> err_info I m w0 e w ->
      Post m w0 e w;
    r_ok : forall m w0 e w w3,
      Pre m w0 -> fstruct m w0 e w -> I m w0 e w -> commit_transaction w = Ok w3 ->
      pstruct m w0 e w3 -> Post m w0 e w3;
    r_entry : forall m w w3,
      CPre m w -> create_entry w (m_current_target m) = Ok w3 -> Pre m w3;
    r_cfail : forall m w w3 e w4 e' w5,
      CPre m w -> create_entry w (m_current_target m) = Ok w3 ->
      pstruct m w3 e w4 -> Post m w3 e w4 ->
      rollback_transaction w4 = Ok w5 ->
      pstruct m w e' w5 -> restored w w5 -> e_error e' <> None ->
      (e' = e \/ exists h e1, e' = set_error (Some (EHalt h)) (set_output [] (set_gas_left 0 e1))) ->
      CPost m w e' w5;
    r_cok : forall m w w3 e w4 e' s5 w6,
      CPre m w -> create_entry w (m_current_target m) = Ok w3 ->
      pstruct m w3 e w4 -> Post m w3 e w4 -> e_error e = None ->
      deposit_code e = (None, e') ->
      set_code (st w4) (m_current_target m) (e_output e) = Ok s5 ->
      commit_transaction (set_st s5 w4) = Ok w6 -> pstruct m w e' w6 ->
      CPost m w e' w6;
  }.

  Lemma fstruct_step m w0 e w o e' w' :
    fstruct m w0 e w -> done_ok o e w (Ret tt e' w') -> fstruct m w0 e' w'.
  Proof.
    intros [] [Hl He]. apply effect_frame in He as (H1 & H2 & H3).
    destruct Hl. constructor; try congruence.
    - by constructor.
    - lia.
    - by etrans.
    - by etrans.
    - by rewrite H3.
  Qed.
  Lemma fstruct_call m w0 e w o m' e1 os oz c w1 e2 w2 :
    fstruct m w0 e w -> call_ok be o e w m' e1 os oz -> pstruct m' w c w1 ->
    resume_call e1 os oz c w1 = Ret tt e2 w2 -> fstruct m w0 e2 w2.
  Proof.
    intros Hf Hc Hp Hr.
    destruct (resume_call_shape _ _ _ _ _ _ _ _ _ _ _ _ Hc Hr) as (R1 & R2 & R3 & R4 & R5 & R6 & R7 & R8 & R9 & R10).
    destruct (resume_call_sets _ _ _ _ _ _ _ Hr) as (_ & Rs).
    pose proof (resume_call_gas e1 os oz c w1) as Rg. rewrite Hr in Rg.
    destruct (co_wait _ _ _ _ _ _ _ _ Hc) as []. destruct Hf, Hp. subst w2.
    assert (Hne : snapshots (st w) <> []) by (by rewrite fs_snap0).
    constructor; try congruence.
    - rewrite Rg, R4. lia.
    - destruct (e_error c); destruct Rs as (-> & _); [|apply union_subseteq_l']; by etrans.
    - destruct (e_error c); destruct Rs as (_ & -> & _); [|apply union_subseteq_l']; by rewrite wa_ak.
    - etrans; [exact fs_created0|]. by apply ps_created0.
  Qed.
  Lemma fstruct_create m w0 e w o m' e1 wi c w1 e2 w2 :
    fstruct m w0 e w -> create_ok o e w m' e1 wi -> pstruct m' wi c w1 ->
    resume_create e1 c w1 = Ret tt e2 w2 -> fstruct m w0 e2 w2.
  Proof.
    intros Hf Hc Hp Hr.
    destruct (resume_create_shape _ _ _ _ _ _ _ _ _ _ _ _ Hc Hr) as (R1 & R2 & R3 & R4 & R5 & R6 & R7 & R8 & R9 & R10).
    destruct (resume_create_sets _ _ _ _ _ Hr) as (_ & Rs).
    pose proof (resume_create_gas e1 c w1) as Rg. rewrite Hr in Rg.
    destruct (cr_nonce _ _ _ _ _ _ _ _ Hc) as (s1 & Hn & Hw). apply increment_nonce_frame in Hn as [Hn1 Hn2].
    assert (Hwi : snapshots (st wi) = snapshots (st w) /\ ts wi = ts w /\
      created_accounts (st wi) = created_accounts (st w)) by (by subst wi).
    destruct Hwi as (Hwi1 & Hwi2 & Hwi3).
    destruct (cr_wait _ _ _ _ _ _ _ _ Hc) as []. destruct Hf, Hp. subst w2.
    assert (Hne : snapshots (st wi) <> []) by (by rewrite Hwi1, fs_snap0).
    constructor; try congruence.
    - rewrite Rg, R4. lia.
    - destruct (e_error c); destruct Rs as (-> & _); [|apply union_subseteq_l']; by etrans.
    - destruct (e_error c); destruct Rs as (_ & -> & _); [|apply union_subseteq_l']; by rewrite wa_ak.
    - etrans; [exact fs_created0|]. rewrite <- Hwi3. by apply ps_created0.
  Qed.

  Lemma fstruct_init m w s1 : transfer m (begin_transaction w) = Ok s1 ->
    fstruct m w (init_evm m) (set_st s1 (begin_transaction w)).
  Proof.
    intros H. apply transfer_frame in H as [H1 H2].
    constructor; try done.
    - by rewrite N.add_0_r.
    - cbn. by rewrite H2.
  Qed.

  Lemma fstruct_pre m w0 w e' :
    fstruct m w0 (init_evm m) w -> pre_res cr be te (init_evm m) w (Ret tt e' w) ->
    fstruct m w0 e' w.
  Proof.
    intros [] (_ & -> & Hg & _). constructor; cbn in *; try done. lia.
  Qed.
  
  Lemma pstruct_ok m w0 e w w3 :
    fstruct m w0 e w -> commit_transaction w = Ok w3 -> pstruct m w0 e w3.
  Proof.
    intros [] Hc. destruct (commit_frame w0 w w3 fs_snap0 fs_tsnap0 Hc) as (H1 & H2 & H3 & H4 & H5 & H6).
    constructor; try done; try congruence.
    - lia.
    - intros Hne. by rewrite (H6 Hne).
  Qed.

  Lemma deposit_code_eq e h e' : deposit_code e = (h, e') ->
    exists g, g <= e_gas_left e /\ e' = set_gas_left g e.
  Proof.
    unfold deposit_code. intros H.
    repeat match type of H with context [if ?b then _ else _] => destruct b end;
      injection H as <- <-;
      first [exists (e_gas_left e); split; [done|by destruct e]|eexists; split; [|done]; lia].
  Qed.

  Lemma rollback_entry m w w3 e w4 w5 :
    create_entry w (m_current_target m) = Ok w3 -> pstruct m w3 e w4 ->
    rollback_transaction w4 = Ok w5 -> restored w w5.
  Proof.
    intros H1 [] H2. destruct (create_entry_frame _ _ _ H1) as (E1 & E2 & E3).
    eapply rollback_restored; [..|exact H2].
    - congruence.
    - rewrite ps_tsnap0, E2. done.
    - assert (created_accounts (st w3) ⊆ created_accounts (st w4))
        by (apply ps_created0; by rewrite E1).
      clear -H E3. set_solver.
  Qed.

  Lemma pexc_handled m w x w' :
    frun m w (PExc x w') -> m_depth m <= 1024 -> ~ handled x.
  Proof.
    intros H Hd Hx. inversion H as [| |? ? s1 ? ? ? ? Hxr| | |]; subst; try done; [lia|].
    inversion Hxr as [|? ? r Hp Hm Hw Heq|? ? ox e' w1 Hl Hm Hw Heq]; subst.
    - destruct r; [done|]. destruct x0; inversion Heq; subst; done.
    - destruct ox as [x0|]; [|done]. destruct x0; inversion Heq; subst; done.
  Qed.
  Lemma cexc_handled m w x w' :
    crun m w (PExc x w') -> m_depth m <= 1024 -> ~ handled x.
  Proof.
    intros H Hd. inversion H as [? ? w3 ? ? _ Hf| | | |]; subst.
    - by eapply pexc_handled.
    - intros [].
  Qed.

  Theorem frame_rule_sound Pre CPre I Post CPost :
    frame_rule Pre CPre I Post CPost ->
    (forall m w r, frun m w r -> Pre m w ->
       match r with PRet e w' => pstruct m w e w' /\ Post m w e w' | PExc _ _ => True end) /\
    (forall m w r, xrun m w r -> forall w0, Pre m w0 -> fstruct m w0 (init_evm m) w ->
       I m w0 (init_evm m) w ->
       match r with
       | PRet e w' =>
           (e_error e = None -> fstruct m w0 e w' /\ I m w0 e w') /\
           (forall x, e_error e = Some x ->
             (forall w3, rollback_transaction w' = Ok w3 ->
                restored w0 w3 /\ pstruct m w0 e w3 /\ err_info I m w0 e w3))
       | PExc _ _ => True
       end) /\
    (forall e w ox e' w', lrun e w ox e' w' -> forall m w0, Pre m w0 -> fstruct m w0 e w ->
       I m w0 e w ->
       match ox with
       | None => fstruct m w0 e' w' /\ I m w0 e' w'
       | Some x => handled x ->
           e_message e' = m /\ e_gas_left e' <= m_gas m /\
           exists e0, fstruct m w0 e0 w' /\ I m w0 e0 w' /\
             (x = ERevert -> at_op e0 REVERT /\ done_ok REVERT e0 w' (Exc ERevert e' w'))
       end) /\
    (forall m w r, crun m w r -> CPre m w ->
       match r with PRet e w' => pstruct m w e w' /\ CPost m w e w' | PExc _ _ => True end).
  Proof.
    intros R.
    apply (run_mutind cr be te
      (fun m w r _ => Pre m w ->
         match r with PRet e w' => pstruct m w e w' /\ Post m w e w' | PExc _ _ => True end)
      (fun m w r _ => forall w0, Pre m w0 -> fstruct m w0 (init_evm m) w ->
         I m w0 (init_evm m) w ->
         match r with
         | PRet e w' =>
             (e_error e = None -> fstruct m w0 e w' /\ I m w0 e w') /\
             (forall x, e_error e = Some x ->
               (forall w3, rollback_transaction w' = Ok w3 ->
                  restored w0 w3 /\ pstruct m w0 e w3 /\ err_info I m w0 e w3))
         | PExc _ _ => True
         end)
      (fun e w ox e' w' _ => forall m w0, Pre m w0 -> fstruct m w0 e w -> I m w0 e w ->
         match ox with
         | None => fstruct m w0 e' w' /\ I m w0 e' w'
         | Some x => handled x ->
             e_message e' = m /\ e_gas_left e' <= m_gas m /\
             exists e0, fstruct m w0 e0 w' /\ I m w0 e0 w' /\
               (x = ERevert -> at_op e0 REVERT /\ done_ok REVERT e0 w' (Exc ERevert e' w'))
         end)
      (fun m w r _ => CPre m w ->
         match r with PRet e w' => pstruct m w e w' /\ CPost m w e w' | PExc _ _ => True end)).
    - done.
    - done.
    - done.
    - (* FR_fail *)
      intros m w s1 e x w2 w3 Hd Ht Hx IH He Hr Hp.
      destruct (IH w Hp (fstruct_init _ _ _ Ht) (r_start _ _ _ _ _ R _ _ _ Hp Hd Ht)) as [_ IH2].
      destruct (IH2 _ He _ Hr) as (_ & Hps & Hi).
      split; [done|]. eapply (r_fail _ _ _ _ _ R); eauto. by rewrite He.
    - (* FR_ok *)
      intros m w s1 e w2 w3 Hd Ht Hx IH He Hr Hp.
      destruct (IH w Hp (fstruct_init _ _ _ Ht) (r_start _ _ _ _ _ R _ _ _ Hp Hd Ht)) as [IH1 _].
      destruct (IH1 He) as [Hf Hi]. pose proof (pstruct_ok _ _ _ _ _ Hf Hr) as Hps.
      split; [done|]. exact (r_ok _ _ _ _ _ R _ _ _ _ _ Hp Hf Hi Hr Hps).
    - done.
    - (* XR_disabled *)
      intros m w w0 Hp Hf Hi. by split.
    - (* XR_pre *)
      intros m w r Hr w0 Hp Hf Hi. destruct r as [[] e' w'|x e' w'].
      + assert (w' = w) as -> by apply Hr.
        pose proof (fstruct_pre _ _ _ _ Hf Hr) as Hf'. split.
        * intros _. split; [done|]. exact (r_pre _ _ _ _ _ R _ _ _ _ Hp Hf Hi Hr).
        * intros x Hx. rewrite (fs_err _ _ _ _ Hf') in Hx. done.
      + destruct Hr as (-> & [[h ->]|(-> & _)] & He' & _); [|by split]. rewrite He'. cbn.
        split; [intros [=]|].
        intros x [= <-] w3 Hw3. pose proof Hf as [_ _ _ _ _ _ _ _ S1 S2 S3].
        pose proof (rollback_restored _ _ _ S1 S2 S3 Hw3) as Hre. split; [done|]. split.
        * pose proof Hre as []. constructor; cbn; try done; try congruence; [lia|].
          intros ? [= <-]. split_and!; done.
        * exists (init_evm m), w. split_and!; try done. left. by eexists.
    - (* XR_loop *)
      intros m w ox e' w' Hl IH w0 Hp Hf Hi. specialize (IH _ _ Hp Hf Hi).
      destruct ox as [x|]; cbn.
      2: { destruct IH as [IH1 IH2]. split; [done|].
        intros x Hx. rewrite (fs_err _ _ _ _ IH1) in Hx. done. }
      destruct x as [h| |c| |]; cbn; try done; destruct e'; cbn in *.
      + destruct (IH Logic.I) as (I1 & I2 & e0 & I3 & I4 & _).
        split; [intros [=]|]. intros x [= <-] w3 Hw3.
        pose proof (rollback_restored _ _ _ (fs_snap _ _ _ _ I3) (fs_tsnap _ _ _ _ I3)
          (fs_created _ _ _ _ I3) Hw3) as Hre.
        split; [done|]. split.
        * pose proof Hre as Hre'. destruct Hre'.
          constructor; cbn; try done; try congruence; [lia|].
          intros x [= <-]. split_and!; done.
        * exists e0, w'. split_and!; try done. left. by eexists.
      + destruct (IH Logic.I) as (I1 & I2 & e0 & I3 & I4 & I5).
        split; [intros [=]|]. intros x [= <-] w3 Hw3.
        pose proof (rollback_restored _ _ _ (fs_snap _ _ _ _ I3) (fs_tsnap _ _ _ _ I3)
          (fs_created _ _ _ _ I3) Hw3) as Hre.
        split; [done|]. split.
        * pose proof Hre as Hre'. destruct Hre'.
          constructor; cbn; try done; try congruence.
          intros x [= <-]. split_and!; done.
        * destruct (I5 eq_refl) as [H1 H2].
          exists e0, w'. split_and!; try done. right. by eexists.
    - (* LR_end *)
      intros e w _ m w0 Hp Hf Hi. done.
    - (* LR_bad *)
      intros e w h m w0 Hp Hf Hi _. pose proof Hf as [].
      split_and!; [done|lia|]. by exists e.
    - (* LR_done *)
      intros e w o e1 w1 ox e' w' Ha Hd Hl IH m w0 Hp Hf Hi.
      pose proof (fstruct_step _ _ _ _ _ _ _ Hf Hd) as Hf'.
      apply (IH m w0 Hp Hf'). exact (r_done _ _ _ _ _ R _ _ _ _ _ _ _ Hp Hf Hi Ha Hd Hf').
    - (* LR_exc *)
      intros e w o x e' w' Ha Hd m w0 Hp Hf Hi Hx. pose proof Hd as Hd'. pose proof Hf as Hf'.
      destruct Hd as (-> & Hg & Hm & Ho). destruct Hf as [F1 F2 F3 F4 F5 F6 F7 F8 F9 F10 F11].
      split_and!; [congruence|lia|].
      exists e. split_and!; [done|done|]. intros ->. destruct Ho as [-> _]. done.
    - (* LR_call *)
      intros e w o m' e1 os oz c w1 e2 w2 ox e' w' Ha Hc Hr IHr Hs Hl IHl m w0 Hp Hf Hi.
      destruct (r_call _ _ _ _ _ R _ _ _ _ _ _ _ _ _ Hp Hf Hi Ha Hc) as [Hpre Hk].
      destruct (IHr Hpre) as [Hps Hpo].
      pose proof (fstruct_call _ _ _ _ _ _ _ _ _ _ _ _ _ Hf Hc Hps Hs) as Hf'.
      apply (IHl m w0 Hp Hf'). exact (Hk _ _ _ _ Hps Hpo Hs Hf').
    - (* LR_call_crash *)
      intros e w o m' e1 os oz c w1 x e2 w2 Ha Hc Hr IHr Hs m w0 Hp Hf Hi Hx.
      revert Hs. unfold resume_call, child_return. destruct (to_u256 _); [done|].
      by intros [= <- <- <-].
    - (* LR_call_exc *)
      intros e w o m' e1 os oz x w1 Ha Hc Hr IHr m w0 Hp Hf Hi Hx.
      exfalso. eapply pexc_handled; [exact Hr| |done].
      apply (wa_depth_le _ _ _ _ (co_wait _ _ _ _ _ _ _ _ Hc)).
    - (* LR_create *)
      intros e w o m' e1 wi c w1 e2 w2 ox e' w' Ha Hc Hr IHr Hs Hl IHl m w0 Hp Hf Hi.
      destruct (r_create _ _ _ _ _ R _ _ _ _ _ _ _ _ Hp Hf Hi Ha Hc) as [Hpre Hk].
      destruct (IHr Hpre) as [Hps Hpo].
      pose proof (fstruct_create _ _ _ _ _ _ _ _ _ _ _ _ Hf Hc Hps Hs) as Hf'.
      apply (IHl m w0 Hp Hf'). exact (Hk _ _ _ _ Hps Hpo Hs Hf').
    - (* LR_create_crash *)
      intros e w o m' e1 wi c w1 x e2 w2 Ha Hc Hr IHr Hs m w0 Hp Hf Hi Hx.
      revert Hs. unfold resume_create, child_return. destruct (e_error c); [done|].
      destruct (to_u256 _); [done|]. by intros [= <- <- <-].
    - (* LR_create_exc *)
      intros e w o m' e1 wi x w1 Ha Hc Hr IHr m w0 Hp Hf Hi Hx.
      exfalso. eapply cexc_handled; [exact Hr| |done].
      apply (wa_depth_le _ _ _ _ (cr_wait _ _ _ _ _ _ _ _ Hc)).
    - done.
    - (* CR_fail *)
      intros m w w3 e x w4 w5 He3 Hf IH He Hr Hp.
      destruct (IH (r_entry _ _ _ _ _ R _ _ _ Hp He3)) as [Hps Hpo].
      pose proof (rollback_entry _ _ _ _ _ _ He3 Hps Hr) as Hre.
      assert (Hps' : pstruct m w e w5).
      { destruct Hps, Hre. constructor; try done; try congruence.
        intros y Hy. destruct (ps_fail0 y Hy) as (_ & ? & ?). split_and!; done. }
      split; [done|]. eapply (r_cfail _ _ _ _ _ R); eauto. by rewrite He.
    - (* CR_deposit *)
      intros m w w3 e h e' w4 w5 He3 Hf IH He Hdc Hr Hp.
      destruct (IH (r_entry _ _ _ _ _ R _ _ _ Hp He3)) as [Hps Hpo].
      pose proof (rollback_entry _ _ _ _ _ _ He3 Hps Hr) as Hre.
      destruct (deposit_code_eq _ _ _ Hdc) as (g & Hg & ->).
      match goal with |- pstruct _ _ ?e _ /\ _ => assert (Hps' : pstruct m w e w5) end.
      { pose proof Hre as []. destruct Hps, e. constructor; cbn in *; try done; try congruence; [lia|].
        intros y [= <-]. split_and!; done. }
      split; [done|]. refine (r_cfail _ _ _ _ _ R _ _ _ _ _ _ _ Hp He3 Hps Hpo Hr Hps' Hre _ _).
      + by destruct e.
      + right. by eexists h, _.
    - (* CR_ok *)
      intros m w w3 e e' w4 s5 w6 He3 Hf IH He Hdc Hsc Hcm Hp.
      destruct (IH (r_entry _ _ _ _ _ R _ _ _ Hp He3)) as [Hps Hpo].
      destruct (deposit_code_eq _ _ _ Hdc) as (g & Hg & ->).
      match goal with |- pstruct _ _ ?e _ /\ _ => assert (Hps' : pstruct m w e w6) end.
      { destruct (create_entry_frame _ _ _ He3) as (E1 & E2 & E3).
        apply set_code_frame in Hsc as [S1 S2]. destruct Hps.
        destruct (commit_frame w (set_st s5 w4) w6) as (M1 & M2 & M3 & M4 & M5 & M6);
          [cbn; congruence|cbn; rewrite ps_tsnap0, E2; done|done|].
        destruct e. constructor; cbn in *; try done; try congruence; try lia; auto.
        + intros Hne. rewrite (M6 Hne). cbn. rewrite S2.
          assert (created_accounts (st w3) ⊆ created_accounts (st w4))
            by (apply ps_created0; by rewrite E1). clear -H E3. set_solver.
        }
      split; [done|]. eapply (r_cok _ _ _ _ _ R); eauto.
    - done.
  Qed.

  Notation pm := (process_message cr be te).
  Notation pcm := (process_create_message cr be te).

  Corollary rule_message Pre CPre I Post CPost m w e w' :
    frame_rule Pre CPre I Post CPost -> Pre m w -> pm m w = PRet e w' ->
    pstruct m w e w' /\ Post m w e w'.
  Proof.
    intros R Hp He. destruct (frame_rule_sound _ _ _ _ _ R) as [F _].
    specialize (F m w _ (process_message_run cr be te m w) Hp). by rewrite He in F.
  Qed.
  Corollary rule_create Pre CPre I Post CPost m w e w' :
    frame_rule Pre CPre I Post CPost -> CPre m w -> pcm m w = PRet e w' ->
    pstruct m w e w' /\ CPost m w e w'.
  Proof.
    intros R Hp He. destruct (frame_rule_sound _ _ _ _ _ R) as (_ & _ & _ & F).
    specialize (F m w _ (process_create_run cr be te m w) Hp). by rewrite He in F.
  Qed.

  (** How a step of the loop of a frame comes about. *)
  Lemma step_cases e w e2 w2 :
    shape_ok e -> exec_step cr be te pm pcm (e, w) = inl (e2, w2) ->
    exists o, at_op e o /\
      (done_ok o e w (Ret tt e2 w2) \/
       (exists m' e1 os oz c w1, call_ok be o e w m' e1 os oz /\ pm m' w = PRet c w1 /\
          resume_call e1 os oz c w1 = Ret tt e2 w2) \/
       (exists m' e1 wi c w1, create_ok o e w m' e1 wi /\ pcm m' wi = PRet c w1 /\
          resume_create e1 c w1 = Ret tt e2 w2)).
  Proof.
    intros Hs He.
    destruct (exec_step_cases cr be te e w Hs) as [(_ & E)|[(h & E)|(o & p & Ho & Hp & E)]];
      rewrite E in He; [done|done|].
    exists o. split; [done|]. destruct p as [r|m e1 os oz|m e1 w0]; cbn [interp plan_ok] in Hp, He.
    - destruct r as [[] ? ?|]; [|done]. injection He as -> ->. by left.
    - right; left. destruct (pm m w) as [c w1|] eqn:Er; [|done].
      destruct (resume_call e1 os oz c w1) as [[] ? ?|] eqn:Es; [|done].
      injection He as -> ->. by exists m, e1, os, oz, c, w1.
    - right; right. 
      change (process_create_message_with pm) with pcm in He.
      destruct (pcm m w0) as [c w1|] eqn:Er; [|done].
      destruct (resume_create e1 c w1) as [[] ? ?|] eqn:Es; [|done].
      injection He as -> ->. by exists m, e1, w0, c, w1.
  Qed.

  Lemma rule_step Pre CPre I Post CPost m w0 e w e2 w2 :
    frame_rule Pre CPre I Post CPost -> Pre m w0 -> fstruct m w0 e w -> I m w0 e w ->
    exec_step cr be te pm pcm (e, w) = inl (e2, w2) ->
    fstruct m w0 e2 w2 /\ I m w0 e2 w2.
  Proof.
    intros R Hp Hf Hi He.
    destruct (step_cases e w e2 w2 (fs_shape _ _ _ _ Hf) He)
      as (o & Ha & [Hd|[(m' & e1 & os & oz & c & w1 & Hc & Hr & Hs)|(m' & e1 & wi & c & w1 & Hc & Hr & Hs)]]).
    - pose proof (fstruct_step _ _ _ _ _ _ _ Hf Hd) as Hf'. split; [done|].
      exact (r_done _ _ _ _ _ R _ _ _ _ _ _ _ Hp Hf Hi Ha Hd Hf').
    - destruct (r_call _ _ _ _ _ R _ _ _ _ _ _ _ _ _ Hp Hf Hi Ha Hc) as [Hpre Hk].
      destruct (rule_message _ _ _ _ _ _ _ _ _ R Hpre Hr) as [Hps Hpo].
      pose proof (fstruct_call _ _ _ _ _ _ _ _ _ _ _ _ _ Hf Hc Hps Hs) as Hf'.
      split; [done|]. exact (Hk _ _ _ _ Hps Hpo Hs Hf').
    - destruct (r_create _ _ _ _ _ R _ _ _ _ _ _ _ _ Hp Hf Hi Ha Hc) as [Hpre Hk].
      destruct (rule_create _ _ _ _ _ _ _ _ _ R Hpre Hr) as [Hps Hpo].
      pose proof (fstruct_create _ _ _ _ _ _ _ _ _ _ _ _ Hf Hc Hps Hs) as Hf'.
      split; [done|]. exact (Hk _ _ _ _ Hps Hpo Hs Hf').
  Qed.

  (** The invariant holds wherever an execution gets. *)
  Theorem rule_visits Pre CPre I Post CPost m w e w1 :
    frame_rule Pre CPre I Post CPost -> visits cr be te m w e w1 ->
    Pre m w -> m_depth m <= 1024 ->
    exists m' w0, Pre m' w0 /\ m_depth m' <= 1024 /\ fstruct m' w0 e w1 /\ I m' w0 e w1.
  Proof.
    intros R Hv. induction Hv as [m w s1 Hpc Ht|m w e1 w1 e2 w2 Hv IH Hs|m w e1 w1 m' w' e2 w2 Hv IH Hi Hv' IH'];
      intros Hp Hd.
    - exists m, w. split_and!; [done|done|by apply fstruct_init|].
      by apply (r_start _ _ _ _ _ R).
    - destruct (IH Hp Hd) as (m' & w0 & H1 & H2 & H3 & H4). exists m', w0.
      destruct (rule_step _ _ _ _ _ _ _ _ _ _ _ R H1 H3 H4 Hs). done.
    - destruct (IH Hp Hd) as (m1 & w0 & H1 & H2 & H3 & H4).
      destruct (invokes_cases cr be te _ _ _ _ (fs_shape _ _ _ _ H3) Hi)
        as (o & Ho & [(e' & os & oz & Hc & ->)|(e' & wi & Hc & He)]).
      + destruct (r_call _ _ _ _ _ R _ _ _ _ _ _ _ _ _ H1 H3 H4 Ho Hc) as [Hpre _].
        apply IH'; [done|]. apply (wa_depth_le _ _ _ _ (co_wait _ _ _ _ _ _ _ _ Hc)).
      + destruct (r_create _ _ _ _ _ R _ _ _ _ _ _ _ _ H1 H3 H4 Ho Hc) as [Hpre _].
        apply IH'; [by apply (r_entry _ _ _ _ _ R) in He|].
        apply (wa_depth_le _ _ _ _ (cr_wait _ _ _ _ _ _ _ _ Hc)).
  Qed.

  (** The structural facts alone. *)
  Lemma rule_true : frame_rule (fun _ _ => True) (fun _ _ => True)
    (fun _ _ _ _ => True) (fun _ _ _ _ => True) (fun _ _ _ _ => True).
  Proof. by constructor. Qed.
  Corollary message_struct m w e w' : pm m w = PRet e w' -> pstruct m w e w'.
  Proof. intros H. by apply (rule_message _ _ _ _ _ _ _ _ _ rule_true Logic.I H). Qed.
  Corollary create_struct m w e w' : pcm m w = PRet e w' -> pstruct m w e w'.
  Proof. intros H. by apply (rule_create _ _ _ _ _ _ _ _ _ rule_true Logic.I H). Qed.
  Corollary visits_struct m w e w1 : visits cr be te m w e w1 -> m_depth m <= 1024 ->
    exists m' w0, m_depth m' <= 1024 /\ fstruct m' w0 e w1.
  Proof.
    intros Hv Hd. destruct (rule_visits _ _ _ _ _ _ _ _ _ rule_true Hv Logic.I Hd)
      as (m' & w0 & _ & H1 & H2 & _). by exists m', w0.
  Qed.
End Rule.
