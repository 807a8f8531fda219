(** * PowVmFrame: executions of frames of the proof-of-work forks as
    derivations, as [EvmFrame] does for Osaka. *)
From Verif Require Import Base State Rlp Bloom Transactions Trie Blocks Requests Fork Ethash Pow PowTx.
From Verif Require Import Vm Instructions Precompiles Interpreter PowVm StateSpec
  StateProofs NumericProofs ArithProofs EvmStep EvmLocal EvmPlan EvmPlanProofs EvmCallProofs
  EvmFrame PowVmPlan PowVmOps PowVmCalls.
From Verif Require Import PowVmKeep.
From Coq Require Import ZifyBool ZifyN ZifyNat.
Ltac Zify.zify_post_hook ::= idtac.

Local Opaque to_u256 from_be_bytes calculate_memory_gas_cost ceil32 N.compare.

(** ** Precompiles *)

Definition ppre_res (cr : crypto) (env : pow_env) (te : tx_env) (e : evm) (w : world)
    (r : res unit) : Prop :=
  match r with
  | Ret _ e' w' => pre_res cr (pow_block_env env) te e w r
  | Exc x e' w' =>
      w' = w /\
      ((exists h, x = EHalt h) \/
       (x = ECrash OverflowError /\ modexp_overflow (m_data (e_message e)))) /\
      e' = set_gas_left (e_gas_left e') e /\ e_gas_left e' <= e_gas_left e
  end.

Local Opaque pow_mod to_be_fixed to_be_bytes32
  buffer_read left_pad_zero_bytes lenN N.pow bn128_bytes_to_g1 read_word
  takeN dropN sliceN pow_modexp_gas_cost.

Lemma ppre_spec cr n env te a p e w :
  pow_precompile cr n a = Some p -> ppre_res cr env te e w (p e w).
Proof.
  intros Hp.
  assert (Hin : (exists b, pre_compiled_contracts cr Osaka b = Some p) \/
    In p [pow_modexp n; pow_bn128_add cr n; pow_bn128_mul cr n; pow_bn128_pairing cr n]).
  { unfold pow_precompile in Hp.
    repeat match type of Hp with
    | context [match ?a with _ => _ end] => destruct a; try discriminate Hp
    end; injection Hp as <-; try (right; cbn; tauto); left;
      first [by exists 1|by exists 2|by exists 3|by exists 4|by exists 9]. }
  clear Hp. destruct Hin as [(b & Hb)|Hin].
  { pose proof (pre_spec cr (pow_block_env env) te b p e w Hb) as H.
    destruct (p e w); [exact H|]. destruct H as (H1 & [H2|(_ & H2 & _)] & H3 & H4); [|discriminate H2]. split_and!; auto. }
  destruct e as [pc stk mem cod gas vjd logs rc rn msg out del rd err aa ak].
  cbn [In] in Hin.
  destruct Hin as [<-|[<-|[<-|[<-|[]]]]].
  - unfold pow_modexp. pnorm.
    pose proof (read_word_bound (m_data msg) 64) as Hm.
    assert (Hcrash : forall k c, to_u256 k = Raise c ->
      k <= 96 + read_word (m_data msg) 0 + read_word (m_data msg) 32 ->
      (exists h, ECrash c = EHalt h) \/
      (ECrash c = ECrash OverflowError /\ modexp_overflow (m_data msg))).
    { intros k c Hk Hle. apply to_u256_raise in Hk as [-> Hk]. right. split; [done|].
      unfold modexp_overflow. lia. }
    destruct (to_u256 (96 + read_word (m_data msg) 0)) as [es|c] eqn:E1; pnorm.
    2:{ split; [done|]. split; [apply (Hcrash _ _ E1); lia|]. split; [done|cbn; lia]. }
    apply to_u256_inv in E1 as [-> _].
    match goal with |- context [gas <? ?c] => destruct (N.ltb_spec gas c) as [Hlt|Hge] end; pnorm.
    { split; [done|]. split; [left; by eexists|]. split; [done|cbn; lia]. }
    match goal with |- context [if ?b then _ else _] => destruct b end; pnorm.
    { split; [done|]. split; [done|]. split; [cbn; lia|]. intros _ _ _. cbn. by rewrite lenN_nil. }
    match goal with |- context [to_u256 ?k] => destruct (to_u256 k) as [ms|c] eqn:E2 end; pnorm.
    2:{ split; [done|]. split; [apply (Hcrash _ _ E2); lia|]. split; [done|cbn; lia]. }
    match goal with |- context [if ?b then _ else _] => destruct b end; pnorm;
      (split; [done|]; split; [done|]; split; [cbn; lia|]; intros _ _ _; cbn [e_output]).
    + by rewrite lenN_zeros.
    + by rewrite to_be_fixed_len, N2Nat.id.
  - unfold pow_bn128_add. pnorm. repeat (dm; pnorm); unfold ppre_res, pre_res;
    match goal with
    | |- _ /\ (_ \/ _) /\ _ =>
        split; [reflexivity|]; split; [left; by eexists|]; split; [reflexivity|]; cbn; lia
    | |- _ =>
        split; [reflexivity|]; split; [reflexivity|]; split; [cbn; lia|];
        intros _ _ _; cbn [e_output]; apply words2_len
    end.
  - unfold pow_bn128_mul. pnorm. repeat (dm; pnorm); unfold ppre_res, pre_res;
    match goal with
    | |- _ /\ (_ \/ _) /\ _ =>
        split; [reflexivity|]; split; [left; by eexists|]; split; [reflexivity|]; cbn; lia
    | |- _ =>
        split; [reflexivity|]; split; [reflexivity|]; split; [cbn; lia|];
        intros _ _ _; cbn [e_output]; apply words2_len
    end.
  - unfold pow_bn128_pairing. pnorm. repeat (dm; pnorm); unfold ppre_res, pre_res;
    match goal with
    | |- _ /\ (_ \/ _) /\ _ =>
        split; [reflexivity|]; split; [left; by eexists|]; split; [reflexivity|]; cbn; lia
    | |- _ =>
        split; [reflexivity|]; split; [reflexivity|]; split; [cbn; lia|];
        intros _ _ _; cbn [e_output]; apply word_len
    end.
Qed.
Local Transparent N.pow lenN.

(** ** Derivations *)
Section Frame.
  Context (cr : crypto) (n : pow_name) (env : pow_env) (te : tx_env).
  Notation be := (pow_block_env env).

  Definition pat_op (e : evm) (o : op) : Prop := at_op e o /\ pow_available n o = true.

  (** The transfer of value at the start of a frame. *)
  Definition ptransfer (m : message) (w0 : world) : result state :=
    let s0 := touch_account (st w0) (m_current_target m) in
    if m_should_transfer_value m && negb (m_value m =? 0)
    then move_ether_pow s0 (m_caller m) (m_current_target m) (m_value m)
    else Ok s0.

  Definition ploop_end (ox : option exn) (e : evm) (t : gset address) (w : world) : ppres :=
    match ox with None => PPRet e t w | Some x => pow_handle_exn n x e t w end.

  (** The world in which the frame of a creation starts. *)
  Definition pcreate_entry (w : world) (a : address) : result world :=
    let s1 := destroy_storage (st (begin_transaction w)) a in
    let s2 := if since Istanbul n then mark_account_created s1 a else s1 in
    match (if since SpuriousDragon n then pow_increment_nonce s2 a else Ok s2) with
    | Ok s => Ok (set_st s (begin_transaction w))
    | Raise c => Raise c
    end.

  Inductive pfrun : gset address -> message -> world -> ppres -> Prop :=
  | PF_deep inh m w :
      1024 < m_depth m -> pfrun inh m w (PPExc (EHalt StackDepthLimitError) w)
  | PF_move inh m w c w' :
      m_depth m <= 1024 -> ptransfer m (begin_transaction w) = Raise c ->
      pfrun inh m w (PPExc (ECrash c) w')
  | PF_raise inh m w s1 x w2 :
      m_depth m <= 1024 -> ptransfer m (begin_transaction w) = Ok s1 ->
      pxrun inh m (set_st s1 (begin_transaction w)) (PPExc x w2) ->
      pfrun inh m w (PPExc x w2)
  | PF_fail inh m w s1 e t x w2 w3 :
      m_depth m <= 1024 -> ptransfer m (begin_transaction w) = Ok s1 ->
      pxrun inh m (set_st s1 (begin_transaction w)) (PPRet e t w2) ->
      e_error e = Some x -> rollback_transaction w2 = Ok w3 ->
      pfrun inh m w (PPRet e t w3)
  | PF_ok inh m w s1 e t w2 w3 :
      m_depth m <= 1024 -> ptransfer m (begin_transaction w) = Ok s1 ->
      pxrun inh m (set_st s1 (begin_transaction w)) (PPRet e t w2) ->
      e_error e = None -> commit_transaction w2 = Ok w3 ->
      pfrun inh m w (PPRet e t w3)
  | PF_pop inh m w s1 e t w2 c :
      m_depth m <= 1024 -> ptransfer m (begin_transaction w) = Ok s1 ->
      pxrun inh m (set_st s1 (begin_transaction w)) (PPRet e t w2) ->
      (rollback_transaction w2 = Raise c \/ commit_transaction w2 = Raise c) ->
      pfrun inh m w (PPExc (ECrash c) w2)

  with pxrun : gset address -> message -> world -> ppres -> Prop :=
  | PX_pre inh m w a p :
      m_code_address m = Some a -> pow_precompile cr n a = Some p ->
      pxrun inh m w match p (init_evm m) w with
                    | Ret _ e' w' => PPRet e' ∅ w'
                    | Exc x e' w' => pow_handle_exn n x e' ∅ w'
                    end
  | PX_loop inh m w ox e' t' w' :
      plrun inh (init_evm m) ∅ w ox e' t' w' -> pxrun inh m w (ploop_end ox e' t' w')

  with plrun : gset address -> evm -> gset address -> world ->
               option exn -> evm -> gset address -> world -> Prop :=
  | PL_end inh e t w :
      e_running e && (e_pc e <? lenN (e_code e)) = false -> plrun inh e t w None e t w
  | PL_bad inh e t w h :
      plrun inh e t w (Some (EHalt h)) e t w
  | PL_done inh e t w o t1 e1 w1 ox e' t' w' :
      pat_op e o -> pdone_ok cr n env te inh o e w (Ret t1 e1 w1) ->
      plrun inh e1 (t ∪ t1) w1 ox e' t' w' -> plrun inh e t w ox e' t' w'
  | PL_exc inh e t w o x e' w' :
      pat_op e o -> pdone_ok cr n env te inh o e w (Exc x e' w') ->
      (x <> ERevert -> e_output e' = e_output e) ->
      plrun inh e t w (Some x) e' t w'
  | PL_call inh e t w o m e1 os oz c tc w1 e2 w2 ox e' t' w' :
      pat_op e o -> pcall_ok n o e w m e1 os oz ->
      pfrun (e_accounts_to_delete e1 ∪ inh) m w (PPRet c tc w1) ->
      resume_call e1 os oz c w1 = Ret tt e2 w2 ->
      plrun inh e2 (t ∪ touched_by_child n c tc (st w1)) w2 ox e' t' w' ->
      plrun inh e t w ox e' t' w'
  | PL_call_crash inh e t w o m e1 os oz c tc w1 x e2 w2 :
      pat_op e o -> pcall_ok n o e w m e1 os oz ->
      pfrun (e_accounts_to_delete e1 ∪ inh) m w (PPRet c tc w1) ->
      resume_call e1 os oz c w1 = Exc x e2 w2 -> plrun inh e t w (Some x) e2 t w2
  | PL_call_exc inh e t w o m e1 os oz x w1 :
      pat_op e o -> pcall_ok n o e w m e1 os oz ->
      pfrun (e_accounts_to_delete e1 ∪ inh) m w (PPExc x w1) ->
      plrun inh e t w (Some x) e1 t w1
  | PL_create inh e t w o m e1 w0 c tc w1 e2 w2 ox e' t' w' :
      pat_op e o -> pcreate_ok cr n o e w m e1 w0 ->
      pcrun (e_accounts_to_delete e1 ∪ inh) m w0 (PPRet c tc w1) ->
      resume_create e1 c w1 = Ret tt e2 w2 ->
      plrun inh e2 (t ∪ touched_by_child n c tc (st w1)) w2 ox e' t' w' ->
      plrun inh e t w ox e' t' w'
  | PL_create_crash inh e t w o m e1 w0 c tc w1 x e2 w2 :
      pat_op e o -> pcreate_ok cr n o e w m e1 w0 ->
      pcrun (e_accounts_to_delete e1 ∪ inh) m w0 (PPRet c tc w1) ->
      resume_create e1 c w1 = Exc x e2 w2 -> plrun inh e t w (Some x) e2 t w2
  | PL_create_exc inh e t w o m e1 w0 x w1 :
      pat_op e o -> pcreate_ok cr n o e w m e1 w0 ->
      pcrun (e_accounts_to_delete e1 ∪ inh) m w0 (PPExc x w1) ->
      plrun inh e t w (Some x) e1 t w1

  with pcrun : gset address -> message -> world -> ppres -> Prop :=
  | PC_raise inh m w w3 x w4 :
      pcreate_entry w (m_current_target m) = Ok w3 ->
      pfrun inh m w3 (PPExc x w4) -> pcrun inh m w (PPExc x w4)
  | PC_fail inh m w w3 e t x w4 w5 :
      pcreate_entry w (m_current_target m) = Ok w3 ->
      pfrun inh m w3 (PPRet e t w4) -> e_error e = Some x ->
      rollback_transaction w4 = Ok w5 -> pcrun inh m w (PPRet e t w5)
  | PC_deposit inh m w w3 e t h e' w4 w5 :
      pcreate_entry w (m_current_target m) = Ok w3 ->
      pfrun inh m w3 (PPRet e t w4) -> e_error e = None ->
      pow_deposit n e = (Some h, e') -> since Homestead n = true ->
      rollback_transaction w4 = Ok w5 ->
      pcrun inh m w (PPRet (set_error (Some (EHalt h))
        (if since Byzantium n then set_output [] (set_gas_left 0 e') else set_gas_left 0 e'))
        t w5)
  | PC_bare inh m w w3 e t h e' w4 w6 :
      pcreate_entry w (m_current_target m) = Ok w3 ->
      pfrun inh m w3 (PPRet e t w4) -> e_error e = None ->
      pow_deposit n e = (Some h, e') -> since Homestead n = false ->
      commit_transaction w4 = Ok w6 -> pcrun inh m w (PPRet (set_output [] e') t w6)
  | PC_ok inh m w w3 e t e' w4 s5 w6 :
      pcreate_entry w (m_current_target m) = Ok w3 ->
      pfrun inh m w3 (PPRet e t w4) -> e_error e = None -> pow_deposit n e = (None, e') ->
      pow_set_code (st w4) (m_current_target m) (e_output e) = Ok s5 ->
      commit_transaction (set_st s5 w4) = Ok w6 -> pcrun inh m w (PPRet e' t w6)
  | PC_pop inh m w w3 e t w4 c :
      pcreate_entry w (m_current_target m) = Ok w3 ->
      pfrun inh m w3 (PPRet e t w4) ->
      (rollback_transaction w4 = Raise c \/ commit_transaction w4 = Raise c \/
       exists s5, pow_set_code (st w4) (m_current_target m) (e_output e) = Ok s5 /\
         commit_transaction (set_st s5 w4) = Raise c) ->
      pcrun inh m w (PPExc (ECrash c) w4).

  Scheme pfrun_ind4 := Induction for pfrun Sort Prop
    with pxrun_ind4 := Induction for pxrun Sort Prop
    with plrun_ind4 := Induction for plrun Sort Prop
    with pcrun_ind4 := Induction for pcrun Sort Prop.
  Combined Scheme prun_mutind from pfrun_ind4, pxrun_ind4, plrun_ind4, pcrun_ind4.

  (** ** Gas (needed for termination) *)
  Lemma pow_deposit_gas e h e' : pow_deposit n e = (h, e') -> e_gas_left e' <= e_gas_left e.
  Proof.
    unfold pow_deposit. intros H.
    repeat match type of H with context [if ?b then _ else _] => destruct b end;
      injection H as <- <-; try done; destruct e; cbn; lia.
  Qed.

  Definition pgas_ret (g : N) (r : ppres) : Prop :=
    match r with PPRet c _ _ => e_gas_left c <= g | PPExc _ _ => True end.

  Lemma phandle_exn_gas x e t w g : e_gas_left e <= g -> pgas_ret g (pow_handle_exn n x e t w).
  Proof. unfold pow_handle_exn. destruct x, (since Byzantium n); destruct e; cbn; lia || done. Qed.

  Lemma prun_gas :
    (forall i m w r, pfrun i m w r -> pgas_ret (m_gas m) r) /\
    (forall i m w r, pxrun i m w r -> pgas_ret (m_gas m) r) /\
    (forall i e t w ox e' t' w', plrun i e t w ox e' t' w' -> e_gas_left e' <= e_gas_left e) /\
    (forall i m w r, pcrun i m w r -> pgas_ret (m_gas m) r).
  Proof.
    apply (prun_mutind (fun _ m _ r _ => pgas_ret (m_gas m) r)
      (fun _ m _ r _ => pgas_ret (m_gas m) r)
      (fun _ e _ _ _ e' _ _ _ => e_gas_left e' <= e_gas_left e)
      (fun _ m _ r _ => pgas_ret (m_gas m) r)); intros; try done.
    - pose proof (ppre_spec cr n env te a p (init_evm m) w e0) as H.
      destruct (p (init_evm m) w) as [u e' w'|x e' w']; cbn in H.
      + destruct H as (_ & _ & H & _). exact H.
      + destruct H as (_ & _ & _ & H). by apply phandle_exn_gas.
    - destruct ox; cbn in *; [apply phandle_exn_gas|]; auto.
    - destruct p0 as [H1 _]. pose proof (ls_gas_le _ _ _ _ _ _ _ H1). lia.
    - by destruct p0 as (_ & Hd & _).
    - pose proof (resume_call_gas e1 os oz c w1) as Hg. rewrite e0 in Hg.
      pose proof (wa_gas _ _ _ _ (pco_wait _ _ _ _ _ _ _ _ p0)). cbn in *. lia.
    - pose proof (resume_call_gas e1 os oz c w1) as Hg. rewrite e0 in Hg.
      pose proof (wa_gas _ _ _ _ (pco_wait _ _ _ _ _ _ _ _ p0)). cbn in *. lia.
    - pose proof (wa_gas _ _ _ _ (pco_wait _ _ _ _ _ _ _ _ p0)). lia.
    - pose proof (resume_create_gas e1 c w1) as Hg. rewrite e0 in Hg.
      pose proof (wa_gas _ _ _ _ (pcr_wait _ _ _ _ _ _ _ _ p0)). cbn in *. lia.
    - pose proof (resume_create_gas e1 c w1) as Hg. rewrite e0 in Hg.
      pose proof (wa_gas _ _ _ _ (pcr_wait _ _ _ _ _ _ _ _ p0)). cbn in *. lia.
    - pose proof (wa_gas _ _ _ _ (pcr_wait _ _ _ _ _ _ _ _ p0)). lia.
    - cbn. destruct (since Byzantium n), e'; cbn; lia.
    - apply pow_deposit_gas in e2. cbn in *. destruct e'; cbn in *; lia.
    - apply pow_deposit_gas in e2. cbn in *. lia.
  Qed.

  (** ** The interpreter follows the derivations *)
  Lemma pow_step_cases inh e t w : shape_ok e ->
    (e_running e && (e_pc e <? lenN (e_code e)) = false /\
       forall pm pcm, pow_step cr n env te inh pm pcm (e, t, w) = inr (None, e, t, w)) \/
    (exists h, forall pm pcm,
       pow_step cr n env te inh pm pcm (e, t, w) = inr (Some (EHalt h), e, t, w)) \/
    (exists o p, pat_op e o /\ pplan_ok cr n env te inh o e w p /\
       (forall x e' w', p = PP_done (Exc x e' w') -> x <> ERevert -> e_output e' = e_output e) /\
       forall pm pcm, pow_step cr n env te inh pm pcm (e, t, w) =
         match pinterp n inh pm pcm p w with
         | Ret t1 e' w' => inl (e', t ∪ t1, w')
         | Exc x e' w' => inr (Some x, e', t, w')
         end).
  Proof.
    intros Hs. unfold pow_step.
    destruct (e_running e) eqn:Hr; cbn [andb]; [|by left].
    destruct (N.ltb_spec (e_pc e) (lenN (e_code e))) as [Hp|Hp]; [|by left].
    right. destruct (nthN (e_code e) (e_pc e)) as [b|] eqn:En.
    2:{ exfalso. by destruct (nthN_lt_Some (e_pc e) (e_code e) Hp) as [b Hb]; rewrite Hb in En. }
    destruct (decode_op b) as [o|] eqn:Eo; [|left; by eexists].
    destruct (pow_available n o) eqn:Ea; [|left; by eexists]. right.
    destruct (pow_op_plan cr n env te inh o e w (decode_op_ok _ _ Eo) Ea Hs Hr) as (p & Hp1 & Hp2).
    exists o, p. split; [by repeat split; eauto|]. split; [done|]. split.
    { intros x e' w' -> Hx. set (dead := fun (_ : gset address) (_ : message) (w : world) => PPExc EOutOfFuel w).
      specialize (Hp2 dead dead). pose proof (pow_op_keeps_output_exc cr n env te inh dead dead o e w) as Hk.
      rewrite Hp2 in Hk. cbn in Hk. by destruct x. }
    intros pm pcm. by rewrite Hp2.
  Qed.

  Lemma presume_call_shape o e w m e1 os oz c w1 e2 w2 :
    pcall_ok n o e w m e1 os oz -> resume_call e1 os oz c w1 = Ret tt e2 w2 ->
    shape_ok e2 /\ e_message e2 = e_message e /\ w2 = w1 /\
    lenN (e_memory e2) = lenN (e_memory e1) /\ e_running e2 = true /\ e_pc e2 = e_pc e + 1 /\
    e_code e2 = e_code e /\ e_valid_jump_destinations e2 = e_valid_jump_destinations e /\
    e_output e2 = e_output e /\ e_error e2 = e_error e.
  Proof.
    intros [[] Hd Hr _ _ _ _ _] E. revert E. unfold resume_call.
    destruct (to_u256 _) as [k|] eqn:En; [|done]. intros [= <- <-].
    apply to_u256_inv in En as [-> _].
    assert (Hlen : lenN (memory_write_bytes (e_memory e1) os
      (takeN (N.min oz (lenN (e_output c))) (e_output c))) = lenN (e_memory e1)).
    { apply memory_write_len. rewrite lenN_takeN. destruct Hr as [->|Hr].
      - left. rewrite N.min_0_l. apply takeN_0.
      - right. lia. }
    unfold child_return.
    assert (Hs : shape_ok (set_pc (e_pc e1 + 1) (set_memory (memory_write_bytes (e_memory e1) os
      (takeN (N.min oz (lenN (e_output c))) (e_output c)))
      (set_stack (match e_error c with Some _ => 0 | None => 1 end :: e_stack e1)
        (set_return_data (e_output c) match e_error c with
         | Some _ => incorporate_child_on_error e1 c
         | None => incorporate_child_on_success e1 c end))))).
    { constructor; [|rewrite <- Hlen in *]; destruct (e_error c), e1; cbn in *;
        rewrite ?lenN_cons; try lia; congruence. }
    split; [exact Hs|].
    destruct (e_error c), e1; cbn in *; subst; done.
  Qed.

  Lemma presume_create_shape o e w m e1 w0 c w1 e2 w2 :
    pcreate_ok cr n o e w m e1 w0 -> resume_create e1 c w1 = Ret tt e2 w2 ->
    shape_ok e2 /\ e_message e2 = e_message e /\ w2 = w1 /\
    e_memory e2 = e_memory e1 /\ e_running e2 = true /\ e_pc e2 = e_pc e + 1 /\
    e_code e2 = e_code e /\ e_valid_jump_destinations e2 = e_valid_jump_destinations e /\
    e_output e2 = e_output e /\ e_error e2 = e_error e.
  Proof.
    intros [[]] E. revert E. unfold resume_create, child_return.
    destruct (e_error c); [|destruct (to_u256 _) as [k|] eqn:En; [|done]]; intros [= <- <-];
    (split; [constructor; destruct e1; cbn in *; rewrite ?lenN_cons; try lia; congruence|]);
    destruct e1; cbn in *; subst; done.
  Qed.

  Lemma pat_op_running e o : pat_op e o -> e_running e = true.
  Proof. by intros [[] ?]. Qed.

  Lemma pow_loop_run inh pm pcm d :
    (forall i m w, m_depth m = d + 1 -> m_depth m <= 1024 -> pfrun i m w (pm i m w)) ->
    (forall i m w, m_depth m = d + 1 -> m_depth m <= 1024 -> pcrun i m w (pcm i m w)) ->
    forall e t w, shape_ok e -> m_depth (e_message e) = d ->
    exists k s' ox e' t' w',
      steps (pow_step cr n env te inh pm pcm) k (e, t, w) s' /\
      pow_step cr n env te inh pm pcm s' = inr (ox, e', t', w') /\
      N.of_nat k <= mu e /\ plrun inh e t w ox e' t' w'.
  Proof.
    intros Hpm Hpcm e. remember (mu e) as g eqn:En. revert e En.
    induction g as [g IH] using (well_founded_induction N.lt_wf_0).
    intros e -> t w Hs Hd.
    destruct (pow_step_cases inh e t w Hs) as [(Hr & He)|[(h & He)|(o & p & Ho & Hp & Hout & He)]].
    - exists 0%nat, (e, t, w), None, e, t, w. split; [constructor|]. split; [apply He|].
      split; [lia|]. by apply PL_end.
    - exists 0%nat, (e, t, w), (Some (EHalt h)), e, t, w. split; [constructor|]. split; [apply He|].
      split; [lia|]. by apply PL_bad.
    - specialize (He pm pcm). pose proof (pat_op_running _ _ Ho) as Hrun.
      assert (Hgo : forall e2 t2 w2, pow_step cr n env te inh pm pcm (e, t, w) = inl (e2, t2, w2) ->
        shape_ok e2 -> e_message e2 = e_message e -> mu e2 < mu e ->
        (forall ox e' t' w', plrun inh e2 t2 w2 ox e' t' w' -> plrun inh e t w ox e' t' w') ->
        exists k s' ox e' t' w',
          steps (pow_step cr n env te inh pm pcm) k (e, t, w) s' /\
          pow_step cr n env te inh pm pcm s' = inr (ox, e', t', w') /\
          N.of_nat k <= mu e /\ plrun inh e t w ox e' t' w').
      { intros e2 t2 w2 Hstep Hs2 Hm2 Hlt Hl.
        destruct (IH (mu e2) Hlt e2 eq_refl t2 w2 Hs2 ltac:(by rewrite Hm2))
          as (k & s' & ox & e' & t' & w' & H1 & H2 & H3 & H4).
        exists (S k), s', ox, e', t', w'. split; [by econstructor|]. split; [done|].
        split; [lia|]. by apply Hl. }
      assert (Hstop : forall x e2 w2,
        pow_step cr n env te inh pm pcm (e, t, w) = inr (Some x, e2, t, w2) ->
        plrun inh e t w (Some x) e2 t w2 ->
        exists k s' ox e' t' w',
          steps (pow_step cr n env te inh pm pcm) k (e, t, w) s' /\
          pow_step cr n env te inh pm pcm s' = inr (ox, e', t', w') /\
          N.of_nat k <= mu e /\ plrun inh e t w ox e' t' w').
      { intros x e2 w2 Hstep Hl. exists 0%nat, (e, t, w), (Some x), e2, t, w2.
        split; [constructor|]. split; [done|]. split; [lia|done]. }
      destruct p as [r|m e1 os oz|m e1 w0]; cbn [pplan_ok pinterp] in Hp, He.
      + destruct r as [t1 e1 w1|x e1 w1].
        * apply (Hgo e1 (t ∪ t1) w1); [done|..].
          -- destruct Hp as [Hp _]. by eapply local_step_shape.
          -- destruct Hp as [Hp _]. by apply ls_msg in Hp.
          -- destruct Hp as [Hp _]. unfold mu. rewrite Hrun.
             pose proof (ls_gas_le _ _ _ _ _ _ _ Hp). pose proof (ls_gas_lt _ _ _ _ _ _ _ Hp).
             destruct (e_running e1); [specialize (H0 eq_refl)|]; lia.
          -- intros. by eapply PL_done.
        * apply (Hstop x e1 w1); [done|]. eapply PL_exc; [done..|by eapply Hout].
      + pose proof (pco_wait _ _ _ _ _ _ _ _ Hp) as Hw.
        assert (Hrunm : pfrun (e_accounts_to_delete e1 ∪ inh) m w
                          (pm (e_accounts_to_delete e1 ∪ inh) m w)).
        { apply Hpm; [rewrite (wa_depth _ _ _ _ Hw); by rewrite Hd|by apply (wa_depth_le _ _ _ _ Hw)]. }
        destruct (pm _ m w) as [c tc w1|x w1].
        * destruct (resume_call e1 os oz c w1) as [[] e2 w2|x e2 w2] eqn:Er; cbn [resumed] in He.
          -- destruct (presume_call_shape _ _ _ _ _ _ _ _ _ _ _ Hp Er) as (H1 & H2 & _ & _ & H5 & _).
             apply (Hgo e2 (t ∪ touched_by_child n c tc (st w1)) w2); try done.
             ++ pose proof (resume_call_gas e1 os oz c w1) as Hg. rewrite Er in Hg.
                pose proof (wa_gas _ _ _ _ Hw). pose proof (proj1 prun_gas _ _ _ _ Hrunm) as Hg2.
                cbn in Hg2. unfold mu. rewrite Hrun, H5. lia.
             ++ intros. by eapply PL_call.
          -- apply (Hstop x e2 w2); [done|]. by eapply PL_call_crash.
        * apply (Hstop x e1 w1); [done|]. by eapply PL_call_exc.
      + pose proof (pcr_wait _ _ _ _ _ _ _ _ Hp) as Hw.
        assert (Hrunm : pcrun (e_accounts_to_delete e1 ∪ inh) m w0
                          (pcm (e_accounts_to_delete e1 ∪ inh) m w0)).
        { apply Hpcm; [rewrite (wa_depth _ _ _ _ Hw); by rewrite Hd|by apply (wa_depth_le _ _ _ _ Hw)]. }
        destruct (pcm _ m w0) as [c tc w1|x w1].
        * destruct (resume_create e1 c w1) as [[] e2 w2|x e2 w2] eqn:Er; cbn [resumed] in He.
          -- destruct (presume_create_shape _ _ _ _ _ _ _ _ _ _ Hp Er) as (H1 & H2 & _ & _ & H5 & _).
             apply (Hgo e2 (t ∪ touched_by_child n c tc (st w1)) w2); try done.
             ++ pose proof (resume_create_gas e1 c w1) as Hg. rewrite Er in Hg.
                pose proof (wa_gas _ _ _ _ Hw).
                pose proof (proj2 (proj2 (proj2 prun_gas)) _ _ _ _ Hrunm) as Hg2.
                cbn in Hg2. unfold mu. rewrite Hrun, H5. lia.
             ++ intros. by eapply PL_create.
          -- apply (Hstop x e2 w2); [done|]. by eapply PL_create_crash.
        * apply (Hstop x e1 w1); [done|]. by eapply PL_create_exc.
  Qed.

  Lemma pow_loop_lrun inh pm pcm m w :
    (forall i m' w, m_depth m' = m_depth m + 1 -> m_depth m' <= 1024 -> pfrun i m' w (pm i m' w)) ->
    (forall i m' w, m_depth m' = m_depth m + 1 -> m_depth m' <= 1024 -> pcrun i m' w (pcm i m' w)) ->
    exists ox e' t' w', pow_loop cr n env te inh pm pcm (init_evm m) w = (ox, e', t', w') /\
      plrun inh (init_evm m) ∅ w ox e' t' w'.
  Proof.
    intros H1 H2.
    destruct (pow_loop_run inh pm pcm (m_depth m) H1 H2 (init_evm m) ∅ w (init_shape m) eq_refl)
      as (k & s' & ox & e' & t' & w' & Hk & He & Hle & Hl).
    exists ox, e', t', w'. split; [|done]. unfold pow_loop.
    rewrite (loop_pos_enough _ _ _ _ _ _ Hk He); [done|].
    unfold mu in Hle. cbn in Hle |- *. lia.
  Qed.

  Lemma pow_execute_run inh pm pcm m w :
    (forall i m' w, m_depth m' = m_depth m + 1 -> m_depth m' <= 1024 -> pfrun i m' w (pm i m' w)) ->
    (forall i m' w, m_depth m' = m_depth m + 1 -> m_depth m' <= 1024 -> pcrun i m' w (pcm i m' w)) ->
    pxrun inh m w (pow_execute_code cr n env te inh pm pcm m w).
  Proof.
    intros H1 H2. unfold pow_execute_code.
    match goal with |- pxrun _ _ _ (match ?x with _ => _ end) => destruct x as [p|] eqn:Ep end.
    - apply bind_Some in Ep as (a & Ea & Ep). by apply (PX_pre inh m w a p).
    - destruct (pow_loop_lrun inh pm pcm m w H1 H2) as (ox & e' & t' & w' & -> & Hl).
      apply PX_loop in Hl. by destruct ox.
  Qed.

  Lemma pow_body_run inh pm pcm m w :
    m_depth m <= 1024 ->
    (forall i m' w, m_depth m' = m_depth m + 1 -> m_depth m' <= 1024 -> pfrun i m' w (pm i m' w)) ->
    (forall i m' w, m_depth m' = m_depth m + 1 -> m_depth m' <= 1024 -> pcrun i m' w (pcm i m' w)) ->
    pfrun inh m w (pow_process_message_body cr n env te inh pm pcm m w).
  Proof.
    intros Hd H1 H2. unfold pow_process_message_body. cbv zeta.
    change (if m_should_transfer_value m && _ then _ else _)
      with (ptransfer m (begin_transaction w)).
    destruct (ptransfer m (begin_transaction w)) as [s1|c] eqn:Et; [|by apply PF_move].
    pose proof (pow_execute_run inh pm pcm m (set_st s1 (begin_transaction w)) H1 H2) as Hx.
    destruct (pow_execute_code _ _ _ _ _ _ _ m _) as [e t w2|x w2]; [|by eapply PF_raise].
    destruct (e_error e) eqn:Ee.
    - destruct (rollback_transaction w2) as [w3|c] eqn:Er; [by eapply PF_fail|].
      eapply PF_pop; eauto.
    - destruct (commit_transaction w2) as [w3|c] eqn:Er; [by eapply PF_ok|].
      eapply PF_pop; eauto.
  Qed.

  Lemma pcreate_entry_ok w a : exists w', pcreate_entry w a = Ok w'.
  Proof.
    unfold pcreate_entry. cbv zeta. destruct (since SpuriousDragon n); [|by eexists].
    match goal with |- context [pow_increment_nonce ?s ?a] =>
      destruct (pow_increment_nonce s a) eqn:E; [by eexists|discriminate E] end.
  Qed.

  Lemma pow_create_with_run inh pm m w :
    (forall w, pfrun inh m w (pm m w)) ->
    pcrun inh m w (pow_process_create_message_with n pm m w).
  Proof.
    intros H. unfold pow_process_create_message_with. cbv zeta.
    destruct (pcreate_entry_ok w (m_current_target m)) as [w3 Hen].
    pose proof Hen as Hen'. unfold pcreate_entry in Hen'. cbv zeta in Hen'.
    destruct (if since SpuriousDragon n then _ else _) as [s3|]; [|done].
    assert (w3 = set_st s3 (begin_transaction w)) by congruence. subst w3. clear Hen'.
    specialize (H (set_st s3 (begin_transaction w))).
    destruct (pm m _) as [e t w4|x w4]; [|by eapply PC_raise].
    destruct (e_error e) eqn:Ee.
    - destruct (rollback_transaction w4) as [w5|c] eqn:Er; [by eapply PC_fail|].
      eapply PC_pop; eauto.
    - destruct (pow_deposit n e) as [[h|] e'] eqn:Ed.
      + destruct (since Homestead n) eqn:Eh.
        * destruct (rollback_transaction w4) as [w5|c] eqn:Er; [by eapply PC_deposit|].
          eapply PC_pop; eauto.
        * destruct (commit_transaction w4) as [w6|c] eqn:Er; [by eapply PC_bare|].
          eapply PC_pop; eauto.
      + destruct (pow_set_code _ _ _) as [s5|] eqn:Es; [|discriminate Es].
        destruct (commit_transaction _) as [w6|c] eqn:Er; [by eapply PC_ok|].
        eapply PC_pop; eauto.
  Qed.

  Lemma pow_fuel_run f : forall inh m w, 1025 <= N.of_nat f + m_depth m ->
    pfrun inh m w (pow_process_message_fuel cr n env te f inh m w).
  Proof.
    induction f as [|f IH]; intros inh m w Hf; cbn [pow_process_message_fuel];
      unfold STACK_DEPTH_LIMIT; destruct (N.ltb_spec 1024 (m_depth m)) as [Hd|Hd];
      try (by apply PF_deep); [lia|].
    apply pow_body_run; [done|..].
    - intros i m' w' Hm' _. apply IH. lia.
    - intros i m' w' Hm' _. apply pow_create_with_run. intros w1. apply IH. lia.
  Qed.

  Theorem pow_message_run inh m w : pfrun inh m w (pow_process_message cr n env te inh m w).
  Proof. apply pow_fuel_run. lia. Qed.
  Theorem pow_create_run inh m w :
    pcrun inh m w (pow_process_create_message cr n env te inh m w).
  Proof. apply pow_create_with_run. intros. apply pow_message_run. Qed.

  (** ** The recursion equation *)
  Lemma pow_step_inv inh pm pcm e t w e' t' w' :
    shape_ok e -> pow_step cr n env te inh pm pcm (e, t, w) = inl (e', t', w') ->
    shape_ok e' /\ e_message e' = e_message e.
  Proof.
    intros Hs E.
    destruct (pow_step_cases inh e t w Hs) as [(_ & He)|[(h & He)|(o & p & Ho & Hp & _ & He)]];
      rewrite He in E; try done.
    destruct p as [[t1 e1 w1|x e1 w1]|m e1 os oz|m e1 w0]; cbn [pplan_ok pinterp] in Hp, E; try done.
    - injection E as <- <- <-. destruct Hp as [Hp _].
      split; [by eapply local_step_shape|by apply ls_msg in Hp].
    - destruct (pm _ m w) as [c tc w1|]; [|done].
      destruct (resume_call e1 os oz c w1) as [[] e2 w2|] eqn:Er; cbn [resumed] in E; [|done].
      injection E as <- <- <-.
      by destruct (presume_call_shape _ _ _ _ _ _ _ _ _ _ _ Hp Er) as (H1 & H2 & _).
    - destruct (pcm _ m w0) as [c tc w1|]; [|done].
      destruct (resume_create e1 c w1) as [[] e2 w2|] eqn:Er; cbn [resumed] in E; [|done].
      injection E as <- <- <-.
      by destruct (presume_create_shape _ _ _ _ _ _ _ _ _ _ Hp Er) as (H1 & H2 & _).
  Qed.

  Lemma pow_step_ext inh pm1 pcm1 pm2 pcm2 e t w :
    shape_ok e ->
    (forall i m w, m_depth m = m_depth (e_message e) + 1 -> pm1 i m w = pm2 i m w) ->
    (forall i m w, m_depth m = m_depth (e_message e) + 1 -> pcm1 i m w = pcm2 i m w) ->
    pow_step cr n env te inh pm1 pcm1 (e, t, w) = pow_step cr n env te inh pm2 pcm2 (e, t, w).
  Proof.
    intros Hs H1 H2.
    destruct (pow_step_cases inh e t w Hs) as [(_ & He)|[(h & He)|(o & p & Ho & Hp & _ & He)]];
      rewrite !He; try done.
    destruct p as [r|m e1 os oz|m e1 w0]; cbn [pplan_ok pinterp] in *; [done|..].
    - by rewrite H1 by (apply (wa_depth _ _ _ _ (pco_wait _ _ _ _ _ _ _ _ Hp))).
    - by rewrite H2 by (apply (wa_depth _ _ _ _ (pcr_wait _ _ _ _ _ _ _ _ Hp))).
  Qed.

  Lemma pow_body_ext inh pm1 pcm1 pm2 pcm2 m w :
    (forall i m' w, m_depth m' = m_depth m + 1 -> pm1 i m' w = pm2 i m' w) ->
    (forall i m' w, m_depth m' = m_depth m + 1 -> pcm1 i m' w = pcm2 i m' w) ->
    pow_process_message_body cr n env te inh pm1 pcm1 m w
    = pow_process_message_body cr n env te inh pm2 pcm2 m w.
  Proof.
    intros H1 H2. unfold pow_process_message_body. cbv zeta.
    destruct (if m_should_transfer_value m && _ then _ else _) as [s1|]; [|done].
    assert (He : pow_execute_code cr n env te inh pm1 pcm1 m (set_st s1 (begin_transaction w)) =
                 pow_execute_code cr n env te inh pm2 pcm2 m (set_st s1 (begin_transaction w))).
    { unfold pow_execute_code.
      match goal with |- match ?x with _ => _ end = _ => destruct x end; [done|].
      unfold pow_loop.
      destruct (loop_pos_ext (fun s : evm * gset address * world =>
          shape_ok s.1.1 /\ e_message s.1.1 = m)
        (pow_step cr n env te inh pm1 pcm1) (pow_step cr n env te inh pm2 pcm2)) with
        (p := N.succ_pos (e_gas_left (init_evm m) + 1))
        (s := (init_evm m, ∅ : gset address, set_st s1 (begin_transaction w))) as [-> _]; [..|done].
      - intros [[e t] w1] [Hs Hm]. cbn in Hs, Hm. apply pow_step_ext; [done|..]; by rewrite Hm.
      - intros [[e t] w1] [[e2 t2] w2] [Hs Hm] E. cbn in *.
        destruct (pow_step_inv _ _ _ _ _ _ _ _ _ Hs E) as [H3 H4]. by rewrite H4.
      - split; [apply init_shape|done]. }
    by rewrite He.
  Qed.

  Lemma pow_create_with_ext pm1 pm2 m w :
    (forall w, pm1 m w = pm2 m w) ->
    pow_process_create_message_with n pm1 m w = pow_process_create_message_with n pm2 m w.
  Proof.
    intros H. unfold pow_process_create_message_with. cbv zeta.
    destruct (if since SpuriousDragon n then _ else _); [|done]. by rewrite H.
  Qed.

  Lemma pow_fuel_irrel f1 : forall f2 inh m w,
    1025 <= N.of_nat f1 + m_depth m -> 1025 <= N.of_nat f2 + m_depth m ->
    pow_process_message_fuel cr n env te f1 inh m w
    = pow_process_message_fuel cr n env te f2 inh m w.
  Proof.
    induction f1 as [|f1 IH]; intros f2 inh m w H1 H2.
    - cbn [pow_process_message_fuel]. destruct f2; cbn [pow_process_message_fuel];
        unfold STACK_DEPTH_LIMIT; (destruct (N.ltb_spec 1024 (m_depth m)); [done|lia]).
    - destruct f2 as [|f2]; cbn [pow_process_message_fuel]; unfold STACK_DEPTH_LIMIT;
        (destruct (N.ltb_spec 1024 (m_depth m)); [done|]); [lia|].
      apply pow_body_ext.
      + intros i m' w' Hm'. apply IH; lia.
      + intros i m' w' Hm'. apply pow_create_with_ext. intros w1. apply IH; lia.
  Qed.

  (** [pow_process_message] satisfies the recursion of the Python code. *)
  Theorem pow_process_message_eq inh m w :
    pow_process_message cr n env te inh m w =
    if 1024 <? m_depth m then PPExc (EHalt StackDepthLimitError) w
    else pow_process_message_body cr n env te inh (pow_process_message cr n env te)
           (pow_process_create_message cr n env te) m w.
  Proof.
    unfold pow_process_message at 1. destruct (N.to_nat (1025 - m_depth m)) as [|f] eqn:Ef;
      cbn [pow_process_message_fuel]; unfold STACK_DEPTH_LIMIT;
      (destruct (N.ltb_spec 1024 (m_depth m)) as [Hd|Hd]; [done|]); [lia|].
    apply pow_body_ext.
    - intros i m' w' Hm'. apply pow_fuel_irrel; lia.
    - intros i m' w' Hm'. unfold pow_process_create_message. apply pow_create_with_ext.
      intros w1. apply pow_fuel_irrel; lia.
  Qed.
End Frame.
