(** * EvmFrame: executions of frames as derivations.

    [frun], [crun], [xrun] and [lrun] describe message calls, creations,
    [execute_code] and its loop in terms of the instruction classification of
    [EvmPlan.v].  [process_message_run] and [process_create_run] show that
    the interpreter always produces such a derivation; in particular it
    terminates and its fuel never runs out. *)
From Verif Require Import Base State Rlp Vm Instructions Precompiles Interpreter
  StateSpec StateProofs NumericProofs ArithProofs EvmStep EvmLocal EvmPlan
  EvmPlanProofs EvmCallProofs.
From Coq Require Import ZifyBool ZifyN ZifyNat.
Ltac Zify.zify_post_hook ::= idtac.

Local Opaque to_u256 from_be_bytes calculate_memory_gas_cost ceil32 N.compare.

(** ** Precompiles *)

(** The lengths in the input of MODEXP whose sum does not fit in a [U256]. *)
Definition modexp_overflow (data : bytes) : Prop :=
  2 ^ 256 <= 96 + read_word data 0 + read_word data 32.

Definition pre_res (cr : crypto) (be : block_env) (te : tx_env) (e : evm) (w : world)
    (r : res unit) : Prop :=
  match r with
  | Ret _ e' w' =>
      w' = w /\ e' = set_output (e_output e') (set_gas_left (e_gas_left e') e) /\
      e_gas_left e' <= e_gas_left e /\
      (env_ok cr be te -> lenN (m_data (e_message e)) < 2 ^ 256 ->
       lenN (e_output e) < 2 ^ 256 -> lenN (e_output e') < 2 ^ 256)
  | Exc x e' w' =>
      w' = w /\
      ((exists h, x = EHalt h) \/
       (x = ECrash OverflowError /\ at_least Osaka (b_fork be) = false /\
        modexp_overflow (m_data (e_message e)))) /\
      e' = set_gas_left (e_gas_left e') e /\ e_gas_left e' <= e_gas_left e
  end.

Ltac pnorm := unfold get_data, bls_output; norm.

Lemma blake2_len r h m t0 t1 f : lenN (blake2_compress r h m t0 t1 f) = 64.
Proof.
  unfold blake2_compress. destruct (N.iter _ _ _) as [n0 v]. cbn [seq map concat].
  rewrite !lenN_app, lenN_nil. unfold to_le_bytes8, lenN.
  rewrite !rev_length. 
  assert (H : forall n x, length (to_be_fixed n x) = n).
  { intros n x. pose proof (to_be_fixed_len n x) as Hl. unfold lenN in Hl. lia. }
  by rewrite !H.
Qed.

Lemma padded_len b : lenN b <= 32 -> lenN (left_pad_zero_bytes b 32) < 2 ^ 256.
Proof.
  intros Hb. unfold left_pad_zero_bytes. rewrite lenN_app, lenN_zeros.
  assert (32 < 2 ^ 256) by done. lia.
Qed.
Lemma word_len x : lenN (to_be_bytes32 x) < 2 ^ 256.
Proof. by rewrite lenN_to_be_bytes32. Qed.
Lemma words2_len x y : lenN (to_be_bytes32 x ++ to_be_bytes32 y) < 2 ^ 256.
Proof. by rewrite lenN_app, !lenN_to_be_bytes32. Qed.

Local Opaque blake2_compress pow_mod to_be_fixed msm_gas modexp_gas_cost to_be_bytes32
  buffer_read left_pad_zero_bytes sha256_digest lenN N.pow bn128_bytes_to_g1 read_word
  is_on_curve_secp256r1 SECP256K1N SECP256R1N SECP256R1P words_of spit_le_to_uint
  bytes_eqb takeN dropN sliceN FIELD_ELEMENTS_PER_BLOB BLS_MODULUS.

Lemma g1_to_bytes_len q : lenN (g1_to_bytes q) = 128.
Proof. unfold g1_to_bytes. by rewrite lenN_app, !to_be_fixed_len. Qed.
Lemma g2_to_bytes_len q : lenN (g2_to_bytes q) = 256.
Proof. unfold g2_to_bytes, FQ2_to_bytes. by rewrite !lenN_app, !to_be_fixed_len. Qed.

Lemma bls_op_len cr f b out :
  In f [bls12_g1_add_op cr; bls12_g1_msm_op cr; bls12_map_fp_to_g1_op cr;
        bls12_g2_add_op cr; bls12_g2_msm_op cr; bls12_map_fp2_to_g2_op cr] ->
  f b = Some out -> lenN out < 2 ^ 256.
Proof.
  cbn [In]. intros Hin Hf.
  assert (H : lenN out = 128 \/ lenN out = 256).
  { repeat (destruct Hin as [<-|Hin]; [
      unfold bls12_g1_add_op, bls12_g1_msm_op, bls12_map_fp_to_g1_op, bls12_g2_add_op,
        bls12_g2_msm_op, bls12_map_fp2_to_g2_op in Hf;
      repeat (case_match; try discriminate Hf); injection Hf as <-;
      rewrite ?g1_to_bytes_len, ?g2_to_bytes_len; tauto |]).
    destruct Hin. }
  destruct H as [-> | ->]; done.
Qed.

Lemma read_word_bound d s : read_word d s < 2 ^ 256.
Proof.
  Local Transparent read_word.
  unfold read_word. apply (from_be_lt_32 (buffer_read d s 32)). by rewrite buffer_read_len.
  Local Opaque read_word.
Qed.

Lemma to_u256_raise k c : to_u256 k = Raise c -> c = OverflowError /\ 2 ^ 256 <= k.
Proof.
  Local Transparent to_u256.
  unfold to_u256, U256_CEIL. destruct (N.ltb_spec k (2 ^ 256)); [discriminate|].
  intros [= <-]. done.
  Local Opaque to_u256.
Qed.

Local Opaque modexp_gas_cost_2565.
Lemma pre_modexp_2565_spec cr be te e w :
  at_least Osaka (b_fork be) = false -> pre_res cr be te e w (pre_modexp_2565 e w).
Proof.
  intros Hfork.
  destruct e as [pc stk mem cod gas vjd logs rc rn msg out del rd err aa ak].
  unfold pre_modexp_2565. pnorm.
  pose proof (read_word_bound (m_data msg) 64) as Hm.
  assert (Hcrash : forall k c, to_u256 k = Raise c ->
    k <= 96 + read_word (m_data msg) 0 + read_word (m_data msg) 32 ->
    (exists h, ECrash c = EHalt h) \/
    (ECrash c = ECrash OverflowError /\ at_least Osaka (b_fork be) = false /\
     modexp_overflow (m_data msg))).
  { intros k c Hk Hle. apply to_u256_raise in Hk as [-> Hk]. right. split; [done|].
    split; [done|]. unfold modexp_overflow. lia. }
  destruct (to_u256 (96 + read_word (m_data msg) 0)) as [es|c] eqn:E1; pnorm.
  2:{ split; [done|]. split; [apply (Hcrash _ _ E1); lia|]. split; [done|cbn; lia]. }
  apply to_u256_inv in E1 as [-> _].
  match goal with |- context [gas <? ?c] => destruct (N.ltb_spec gas c) as [Hlt|Hge] end; pnorm.
  { split; [done|]. split; [left; by eexists|]. split; [done|cbn; lia]. }
  match goal with |- context [if ?b then _ else _] => destruct b end; pnorm.
  { split; [done|]. split; [done|]. split; [cbn; lia|]. intros _ _ _. cbn. by rewrite lenN_nil. }
  match goal with |- context [to_u256 ?k] => destruct (to_u256 k) as [ms|c] eqn:E2 end; pnorm.
  2:{ split; [done|]. split; [apply (Hcrash _ _ E2); lia|]. split; [done|cbn; lia]. }
  match goal with |- context [if ?b then _ else _] => destruct b end; pnorm;
    (split; [done|]; split; [done|]; split; [cbn; lia|]; intros _ _ _; cbn [e_output]).
  + by rewrite lenN_zeros.
  + by rewrite to_be_fixed_len, N2Nat.id.
Qed.

Lemma pre_spec cr be te a p e w :
  pre_compiled_contracts cr (b_fork be) a = Some p -> pre_res cr be te e w (p e w).
Proof.
  intros Hp.
  assert (Hin : at_least Osaka (b_fork be) = false /\ p = pre_modexp_2565 \/ In p [pre_ecrecover cr; pre_sha256 cr; pre_ripemd160 cr; pre_identity;
    pre_modexp; pre_alt_bn128_add cr; pre_alt_bn128_mul cr; pre_alt_bn128_pairing_check cr;
    pre_blake2f; pre_point_evaluation cr; pre_bls12_g1_add cr; pre_bls12_g1_msm cr;
    pre_bls12_g2_add cr; pre_bls12_g2_msm cr; pre_bls12_pairing cr;
    pre_bls12_map_fp_to_g1 cr; pre_bls12_map_fp2_to_g2 cr; pre_p256verify cr]).
  { unfold pre_compiled_contracts in Hp. cbv zeta in Hp.
    destruct (at_least Osaka (b_fork be)), (at_least Prague (b_fork be)),
      (at_least Cancun (b_fork be));
    repeat (destruct a as [|a]; try discriminate Hp; try (injection Hp as <-; cbn; tauto));
    repeat match type of Hp with
    | context [match ?a with _ => _ end] => destruct a; try discriminate Hp;
       try (injection Hp as <-; cbn; tauto)
    end. }
  clear Hp. destruct Hin as [[Hfork ->]|Hin]; [by apply pre_modexp_2565_spec|].
  destruct e as [pc stk mem cod gas vjd logs rc rn msg out del rd err aa ak].
  cbn [In] in Hin.
  repeat (destruct Hin as [<-|Hin]; [
    unfold pre_ecrecover, pre_sha256, pre_ripemd160, pre_identity, pre_modexp,
      pre_alt_bn128_add, pre_alt_bn128_mul, pre_alt_bn128_pairing_check, pre_blake2f,
      pre_point_evaluation, pre_bls12_g1_add, pre_bls12_g1_msm, pre_bls12_g2_add,
      pre_bls12_g2_msm, pre_bls12_pairing, pre_bls12_map_fp_to_g1, pre_bls12_map_fp2_to_g2,
      pre_p256verify; pnorm; repeat (dm; pnorm); unfold pre_res;
    match goal with
    | |- _ /\ (_ \/ _) /\ _ =>
        split; [reflexivity|]; split; [left; by eexists|]; split; [reflexivity|]; cbn; lia
    | |- _ =>
        split; [reflexivity|]; split; [reflexivity|]; split; [cbn; lia|]; cbn [e_output e_message];
        intros He Hd Ho;
        lazymatch goal with
        | |- lenN out < _ => exact Ho
        | |- lenN (m_data _) < _ => exact Hd
        | |- lenN [] < _ => by rewrite lenN_nil
        | |- lenN (to_be_bytes32 _) < _ => apply word_len
        | |- lenN (to_be_bytes32 _ ++ _) < _ => apply words2_len
        | |- lenN (sha256_digest _ _) < _ => eapply eo_sha256; exact He
        | |- lenN (left_pad_zero_bytes (ripemd160_digest _ _) _) < _ =>
             apply padded_len, (eo_ripemd160 _ _ _ He)
        | |- lenN (left_pad_zero_bytes (sliceN _ _ _) _) < _ =>
             apply padded_len; rewrite lenN_sliceN; lia
        | |- lenN (left_pad_zero_bytes [_] _) < _ => by apply padded_len; rewrite lenN_cons, lenN_nil
        | H : _ = Some ?b |- lenN ?b < _ =>
             eapply bls_op_len; [|exact H]; cbn; tauto
        | |- lenN (blake2_compress _ _ _ _ _ _) < _ => rewrite blake2_len; done
        | |- lenN (to_be_fixed _ _) < _ => rewrite to_be_fixed_len
        | |- lenN (zeros _) < _ => rewrite lenN_zeros
        | |- _ => idtac
        end
    end |]).
  all: try (by destruct Hin).
  all: rewrite ?N2Nat.id;
    match goal with H : (1024 <? ?x) = false |- ?x < _ =>
      apply N.ltb_ge in H; apply (N.le_lt_trans _ _ _ H); done end.
Qed.

Local Transparent N.pow.

(** ** Derivations *)
Section Frame.
  Context (cr : crypto) (be : block_env) (te : tx_env).

  (** The frame is about to execute instruction [o]. *)
  Definition at_op (e : evm) (o : op) : Prop :=
    e_running e = true /\ e_pc e < lenN (e_code e) /\
    exists b, nthN (e_code e) (e_pc e) = Some b /\ decode_op b = Some o.

  Definition transfer (m : message) (w0 : world) : result state :=
    if m_should_transfer_value m && negb (m_value m =? 0)
    then move_ether (st w0) (m_caller m) (m_current_target m) (m_value m)
    else Ok (st w0).

  Definition loop_end (ox : option exn) (e : evm) (w : world) : pmres :=
    match ox with None => PRet e w | Some x => handle_exn x e w end.

  (** The world in which the frame of a creation starts. *)
  Definition create_entry (w : world) (a : address) : result world :=
    match increment_nonce
            (mark_account_created (destroy_storage (st (begin_transaction w)) a) a) a with
    | Ok s => Ok (set_st s (begin_transaction w))
    | Raise c => Raise c
    end.

  Inductive frun : message -> world -> pmres -> Prop :=
  | FR_deep m w :
      1024 < m_depth m -> frun m w (PExc (EHalt StackDepthLimitError) w)
  | FR_move m w c :
      m_depth m <= 1024 -> transfer m (begin_transaction w) = Raise c ->
      frun m w (PExc (ECrash c) (begin_transaction w))
  | FR_raise m w s1 x w2 :
      m_depth m <= 1024 -> transfer m (begin_transaction w) = Ok s1 ->
      xrun m (set_st s1 (begin_transaction w)) (PExc x w2) ->
      frun m w (PExc x w2)
  | FR_fail m w s1 e x w2 w3 :
      m_depth m <= 1024 -> transfer m (begin_transaction w) = Ok s1 ->
      xrun m (set_st s1 (begin_transaction w)) (PRet e w2) ->
      e_error e = Some x -> rollback_transaction w2 = Ok w3 ->
      frun m w (PRet e w3)
  | FR_ok m w s1 e w2 w3 :
      m_depth m <= 1024 -> transfer m (begin_transaction w) = Ok s1 ->
      xrun m (set_st s1 (begin_transaction w)) (PRet e w2) ->
      e_error e = None -> commit_transaction w2 = Ok w3 ->
      frun m w (PRet e w3)
  | FR_pop m w s1 e w2 c :
      m_depth m <= 1024 -> transfer m (begin_transaction w) = Ok s1 ->
      xrun m (set_st s1 (begin_transaction w)) (PRet e w2) ->
      (rollback_transaction w2 = Raise c \/ commit_transaction w2 = Raise c) ->
      frun m w (PExc (ECrash c) w2)

  with xrun : message -> world -> pmres -> Prop :=
  | XR_disabled m w : xrun m w (PRet (init_evm m) w)
  | XR_pre m w r :
      pre_res cr be te (init_evm m) w r ->
      xrun m w match r with Ret _ e' w' => PRet e' w' | Exc x e' w' => handle_exn x e' w' end
  | XR_loop m w ox e' w' :
      lrun (init_evm m) w ox e' w' -> xrun m w (loop_end ox e' w')

  with lrun : evm -> world -> option exn -> evm -> world -> Prop :=
  | LR_end e w :
      e_running e && (e_pc e <? lenN (e_code e)) = false -> lrun e w None e w
  | LR_bad e w h :
      lrun e w (Some (EHalt h)) e w
  | LR_done e w o e1 w1 ox e' w' :
      at_op e o -> done_ok cr be te o e w (Ret tt e1 w1) ->
      lrun e1 w1 ox e' w' -> lrun e w ox e' w'
  | LR_exc e w o x e' w' :
      at_op e o -> done_ok cr be te o e w (Exc x e' w') -> lrun e w (Some x) e' w'
  | LR_call e w o m e1 os oz c w1 e2 w2 ox e' w' :
      at_op e o -> call_ok be o e w m e1 os oz -> frun m w (PRet c w1) ->
      resume_call e1 os oz c w1 = Ret tt e2 w2 ->
      lrun e2 w2 ox e' w' -> lrun e w ox e' w'
  | LR_call_crash e w o m e1 os oz c w1 x e2 w2 :
      at_op e o -> call_ok be o e w m e1 os oz -> frun m w (PRet c w1) ->
      resume_call e1 os oz c w1 = Exc x e2 w2 -> lrun e w (Some x) e2 w2
  | LR_call_exc e w o m e1 os oz x w1 :
      at_op e o -> call_ok be o e w m e1 os oz -> frun m w (PExc x w1) ->
      lrun e w (Some x) e1 w1
  | LR_create e w o m e1 w0 c w1 e2 w2 ox e' w' :
      at_op e o -> create_ok cr be o e w m e1 w0 -> crun m w0 (PRet c w1) ->
      resume_create e1 c w1 = Ret tt e2 w2 ->
      lrun e2 w2 ox e' w' -> lrun e w ox e' w'
  | LR_create_crash e w o m e1 w0 c w1 x e2 w2 :
      at_op e o -> create_ok cr be o e w m e1 w0 -> crun m w0 (PRet c w1) ->
      resume_create e1 c w1 = Exc x e2 w2 -> lrun e w (Some x) e2 w2
  | LR_create_exc e w o m e1 w0 x w1 :
      at_op e o -> create_ok cr be o e w m e1 w0 -> crun m w0 (PExc x w1) ->
      lrun e w (Some x) e1 w1

  with crun : message -> world -> pmres -> Prop :=
  | CR_raise m w w3 x w4 :
      create_entry w (m_current_target m) = Ok w3 ->
      frun m w3 (PExc x w4) -> crun m w (PExc x w4)
  | CR_fail m w w3 e x w4 w5 :
      create_entry w (m_current_target m) = Ok w3 ->
      frun m w3 (PRet e w4) -> e_error e = Some x ->
      rollback_transaction w4 = Ok w5 -> crun m w (PRet e w5)
  | CR_deposit m w w3 e h e' w4 w5 :
      create_entry w (m_current_target m) = Ok w3 ->
      frun m w3 (PRet e w4) -> e_error e = None -> deposit_code e = (Some h, e') ->
      rollback_transaction w4 = Ok w5 ->
      crun m w (PRet (set_error (Some (EHalt h)) (set_output [] (set_gas_left 0 e'))) w5)
  | CR_ok m w w3 e e' w4 s5 w6 :
      create_entry w (m_current_target m) = Ok w3 ->
      frun m w3 (PRet e w4) -> e_error e = None -> deposit_code e = (None, e') ->
      set_code (st w4) (m_current_target m) (e_output e) = Ok s5 ->
      commit_transaction (set_st s5 w4) = Ok w6 -> crun m w (PRet e' w6)
  | CR_pop m w w3 e w4 c :
      create_entry w (m_current_target m) = Ok w3 ->
      frun m w3 (PRet e w4) ->
      (rollback_transaction w4 = Raise c \/
       exists s5, set_code (st w4) (m_current_target m) (e_output e) = Ok s5 /\
         commit_transaction (set_st s5 w4) = Raise c) ->
      crun m w (PExc (ECrash c) w4).

  Scheme frun_ind4 := Induction for frun Sort Prop
    with xrun_ind4 := Induction for xrun Sort Prop
    with lrun_ind4 := Induction for lrun Sort Prop
    with crun_ind4 := Induction for crun Sort Prop.
  Combined Scheme run_mutind from frun_ind4, xrun_ind4, lrun_ind4, crun_ind4.

  (** ** Gas (needed for termination) *)
  Lemma resume_call_gas e1 os oz c w : e_gas_left
    match resume_call e1 os oz c w with Ret _ e2 _ => e2 | Exc _ e2 _ => e2 end
    = e_gas_left e1 + e_gas_left c.
  Proof.
    unfold resume_call, child_return. destruct (to_u256 _), (e_error c);
      destruct e1, c; reflexivity.
  Qed.
  Lemma resume_create_gas e1 c w : e_gas_left
    match resume_create e1 c w with Ret _ e2 _ => e2 | Exc _ e2 _ => e2 end
    = e_gas_left e1 + e_gas_left c.
  Proof.
    unfold resume_create, child_return. destruct (e_error c); [|destruct (to_u256 _)];
      destruct e1, c; reflexivity.
  Qed.
  Lemma deposit_code_gas e h e' : deposit_code e = (h, e') -> e_gas_left e' <= e_gas_left e.
  Proof.
    unfold deposit_code. intros H.
    repeat match type of H with context [if ?b then _ else _] => destruct b end;
      injection H as <- <-; try done; destruct e; cbn; lia.
  Qed.

  Definition gas_ret (g : N) (r : pmres) : Prop :=
    match r with PRet c _ => e_gas_left c <= g | PExc _ _ => True end.

  Lemma handle_exn_gas x e w g : e_gas_left e <= g -> gas_ret g (handle_exn x e w).
  Proof. destruct x; destruct e; cbn; lia || done. Qed.

  Lemma run_gas :
    (forall m w r, frun m w r -> gas_ret (m_gas m) r) /\
    (forall m w r, xrun m w r -> gas_ret (m_gas m) r) /\
    (forall e w ox e' w', lrun e w ox e' w' -> e_gas_left e' <= e_gas_left e) /\
    (forall m w r, crun m w r -> gas_ret (m_gas m) r).
  Proof.
    apply (run_mutind (fun m _ r _ => gas_ret (m_gas m) r) (fun m _ r _ => gas_ret (m_gas m) r)
      (fun e _ _ e' _ _ => e_gas_left e' <= e_gas_left e)
      (fun m _ r _ => gas_ret (m_gas m) r)); intros; try done.
    - cbn. lia.
    - destruct r; cbn in *; [lia|]. destruct p as (_ & _ & _ & Hp). by apply handle_exn_gas.
    - destruct ox; cbn in *; [apply handle_exn_gas|]; auto.
    - destruct d as [H1 _]. pose proof (ls_gas_le _ _ _ _ _ _ _ H1). lia.
    - by destruct d as (_ & Hd & _).
    - pose proof (resume_call_gas e1 os oz c w1) as Hg. rewrite e0 in Hg.
      pose proof (wa_gas _ _ _ _ (co_wait _ _ _ _ _ _ _ _ c0)). cbn in *. lia.
    - pose proof (resume_call_gas e1 os oz c w1) as Hg. rewrite e0 in Hg.
      pose proof (wa_gas _ _ _ _ (co_wait _ _ _ _ _ _ _ _ c0)). cbn in *. lia.
    - pose proof (wa_gas _ _ _ _ (co_wait _ _ _ _ _ _ _ _ c)). lia.
    - pose proof (resume_create_gas e1 c w1) as Hg. rewrite e0 in Hg.
      pose proof (wa_gas _ _ _ _ (cr_wait _ _ _ _ _ _ _ _ c0)). cbn in *. lia.
    - pose proof (resume_create_gas e1 c w1) as Hg. rewrite e0 in Hg.
      pose proof (wa_gas _ _ _ _ (cr_wait _ _ _ _ _ _ _ _ c0)). cbn in *. lia.
    - pose proof (wa_gas _ _ _ _ (cr_wait _ _ _ _ _ _ _ _ c)). lia.
    - apply deposit_code_gas in e2. cbn in *. destruct e'; cbn in *; lia.
    - apply deposit_code_gas in e2. cbn in *. lia.
  Qed.

  (** ** The interpreter follows the derivations *)
  Lemma decode_op_ok b o : decode_op b = Some o -> op_ok o.
  Proof.
    assert (H : match decode_op b with Some o => op_ok o | None => True end).
    { destruct b; vm_compute; try exact I; by intros [=]. }
    by intros E; rewrite E in H.
  Qed.

  Lemma exec_step_cases e w : shape_ok e ->
    (e_running e && (e_pc e <? lenN (e_code e)) = false /\
       forall pm pcm, exec_step cr be te pm pcm (e, w) = inr (None, e, w)) \/
    (exists h, forall pm pcm, exec_step cr be te pm pcm (e, w) = inr (Some (EHalt h), e, w)) \/
    (exists o p, at_op e o /\ plan_ok cr be te o e w p /\
       forall pm pcm, exec_step cr be te pm pcm (e, w) =
         match interp pm pcm p w with
         | Ret _ e' w' => inl (e', w')
         | Exc x e' w' => inr (Some x, e', w')
         end).
  Proof.
    intros Hs. unfold exec_step.
    destruct (e_running e) eqn:Hr; cbn [andb]; [|by left].
    destruct (N.ltb_spec (e_pc e) (lenN (e_code e))) as [Hp|Hp]; [|by left].
    right. destruct (nthN (e_code e) (e_pc e)) as [b|] eqn:En.
    2:{ exfalso. by destruct (nthN_lt_Some (e_pc e) (e_code e) Hp) as [b Hb]; rewrite Hb in En. }
    destruct (decode_op b) as [o|] eqn:Eo; [|left; by eexists].
    destruct (available (b_fork be) o); [|left; by eexists]. right.
    destruct (op_plan cr be te o e w (decode_op_ok _ _ Eo) Hs Hr) as (p & Hp1 & Hp2).
    exists o, p. split; [by repeat split; eauto|]. split; [done|].
    intros pm pcm. by rewrite Hp2.
  Qed.

  Lemma resume_call_shape o e w m e1 os oz c w1 e2 w2 :
    call_ok be o e w m e1 os oz -> resume_call e1 os oz c w1 = Ret tt e2 w2 ->
    shape_ok e2 /\ e_message e2 = e_message e /\ w2 = w1 /\
    lenN (e_memory e2) = lenN (e_memory e1) /\ e_running e2 = true /\ e_pc e2 = e_pc e + 1 /\
    e_code e2 = e_code e /\ e_valid_jump_destinations e2 = e_valid_jump_destinations e /\
    e_output e2 = e_output e /\ e_error e2 = e_error e.
  Proof.
    intros [[] Hd Hr _ _ _ _ _] E. revert E. unfold resume_call.
    destruct (to_u256 _) as [n|] eqn:En; [|done]. intros [= <- <-].
    apply to_u256_inv in En as [-> _].
    assert (Hlen : lenN (memory_write_bytes (e_memory e1) os
      (takeN (N.min oz (lenN (e_output c))) (e_output c))) = lenN (e_memory e1)).
    { apply memory_write_len. rewrite lenN_takeN. destruct Hr as [->|Hr].
      - left. rewrite N.min_0_l. apply takeN_0.
      - right. lia. }
    unfold child_return.
    assert (Hs : shape_ok (set_pc (e_pc e1 + 1) (set_memory (memory_write_bytes (e_memory e1) os
      (takeN (N.min oz (lenN (e_output c))) (e_output c)))
      (set_stack (match e_error c with Some _ => 0 | None => 1 end :: e_stack e1)
        (set_return_data (e_output c) match e_error c with
         | Some _ => incorporate_child_on_error e1 c
         | None => incorporate_child_on_success e1 c end))))).
    { constructor; [|rewrite <- Hlen in *]; destruct (e_error c), e1; cbn in *;
        rewrite ?lenN_cons; try lia; congruence. }
    split; [exact Hs|].
    destruct (e_error c), e1; cbn in *; subst; done.
  Qed.

  Lemma resume_create_shape o e w m e1 w0 c w1 e2 w2 :
    create_ok cr be o e w m e1 w0 -> resume_create e1 c w1 = Ret tt e2 w2 ->
    shape_ok e2 /\ e_message e2 = e_message e /\ w2 = w1 /\
    e_memory e2 = e_memory e1 /\ e_running e2 = true /\ e_pc e2 = e_pc e + 1 /\
    e_code e2 = e_code e /\ e_valid_jump_destinations e2 = e_valid_jump_destinations e /\
    e_output e2 = e_output e /\ e_error e2 = e_error e.
  Proof.
    intros [[]] E. revert E. unfold resume_create, child_return.
    destruct (e_error c); [|destruct (to_u256 _) as [n|] eqn:En; [|done]]; intros [= <- <-];
    (split; [constructor; destruct e1; cbn in *; rewrite ?lenN_cons; try lia; congruence|]);
    destruct e1; cbn in *; subst; done.
  Qed.

  Lemma local_step_shape o e w e' :
    local_step cr be te o e w e' -> shape_ok e'.
  Proof. intros []. by constructor. Qed.

  (** Gas left, plus one while running: decreases at each iteration. *)
  Definition mu (e : evm) : N := e_gas_left e + (if e_running e then 1 else 0).

  Lemma at_op_running e o : at_op e o -> e_running e = true.
  Proof. by intros []. Qed.

  Lemma exec_loop_run pm pcm d :
    (forall m w, m_depth m = d + 1 -> m_depth m <= 1024 -> frun m w (pm m w)) ->
    (forall m w, m_depth m = d + 1 -> m_depth m <= 1024 -> crun m w (pcm m w)) ->
    forall e w, shape_ok e -> m_depth (e_message e) = d ->
    exists k s' ox e' w',
      steps (exec_step cr be te pm pcm) k (e, w) s' /\
      exec_step cr be te pm pcm s' = inr (ox, e', w') /\
      N.of_nat k <= mu e /\ lrun e w ox e' w'.
  Proof.
    intros Hpm Hpcm e. remember (mu e) as n eqn:En. revert e En.
    induction n as [n IH] using (well_founded_induction N.lt_wf_0).
    intros e -> w Hs Hd.
    destruct (exec_step_cases e w Hs) as [(Hr & He)|[(h & He)|(o & p & Ho & Hp & He)]].
    - exists 0%nat, (e, w), None, e, w. split; [constructor|]. split; [apply He|].
      split; [lia|]. by apply LR_end.
    - exists 0%nat, (e, w), (Some (EHalt h)), e, w. split; [constructor|]. split; [apply He|].
      split; [lia|]. by apply LR_bad.
    - specialize (He pm pcm). pose proof (at_op_running _ _ Ho) as Hrun.
      assert (Hgo : forall e2 w2, exec_step cr be te pm pcm (e, w) = inl (e2, w2) ->
        shape_ok e2 -> e_message e2 = e_message e -> mu e2 < mu e ->
        (forall ox e' w', lrun e2 w2 ox e' w' -> lrun e w ox e' w') ->
        exists k s' ox e' w',
          steps (exec_step cr be te pm pcm) k (e, w) s' /\
          exec_step cr be te pm pcm s' = inr (ox, e', w') /\
          N.of_nat k <= mu e /\ lrun e w ox e' w').
      { intros e2 w2 Hstep Hs2 Hm2 Hlt Hl.
        destruct (IH (mu e2) Hlt e2 eq_refl w2 Hs2 ltac:(by rewrite Hm2))
          as (k & s' & ox & e' & w' & H1 & H2 & H3 & H4).
        exists (S k), s', ox, e', w'. split; [by econstructor|]. split; [done|].
        split; [lia|]. by apply Hl. }
      assert (Hstop : forall x e2 w2, exec_step cr be te pm pcm (e, w) = inr (Some x, e2, w2) ->
        lrun e w (Some x) e2 w2 ->
        exists k s' ox e' w',
          steps (exec_step cr be te pm pcm) k (e, w) s' /\
          exec_step cr be te pm pcm s' = inr (ox, e', w') /\
          N.of_nat k <= mu e /\ lrun e w ox e' w').
      { intros x e2 w2 Hstep Hl. exists 0%nat, (e, w), (Some x), e2, w2.
        split; [constructor|]. split; [done|]. split; [lia|done]. }
      destruct p as [r|m e1 os oz|m e1 w0]; cbn in Hp, He.
      + destruct r as [[] e1 w1|x e1 w1].
        * apply (Hgo e1 w1); [done|..].
          -- destruct Hp as [Hp _]. by eapply local_step_shape.
          -- destruct Hp as [Hp _]. by apply ls_msg in Hp.
          -- destruct Hp as [Hp _]. unfold mu. rewrite Hrun.
             pose proof (ls_gas_le _ _ _ _ _ _ _ Hp). pose proof (ls_gas_lt _ _ _ _ _ _ _ Hp).
             destruct (e_running e1); [specialize (H0 eq_refl)|]; lia.
          -- intros. by eapply LR_done.
        * apply (Hstop x e1 w1); [done|]. by eapply LR_exc.
      + pose proof (co_wait _ _ _ _ _ _ _ _ Hp) as Hw.
        assert (Hrunm : frun m w (pm m w)).
        { apply Hpm; [rewrite (wa_depth _ _ _ _ Hw); by rewrite Hd|by apply (wa_depth_le _ _ _ _ Hw)]. }
        destruct (pm m w) as [c w1|x w1].
        * destruct (resume_call e1 os oz c w1) as [[] e2 w2|x e2 w2] eqn:Er.
          -- destruct (resume_call_shape _ _ _ _ _ _ _ _ _ _ _ Hp Er) as (H1 & H2 & _ & _ & H5 & _).
             apply (Hgo e2 w2); try done.
             ++ pose proof (resume_call_gas e1 os oz c w1) as Hg. rewrite Er in Hg.
                pose proof (wa_gas _ _ _ _ Hw). pose proof (proj1 run_gas _ _ _ Hrunm) as Hg2.
                cbn in Hg2. unfold mu. rewrite Hrun, H5. lia.
             ++ intros. by eapply LR_call.
          -- apply (Hstop x e2 w2); [done|]. by eapply LR_call_crash.
        * apply (Hstop x e1 w1); [done|]. by eapply LR_call_exc.
      + pose proof (cr_wait _ _ _ _ _ _ _ _ Hp) as Hw.
        assert (Hrunm : crun m w0 (pcm m w0)).
        { apply Hpcm; [rewrite (wa_depth _ _ _ _ Hw); by rewrite Hd|by apply (wa_depth_le _ _ _ _ Hw)]. }
        destruct (pcm m w0) as [c w1|x w1].
        * destruct (resume_create e1 c w1) as [[] e2 w2|x e2 w2] eqn:Er.
          -- destruct (resume_create_shape _ _ _ _ _ _ _ _ _ _ Hp Er) as (H1 & H2 & _ & _ & H5 & _).
             apply (Hgo e2 w2); try done.
             ++ pose proof (resume_create_gas e1 c w1) as Hg. rewrite Er in Hg.
                pose proof (wa_gas _ _ _ _ Hw).
                pose proof (proj2 (proj2 (proj2 run_gas)) _ _ _ Hrunm) as Hg2.
                cbn in Hg2. unfold mu. rewrite Hrun, H5. lia.
             ++ intros. by eapply LR_create.
          -- apply (Hstop x e2 w2); [done|]. by eapply LR_create_crash.
        * apply (Hstop x e1 w1); [done|]. by eapply LR_create_exc.
  Qed.

  Lemma init_shape m : shape_ok (init_evm m).
  Proof. by constructor. Qed.

  Lemma exec_loop_lrun pm pcm m w :
    (forall m' w, m_depth m' = m_depth m + 1 -> m_depth m' <= 1024 -> frun m' w (pm m' w)) ->
    (forall m' w, m_depth m' = m_depth m + 1 -> m_depth m' <= 1024 -> crun m' w (pcm m' w)) ->
    exists ox e' w', exec_loop cr be te pm pcm (init_evm m) w = (ox, e', w') /\
      lrun (init_evm m) w ox e' w'.
  Proof.
    intros H1 H2.
    destruct (exec_loop_run pm pcm (m_depth m) H1 H2 (init_evm m) w (init_shape m) eq_refl)
      as (k & s' & ox & e' & w' & Hk & He & Hle & Hl).
    exists ox, e', w'. split; [|done]. unfold exec_loop.
    rewrite (loop_pos_enough _ _ _ _ _ _ Hk He); [done|].
    unfold mu in Hle. cbn in Hle |- *. lia.
  Qed.

  Lemma execute_code_run pm pcm m w :
    (forall m' w, m_depth m' = m_depth m + 1 -> m_depth m' <= 1024 -> frun m' w (pm m' w)) ->
    (forall m' w, m_depth m' = m_depth m + 1 -> m_depth m' <= 1024 -> crun m' w (pcm m' w)) ->
    xrun m w (execute_code cr be te pm pcm m w).
  Proof.
    intros H1 H2. unfold execute_code.
    match goal with |- xrun _ _ (match ?x with _ => _ end) => destruct x as [p|] eqn:Ep end.
    - destruct (m_disable_precompiles m); [constructor|].
      apply bind_Some in Ep as (a & _ & Ep).
      pose proof (XR_pre m w _ (pre_spec cr be te a p (init_evm m) w Ep)) as H.
      by destruct (p (init_evm m) w).
    - destruct (exec_loop_lrun pm pcm m w H1 H2) as (ox & e' & w' & -> & Hl).
      apply XR_loop in Hl. by destruct ox.
  Qed.

  Lemma body_run pm pcm m w :
    m_depth m <= 1024 ->
    (forall m' w, m_depth m' = m_depth m + 1 -> m_depth m' <= 1024 -> frun m' w (pm m' w)) ->
    (forall m' w, m_depth m' = m_depth m + 1 -> m_depth m' <= 1024 -> crun m' w (pcm m' w)) ->
    frun m w (process_message_body cr be te pm pcm m w).
  Proof.
    intros Hd H1 H2. unfold process_message_body.
    fold (transfer m (begin_transaction w)).
    destruct (transfer m (begin_transaction w)) as [s1|c] eqn:Et; [|by apply FR_move].
    pose proof (execute_code_run pm pcm m (set_st s1 (begin_transaction w)) H1 H2) as Hx.
    destruct (execute_code _ _ _ _ _ m _) as [e w2|x w2]; [|by eapply FR_raise].
    destruct (e_error e) eqn:Ee.
    - destruct (rollback_transaction w2) as [w3|c] eqn:Er; [by eapply FR_fail|].
      eapply FR_pop; eauto.
    - destruct (commit_transaction w2) as [w3|c] eqn:Er; [by eapply FR_ok|].
      eapply FR_pop; eauto.
  Qed.

  Lemma create_with_run pm m w :
    (forall w, frun m w (pm m w)) ->
    crun m w (process_create_message_with pm m w).
  Proof.
    intros H. unfold process_create_message_with.
    destruct (increment_nonce _ _) as [s3|] eqn:Ei; [|discriminate Ei].
    assert (Hen : create_entry w (m_current_target m) = Ok (set_st s3 (begin_transaction w))).
    { unfold create_entry. by rewrite Ei. }
    specialize (H (set_st s3 (begin_transaction w))).
    destruct (pm m _) as [e w4|x w4]; [|by eapply CR_raise].
    destruct (e_error e) eqn:Ee.
    - destruct (rollback_transaction w4) as [w5|c] eqn:Er; [by eapply CR_fail|].
      eapply CR_pop; eauto.
    - destruct (deposit_code e) as [[h|] e'] eqn:Ed.
      + destruct (rollback_transaction w4) as [w5|c] eqn:Er; [by eapply CR_deposit|].
        eapply CR_pop; eauto.
      + destruct (set_code _ _ _) as [s5|] eqn:Es; [|discriminate Es].
        destruct (commit_transaction _) as [w6|c] eqn:Er; [by eapply CR_ok|].
        eapply CR_pop; eauto.
  Qed.

  Lemma fuel_run f : forall m w, 1025 <= N.of_nat f + m_depth m ->
    frun m w (process_message_fuel cr be te f m w).
  Proof.
    induction f as [|f IH]; intros m w Hf; cbn [process_message_fuel];
      unfold STACK_DEPTH_LIMIT; destruct (N.ltb_spec 1024 (m_depth m)) as [Hd|Hd];
      try (by apply FR_deep); [lia|].
    apply body_run; [done|..].
    - intros m' w' Hm' _. apply IH. lia.
    - intros m' w' Hm' _. apply create_with_run. intros w1. apply IH. lia.
  Qed.

  Theorem process_message_run m w : frun m w (process_message cr be te m w).
  Proof. apply fuel_run. lia. Qed.
  Theorem process_create_run m w : crun m w (process_create_message cr be te m w).
  Proof. apply create_with_run. intros. apply process_message_run. Qed.

  (** ** The recursion equation *)
  Lemma exec_step_inv pm pcm e w e' w' :
    shape_ok e -> exec_step cr be te pm pcm (e, w) = inl (e', w') ->
    shape_ok e' /\ e_message e' = e_message e.
  Proof.
    intros Hs E.
    destruct (exec_step_cases e w Hs) as [(_ & He)|[(h & He)|(o & p & Ho & Hp & He)]];
      rewrite He in E; try done.
    destruct p as [[[] e1 w1|x e1 w1]|m e1 os oz|m e1 w0]; cbn in Hp, E; try done.
    - injection E as <- <-. destruct Hp as [Hp _].
      split; [by eapply local_step_shape|by apply ls_msg in Hp].
    - destruct (pm m w) as [c w1|]; [|done].
      destruct (resume_call e1 os oz c w1) as [[] e2 w2|] eqn:Er; [|done]. injection E as <- <-.
      by destruct (resume_call_shape _ _ _ _ _ _ _ _ _ _ _ Hp Er) as (H1 & H2 & _).
    - destruct (pcm m w0) as [c w1|]; [|done].
      destruct (resume_create e1 c w1) as [[] e2 w2|] eqn:Er; [|done]. injection E as <- <-.
      by destruct (resume_create_shape _ _ _ _ _ _ _ _ _ _ Hp Er) as (H1 & H2 & _).
  Qed.

  Lemma exec_step_ext pm1 pcm1 pm2 pcm2 e w :
    shape_ok e ->
    (forall m w, m_depth m = m_depth (e_message e) + 1 -> pm1 m w = pm2 m w) ->
    (forall m w, m_depth m = m_depth (e_message e) + 1 -> pcm1 m w = pcm2 m w) ->
    exec_step cr be te pm1 pcm1 (e, w) = exec_step cr be te pm2 pcm2 (e, w).
  Proof.
    intros Hs H1 H2.
    destruct (exec_step_cases e w Hs) as [(_ & He)|[(h & He)|(o & p & Ho & Hp & He)]];
      rewrite !He; try done.
    destruct p as [r|m e1 os oz|m e1 w0]; cbn in *; [done|..].
    - by rewrite H1 by (apply (wa_depth _ _ _ _ (co_wait _ _ _ _ _ _ _ _ Hp))).
    - by rewrite H2 by (apply (wa_depth _ _ _ _ (cr_wait _ _ _ _ _ _ _ _ Hp))).
  Qed.

  Lemma loop_pos_ext {S R : Type} (I : S -> Prop) (f g : S -> S + R) :
    (forall s, I s -> f s = g s) -> (forall s s', I s -> f s = inl s' -> I s') ->
    forall p s, I s -> loop_pos p f s = loop_pos p g s /\
      (forall s', loop_pos p f s = inl s' -> I s').
  Proof.
    intros He Hi. induction p as [p IH|p IH|]; intros s Hs; cbn [loop_pos].
    - rewrite <- (He s Hs). destruct (f s) as [s1|r] eqn:E1; [|done].
      apply Hi in E1; [|done]. destruct (IH s1 E1) as [<- H1].
      destruct (loop_pos p f s1) as [s2|r]; [|done]. apply IH. by apply H1.
    - destruct (IH s Hs) as [<- H1].
      destruct (loop_pos p f s) as [s2|r]; [|done]. apply IH. by apply H1.
    - split; [by apply He|]. intros s'. by apply Hi.
  Qed.

  Lemma body_ext pm1 pcm1 pm2 pcm2 m w :
    (forall m' w, m_depth m' = m_depth m + 1 -> pm1 m' w = pm2 m' w) ->
    (forall m' w, m_depth m' = m_depth m + 1 -> pcm1 m' w = pcm2 m' w) ->
    process_message_body cr be te pm1 pcm1 m w = process_message_body cr be te pm2 pcm2 m w.
  Proof.
    intros H1 H2. unfold process_message_body.
    destruct (if m_should_transfer_value m && _ then _ else _) as [s1|]; [|done].
    assert (He : execute_code cr be te pm1 pcm1 m (set_st s1 (begin_transaction w)) =
                 execute_code cr be te pm2 pcm2 m (set_st s1 (begin_transaction w))).
    { unfold execute_code.
      match goal with |- match ?x with _ => _ end = _ => destruct x end; [done|].
      unfold exec_loop.
      destruct (loop_pos_ext (fun s : evm * world => shape_ok s.1 /\ e_message s.1 = m)
        (exec_step cr be te pm1 pcm1) (exec_step cr be te pm2 pcm2)) with
        (p := N.succ_pos (e_gas_left (init_evm m) + 1))
        (s := (init_evm m, set_st s1 (begin_transaction w))) as [-> _]; [..|done].
      - intros [e w1] [Hs Hm]. cbn in Hs, Hm. apply exec_step_ext; [done|..]; by rewrite Hm.
      - intros [e w1] [e2 w2] [Hs Hm] E. cbn in *.
        destruct (exec_step_inv _ _ _ _ _ _ Hs E) as [H3 H4]. by rewrite H4.
      - split; [apply init_shape|done]. }
    by rewrite He.
  Qed.

  Lemma create_with_ext pm1 pm2 m w :
    (forall w, pm1 m w = pm2 m w) ->
    process_create_message_with pm1 m w = process_create_message_with pm2 m w.
  Proof.
    intros H. unfold process_create_message_with. destruct (increment_nonce _ _); [|done].
    by rewrite H.
  Qed.

  Lemma fuel_irrel f1 : forall f2 m w,
    1025 <= N.of_nat f1 + m_depth m -> 1025 <= N.of_nat f2 + m_depth m ->
    process_message_fuel cr be te f1 m w = process_message_fuel cr be te f2 m w.
  Proof.
    induction f1 as [|f1 IH]; intros f2 m w H1 H2.
    - cbn [process_message_fuel]. destruct f2; cbn [process_message_fuel]; unfold STACK_DEPTH_LIMIT;
        (destruct (N.ltb_spec 1024 (m_depth m)); [done|lia]).
    - destruct f2 as [|f2]; cbn [process_message_fuel]; unfold STACK_DEPTH_LIMIT;
        (destruct (N.ltb_spec 1024 (m_depth m)); [done|]); [lia|].
      apply body_ext.
      + intros m' w' Hm'. apply IH; lia.
      + intros m' w' Hm'. apply create_with_ext. intros w1. apply IH; lia.
  Qed.

  (** [process_message] satisfies the recursion of the Python code: no fuel. *)
  Theorem process_message_eq m w :
    process_message cr be te m w =
    if 1024 <? m_depth m then PExc (EHalt StackDepthLimitError) w
    else process_message_body cr be te (process_message cr be te)
           (process_create_message cr be te) m w.
  Proof.
    unfold process_message at 1. destruct (N.to_nat (1025 - m_depth m)) as [|f] eqn:Ef;
      cbn [process_message_fuel]; unfold STACK_DEPTH_LIMIT;
      (destruct (N.ltb_spec 1024 (m_depth m)) as [Hd|Hd]; [done|]); [lia|].
    apply body_ext.
    - intros m' w' Hm'. apply fuel_irrel; lia.
    - intros m' w' Hm'. unfold process_create_message. apply create_with_ext.
      intros w1. apply fuel_irrel; lia.
  Qed.

  (** ** Configurations reached during an execution *)

  (** The instruction about to be executed in [(e, w)] starts the message
      call [(m', w')] (directly, or through a creation): its result depends
      on the result of that call. *)
  Definition invokes (e : evm) (w : world) (m' : message) (w' : world) : Prop :=
    exists pm1 pm2 : message -> world -> pmres,
      (forall m1 w1, (m1, w1) <> (m', w') -> pm1 m1 w1 = pm2 m1 w1) /\
      exec_step cr be te pm1 (process_create_message_with pm1) (e, w) <>
      exec_step cr be te pm2 (process_create_message_with pm2) (e, w).

  (** [visits m w e w1]: while [process_message m w] executes, some frame
      (its own or one below it) is in state [(e, w1)] between two
      instructions. *)
  Inductive visits : message -> world -> evm -> world -> Prop :=
  | V_start m w s1 :
      m_code_address m ≫= pre_compiled_contracts cr (b_fork be) = None ->
      (if m_should_transfer_value m && negb (m_value m =? 0)
       then move_ether (st (begin_transaction w)) (m_caller m) (m_current_target m) (m_value m)
       else Ok (st (begin_transaction w))) = Ok s1 ->
      visits m w (init_evm m) (set_st s1 (begin_transaction w))
  | V_step m w e1 w1 e2 w2 :
      visits m w e1 w1 ->
      exec_step cr be te (process_message cr be te) (process_create_message cr be te)
        (e1, w1) = inl (e2, w2) ->
      visits m w e2 w2
  | V_call m w e1 w1 m' w' e2 w2 :
      visits m w e1 w1 -> invokes e1 w1 m' w' -> visits m' w' e2 w2 ->
      visits m w e2 w2.

  Global Instance state_eq_dec : EqDecision state.
  Proof. solve_decision. Defined.
  Global Instance transient_eq_dec : EqDecision transient_storage.
  Proof. solve_decision. Defined.
  Global Instance world_eq_dec : EqDecision world.
  Proof. solve_decision. Defined.
  Global Instance message_eq_dec : EqDecision message.
  Proof. solve_decision. Defined.

  Lemma create_entry_ok w a : exists w', create_entry w a = Ok w'.
  Proof.
    unfold create_entry. destruct (increment_nonce _ _) eqn:E; [by eexists|discriminate E].
  Qed.

  Lemma create_with_at pm1 pm2 m w w3 :
    create_entry w (m_current_target m) = Ok w3 -> pm1 m w3 = pm2 m w3 ->
    process_create_message_with pm1 m w = process_create_message_with pm2 m w.
  Proof.
    unfold create_entry, process_create_message_with. cbv zeta.
    destruct (increment_nonce _ _); [|done]. intros [= <-] ->. done.
  Qed.

  Lemma invokes_cases e w m' w' :
    shape_ok e -> invokes e w m' w' -> exists o, at_op e o /\
      ((exists e1 os oz, call_ok be o e w m' e1 os oz /\ w' = w) \/
       (exists e1 w0, create_ok cr be o e w m' e1 w0 /\
          create_entry w0 (m_current_target m') = Ok w')).
  Proof.
    intros Hs (pm1 & pm2 & Hag & Hne).
    destruct (exec_step_cases e w Hs) as [(_ & He)|[(h & He)|(o & p & Ho & Hp & He)]];
      rewrite !He in Hne; try done.
    exists o. split; [done|]. destruct p as [r|m e1 os oz|m e1 w0]; cbn [interp plan_ok] in Hp, Hne; [done|left|right].
    - destruct (decide ((m, w) = (m', w'))) as [[= <- <-]|Hd]; [by do 3 eexists|].
      by rewrite (Hag _ _ Hd) in Hne.
    - destruct (create_entry_ok w0 (m_current_target m)) as [w3 Hw3].
      destruct (decide ((m, w3) = (m', w'))) as [[= <- <-]|Hd]; [by do 2 eexists|].
      exfalso. apply Hne. by rewrite (create_with_at pm1 pm2 m w0 w3 Hw3 (Hag _ _ Hd)).
  Qed.
End Frame.
