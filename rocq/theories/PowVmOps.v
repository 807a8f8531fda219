(** * PowVmOps: the classification of [PowVmPlan.v] holds for every instruction. *)
From Verif Require Import Base State Rlp Bloom Transactions Trie Blocks Requests Fork Ethash Pow PowTx.
From Verif Require Import Vm Instructions Precompiles Interpreter PowVm StateSpec
  StateProofs NumericProofs ArithProofs EvmStep EvmLocal EvmPlan EvmPlanProofs EvmCallProofs
  PowVmPlan.
From Coq Require Import ZifyBool ZifyN ZifyNat.
Ltac Zify.zify_post_hook ::= idtac.

Local Opaque sdiv_value smod_value addmod_value mulmod_value exp_value
  signextend_value shl_value sar_value clz_value to_u256 from_be_bytes
  calculate_memory_gas_cost ceil32 N.compare.

Lemma gas_sload_pos n : 50 <= pow_gas_sload n.
Proof. by destruct n. Qed.
Lemma gas_external_pos n : 20 <= pow_gas_external n.
Proof. by destruct n. Qed.
Lemma gas_balance_pos n : 20 <= pow_gas_balance n.
Proof. by destruct n. Qed.
Lemma gas_code_hash_pos n : 400 <= pow_gas_code_hash n.
Proof. by destruct n. Qed.
Lemma gas_call_pos n : 40 <= pow_gas_call n.
Proof. by destruct n. Qed.
Lemma pow_sstore_gas_pos n o c v : 100 <= pow_sstore_gas n o c v.
Proof.
  unfold pow_sstore_gas, pow_update_price, pow_noop_price.
  destruct n; repeat match goal with |- context [if ?b then _ else _] =>
    let r := eval vm_compute in b in
    match r with true => change b with true | false => change b with false end; cbv iota end;
  try destruct (_ && _); try destruct (o =? 0); vm_compute; discriminate.
Qed.
Lemma modify_account_ok s a f acc :
  f (get_account s a) = Ok acc -> modify_account s a f = Ok (set_account s a (Some acc)).
Proof. unfold modify_account. by intros ->. Qed.

Lemma two_balances (x y t : N) :
  x <= t -> y <= t -> t < 2 ^ 255 -> 2 ^ 256 <= x + y -> False.
Proof. intros. change (2 ^ 256) with (2 * 2 ^ 255) in *. lia. Qed.

Section Ops.
  Context (cr : crypto) (n : pow_name) (env : pow_env) (te : tx_env).
  Context (inh : gset address).
  Notation be := (pow_block_env env).

  Ltac leaf :=
    lazymatch goal with
    | |- local_res _ _ _ _ _ _ (Exc (EHalt _) _ _) =>
        split; [reflexivity|]; split; [norm; lia|]; split; [reflexivity|]; exact I
    | |- local_res _ _ _ _ _ _ (Exc (ECrash _) _ _) =>
        split; [reflexivity|]; split; [norm; lia|]; split; [reflexivity|];
        cbv beta iota; words_tac; exfalso; try crash_solve
    | |- local_res _ _ _ _ _ _ (Ret _ _ _) =>
        split; [reflexivity|]; split; [|split; reflexivity]; step_tac
    end.
  Ltac start :=
    let e := fresh "e" in let w := fresh "w" in
    let Hs := fresh "Hs" in let Hm := fresh "Hm" in let Hrun := fresh "Hrun" in
    intros e w [Hs Hm] Hrun;
    destruct e as [pc stk mem cod gas vjd logs rc rn msg out del rd err aa ak];
    cbv beta iota zeta delta [e_stack e_memory e_running] in Hs, Hm, Hrun;
    match type of Hrun with ?x = _ => subst x end.
  Ltac finish_op := sym; mem_facts; rewrite ?lenN_cons in *; leaf.
  Ltac solve_op := start; finish_op.
  Notation good o m := (forall e w, shape_ok e -> e_running e = true ->
    local_res cr be te o e w (m e w)).

  Lemma pgood_exp : good EXP (pow_exp n).
  Proof.
    unfold pow_exp. start. destruct stk as [|? [|? stk]]; [finish_op|finish_op|].
    norm. generalize (pow_gas_exp_byte n * ((bit_length n1 + 7) / 8)). intros per. finish_op.
  Qed.
  Lemma pgood_balance : good BALANCE (pow_balance n).
  Proof.
    pose proof (gas_balance_pos n). unfold pow_balance, pow_access.
    destruct (since Berlin n); solve_op.
  Qed.
  Lemma pgood_extcodesize : good EXTCODESIZE (pow_extcodesize n).
  Proof.
    pose proof (gas_external_pos n). unfold pow_extcodesize, pow_access.
    destruct (since Berlin n); solve_op.
  Qed.
  Lemma pgood_extcodecopy : good EXTCODECOPY (pow_extcodecopy n).
  Proof.
    pose proof (gas_external_pos n). unfold pow_extcodecopy, pow_access.
    destruct (since Berlin n); solve_op.
  Qed.
  Lemma pgood_extcodehash : good EXTCODEHASH (pow_extcodehash cr n).
  Proof.
    pose proof (gas_code_hash_pos n). unfold pow_extcodehash, pow_access.
    destruct (since Berlin n); solve_op.
    all: repeat match goal with H : to_u256 _ = Raise _ |- _ => apply to_u256_raise in H as [_ H] end.
    all: eapply be_bound; [|eassumption]; by eapply eo_keccak.
  Qed.
  Lemma pgood_sload : good SLOAD (pow_sload n).
  Proof.
    pose proof (gas_sload_pos n). unfold pow_sload.
    destruct (since Berlin n); solve_op.
  Qed.

  Ltac halt_leaf :=
    split; [reflexivity|]; split; [norm; lia|]; split; [reflexivity|]; exact I.
  Notation gooddone o m := (forall e w, shape_ok e -> e_running e = true ->
    pdone_ok cr n env te inh o e w (m e w)).

  Lemma pdone_sstore : gooddone SSTORE (quietly (pow_sstore n)).
  Proof.
    unfold quietly, pow_sstore. start.
    destruct (since Istanbul n) eqn:Ei, (since Berlin n) eqn:Eb; cbn [andb];
    sym; rewrite ?lenN_cons in *.
    all: try match goal with |- context [pow_sstore_gas ?n ?a ?b ?c] =>
           pose proof (pow_sstore_gas_pos n a b c) end.
    all: lazymatch goal with
    | |- pdone_ok _ _ _ _ _ _ _ _ (Exc (EHalt _) _ _) => halt_leaf
    | |- pdone_ok _ _ _ _ _ _ _ _ (Ret _ _ _) => split; [step_tac|]
    | |- _ => split; [reflexivity|]; split; [norm; lia|]; split; [reflexivity|]; cbv beta iota;
              words_tac; intros _
    end.
    all: lazymatch goal with
    | |- peffect _ _ _ _ _ _ _ _ =>
        eapply PE_sstore; norm; try eassumption; try reflexivity;
        try (intros _; assumption); try (rewrite Ei; intros [=]); try lia;
        try (intros _; lia);
        intros Hf; pose proof (fo_stack _ _ Hf) as Hst; cbv beta iota delta [e_stack] in Hst;
        apply Forall_cons in Hst as [? Hst]; apply Forall_cons in Hst as [? Hst]; done
    | Hf : frame_ok _ _, H : set_storage ?s ?a ?k ?v = Raise _ |- False =>
        destruct (set_storage_ok s a k v (fo_exists _ _ Hf)); congruence
    | Hf : frame_ok _ _, H : get_storage_original ?s ?a ?k = Raise _ |- False =>
        destruct (original_ok s a k (fo_snap _ _ Hf)); congruence
    end.
  Qed.

  Lemma pdone_selfdestruct : gooddone SELFDESTRUCT (pow_selfdestruct n inh).
  Proof.
    unfold pow_selfdestruct. start.
    destruct (since Berlin n) eqn:Eb, (since London n) eqn:El; cbn [andb];
    sym; rewrite ?lenN_cons in *.
    all: try match goal with H : pow_set_account_balance _ _ _ = Raise _ |- _ => discriminate H end.
    all: lazymatch goal with
    | |- pdone_ok _ _ _ _ _ _ _ _ (Exc (EHalt _) _ _) => halt_leaf
    | |- pdone_ok _ _ _ _ _ _ _ _ (Ret _ _ _) => split; [step_tac|]
    | |- _ => split; [reflexivity|]; split; [norm; lia|]; split; [reflexivity|]; cbv beta iota;
              words_tac; intros Htot
    end.
    all: lazymatch goal with
    | |- peffect _ _ _ _ _ _ _ _ =>
        match goal with H : to_u256 _ = Ok _ |- _ => apply to_u256_inv in H as [-> Hlt] end;
        eapply PE_selfdestruct; norm;
        [reflexivity|assumption|exact Hlt|eassumption|eassumption|reflexivity|..];
        repeat match goal with H : decide _ = _ |- _ => clear H end;
        rewrite ?El;
        try (rewrite decide_True by assumption); try (rewrite decide_False by assumption);
        try reflexivity; try apply to_address_masked_lt; try lia
    | H : to_u256 (balance (get_account ?s ?a) + balance (get_account ?s ?b)) = Raise _ |- False =>
        apply to_u256_raise in H as [_ H];
        exact (two_balances _ _ _ (balance_le_total s a) (balance_le_total s b) Htot H)
    end.
  Qed.
End Ops.
