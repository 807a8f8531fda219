(** * EvmLocal: instructions that only touch their frame. *)
From Verif Require Import Base State Rlp Vm Instructions StateSpec StateProofs
  NumericProofs ArithProofs EvmStep.
From Coq Require Import ZifyBool ZifyN ZifyNat.
Ltac Zify.zify_post_hook ::= idtac.

Local Opaque sdiv_value smod_value addmod_value mulmod_value exp_value
  signextend_value shl_value sar_value clz_value to_u256 from_be_bytes
  calculate_memory_gas_cost ceil32 N.compare.

Ltac words_tac :=
  let Henv := fresh "Henv" in let Hf := fresh "Hf" in
  intros Henv Hf;
  pose proof (fo_stack _ _ Hf); pose proof (fo_gas _ _ Hf);
  pose proof (fo_code _ _ Hf); pose proof (fo_pc _ _ Hf);
  pose proof (fo_world _ _ Hf); pose proof (fo_value _ _ Hf);
  norm; cbv beta iota zeta delta [e_pc e_stack e_memory e_code e_gas_left e_message] in *;
  unfold stack_words in *;
  repeat match goal with H : Forall _ (_ :: _) |- _ => apply Forall_cons in H as [? H] end.

Lemma be_bound l : lenN l <= 32 -> 2 ^ 256 <= from_be_bytes l -> False.
Proof. intros H1 H2. pose proof (from_be_lt_32 l H1). unfold U256_CEIL in *. lia. Qed.
Lemma mem_bound n g : n mod 32 = 0 -> g + memcost n < 2 ^ 256 -> 2 ^ 256 <= n -> False.
Proof.
  intros H1 H2 H3. assert (n < 2 ^ 160) by (apply memcost_bound; [done|lia]).
  assert (2 ^ 160 < 2 ^ 256) by done. lia.
Qed.

Ltac crash_solve :=
  repeat match goal with
  | H : to_u256 _ = Raise _ |- _ => apply to_u256_raise in H as [_ H]
  end;
  match goal with
  | H : 2 ^ 256 <= from_be_bytes _ |- False =>
      apply (be_bound _ ltac:(first [by rewrite buffer_read_len|apply memory_read_len_n
                                    |eapply eo_keccak; eassumption]) H)
  | H : 2 ^ 256 <= lenN ?m, Hm : lenN ?m mod 32 = 0, Hg : _ + memcost (lenN ?m) < _ |- False =>
      apply (mem_bound _ _ Hm Hg H)
  | H : sdiv_value _ _ = Raise _ |- _ => rewrite sdiv_value_spec in H by assumption; discriminate H
  | H : smod_value _ _ = Raise _ |- _ => rewrite smod_value_spec in H by assumption; discriminate H
  | H : addmod_value _ _ _ = Raise _ |- _ => rewrite addmod_value_spec in H by assumption; discriminate H
  | H : mulmod_value _ _ _ = Raise _ |- _ => rewrite mulmod_value_spec in H by assumption; discriminate H
  | H : exp_value _ _ = Raise _ |- _ => rewrite exp_value_spec in H; discriminate H
  | H : signextend_value _ _ = Raise _ |- _ => rewrite signextend_value_spec in H by assumption; discriminate H
  | H : shl_value _ _ = Raise _ |- _ => rewrite shl_value_spec in H; discriminate H
  | H : sar_value _ _ = Raise _ |- _ => rewrite sar_value_spec in H by assumption; discriminate H
  | H : clz_value _ = Raise _ |- _ =>
      let r := fresh in let E := fresh in
      destruct (clz_value_spec _ ltac:(eassumption)) as (r & E & _); rewrite E in H; discriminate H
  | Hf : frame_ok _ _, He : env_ok _ _ _, Hw : world_ok _ |- False =>
      pose proof (eo_coinbase _ _ _ He); pose proof (eo_time _ _ _ He);
      pose proof (eo_number _ _ _ He); pose proof (eo_randao _ _ _ He);
      pose proof (eo_gaslimit _ _ _ He); pose proof (eo_chainid _ _ _ He);
      pose proof (eo_basefee _ _ _ He); pose proof (eo_origin _ _ _ He);
      pose proof (eo_gasprice _ _ _ He); 
      pose proof (fo_data _ _ Hf); pose proof (fo_target _ _ Hf); pose proof (fo_caller _ _ Hf);
      pose proof (fo_ret _ _ Hf);
      try match goal with H : 2 ^ 256 <= lenN (code (get_account (st ?w) ?a)) |- _ =>
        pose proof (wo_code _ Hw a) end;
      cbv beta iota zeta delta [e_message e_return_data e_code] in *;
      assert (2 ^ 160 < 2 ^ 256) by done; lia
  end.

Ltac mem_len :=
  rewrite ?mem_expand_len;
  repeat match goal with
  | |- context [memory_write_bytes (?mem ++ zeros ?x) ?s ?v] =>
     first
     [ rewrite (mem_write_expand_le mem x s v _ ltac:(rewrite buffer_read_len; reflexivity) ltac:(assumption))
     | rewrite (mem_write_expand_le mem x s v 32 ltac:(rewrite lenN_to_be_bytes32; reflexivity) ltac:(assumption))
     | rewrite (mem_write_expand_le mem x s v 1 ltac:(reflexivity) ltac:(assumption))
     | erewrite (mem_write_expand_le mem x s v _ ltac:(apply memory_read_len_n) ltac:(eassumption))
     | erewrite (mem_write_expand_le mem x s v _ ltac:(eassumption) ltac:(eassumption)) ]
  end.

Ltac word_solve :=
  repeat first [apply Forall_cons; split | apply Forall_nil | assumption];
  solve [eauto 4 with u256 | lia].

Ltac step_tac :=
  constructor; norm; rewrite ?lenN_cons; mem_len;
  lazymatch goal with
  | |- _ mod _ = _ => try assumption
  | |- _ = _ => reflexivity
  | |- (_ <= _)%N => try lia
  | |- _ -> (_ < _)%N => try lia
  | |- _ ⊆ _ => set_solver
  | |- env_ok _ _ _ -> _ => words_tac; try word_solve
  | |- true = true -> _ => intros _; try first [left; reflexivity|right; assumption]
  | |- false = true -> _ =>
      let H := fresh in intros H; discriminate H
  | |- _ \/ _ => try first [left; reflexivity
       |right; etransitivity; [apply memory_read_len_le|rewrite mem_expand_len; reflexivity]]
  end.

Section Local.
  Context (cr : crypto) (be : block_env) (te : tx_env)
    (pm pcm : message -> world -> pmres).

  (** The result of an instruction that leaves the world alone. *)
  Definition local_res (o : op) (e : evm) (w : world) (r : res unit) : Prop :=
    match r with
    | Ret _ e' w' =>
        w' = w /\ local_step cr be te o e w e' /\
        e_refund_counter e' = e_refund_counter e /\
        e_accounts_to_delete e' = e_accounts_to_delete e
    | Exc x e' w' => w' = w /\ exc_ok cr be te o e w x e'
    end.

  (** Instructions that read or write nothing outside the frame, or only read. *)
  Definition is_local (o : op) : bool :=
    match o with
    | SSTORE | TSTORE | SELFDESTRUCT | CREATE | CREATE2
    | CALL | CALLCODE | DELEGATECALL | STATICCALL => false
    | _ => true
    end.

  Ltac leaf :=
    lazymatch goal with
    | |- local_res _ _ _ (Exc (EHalt _) _ _) =>
        split; [reflexivity|]; split; [norm; lia|]; split; [reflexivity|]; exact I
    | |- local_res _ _ _ (Exc (ECrash _) _ _) =>
        split; [reflexivity|]; split; [norm; lia|]; split; [reflexivity|];
        cbv beta iota; words_tac; exfalso; try crash_solve
    | |- local_res _ _ _ (Ret _ _ _) =>
        split; [reflexivity|]; split; [|split; reflexivity]; step_tac
    | |- _ => idtac
    end.

  Ltac start :=
    let e := fresh "e" in let w := fresh "w" in
    let Hs := fresh "Hs" in let Hm := fresh "Hm" in let Hrun := fresh "Hrun" in
    intros e w [Hs Hm] Hrun;
    destruct e as [pc stk mem cod gas vjd logs rc rn msg out del rd err aa ak];
    cbv beta iota zeta delta [e_stack e_memory e_running] in Hs, Hm, Hrun;
    match type of Hrun with ?x = _ => subst x end.

  Ltac solve_op := start; sym; mem_facts; rewrite ?lenN_cons in *; leaf.

  Notation good o m := (forall e w, shape_ok e -> e_running e = true -> local_res o e w (m e w)).

  Lemma good_stop : good STOP op_stop.
  Proof. unfold op_stop. solve_op. Qed.
  Lemma good_jump : good JUMP op_jump.
  Proof. unfold op_jump. solve_op. Qed.
  Lemma good_jumpi : good JUMPI op_jumpi.
  Proof. unfold op_jumpi. solve_op. Qed.
  Lemma good_pc : good PC op_pc.
  Proof. unfold op_pc. solve_op. Qed.
  Lemma good_gas : good GAS op_gas.
  Proof. unfold op_gas. solve_op. Qed.
  Lemma good_jumpdest : good JUMPDEST op_jumpdest.
  Proof. unfold op_jumpdest. solve_op. Qed.
  Lemma good_add : good ADD op_add.
  Proof. unfold op_add. solve_op. Qed.
  Lemma good_mul : good MUL op_mul.
  Proof. unfold op_mul. solve_op. Qed.
  Lemma good_sub : good SUB op_sub.
  Proof. unfold op_sub. solve_op. Qed.
  Lemma good_div : good DIV op_div.
  Proof. unfold op_div. solve_op. Qed.
  Lemma good_sdiv : good SDIV op_sdiv.
  Proof. unfold op_sdiv. solve_op. Qed.
  Lemma good_mod : good MOD op_mod.
  Proof. unfold op_mod. solve_op. Qed.
  Lemma good_smod : good SMOD op_smod.
  Proof. unfold op_smod. solve_op. Qed.
  Lemma good_addmod : good ADDMOD op_addmod.
  Proof. unfold op_addmod. solve_op. Qed.
  Lemma good_mulmod : good MULMOD op_mulmod.
  Proof. unfold op_mulmod. solve_op. Qed.
  Lemma good_exp : good EXP op_exp.
  Proof. unfold op_exp. solve_op. Qed.
  Lemma good_signextend : good SIGNEXTEND op_signextend.
  Proof. unfold op_signextend. solve_op. Qed.
  Lemma good_lt : good LT op_lt.
  Proof. unfold op_lt. solve_op. Qed.
  Lemma good_gt : good GT op_gt.
  Proof. unfold op_gt. solve_op. Qed.
  Lemma good_slt : good SLT op_slt.
  Proof. unfold op_slt. solve_op. Qed.
  Lemma good_sgt : good SGT op_sgt.
  Proof. unfold op_sgt. solve_op. Qed.
  Lemma good_eq : good EQ op_eq.
  Proof. unfold op_eq. solve_op. Qed.
  Lemma good_iszero : good ISZERO op_iszero.
  Proof. unfold op_iszero. solve_op. Qed.
  Lemma good_and : good AND op_and.
  Proof. unfold op_and. solve_op. Qed.
  Lemma good_or : good OR op_or.
  Proof. unfold op_or. solve_op. Qed.
  Lemma good_xor : good XOR op_xor.
  Proof. unfold op_xor. solve_op. Qed.
  Lemma good_not : good NOT op_not.
  Proof. unfold op_not. solve_op. Qed.
  Lemma good_byte : good BYTE op_byte.
  Proof. unfold op_byte. solve_op. Qed.
  Lemma good_shl : good SHL op_shl.
  Proof. unfold op_shl. solve_op. Qed.
  Lemma good_shr : good SHR op_shr.
  Proof. unfold op_shr. solve_op. Qed.
  Lemma good_sar : good SAR op_sar.
  Proof. unfold op_sar. solve_op. Qed.
  Lemma good_clz : good CLZ op_clz.
  Proof.
    unfold op_clz. solve_op.
    match goal with H : clz_value ?x = Raise _, Hx : ?x < _ |- _ =>
      destruct (clz_value_spec x Hx) as (r & Er & _); rewrite Er in H; discriminate H end.
  Qed.
  Lemma good_pop : good POP op_pop.
  Proof. unfold op_pop. solve_op. Qed.
  Lemma good_mstore : good MSTORE op_mstore.
  Proof. unfold op_mstore. solve_op. Qed.
  Lemma good_mstore8 : good MSTORE8 op_mstore8.
  Proof. unfold op_mstore8. solve_op. Qed.
  Lemma good_mload : good MLOAD op_mload.
  Proof.
    unfold op_mload. solve_op.
    repeat match goal with H : to_u256 _ = Raise _ |- _ => apply to_u256_raise in H as [_ H] end.
    eapply be_bound; [|eassumption]. apply memory_read_len_n.
  Qed.
  Lemma good_msize : good MSIZE op_msize.
  Proof. unfold op_msize. solve_op. Qed.
  Lemma good_mcopy : good MCOPY op_mcopy.
  Proof. unfold op_mcopy. solve_op. Qed.
  Lemma good_sload : good SLOAD op_sload.
  Proof. unfold op_sload. solve_op. Qed.
  Lemma good_tload : good TLOAD op_tload.
  Proof. unfold op_tload. solve_op. Qed.
  Lemma good_keccak : good KECCAK (op_keccak cr).
  Proof.
    unfold op_keccak. solve_op.
    repeat match goal with H : to_u256 _ = Raise _ |- _ => apply to_u256_raise in H as [_ H] end.
    eapply be_bound; [|eassumption]. by eapply eo_keccak.
  Qed.
  Lemma good_coinbase : good COINBASE (op_coinbase be).
  Proof. unfold op_coinbase. solve_op. Qed.
  Lemma good_timestamp : good TIMESTAMP (op_timestamp be).
  Proof. unfold op_timestamp. solve_op. Qed.
  Lemma good_number : good NUMBER (op_number be).
  Proof. unfold op_number. solve_op. Qed.
  Lemma good_prevrandao : good PREVRANDAO (op_prevrandao be).
  Proof. unfold op_prevrandao. solve_op. Qed.
  Lemma good_gaslimit : good GASLIMIT (op_gaslimit be).
  Proof. unfold op_gaslimit. solve_op. Qed.
  Lemma good_chainid : good CHAINID (op_chainid be).
  Proof. unfold op_chainid. solve_op. Qed.
  Lemma good_address : good ADDRESS op_address.
  Proof. unfold op_address. solve_op. Qed.
  Lemma good_balance : good BALANCE op_balance.
  Proof. unfold op_balance. solve_op. Qed.
  Lemma good_origin : good ORIGIN (op_origin te).
  Proof. unfold op_origin. solve_op. Qed.
  Lemma good_caller : good CALLER op_caller.
  Proof. unfold op_caller. solve_op. Qed.
  Lemma good_callvalue : good CALLVALUE op_callvalue.
  Proof. unfold op_callvalue. solve_op. Qed.
  Lemma good_calldataload : good CALLDATALOAD op_calldataload.
  Proof. unfold op_calldataload. solve_op. Qed.
  Lemma good_calldatasize : good CALLDATASIZE op_calldatasize.
  Proof. unfold op_calldatasize. solve_op. Qed.
  Lemma good_calldatacopy : good CALLDATACOPY op_calldatacopy.
  Proof. unfold op_calldatacopy. solve_op. Qed.
  Lemma good_codesize : good CODESIZE op_codesize.
  Proof. unfold op_codesize. solve_op. Qed.
  Lemma good_codecopy : good CODECOPY op_codecopy.
  Proof. unfold op_codecopy. solve_op. Qed.
  Lemma good_gasprice : good GASPRICE (op_gasprice te).
  Proof. unfold op_gasprice. solve_op. Qed.
  Lemma good_extcodesize : good EXTCODESIZE op_extcodesize.
  Proof. unfold op_extcodesize. solve_op. Qed.
  Lemma good_extcodecopy : good EXTCODECOPY op_extcodecopy.
  Proof. unfold op_extcodecopy. solve_op. Qed.
  Lemma good_returndatasize : good RETURNDATASIZE op_returndatasize.
  Proof. unfold op_returndatasize. solve_op. Qed.
  Lemma good_returndatacopy : good RETURNDATACOPY op_returndatacopy.
  Proof.
    unfold op_returndatacopy. start. sym. all: mem_facts; rewrite ?lenN_cons in *.
    all: try match goal with H : to_u256 (?s + ?z) = Ok ?l |- _ =>
         assert (lenN (sliceN s l rd) <= z)
           by (apply to_u256_inv in H as [-> _]; rewrite lenN_sliceN; lia) end.
    all: leaf.
  Qed.
  Lemma good_extcodehash : good EXTCODEHASH (op_extcodehash cr).
  Proof.
    unfold op_extcodehash. solve_op.
    all: repeat match goal with H : to_u256 _ = Raise _ |- _ => apply to_u256_raise in H as [_ H] end.
    all: eapply be_bound; [|eassumption]; by eapply eo_keccak.
  Qed.
  Lemma good_selfbalance : good SELFBALANCE op_selfbalance.
  Proof. unfold op_selfbalance. solve_op. Qed.
  Lemma good_basefee : good BASEFEE (op_basefee be).
  Proof. unfold op_basefee. solve_op. Qed.
  Lemma good_blobhash : good BLOBHASH (op_blobhash te).
  Proof.
    unfold op_blobhash. solve_op.
    repeat match goal with H : to_u256 _ = Raise _ |- _ => apply to_u256_raise in H as [_ H] end.
    match goal with H : _ <= default 0 (nthN ?l ?i) |- _ =>
      destruct (nthN l i) as [h|] eqn:Eh; simpl in H end; [|lia].
    match goal with Henv : env_ok _ _ _ |- _ =>
      pose proof (Forall_nthN _ _ _ _ (eo_blobhashes _ _ _ Henv) Eh) as Hb end.
    simpl in Hb. lia.
  Qed.
  Lemma good_return : good RETURN op_return.
  Proof. unfold op_return. solve_op. Qed.
  Lemma good_revert : good REVERT op_revert.
  Proof.
    unfold op_revert. solve_op.
    split; [reflexivity|]; split; [norm; lia|]; split; [reflexivity|]; split; [reflexivity|].
    words_tac. eapply N.le_lt_trans; [apply memory_read_len_le|rewrite mem_expand_len].
    eapply N.lt_le_trans; [apply memcost_bound; [assumption|lia]|]. done.
  Qed.
  Lemma good_blockhash : good BLOCKHASH (op_blockhash be).
  Proof.
    unfold op_blockhash. solve_op.
    - repeat match goal with H : to_u256 _ = Raise _ |- _ => apply to_u256_raise in H as [_ H] end.
      match goal with Henv : env_ok _ _ _, H : nthN _ _ = Some _ |- _ =>
        pose proof (blockhash_lt _ _ _ (eo_hashes_words _ _ _ Henv) H) end. lia.
    - match goal with Henv : env_ok _ _ _, H : nthN (rev ?l) ?i = None, H2 : _ || _ = false |- _ =>
        apply orb_false_iff in H2 as [?%N.leb_gt ?%N.ltb_ge];
        destruct (nthN_lt_Some i (rev l)) as [h Eh];
        [unfold lenN; rewrite rev_length; fold (lenN l); apply (eo_hashes _ _ _ Henv); lia|congruence] end.
  Qed.
  Lemma good_blobbasefee : good BLOBBASEFEE (op_blobbasefee be).
  Proof.
    unfold op_blobbasefee. solve_op.
    - repeat match goal with H : to_u256 _ = Raise _ |- _ => apply to_u256_raise in H as [_ H] end.
      match goal with Henv : env_ok _ _ _, H : fork_blob_gas_price _ _ = Some _ |- _ =>
        pose proof (eo_blob _ _ _ Henv _ H) end. lia.
    - exfalso. destruct (fork_blob_price_total (b_fork be) (b_excess_blob_gas be)) as [p Hp]. congruence.
  Qed.
  Lemma good_push n : n <= 32 -> good (PUSH n) (op_push n).
  Proof.
    intros Hn. unfold op_push. solve_op.
    all: repeat match goal with H : to_u256 _ = Raise _ |- _ => apply to_u256_raise in H as [_ H] end.
    all: eapply be_bound; [|eassumption]; rewrite buffer_read_len; lia.
  Qed.
  Lemma good_dup n : good (DUP n) (op_dup n).
  Proof.
    unfold op_dup. solve_op. apply Forall_cons. split; [|assumption].
    match goal with H : nthN _ _ = Some _ |- _ =>
      eapply (Forall_nthN (fun x => x < 2 ^ 256)); [|exact H]; assumption end.
  Qed.
  Lemma good_swap n : good (SWAP n) (op_swap n).
  Proof.
    unfold op_swap. solve_op.
    - match goal with H : swap_top _ _ = Some _ |- _ => rewrite (swap_top_length _ _ _ H) end. lia.
    - match goal with H : swap_top _ _ = Some _ |- _ => apply (swap_top_words _ _ _ H) end. assumption.
  Qed.
  Lemma good_log n : good (LOG n) (op_log n).
  Proof.
    unfold op_log. intros e w [Hs Hm] Hrun.
    destruct e as [pc stk mem cod gas vjd logs rc rn msg out del rd err aa ak].
    cbv beta iota zeta delta [e_stack e_memory e_running] in Hs, Hm, Hrun. subst rn.
    unfold bind at 1. unfold pop at 1. cbn [e_stack].
    destruct stk as [|a stk]; [leaf|].
    unfold bind at 1. unfold pop at 1. cbn [e_stack set_stack].
    destruct stk as [|b stk]; [leaf|].
    cbn [set_stack]. unfold bind at 1.
    match goal with |- context [pop_n ?k ?e ?w] => pose proof (pop_n_spec k e w) as Hp;
      destruct (pop_n k e w) as [ts e1 w1|x e1 w1] end.
    - destruct Hp as (-> & Hst & Hlen & He). cbn [e_stack] in Hst. rewrite He. clear He.
      set (stk1 := e_stack e1) in *. clearbody stk1. clear e1. cbn [set_stack]. subst stk.
      rewrite ?lenN_cons, lenN_app in Hs.
      sym; mem_facts; leaf.
      + right. split; [assumption|]. eexists. split; [reflexivity|]. split; [done|].
        split.
        * unfold log_gas. cbn [log_topics log_data].
          match goal with |- context [memory_read_bytes ?m ?s ?n] =>
            pose proof (memory_read_len_n m s n) as Hd; revert Hd; generalize (lenN (memory_read_bytes m s n)) end.
          intros d Hd. unfold lenN at 1. rewrite Hlen. lia.
        * intros Hf. pose proof (fo_stack _ _ Hf) as Hw. cbn [e_stack] in Hw. unfold stack_words in Hw.
          apply Forall_cons in Hw as [_ Hw]. apply Forall_cons in Hw as [_ Hw].
          apply Forall_app in Hw as [Hw _]. exact Hw.
      + match goal with H : Forall _ (_ ++ _) |- _ => apply Forall_app in H as [_ H]; exact H end.
    - destruct Hp as (-> & -> & He). rewrite He. cbn [set_stack]. leaf.
  Qed.

  (** Bytes after the opcode that belong to a push are at most 32. *)
  Definition op_ok (o : op) : Prop := match o with PUSH n => n <= 32 | _ => True end.

  Lemma local_op (o : op) e w :
    is_local o = true -> op_ok o -> shape_ok e -> e_running e = true ->
    local_res o e w (op_implementation cr be te pm pcm o e w).
  Proof.
    intros Ho Hok Hs Hr. destruct o; try discriminate Ho; cbv beta iota delta [op_implementation].
    all: first [by apply good_stop | by apply good_jump | by apply good_jumpi | by apply good_pc | by apply good_gas | by apply good_jumpdest | by apply good_add | by apply good_mul | by apply good_sub | by apply good_div | by apply good_sdiv | by apply good_mod | by apply good_smod | by apply good_addmod | by apply good_mulmod | by apply good_exp | by apply good_signextend | by apply good_lt | by apply good_gt | by apply good_slt | by apply good_sgt | by apply good_eq | by apply good_iszero | by apply good_and | by apply good_or | by apply good_xor | by apply good_not | by apply good_byte | by apply good_shl | by apply good_shr | by apply good_sar | by apply good_clz | by apply good_pop | by apply good_mstore | by apply good_mstore8 | by apply good_mload | by apply good_msize | by apply good_mcopy | by apply good_sload | by apply good_tload | by apply good_keccak | by apply good_coinbase | by apply good_timestamp | by apply good_number | by apply good_prevrandao | by apply good_gaslimit | by apply good_chainid | by apply good_address | by apply good_balance | by apply good_origin | by apply good_caller | by apply good_callvalue | by apply good_calldataload | by apply good_calldatasize | by apply good_calldatacopy | by apply good_codesize | by apply good_codecopy | by apply good_gasprice | by apply good_extcodesize | by apply good_extcodecopy | by apply good_returndatasize | by apply good_returndatacopy | by apply good_extcodehash | by apply good_selfbalance | by apply good_basefee | by apply good_blobhash | by apply good_return | by apply good_revert | by apply good_blockhash | by apply good_blobbasefee | by apply good_push | by apply good_dup | by apply good_swap | by apply good_log].
  Qed.
End Local.
