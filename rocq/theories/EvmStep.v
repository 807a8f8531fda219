(** * EvmStep: what one instruction can do.

    [op_plan] classifies every instruction: it finishes by itself
    ([done_case]), or calls [process_message] or [process_create_message]
    exactly once, on a message and in a world described by [call_ok] and
    [create_ok].  The frame-level proofs use only this classification. *)
From Verif Require Import Base State Rlp Vm Instructions StateSpec StateProofs
  NumericProofs ArithProofs.
From Coq Require Import ZifyBool ZifyN ZifyNat.
Ltac Zify.zify_post_hook ::= idtac.

Definition stack_words (s : list N) : Prop := Forall (fun x => x < 2 ^ 256) s.

(** An account with a nonce or code. *)
Definition solid (s : state) (a : address) : Prop :=
  nonce (get_account s a) <> 0 \/ code (get_account s a) <> [].

(** Environment values that fit their types. *)
Record env_ok (cr : crypto) (be : block_env) (te : tx_env) : Prop := {
  eo_keccak : forall b, lenN (keccak256 cr b) <= 32;
  eo_sha256 : forall b, lenN (sha256_digest cr b) < 2 ^ 256;
  eo_ripemd160 : forall b, lenN (ripemd160_digest cr b) <= 32;
  eo_coinbase : b_coinbase be < 2 ^ 256;
  eo_time : b_time be < 2 ^ 256;
  eo_number : b_number be < 2 ^ 256;
  eo_randao : b_prev_randao be < 2 ^ 256;
  eo_gaslimit : b_block_gas_limit be < 2 ^ 256;
  eo_chainid : b_chain_id be < 2 ^ 256;
  eo_basefee : b_base_fee_per_gas be < 2 ^ 256;
  eo_blob : forall p, fork_blob_gas_price (b_fork be) (b_excess_blob_gas be) = Some p -> p < 2 ^ 256;
  eo_hashes : forall n, n < b_number be -> b_number be <= n + 256 ->
      b_number be - n - 1 < lenN (b_block_hashes be);
  eo_hashes_words : Forall (fun x => x < 2 ^ 256) (b_block_hashes be);
  eo_origin : t_origin te < 2 ^ 256;
  eo_gasprice : t_gas_price te < 2 ^ 256;
  eo_blobhashes : Forall (fun x => x < 2 ^ 256) (t_blob_versioned_hashes te);
}.

(** World values that fit their types. *)
Record world_ok (w : world) : Prop := {
  wo_total : total_balance (st w) < 2 ^ 256;
  wo_code : forall a, lenN (code (get_account (st w) a)) < 2 ^ 256;
  wo_storage : forall a k, get_storage (st w) a k < 2 ^ 256;
  wo_transient : forall a k, get_transient_storage (ts w) a k < 2 ^ 256;
}.

(** A frame about to execute an instruction, with values in range. *)
Record frame_ok (e : evm) (w : world) : Prop := {
  fo_stack : stack_words (e_stack e);
  fo_gas : e_gas_left e + memcost (lenN (e_memory e)) < 2 ^ 256;
  fo_code : lenN (e_code e) < 2 ^ 256;
  fo_pc : e_pc e < lenN (e_code e);
  fo_data : lenN (m_data (e_message e)) < 2 ^ 256;
  fo_value : m_value (e_message e) < 2 ^ 256;
  fo_target : m_current_target (e_message e) < 2 ^ 160;
  fo_caller : m_caller (e_message e) < 2 ^ 160;
  fo_ret : lenN (e_return_data e) < 2 ^ 256;
  fo_world : world_ok w;
  fo_exists : main_trie (st w) !! m_current_target (e_message e) <> None;
  fo_snap : snapshots (st w) <> [];
}.

(** Structural invariant of every frame. *)
Record shape_ok (e : evm) : Prop := {
  so_stack : lenN (e_stack e) <= 1024;
  so_mem : lenN (e_memory e) mod 32 = 0;
}.

(** Bytes taken by an instruction. *)
Definition op_size (o : op) : N := match o with PUSH n => 1 + n | _ => 1 end.

(** Least gas paid for a log. *)
Definition log_gas (l : log) : N := 375 + 375 * lenN (log_topics l) + 8 * lenN (log_data l).

(** Effect on the frame of an instruction that returns normally (apart from
    the refund counter and the deletion set). *)
Record local_step (cr : crypto) (be : block_env) (te : tx_env) (o : op)
    (e : evm) (w : world) (e' : evm) : Prop := {
  ls_code : e_code e' = e_code e;
  ls_vjd : e_valid_jump_destinations e' = e_valid_jump_destinations e;
  ls_msg : e_message e' = e_message e;
  ls_err : e_error e' = e_error e;
  ls_gas_le : e_gas_left e' <= e_gas_left e;
  ls_gas_lt : e_running e' = true -> e_gas_left e' < e_gas_left e;
  ls_memgas : e_gas_left e' + memcost (lenN (e_memory e'))
              <= e_gas_left e + memcost (lenN (e_memory e));
  ls_mem_mono : lenN (e_memory e) <= lenN (e_memory e');
  ls_mem32 : lenN (e_memory e') mod 32 = 0;
  ls_stack : lenN (e_stack e') <= 1024;
  ls_aa : e_accessed_addresses e ⊆ e_accessed_addresses e';
  ls_ak : e_accessed_storage_keys e ⊆ e_accessed_storage_keys e';
  ls_logs : e_logs e' = e_logs e \/
     (m_is_static (e_message e) = false /\
      exists l, e_logs e' = e_logs e ++ [l] /\
                log_address l = m_current_target (e_message e) /\
                e_gas_left e' + log_gas l <= e_gas_left e /\
                (frame_ok e w -> stack_words (log_topics l)));
  ls_pc : e_running e' = true ->
     e_pc e' = e_pc e + op_size o \/
     e_pc e' ∈ e_valid_jump_destinations e;
  ls_out : e_output e' = e_output e \/ lenN (e_output e') <= lenN (e_memory e');
  ls_ret : e_return_data e' = e_return_data e \/ e_return_data e' = [];
  ls_words : env_ok cr be te -> frame_ok e w -> stack_words (e_stack e');
}.

(** Effect of an instruction that raises. *)
Definition exc_ok (cr : crypto) (be : block_env) (te : tx_env) (o : op)
    (e : evm) (w : world) (x : exn) (e' : evm) : Prop :=
  e_gas_left e' <= e_gas_left e /\
  e_message e' = e_message e /\
  match x with
  | EHalt _ => True
  | ERevert => o = REVERT /\
      (env_ok cr be te -> frame_ok e w -> lenN (e_output e') < 2 ^ 256)
  | ECrash c => env_ok cr be te -> frame_ok e w ->
      c = OverflowError /\ o = SELFDESTRUCT /\ at_least Cancun (b_fork be) = false /\
      2 ^ 255 <= balance (get_account (st w) (m_current_target (e_message e)))
  | EInvalidBlock | EOutOfFuel => False
  end.

(** ** Value bounds *)
Create HintDb u256 discriminated.

Lemma wrapping_add_lt x y : wrapping_add x y < 2 ^ 256.
Proof. apply N.mod_lt. by vm_compute. Qed.
Lemma wrapping_sub_lt x y : wrapping_sub x y < 2 ^ 256.
Proof. apply N.mod_lt. by vm_compute. Qed.
Lemma wrapping_mul_lt x y : wrapping_mul x y < 2 ^ 256.
Proof. apply N.mod_lt. by vm_compute. Qed.
Lemma div_value_lt x y : x < 2 ^ 256 -> div_value x y < 2 ^ 256.
Proof.
  intros H. unfold div_value. destruct (N.eqb_spec y 0); [lia|].
  eapply N.le_lt_trans; [|exact H]. apply N.div_le_upper_bound; nia.
Qed.
Lemma mod_value_lt x y : y < 2 ^ 256 -> mod_value x y < 2 ^ 256.
Proof.
  intros H. unfold mod_value. destruct (N.eqb_spec y 0); [lia|].
  pose proof (N.mod_lt x y). lia.
Qed.
Lemma b2n_lt b : b2n b < 2 ^ 256.
Proof. destruct b; simpl; lia. Qed.
Lemma not_value_lt x : x < 2 ^ 256 -> not_value x < 2 ^ 256.
Proof. intros H. rewrite not_value_spec by done. lia. Qed.
Lemma byte_value_lt x y : byte_value x y < 2 ^ 256.
Proof.
  rewrite byte_value_spec. destruct (x <? 32); [|lia].
  pose proof (N.mod_lt (y / 256 ^ (31 - x)) 256). lia.
Qed.
Lemma shr_value_lt x y : y < 2 ^ 256 -> shr_value x y < 2 ^ 256.
Proof.
  intros H. rewrite shr_value_spec by done. eapply N.le_lt_trans; [|exact H].
  assert (2 ^ x <> 0) by (apply N.pow_nonzero; lia).
  apply N.div_le_upper_bound; [done|]. nia.
Qed.
Lemma land_lt256 x y : x < 2 ^ 256 -> N.land x y < 2 ^ 256.
Proof. apply land_lt. Qed.
Lemma lor_lt256 x y : x < 2 ^ 256 -> y < 2 ^ 256 -> N.lor x y < 2 ^ 256.
Proof. apply lor_lt. Qed.
Lemma lxor_lt256 x y : x < 2 ^ 256 -> y < 2 ^ 256 -> N.lxor x y < 2 ^ 256.
Proof. apply lxor_lt. Qed.
Lemma sdiv_value_lt x y v : sdiv_value x y = Ok v -> x < 2 ^ 256 -> y < 2 ^ 256 -> v < 2 ^ 256.
Proof.
  intros E Hx Hy. revert E. rewrite sdiv_value_spec by done. intros [= <-].
  destruct (y =? 0); [lia|apply as_word_lt].
Qed.
Lemma smod_value_lt x y v : smod_value x y = Ok v -> x < 2 ^ 256 -> y < 2 ^ 256 -> v < 2 ^ 256.
Proof.
  intros E Hx Hy. revert E. rewrite smod_value_spec by done. intros [= <-].
  destruct (y =? 0); [lia|apply as_word_lt].
Qed.
Lemma addmod_value_lt x y z v : addmod_value x y z = Ok v -> v < 2 ^ 256.
Proof.
  unfold addmod_value. destruct (z =? 0); [intros [= <-]; lia|].
  intros H%to_u256_inv. lia.
Qed.
Lemma mulmod_value_lt x y z v : mulmod_value x y z = Ok v -> v < 2 ^ 256.
Proof.
  unfold mulmod_value. destruct (z =? 0); [intros [= <-]; lia|].
  intros H%to_u256_inv. lia.
Qed.
Lemma exp_value_lt x y v : exp_value x y = Ok v -> v < 2 ^ 256.
Proof. intros H%to_u256_inv. lia. Qed.
Lemma signextend_value_lt x y v : signextend_value x y = Ok v -> y < 2 ^ 256 -> v < 2 ^ 256.
Proof.
  intros E H. revert E. rewrite signextend_value_spec by done. intros [= <-].
  unfold signextend_spec. destruct (31 <? x); [done|apply as_word_lt].
Qed.
Lemma shl_value_lt x y v : shl_value x y = Ok v -> v < 2 ^ 256.
Proof. rewrite shl_value_spec. intros [= <-]. apply N.mod_lt. lia. Qed.
Lemma sar_value_lt x y v : sar_value x y = Ok v -> y < 2 ^ 256 -> v < 2 ^ 256.
Proof. intros E H. revert E. rewrite sar_value_spec by done. intros [= <-]. apply as_word_lt. Qed.
Lemma clz_value_lt x v : clz_value x = Ok v -> v < 2 ^ 256.
Proof. unfold clz_value. destruct (256 <? bit_length x); [done|]. intros [= <-]. lia. Qed.
Lemma to_u256_lt x v : to_u256 x = Ok v -> v < 2 ^ 256.
Proof. intros H%to_u256_inv. lia. Qed.
Lemma balance_lt w a : world_ok w -> balance (get_account (st w) a) < 2 ^ 256.
Proof. intros H. pose proof (balance_le_total (st w) a). pose proof (wo_total _ H). lia. Qed.
Lemma to_address_masked_lt x : to_address_masked x < 2 ^ 160.
Proof. apply N.mod_lt. by vm_compute. Qed.
Lemma Forall_nthN (P : N -> Prop) l n x : Forall P l -> nthN l n = Some x -> P x.
Proof.
  intros H E. rewrite Forall_forall in H. apply H. apply elem_of_list_In. by eapply nthN_In.
Qed.
Lemma Forall_rev_iff (P : N -> Prop) l : Forall P (rev l) <-> Forall P l.
Proof. split; intros H; rewrite Forall_forall in *; intros x Hx; apply H.
  - apply elem_of_list_In, in_rev. rewrite rev_involutive. by apply elem_of_list_In.
  - apply elem_of_list_In, in_rev. by apply elem_of_list_In.
Qed.
Lemma blockhash_lt be i h :
  Forall (fun x => x < 2 ^ 256) (b_block_hashes be) ->
  nthN (rev (b_block_hashes be)) i = Some h -> h < 2 ^ 256.
Proof. intros H E. eapply (Forall_nthN (fun x => x < 2 ^ 256)); [|exact E]. by apply Forall_rev_iff. Qed.
Global Hint Resolve wrapping_add_lt wrapping_sub_lt wrapping_mul_lt div_value_lt mod_value_lt
  b2n_lt not_value_lt byte_value_lt shr_value_lt land_lt256 lor_lt256 lxor_lt256
  sdiv_value_lt smod_value_lt addmod_value_lt mulmod_value_lt exp_value_lt
  signextend_value_lt shl_value_lt sar_value_lt clz_value_lt to_u256_lt balance_lt
  wo_storage wo_transient eo_time fo_value : u256.

(** ** Stack manipulation *)
Lemma swap_top_length n s s' : swap_top n s = Some s' -> lenN s' = lenN s.
Proof.
  unfold swap_top. destruct (nthN s 0), (nthN s n); try done. intros [= <-].
  unfold lenN. by rewrite !insert_length.
Qed.
Lemma Forall_insert_list (P : N -> Prop) (l : list N) i x : Forall P l -> P x -> Forall P (<[i:=x]> l).
Proof. intros. by apply Forall_insert. Qed.
Lemma swap_top_words n s s' : swap_top n s = Some s' -> stack_words s -> stack_words s'.
Proof.
  unfold swap_top, stack_words. destruct (nthN s 0) as [a|] eqn:Ea; [|done].
  destruct (nthN s n) as [b|] eqn:Eb; [|done]. intros [= <-] H.
  assert (a < 2 ^ 256) by (by eapply (Forall_nthN (fun x => x < 2 ^ 256))).
  assert (b < 2 ^ 256) by (by eapply (Forall_nthN (fun x => x < 2 ^ 256))).
  by apply Forall_insert_list; [apply Forall_insert_list|].
Qed.

(** pop_n either underflows or removes a prefix. *)
Lemma pop_n_spec n : forall e w,
  match pop_n n e w with
  | Ret ts e' w' => w' = w /\ e_stack e = ts ++ e_stack e' /\ length ts = n /\
                    e' = set_stack (e_stack e') e
  | Exc x e' w' => w' = w /\ x = EHalt StackUnderflowError /\ e' = set_stack (e_stack e') e
  end.
Proof.
  induction n as [|n IH]; intros e w; simpl.
  - unfold ret. destruct e; simpl. done.
  - unfold bind at 1. unfold pop. destruct (e_stack e) as [|v s] eqn:Es.
    { destruct e; simpl in *; subst; done. }
    unfold bind. specialize (IH (set_stack s e) w). destruct (pop_n n (set_stack s e) w).
    + unfold ret. destruct IH as (-> & H1 & H2 & H3). split; [done|].
      destruct e, e0; simpl in *. subst. split; [done|]. split; [simpl; lia|].
      injection H3; intros; subst; done.
    + destruct IH as (-> & -> & H3). destruct e, e0; simpl in *.
      injection H3; intros; subst; done.
Qed.

(** ** Symbolic execution *)
Ltac norm :=
  cbv beta iota zeta delta
   [bind ret raise upd get_evm get_state put_state get_transient put_transient
    lift lift_state when pop push charge_gas pc_add cast access_address
    expand_memory memory_write unop binop binop_opt ternop push_value copy_to_memory
    access_delegation call_child
    set_pc set_stack set_memory set_gas_left set_logs set_refund_counter set_running
    set_output set_accounts_to_delete set_return_data set_error
    set_accessed_addresses set_accessed_storage_keys
    e_pc e_stack e_memory e_code e_gas_left e_valid_jump_destinations e_logs
    e_refund_counter e_running e_message e_output e_accounts_to_delete e_return_data
    e_error e_accessed_addresses e_accessed_storage_keys
    GAS_JUMPDEST GAS_BASE GAS_VERY_LOW GAS_STORAGE_SET GAS_STORAGE_UPDATE
    GAS_STORAGE_CLEAR_REFUND GAS_LOW GAS_MID GAS_HIGH GAS_EXPONENTIATION
    GAS_EXPONENTIATION_PER_BYTE GAS_MEMORY GAS_KECCAK256 GAS_KECCAK256_WORD GAS_COPY
    GAS_BLOCK_HASH GAS_LOG GAS_LOG_DATA GAS_LOG_TOPIC GAS_CREATE GAS_CODE_DEPOSIT
    GAS_ZERO GAS_NEW_ACCOUNT GAS_CALL_VALUE GAS_CALL_STIPEND GAS_SELF_DESTRUCT
    GAS_SELF_DESTRUCT_NEW_ACCOUNT GAS_RETURN_DATA_COPY GAS_FAST_STEP GAS_COLD_SLOAD
    GAS_COLD_ACCOUNT_ACCESS GAS_WARM_ACCESS GAS_INIT_CODE_WORD_COST GAS_BLOBHASH_OPCODE].

Ltac dm :=
  match goal with
  | |- context [match ?x with _ => _ end] =>
      lazymatch x with
      | context [match _ with _ => _ end] => fail
      | _ => first [is_var x; destruct x | destruct x eqn:?]
      end
  end.
Ltac sym := norm; repeat (dm; norm).

(** Facts from a memory extension. *)
Lemma extend1 mem s n c x :
  lenN mem mod 32 = 0 ->
  calculate_gas_extend_memory mem [(s, n)] = (c, x) ->
  (lenN mem + x) mod 32 = 0 /\
  memcost (lenN mem + x) = memcost (lenN mem) + c /\
  (n = 0 \/ s + n <= lenN mem + x).
Proof.
  intros H E. destruct (extend_memory_spec mem _ c x H E) as (H1 & H2 & H3).
  split; [done|]. split; [done|]. apply H3. by left.
Qed.
Lemma extend2 mem s n s2 n2 c x :
  lenN mem mod 32 = 0 ->
  calculate_gas_extend_memory mem [(s, n); (s2, n2)] = (c, x) ->
  (lenN mem + x) mod 32 = 0 /\
  memcost (lenN mem + x) = memcost (lenN mem) + c /\
  (n = 0 \/ s + n <= lenN mem + x) /\ (n2 = 0 \/ s2 + n2 <= lenN mem + x).
Proof.
  intros H E. destruct (extend_memory_spec mem _ c x H E) as (H1 & H2 & H3).
  split; [done|]. split; [done|]. split; apply H3; [by left|by right; left].
Qed.
Ltac mem_facts :=
  repeat match goal with
  | E : calculate_gas_extend_memory ?mem [_] = (?c, ?x), Hm : lenN ?mem mod 32 = 0 |- _ =>
      let H1 := fresh "Hx" in let H2 := fresh "Hx" in let H3 := fresh "Hx" in
      destruct (extend1 mem _ _ c x Hm E) as (H1 & H2 & H3); clear E
  | E : calculate_gas_extend_memory ?mem [_; _] = (?c, ?x), Hm : lenN ?mem mod 32 = 0 |- _ =>
      let H1 := fresh "Hx" in let H2 := fresh "Hx" in let H3 := fresh "Hx" in
      let H4 := fresh "Hx" in
      destruct (extend2 mem _ _ _ _ c x Hm E) as (H1 & H2 & H3 & H4); clear E
  end.

Lemma mem_write_expand_le mem x s v n :
  lenN v <= n -> n = 0 \/ s + n <= lenN mem + x ->
  lenN (memory_write_bytes (mem ++ zeros x) s v) = lenN mem + x.
Proof.
  intros Hv H. rewrite memory_write_len; rewrite lenN_app, lenN_zeros; [done|].
  destruct H as [->|H]; [left|right; lia].
  destruct v; [done|]. rewrite lenN_cons in Hv. lia.
Qed.
Lemma mem_write_expand_len mem x s v :
  v = [] \/ s + lenN v <= lenN mem + x ->
  lenN (memory_write_bytes (mem ++ zeros x) s v) = lenN mem + x.
Proof.
  intros H. rewrite memory_write_len; rewrite lenN_app, lenN_zeros; done.
Qed.
Lemma mem_expand_len mem x : lenN (mem ++ zeros x) = lenN mem + x.
Proof. by rewrite lenN_app, lenN_zeros. Qed.
