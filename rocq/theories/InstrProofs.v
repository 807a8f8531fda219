(** * InstrProofs: every instruction agrees with the table of InstrSpec. *)
From Verif Require Import Base State Rlp Vm Instructions StateSpec StateProofs
  NumericProofs ArithProofs PropArith EvmStep EvmLocal EvmPlan EvmPlanProofs EvmCallProofs
  InstrSpec.
From Coq Require Import ZifyBool ZifyN ZifyNat.
Ltac Zify.zify_post_hook ::= idtac.

(** ** Helpers *)
Lemma words_ceil n : words_of n = words n.
Proof.
  unfold words_of, words. destruct (ceil32_spec n) as (H1 & H2 & H3).
  pose proof (N.div_mod (ceil32 n) 32 ltac:(done)).
  apply (N.div_unique _ _ _ (n + 31 - ceil32 n)); lia.
Qed.
Lemma words_mul n : 32 * words n = ceil32 n.
Proof.
  rewrite <- words_ceil. unfold words_of. destruct (ceil32_spec n) as (_ & _ & H).
  pose proof (N.div_mod (ceil32 n) 32 ltac:(done)). lia.
Qed.
Lemma cmem_cost n : n mod 32 = 0 -> memcost n = cmem (n / 32).
Proof.
  intros H. unfold memcost, cmem, GAS_MEMORY. rewrite ceil32_id by done.
  rewrite N.pow_2_r. lia.
Qed.
Lemma grown_fold rs : forall size,
  fold_left (fun c '(s, n) => if n =? 0 then c else N.max c (ceil32 (s + n))) rs size = grown size rs.
Proof.
  induction rs as [|[s n] rs IH]; intros size; simpl; [done|]. rewrite IH.
  by rewrite words_mul.
Qed.
Lemma grown_mono rs : forall size, size <= grown size rs.
Proof.
  induction rs as [|[s n] rs IH]; intros size; simpl; [done|].
  etrans; [|apply IH]. destruct (n =? 0); lia.
Qed.
Lemma extend_exact mem rs : lenN mem mod 32 = 0 ->
  calculate_gas_extend_memory mem rs = (growth (lenN mem) rs, grown (lenN mem) rs - lenN mem).
Proof.
  intros Hm. destruct (calculate_gas_extend_memory mem rs) as [c x] eqn:E.
  destruct (extend_memory_spec mem rs c x Hm E) as (H1 & H2 & _).
  pose proof (extend_loop_size rs (lenN mem) 0 0 Hm) as Hz.
  unfold calculate_gas_extend_memory in E. rewrite E in Hz. cbn [snd] in Hz.
  rewrite grown_fold, N.sub_0_r in Hz. rewrite Hz in *.
  unfold growth. rewrite <- !cmem_cost by done. f_equal; lia.
Qed.
Lemma read_padded b s n : buffer_read b s n = padded b s n.
Proof.
  unfold buffer_read, right_pad_zero_bytes, padded, sliceN.
  replace (s + n - s) with n by lia. set (t := dropN s b). clearbody t.
  rewrite !takeN_firstn. unfold zeros, lenN. rewrite firstn_app. f_equal.
  rewrite firstn_length. 
  replace (N.to_nat (n - N.of_nat (Nat.min (N.to_nat n) (length t)))) with (N.to_nat n - length t)%nat by lia.
  generalize (N.to_nat n) as k. intros k.
  replace k with ((k - length t) + (k - (k - length t)))%nat at 3 by lia.
  rewrite repeat_app, firstn_app, repeat_length, Nat.sub_diag, firstn_O, app_nil_r.
  by rewrite firstn_all2 by (by rewrite repeat_length).
Qed.
Lemma read_window m s n : memory_read_bytes m s n = takeN n (dropN s m).
Proof. unfold memory_read_bytes, sliceN. by replace (s + n - s) with n by lia. Qed.
Lemma slice_window (m : bytes) s n : sliceN s (s + n) m = takeN n (dropN s m).
Proof. unfold sliceN. by replace (s + n - s) with n by lia. Qed.
Lemma write_splice m s v : memory_write_bytes m s v = splice m s v.
Proof.
  unfold splice, memory_write_bytes. destruct v; [|done].
  rewrite lenN_nil, N.add_0_r. cbn [app]. apply takeN_dropN.
Qed.
Lemma low_byte v : byte_of_N (N.land v 255) = byte_of_N v.
Proof.
  unfold byte_of_N. change 255 with (N.ones 8). rewrite N.land_ones.
  change (2 ^ 8) with 256. by rewrite N.mod_mod by done.
Qed.
Lemma alive_dead w a : is_account_alive (st w) a = negb (dead w a).
Proof.
  unfold is_account_alive, dead, get_account. destruct (get_account_optional (st w) a) as [[n b c]|]; [|done].
  cbn. destruct (bool_decide_reflect (Account n b c <> EMPTY_ACCOUNT)) as [H|H].
  - destruct (N.eqb_spec n 0), (N.eqb_spec b 0), c; subst; done.
  - apply dec_stable in H. injection H as -> -> ->. done.
Qed.
Lemma empty_dead w a : get_account (st w) a = EMPTY_ACCOUNT <-> dead w a = true.
Proof.
  unfold dead. destruct (get_account (st w) a) as [n b c]. cbn. split.
  - by intros [= -> -> ->].
  - destruct (N.eqb_spec n 0), (N.eqb_spec b 0), c; subst; done.
Qed.
Lemma store_price_eq o c v : sstore_gas o c v = store_price o c v.
Proof.
  unfold sstore_gas, store_price, GAS_STORAGE_SET, GAS_STORAGE_UPDATE, GAS_COLD_SLOAD, GAS_WARM_ACCESS.
  destruct (N.eqb_spec o c), (N.eqb_spec c v), (N.eqb_spec v c), (N.eqb_spec c o); subst; done.
Qed.
Lemma store_refund_eq o c v : sstore_refund o c v = store_refund o c v.
Proof.
  unfold sstore_refund, store_refund, GAS_STORAGE_CLEAR_REFUND, GAS_STORAGE_SET,
    GAS_STORAGE_UPDATE, GAS_COLD_SLOAD, GAS_WARM_ACCESS.
  destruct (N.eqb_spec c v), (N.eqb_spec v c), (N.eqb_spec c o), (N.eqb_spec o 0), (N.eqb_spec c 0),
    (N.eqb_spec v 0), (N.eqb_spec o v), (N.eqb_spec v o); subst; try done.
Qed.

Lemma growth_nil n : growth n [] = 0.
Proof. unfold growth. cbn. lia. Qed.
Lemma grown_nil n : zeros (grown n [] - n) = [].
Proof. cbn. by rewrite N.sub_diag. Qed.

Section Agree.
  Context (cr : crypto) (be : block_env) (te : tx_env)
    (pm pcm : message -> world -> pmres).

  Definition agrees (o : op) (e : evm) (w : world) (r : res unit) : Prop :=
    match r with
    | Ret _ e' w' => ~ halts o e w /\ o <> REVERT /\ e' = frame_after cr be te o e w /\ world_after (b_fork be) o e w w'
    | Exc (EHalt _) _ w' => halts o e w /\ w' = w
    | Exc ERevert e' w' => ~ halts o e w /\ o = REVERT /\ e' = frame_after cr be te o e w /\ w' = w
    | Exc _ _ _ => True
    end.

  Ltac start :=
    let e := fresh "e" in let w := fresh "w" in
    let Hs := fresh "Hs" in let Hm := fresh "Hm" in let Hrun := fresh "Hrun" in let Hw := fresh "Hw" in
    intros e w [Hs Hm] Hrun Hw;
    destruct e as [pc stk mem cod gas vjd logs rc rn msg out del rd err aa ak];
    cbv beta iota zeta delta [e_stack e_memory e_running] in Hs, Hm, Hrun, Hw;
    match type of Hrun with ?x = _ => subst x end; cbn [op_implementation].
  Ltac table0 :=
    cbv beta iota zeta delta [agrees halts operands below takes leaves price base_price touches
      forbidden frame_after results new_memory new_pc world_after memory_of account_price
      self to_address_masked address_of alu_price
      e_pc e_stack e_memory e_code e_gas_left e_valid_jump_destinations e_logs
      e_refund_counter e_running e_message e_output e_accounts_to_delete e_return_data
      e_error e_accessed_addresses e_accessed_storage_keys].
  Ltac table := table0; cbv beta iota delta [firstn skipn].
  Ltac rew :=
    rewrite ?lenN_to_be_bytes32; rewrite ?extend_exact by assumption;
    rewrite ?words_ceil, ?read_padded, ?read_window, ?write_splice, ?low_byte, ?alive_dead.
  Ltac model := norm; repeat (rew; norm; dm); norm; rew.
  Ltac facts :=
    repeat match goal with
    | H : to_u256 _ = Ok _ |- _ => apply to_u256_inv in H as [? H]; try subst
    | H : (_ <? _) = true |- _ => apply N.ltb_lt in H
    | H : (_ <? _) = false |- _ => apply N.ltb_ge in H
    | H : (_ =? _) = true |- _ => apply N.eqb_eq in H
    | H : (_ =? _) = false |- _ => apply N.eqb_neq in H
    | H : (_ <=? _) = true |- _ => apply N.leb_le in H
    | H : (_ <=? _) = false |- _ => apply N.leb_gt in H
    end.
  Ltac num := unfold lenN in *; cbn [length] in *; try lia.

  Notation good o := (forall e w, shape_ok e -> e_running e = true ->
    Forall (fun x => x < 2 ^ 256) (e_stack e) ->
    agrees o e w (op_implementation cr be te pm pcm o e w)).
  Ltac tests :=
    repeat match goal with
    | H : ?a <> ?b |- context [?a =? ?b] => rewrite (proj2 (N.eqb_neq a b) H)
    | H : ?a = ?b |- context [?a =? ?b] => rewrite (proj2 (N.eqb_eq a b) H)
    | H : ?a < ?b |- context [?a <? ?b] => rewrite (proj2 (N.ltb_lt a b) H)
    | H : ?b <= ?a |- context [?a <? ?b] => rewrite (proj2 (N.ltb_ge a b) H)
    end.
  Ltac fin_with table :=
    table; repeat match goal with H : decide _ = _ |- _ => rewrite ?H; clear H end; cbv beta iota;
    rewrite ?slice_window, ?growth_nil, ?grown_nil, ?app_nil_r, ?Z.add_0_r, ?N.add_0_r; cbn [app];
    lazymatch goal with
    | |- True => exact I
    | |- (_ \/ _) /\ _ =>
        split; [|reflexivity];
        first [left; solve [num] | right; left; solve [num] | right; right; left; solve [num]
              | right; right; right; first [solve [num]|solve [auto]|solve [tauto]|left; solve [num]|right; solve [num]|idtac] ]
    | |- ~ _ /\ _ =>
        split; [let H := fresh in intros H; repeat (destruct H as [H|H]; [try solve [num]|]); repeat match goal with H : _ \/ _ |- _ => destruct H end; first [solve [num]|solve [congruence]|solve [tauto]|idtac]|];
        split; [first [discriminate|reflexivity]|];
        tests; split; [first [reflexivity|solve [f_equal; first [reflexivity|set_solver|num]]|idtac]|try reflexivity]
    end.
  Ltac fin := fin_with ltac:(table).
  Ltac run f := start; unfold f, to_address_masked; model; facts; fin.

  Lemma i_address : good ADDRESS. Proof. run op_address. Qed.
  Lemma i_origin : good ORIGIN. Proof. run op_origin. Qed.
  Lemma i_caller : good CALLER. Proof. run op_caller. Qed.
  Lemma i_callvalue : good CALLVALUE. Proof. run op_callvalue. Qed.
  Lemma i_calldatasize : good CALLDATASIZE. Proof. run op_calldatasize. Qed.
  Lemma i_codesize : good CODESIZE. Proof. run op_codesize. Qed.
  Lemma i_gasprice : good GASPRICE. Proof. run op_gasprice. Qed.
  Lemma i_returndatasize : good RETURNDATASIZE. Proof. run op_returndatasize. Qed.
  Lemma i_coinbase : good COINBASE. Proof. run op_coinbase. Qed.
  Lemma i_timestamp : good TIMESTAMP. Proof. run op_timestamp. Qed.
  Lemma i_number : good NUMBER. Proof. run op_number. Qed.
  Lemma i_prevrandao : good PREVRANDAO. Proof. run op_prevrandao. Qed.
  Lemma i_gaslimit : good GASLIMIT. Proof. run op_gaslimit. Qed.
  Lemma i_chainid : good CHAINID. Proof. run op_chainid. Qed.
  Lemma i_selfbalance : good SELFBALANCE. Proof. run op_selfbalance. Qed.
  Lemma i_basefee : good BASEFEE. Proof. run op_basefee. Qed.
  Lemma i_pc : good PC. Proof. run op_pc. Qed.
  Lemma i_gas : good GAS. Proof. run op_gas. Qed.
  Lemma i_msize : good MSIZE. Proof. run op_msize. Qed.
  Lemma i_jumpdest : good JUMPDEST. Proof. run op_jumpdest. Qed.
  Lemma i_stop : good STOP. Proof. run op_stop. Qed.
  Lemma i_pop : good POP. Proof. run op_pop. Qed.
  Lemma i_jump : good JUMP. Proof. run op_jump. Qed.
  Lemma i_jumpi : good JUMPI. Proof. run op_jumpi. Qed.
  Lemma i_calldataload : good CALLDATALOAD. Proof. run op_calldataload. Qed.
  Lemma i_sload : good SLOAD. Proof. run op_sload. Qed.
  Lemma i_tload : good TLOAD. Proof. run op_tload. Qed.
  Lemma i_balance : good BALANCE. Proof. run op_balance. Qed.
  Lemma i_extcodesize : good EXTCODESIZE. Proof. run op_extcodesize. Qed.
  Lemma i_blobhash : good BLOBHASH. Proof. run op_blobhash. Qed.
  Lemma i_mload : good MLOAD. Proof. run op_mload. Qed.
  Lemma i_mstore : good MSTORE. Proof. run op_mstore. Qed.
  Lemma i_mstore8 : good MSTORE8. Proof. run op_mstore8. Qed.
  Lemma i_keccak : good KECCAK. Proof. run op_keccak. Qed.
  Lemma i_calldatacopy : good CALLDATACOPY. Proof. run op_calldatacopy. Qed.
  Lemma i_codecopy : good CODECOPY. Proof. run op_codecopy. Qed.
  Lemma i_mcopy : good MCOPY. Proof. run op_mcopy. Qed.
  Lemma i_extcodecopy : good EXTCODECOPY. Proof. run op_extcodecopy. Qed.
  Lemma i_returndatacopy : good RETURNDATACOPY. Proof. run op_returndatacopy. Qed.
  Lemma i_return : good RETURN. Proof. run op_return. Qed.
  Lemma i_revert : good REVERT. Proof. run op_revert. Qed.
  Lemma i_blobbasefee : good BLOBBASEFEE.
  Proof.
    start. unfold op_blobbasefee. model; facts; fin.
    repeat match goal with H : fork_blob_gas_price _ _ = _ |- _ => rewrite H end. reflexivity.
  Qed.
  Lemma i_extcodehash : good EXTCODEHASH.
  Proof.
    start. unfold op_extcodehash, to_address_masked. model; facts; fin.
    all: repeat match goal with
         | H : get_account _ _ = EMPTY_ACCOUNT |- _ => apply empty_dead in H; rewrite H
         | H : get_account _ _ <> EMPTY_ACCOUNT |- _ =>
             rewrite empty_dead in H; apply not_true_is_false in H; rewrite H end.
    all: f_equal; first [reflexivity|set_solver|num].
  Qed.
  Lemma hash_at (hs : list N) d h : 0 < d -> nthN (rev hs) (d - 1) = Some h -> nthN hs (lenN hs - d) = Some h.
  Proof.
    intros Hd. rewrite !nthN_nth_error. intros H.
    assert (Hlt : (N.to_nat (d - 1) < length hs)%nat).
    { rewrite <- rev_length. apply nth_error_Some. congruence. }
    rewrite (nth_error_nth' _ 0) in H by (by rewrite rev_length).
    rewrite rev_nth in H by done. injection H as <-.
    rewrite (nth_error_nth' _ 0) by (unfold lenN; lia). f_equal. f_equal. unfold lenN. lia.
  Qed.
  Lemma i_blockhash : good BLOCKHASH.
  Proof.
    start. unfold op_blockhash. model; facts; fin.
    - f_equal. f_equal. destruct (N.ltb_spec n (b_number be)), (N.leb_spec (b_number be) (n + 256)); try done.
      cbn. apply orb_true_iff in Heqb0 as [H1%N.leb_le|H1%N.ltb_lt]; lia.
    - apply orb_false_iff in Heqb0 as [H1%N.leb_gt H2%N.ltb_ge].
      rewrite (proj2 (N.ltb_lt _ _) H1), (proj2 (N.leb_le _ _) H2). cbn [andb].
      by rewrite (hash_at (b_block_hashes be) (b_number be - n) n0) by (done || lia).
  Qed.
  Lemma i_push n : good (PUSH n).
  Proof. destruct n as [|p]; start; unfold op_push; cbn [N.eqb]; model; facts; fin. all: f_equal; f_equal; lia. Qed.
  Lemma last_firstn (l : list N) k x : nth_error l k = Some x -> last (firstn (S k) l) = Some x.
  Proof.
    revert k. induction l as [|y l IH]; intros [|k]; cbn; try done.
    intros H. specialize (IH k H). cbn in IH. destruct l; [done|]. cbn. by destruct k.
  Qed.
  Lemma i_dup n : good (DUP n).
  Proof.
    start. unfold op_dup. model; facts.
    all: try match goal with H : nthN _ _ = Some _ |- _ => pose proof (nthN_Some_lt _ _ _ H) end.
    all: try match goal with H : nthN _ _ = None |- _ =>
      pose proof H as H'; rewrite nthN_nth_error in H'; apply nth_error_None in H' end.
    all: fin_with ltac:(table0).
    f_equal. rewrite (last_firstn _ _ n0) by (by rewrite <- nthN_nth_error).
    cbn [app]. by rewrite firstn_skipn.
  Qed.
  Lemma exchange_swap (l : list N) k s :
    swap_top (N.of_nat k) l = Some s ->
    (k < length l)%nat /\ s = exchange (firstn (S k) l) ++ skipn (S k) l.
  Proof.
    unfold swap_top. rewrite !nthN_nth_error, Nat2N.id. cbn [N.to_nat].
    destruct l as [|a l]; [done|]. cbn [nth_error].
    destruct k as [|k]; cbn [nth_error].
    { intros [= <-]. cbn. split; [lia|]. done. }
    destruct (nth_error l k) as [b|] eqn:E; [|done]. intros [= <-].
    assert (Hk : (k < length l)%nat) by (apply nth_error_Some; congruence).
    split; [cbn; lia|]. apply nth_error_split in E as (l1 & l2 & -> & <-).
    cbn [firstn skipn]. 
    replace (l1 ++ b :: l2) with ((l1 ++ [b]) ++ l2) by (by rewrite <- app_assoc).
    assert (F : firstn (S (length l1)) ((l1 ++ [b]) ++ l2) = l1 ++ [b]).
    { rewrite firstn_app. rewrite firstn_all2 by (rewrite app_length; cbn; lia).
      rewrite app_length. cbn. replace (_ - _)%nat with 0%nat by lia. by rewrite app_nil_r. }
    assert (S' : skipn (S (length l1)) ((l1 ++ [b]) ++ l2) = l2).
    { rewrite skipn_app. rewrite skipn_all2 by (rewrite app_length; cbn; lia).
      rewrite app_length. cbn. by replace (_ - _)%nat with 0%nat by lia. }
    cbn [exchange]. 
    change (match (l1 ++ [b]) ++ l2 with [] => [] | x :: l => x :: firstn (length l1) l end)
      with (firstn (S (length l1)) ((l1 ++ [b]) ++ l2)).
    change (match (l1 ++ [b]) ++ l2 with [] => [] | x :: l => skipn (length l1) l end)
      with (skipn (S (length l1)) ((l1 ++ [b]) ++ l2)).
    rewrite F, S', rev_unit, rev_involutive. cbn. f_equal. rewrite <- !app_assoc. cbn.
    rewrite insert_app_r_alt by lia. rewrite Nat.sub_diag. done.
  Qed.
  Lemma exchange_none (l : list N) n : swap_top n l = None -> (length l <= N.to_nat n)%nat.
  Proof.
    unfold swap_top. rewrite !nthN_nth_error. destruct (nth_error l (N.to_nat n)) eqn:E1.
    - destruct l; [by destruct (N.to_nat n)|]. done.
    - intros _. by apply nth_error_None.
  Qed.
  Lemma i_swap n : good (SWAP n).
  Proof.
    start. unfold op_swap. model; facts.
    all: try match goal with H : swap_top _ _ = Some _ |- _ =>
      rewrite <- (N2Nat.id n) in H; destruct (exchange_swap _ _ _ H) as [? ->] end.
    all: try match goal with H : swap_top _ _ = None |- _ =>
      apply exchange_none in H end.
    all: fin_with ltac:(table0).
  Qed.

  Lemma pop_n_short n : forall e w x e' w',
    pop_n n e w = Exc x e' w' -> (length (e_stack e) < n)%nat.
  Proof.
    induction n as [|n IH]; intros e w x e' w'; cbn; [done|]. unfold bind at 1, pop.
    destruct (e_stack e) as [|v s] eqn:Es; [cbn; lia|].
    unfold bind. destruct (pop_n n (set_stack s e) w) eqn:E; [done|]. intros _.
    apply IH in E. destruct e; cbn in *. lia.
  Qed.
  Lemma i_log n : good (LOG n).
  Proof.
    start. unfold op_log.
    unfold bind at 1. unfold pop at 1. cbn [e_stack].
    destruct stk as [|a stk]; [fin|].
    unfold bind at 1. unfold pop at 1. cbn [e_stack set_stack].
    destruct stk as [|b stk]; [fin|].
    cbn [set_stack]. unfold bind at 1.
    match goal with |- context [pop_n ?k ?e ?w] => pose proof (pop_n_spec k e w) as Hp;
      destruct (pop_n k e w) as [ts e1 w1|x e1 w1] eqn:Ep end.
    - destruct Hp as (-> & Hst & Hlen & He). cbn [e_stack] in Hst. rewrite He. clear He Ep.
      set (stk1 := e_stack e1) in *. clearbody stk1. clear e1. cbn [set_stack]. subst stk.
      assert (F : firstn (2 + N.to_nat n) (a :: b :: ts ++ stk1) = a :: b :: ts).
      { cbn. do 2 f_equal. rewrite firstn_app, firstn_all2 by lia.
        replace (_ - _)%nat with 0%nat by lia. by rewrite app_nil_r. }
      assert (Sk : skipn (2 + N.to_nat n) (a :: b :: ts ++ stk1) = stk1).
      { cbn. rewrite skipn_app, skipn_all2 by lia. by replace (_ - _)%nat with 0%nat by lia. }
      assert (length (a :: b :: ts ++ stk1) = 2 + N.to_nat n + length stk1)%nat.
      { cbn. rewrite app_length. lia. }
      model; facts; table0; rewrite ?F, ?Sk; fin_with ltac:(idtac).
    - destruct Hp as (-> & -> & He). apply pop_n_short in Ep. cbn in Ep.
      table0. split; [left; cbn; lia|done].
  Qed.
  Lemma slot_set_sym m a k v b i :
    slot_of (storages_set m a k v) b i = if decide (b = a /\ i = k) then v else slot_of m b i.
  Proof.
    rewrite slot_of_set. destruct (decide (a = b /\ k = i)) as [[-> ->]|H].
    - by rewrite decide_True.
    - rewrite decide_False; [done|]. intros [-> ->]. by apply H.
  Qed.
  Lemma i_tstore : good TSTORE.
  Proof.
    run op_tstore. split; [done|]. intros a i. cbn. rewrite set_transient_unfold.
    apply (slot_set_sym (ts_tries (ts w))).
  Qed.
  Lemma i_sstore : good SSTORE.
  Proof.
    start. unfold op_sstore. model; facts.
    all: rewrite ?store_price_eq, ?store_refund_eq in *.
    all: try match goal with H : get_storage_original _ _ _ = Ok ?o |- _ =>
      assert (HF : first_value w (m_current_target msg) n = o) by (unfold first_value; by rewrite H) end.
    all: table0; cbv beta iota delta [firstn skipn]; rewrite ?HF.
    all: fin_with ltac:(idtac).
    all: match goal with H : set_storage _ _ _ _ = Ok _ |- _ => apply set_storage_inv in H as [_ ->] end.
    all: cbn; split; [done|]; split; [done|]; intros; rewrite !get_storage_slot; apply slot_set_sym.
  Qed.

  Lemma removes_eq e w :
    removes (b_fork be) e w =
    negb (at_least Cancun (b_fork be)) || bool_decide (self e ∈ created_accounts (st w)).
  Proof. by destruct (b_fork be). Qed.

  Lemma selfdestruct_world (rm : bool) s s1 s2 t b a :
    move_ether s t b (balance (get_account s t)) = Ok s1 ->
    (if rm then set_account_balance s1 t 0 else Ok s1) = Ok s2 ->
    let acc := get_account s a in let acc' := get_account s2 a in
    nonce acc' = nonce acc /\ code acc' = code acc /\
    balance acc' =
      (if decide (a = t)
       then if decide (a = b /\ rm = false) then balance acc else 0
       else if decide (a = b)
       then balance acc + balance (get_account s t) else balance acc).
  Proof.
    intros H1 H2. pose proof (move_ether_get _ _ _ _ _ H1) as Hget.
    destruct rm.
    - pose proof (modify_state_get _ _ _ _ _ H2 eq_refl) as Hget2.
      cbv zeta. rewrite (Hget2 a). rewrite !Hget.
      destruct (decide (t = a)); [subst a|].
      + rewrite (decide_True (P := t = t)) by done.
        rewrite (decide_False (P := _ /\ true = false)) by (intros [_ ?]; done).
        repeat case_decide; subst; cbn; done.
      + rewrite (decide_False (P := a = t)) by congruence.
        repeat case_decide; subst; cbn; try done.
    - simplify_eq. cbv zeta. rewrite !Hget.
      repeat case_decide; subst; cbn; try tauto; split_and!; try done; lia.
  Qed.
  Lemma removed_world s s1 s2 t b a :
    set_account_balance s b (balance (get_account s b) + balance (get_account s t)) = Ok s1 -> set_account_balance s1 t 0 = Ok s2 ->
    let acc := get_account s a in let acc' := get_account s2 a in
    nonce acc' = nonce acc /\ code acc' = code acc /\
    balance acc' =
      (if decide (a = t)
       then if decide (a = b /\ true = false) then balance acc else 0
       else if decide (a = b)
       then balance acc + balance (get_account s t) else balance acc).
  Proof.
    intros H1 H2.
    pose proof (modify_state_get _ _ _ _ _ H1 eq_refl) as G1.
    pose proof (modify_state_get _ _ _ _ _ H2 eq_refl) as G2.
    cbv zeta. rewrite (G2 a). rewrite !G1.
    rewrite (decide_False (P := _ /\ true = false)) by (intros [_ ?]; done).
    destruct (decide (t = a)); [subst a|].
    - rewrite (decide_True (P := t = t)) by done.
      repeat case_decide; subst; cbn; done.
    - rewrite (decide_False (P := a = t)) by congruence.
      destruct (decide (b = a)) as [->|].
      + rewrite (decide_True (P := a = a)) by done. done.
      + rewrite (decide_False (P := a = b)) by congruence. done.
  Qed.

  Lemma i_selfdestruct : good SELFDESTRUCT.
  Proof.
    start. unfold op_selfdestruct, to_address_masked.
    destruct (at_least Cancun (b_fork be)) eqn:Hfork; cbn [negb orb]; model; facts.
    all: rewrite ?negb_involutive in *.
    all: repeat match goal with
      | H : bool_decide _ = true |- _ => apply bool_decide_eq_true in H
      | H : bool_decide _ = false |- _ => apply bool_decide_eq_false in H end.
    all: try match goal with H : move_ether _ _ _ _ = Ok ?x |- _ =>
      pose proof (move_ether_storages_sub _ _ _ _ _ H) as [_ Hcr];
      pose proof (fun rm a s2 => selfdestruct_world rm _ _ s2 _ _ a H) as Hworld;
      change (st (set_st x w)) with x in *; rewrite Hcr in *
      end.
    all: table0; rewrite ?removes_eq, ?Hfork; cbn [negb orb]; cbv beta iota delta [self e_message]; cbv beta iota delta [firstn skipn].
    all: repeat match goal with
      | H : ?x && ?y = _ |- context [?x && ?y] => rewrite H
      | H : decide _ = _ |- _ => rewrite ?H; clear H
      end; cbv beta iota; rewrite ?growth_nil, ?grown_nil, ?app_nil_r, ?Z.add_0_r, ?N.add_0_r.
    all: match goal with
      | |- True => exact I
      | |- (_ \/ _) /\ _ => split; [|reflexivity]; try solve [left; num | right; left; num
         | right; right; left; num | right; right; right; auto]
      | |- _ => split; [intros [?|[?|[?|?]]]; try solve [num|congruence]|split; [discriminate|]]
    end.
    all: try first [rewrite bool_decide_eq_true_2 by assumption|rewrite bool_decide_eq_false_2 by assumption].
    all: split; [first [reflexivity|solve [f_equal; first [reflexivity|set_solver]]]|split; [reflexivity|intros x]].
    all: first [apply (Hworld true); first [assumption|reflexivity]
               |apply (Hworld false); first [assumption|reflexivity]
               |eapply removed_world; eassumption].
  Qed.

  Definition is_alu (o : op) : bool :=
    match o with
    | ADD | SUB | MUL | DIV | SDIV | MOD | SMOD | ADDMOD | MULMOD | EXP | SIGNEXTEND
    | LT | GT | SLT | SGT | EQ | ISZERO | AND | OR | XOR | NOT | BYTE | SHL | SHR | SAR | CLZ => true
    | _ => false
    end.
  Ltac alu_model := unfold op_add, op_sub, op_mul, op_div, op_sdiv, op_mod, op_smod, op_addmod,
    op_mulmod, op_exp, op_signextend, op_lt, op_gt, op_slt, op_sgt, op_eq, op_iszero, op_and,
    op_or, op_xor, op_not, op_byte, op_shl, op_shr, op_sar, op_clz.
  Lemma i_alu o : is_alu o = true -> good o.
  Proof.
    intros Ho e w Hs Hrun Hw. destruct Hs as [Hs Hm].
    destruct (decide (length (e_stack e) < takes o)%nat) as [Hlt|Hlt].
    { destruct e as [pc stk mem cod gas vjd logs rc rn msg out del rd err aa ak].
      cbv beta iota zeta delta [e_stack] in Hlt.
      assert (Hh : forall x e', agrees o (Evm pc stk mem cod gas vjd logs rc rn msg out del rd err aa ak)
        w (Exc (EHalt x) e' w)).
      { intros x e'. split; [|done]. by left. }
      destruct o; try discriminate Ho; cbn [op_implementation takes] in *; alu_model;
      destruct stk as [|x [|y [|z stk]]]; cbn [length] in Hlt; try lia; norm; apply Hh. }
    assert (Hst : e_stack e = operands o e ++ below o e)
      by (unfold operands, below; by rewrite firstn_skipn).
    destruct (N.lt_ge_cases (e_gas_left e) (alu_price o (operands o e))) as [Hg|Hg].
    - assert (Hh : halts o e w).
      { right; right; left. unfold price. eapply N.lt_le_trans; [exact Hg|].
        destruct o; try discriminate Ho; cbn [base_price]; lia. }
      assert (Hstk : operands o e = firstn (takes o) (e_stack e)) by done.
      rewrite Hstk in Hg. revert Hlt Hg Hh.
      destruct e as [pc stk mem cod gas vjd logs rc rn msg out del rd err aa ak].
      cbv beta iota zeta delta [e_stack e_gas_left]. intros Hlt Hg Hh.
      destruct o; try discriminate Ho; cbn [op_implementation takes] in *; alu_model;
      destruct stk as [|x [|y [|z stk]]]; cbn [length] in Hlt; try lia;
      cbn [firstn alu_price] in Hg; rewrite <- ?alu_exp_bytes in Hg; norm;
      rewrite (proj2 (N.ltb_lt _ _) Hg); norm; split; done.
    - assert (exists v, alu_spec o (operands o e) = Some v) as [v Hv].
      { unfold operands. destruct o; try discriminate Ho; cbn [takes] in *;
        destruct (e_stack e) as [|x [|y [|z stk]]]; cbn [length] in Hlt; try lia; cbn; eauto. }
      rewrite (C13_alu cr be te pm pcm o _ v (below o e) e w Hv); [|by apply Forall_take|done|done|done].
      assert (Hp : price o (operands o e) e w = alu_price o (operands o e)).
      { unfold price. destruct o; try discriminate Ho; cbn [base_price touches]; rewrite growth_nil; lia. }
      split; [|split; [|split]].
      + unfold halts. rewrite Hp. unfold lenN in Hs. intros [?|[?|[?|?]]]; [done| |lia|].
        * destruct o; try discriminate Ho; cbn [takes leaves] in *; lia.
        * destruct o; try discriminate Ho; done.
      + by destruct o.
      + unfold frame_after. rewrite Hp.
        destruct e as [pc stk mem cod gas vjd logs rc rn msg out del rd err aa ak].
        assert (Hr : forall e, results cr be te o (operands o e) e w = match alu_spec o (operands o e) with Some v => [v] | None => [] end)
          by (intros; by destruct o).
        rewrite Hr, Hv. cbn [app]. cbn in Hrun. subst rn.
        destruct o; try discriminate Ho; unfold new_memory, memory_of; cbn -[operands below alu_price firstn skipn];
        rewrite ?N.sub_diag, ?app_nil_r, ?Z.add_0_r; reflexivity.
      + by destruct o.
  Qed.

  Lemma i_all o : alone o = true -> op_ok o -> good o.
  Proof.
    intros Ha Ho. destruct o; try discriminate Ha.
    all: first [by apply i_alu
      | exact i_address | exact i_origin | exact i_caller | exact i_callvalue
      | exact i_calldatasize | exact i_codesize | exact i_gasprice | exact i_returndatasize
      | exact i_coinbase | exact i_timestamp | exact i_number | exact i_prevrandao
      | exact i_gaslimit | exact i_chainid | exact i_selfbalance | exact i_basefee
      | exact i_pc | exact i_gas | exact i_msize | exact i_pop | exact i_stop | exact i_jumpdest
      | exact i_jump | exact i_jumpi | exact i_calldataload | exact i_sload | exact i_tload
      | exact i_balance | exact i_extcodesize | exact i_blobhash | exact i_mload | exact i_mstore
      | exact i_mstore8 | exact i_keccak | exact i_calldatacopy | exact i_codecopy | exact i_mcopy
      | exact i_extcodecopy | exact i_returndatacopy | exact i_return | exact i_revert
      | exact i_blobbasefee | exact i_extcodehash | exact i_blockhash | by apply i_push
      | apply i_dup | apply i_swap | apply i_log | exact i_tstore | exact i_sstore
      | exact i_selfdestruct].
  Qed.
End Agree.
