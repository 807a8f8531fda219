(** * PowInstrProofs: the instructions of the proof-of-work forks agree with
    their table. *)
From Verif Require Import Base State Rlp Bloom Transactions Trie Blocks Requests Fork Ethash Pow PowTx.
From Verif Require Import Vm Instructions Precompiles Interpreter PowVm StateSpec
  StateProofs NumericProofs ArithProofs PropArith EvmStep EvmLocal EvmPlan EvmPlanProofs EvmCallProofs
  InstrSpec InstrProofs PowVmPlan PowVmOps PowVmCalls PropPowTx PowInstrSpec.
From Coq Require Import ZifyBool ZifyN ZifyNat.
Ltac Zify.zify_post_hook ::= idtac.


(** ** The instructions agree with the table *)
Section Agree.
  Context (cr : crypto) (n : pow_name) (env : pow_env) (te : tx_env).
  Context (inh : gset address).
  Context (pm pcm : gset address -> message -> world -> ppres).
  Notation exec := (pow_op cr n env te inh pm pcm).

  Definition pow_agrees (o : op) (e : evm) (w : world) (r : res (gset address)) : Prop :=
    match r with
    | Ret t e' w' =>
        ~ pow_halts n o e w /\ o <> REVERT /\ e' = pow_frame_after cr n env te inh o e w /\
        pow_world_after o e w w' /\ t = pow_touched n o e w'
    | Exc (EHalt _) _ w' => pow_halts n o e w /\ w' = w
    | Exc ERevert e' w' =>
        ~ pow_halts n o e w /\ o = REVERT /\ e' = pow_frame_after cr n env te inh o e w /\ w' = w
    | Exc _ _ _ => True
    end.
  Notation good o := (forall e w, shape_ok e -> e_running e = true ->
    Forall (fun x => x < 2 ^ 256) (e_stack e) ->
    pow_agrees o e w (exec o e w)).

  (** Instructions that never change. *)
  Definition special (o : op) : bool :=
    match o with
    | EXP | BALANCE | EXTCODESIZE | EXTCODECOPY | EXTCODEHASH | SLOAD | SSTORE | SELFDESTRUCT
      => true
    | _ => false
    end.
  Lemma shared_halts o e w : special o = false -> pow_halts n o e w <-> halts o e w.
  Proof. by destruct o. Qed.
  Lemma shared_after o e w : special o = false ->
    pow_frame_after cr n env te inh o e w = frame_after cr (pow_block_env env) te o e w.
  Proof. destruct o; try discriminate; intros _; unfold pow_frame_after, frame_after;
    destruct (since Berlin n); reflexivity. Qed.
  Lemma j_shared o : special o = false -> alone o = true -> op_ok o -> good o.
  Proof.
    intros Hsp Ha Ho e w Hs Hr Hw.
    pose proof (i_all cr (pow_block_env env) te no_child no_child o Ha Ho e w Hs Hr Hw) as H.
    assert (E : exec o e w = quietly (op_implementation cr (pow_block_env env) te no_child no_child o) e w)
      by (destruct o; try discriminate; reflexivity).
    rewrite E. unfold quietly, bind, ret.
    destruct (op_implementation _ _ _ _ _ _ _ _) as [[] e' w'|x e' w']; cbn [agrees pow_agrees] in *.
    - destruct H as (H1 & H2 & H3 & H4). rewrite shared_halts, shared_after by done.
      split_and!; try done; by destruct o.
    - destruct x; try done.
      + by rewrite shared_halts.
      + by rewrite shared_halts, shared_after.
  Qed.

  Ltac start :=
    let e := fresh "e" in let w := fresh "w" in
    let Hs := fresh "Hs" in let Hm := fresh "Hm" in let Hrun := fresh "Hrun" in let Hw := fresh "Hw" in
    intros e w [Hs Hm] Hrun Hw;
    destruct e as [pc stk mem cod gas vjd logs rc rn msg out del rd err aa ak];
    cbv beta iota zeta delta [e_stack e_memory e_running] in Hs, Hm, Hrun, Hw;
    match type of Hrun with ?x = _ => subst x end; cbn [pow_op].
  Ltac table0 :=
    cbv beta iota zeta delta [pow_agrees pow_halts operands below takes leaves pow_price price
      pow_base_price base_price touches look_price
      pow_forbidden forbidden pow_frame_after frame_after results new_memory new_pc
      pow_world_after world_after pow_touched memory_of account_price
      self to_address_masked address_of alu_price
      e_pc e_stack e_memory e_code e_gas_left e_valid_jump_destinations e_logs
      e_refund_counter e_running e_message e_output e_accounts_to_delete e_return_data
      e_error e_accessed_addresses e_accessed_storage_keys].
  Ltac table := table0; cbv beta iota delta [firstn skipn].
  Ltac rew :=
    change PowVm.since with PropPowTx.since in *;
    rewrite ?lenN_to_be_bytes32; rewrite ?extend_exact by assumption;
    rewrite ?words_ceil, ?read_padded, ?read_window, ?write_splice, ?low_byte, ?alive_dead,
      ?alu_exp_bytes.
  Ltac pnorm := unfold quietly, pow_access, pow_gas_sload, pow_gas_external, pow_gas_balance,
    pow_gas_code_hash, pow_gas_exp_byte, GAS_EXPONENTIATION; norm.
  Ltac model := pnorm; repeat (rew; pnorm; dm); pnorm; rew.
  Ltac facts :=
    repeat match goal with
    | H : to_u256 _ = Ok _ |- _ => apply to_u256_inv in H as [? H]; try subst
    | H : (_ <? _) = true |- _ => apply N.ltb_lt in H
    | H : (_ <? _) = false |- _ => apply N.ltb_ge in H
    | H : (_ =? _) = true |- _ => apply N.eqb_eq in H
    | H : (_ =? _) = false |- _ => apply N.eqb_neq in H
    | H : (_ <=? _) = true |- _ => apply N.leb_le in H
    | H : (_ <=? _) = false |- _ => apply N.leb_gt in H
    end.
  Ltac num := unfold lenN in *; cbn [length] in *; try lia.
  Ltac tests :=
    repeat match goal with
    | H : ?a <> ?b |- context [?a =? ?b] => rewrite (proj2 (N.eqb_neq a b) H)
    | H : ?a = ?b |- context [?a =? ?b] => rewrite (proj2 (N.eqb_eq a b) H)
    | H : ?a < ?b |- context [?a <? ?b] => rewrite (proj2 (N.ltb_lt a b) H)
    | H : ?b <= ?a |- context [?a <? ?b] => rewrite (proj2 (N.ltb_ge a b) H)
    end.
  Ltac fin_with table :=
    table; repeat match goal with
      | H : decide _ = _ |- _ => rewrite ?H; clear H
      | H : since _ n = _ |- _ => rewrite ?H; clear H end; cbv beta iota;
    rewrite ?slice_window, ?growth_nil, ?grown_nil, ?app_nil_r, ?Z.add_0_r, ?N.add_0_r; cbn [app];
    lazymatch goal with
    | |- True => exact I
    | |- (_ \/ _) /\ _ =>
        split; [|reflexivity];
        first [left; solve [num] | right; left; solve [num] | right; right; left; solve [num]
              | right; right; right; first [solve [num]|solve [auto]|solve [tauto]|left; solve [num]|right; solve [num]|idtac] ]
    | |- ~ _ /\ _ =>
        split; [let H := fresh in intros H; repeat (destruct H as [H|H]; [try solve [num]|]); repeat match goal with H : _ \/ _ |- _ => destruct H end; first [solve [num]|solve [congruence]|solve [tauto]|idtac]|];
        split; [first [discriminate|reflexivity]|];
        tests; split; [first [reflexivity|solve [f_equal; first [reflexivity|set_solver|num]]|idtac]|try (split; reflexivity)]
    end.
  Ltac fin := fin_with ltac:(table).
  Ltac run f := start; unfold f, to_address_masked; model; facts; fin.

  Lemma j_balance : good BALANCE. Proof. run pow_balance. Qed.
  Lemma j_extcodesize : good EXTCODESIZE. Proof. run pow_extcodesize. Qed.
  Lemma j_extcodecopy : good EXTCODECOPY. Proof. run pow_extcodecopy. Qed.
  Lemma j_sload : good SLOAD. Proof. run pow_sload. Qed.
  Lemma j_extcodehash : good EXTCODEHASH.
  Proof.
    start. unfold pow_extcodehash, to_address_masked. model; facts; fin.
    all: repeat match goal with
         | H : get_account _ _ = EMPTY_ACCOUNT |- _ => apply empty_dead in H; rewrite H
         | H : get_account _ _ <> EMPTY_ACCOUNT |- _ =>
             rewrite empty_dead in H; apply not_true_is_false in H; rewrite H end.
    all: f_equal; first [reflexivity|set_solver|num].
  Qed.

  Lemma j_exp : good EXP.
  Proof.
    start. unfold pow_exp. pnorm. change (PowVm.since SpuriousDragon n) with (since SpuriousDragon n).
    destruct stk as [|x [|y stk]]; norm; [fin..|].
    rewrite alu_exp_bytes, exp_value_spec. norm.
    destruct (gas <? _) eqn:E1; norm; [facts; fin|].
    destruct (lenN stk =? 1024) eqn:E2; norm; facts; fin.
    by destruct (since Berlin n).
  Qed.

  Lemma pow_store_price_eq o c v : (pow_sstore_gas n o c v) = pow_store_price n o c v.
  Proof.
    unfold pow_sstore_gas, pow_store_price, store_price, pow_update_price, pow_noop_price, pow_gas_sload,
      GAS_STORAGE_SET, GAS_STORAGE_UPDATE, GAS_COLD_SLOAD, GAS_WARM_ACCESS.
    destruct n; cbn [PowVm.since rank since generation];
    destruct (N.eqb_spec o c), (N.eqb_spec c v), (N.eqb_spec v c), (N.eqb_spec c o), (N.eqb_spec v 0),
      (N.eqb_spec c 0); subst; done.
  Qed.
  Lemma pow_store_refund_eq o c v : pow_sstore_refund n o c v = pow_store_refund n o c v.
  Proof.
    unfold pow_sstore_refund, pow_store_refund, pow_gas_clear_refund, pow_update_price, pow_noop_price,
      pow_gas_sload, GAS_STORAGE_SET, GAS_STORAGE_UPDATE, GAS_COLD_SLOAD, GAS_WARM_ACCESS.
    change PowVm.since with since.
    assert (Hl : since London n = true -> since Berlin n = true) by (by destruct n).
    assert (Hb : since Berlin n = true -> since Istanbul n = true) by (by destruct n).
    destruct (since Berlin n), (since London n), (since Istanbul n);
      try (discriminate (Hl eq_refl)); try (discriminate (Hb eq_refl)); clear Hl Hb;
    destruct (N.eqb_spec c v), (N.eqb_spec v c), (N.eqb_spec c o), (N.eqb_spec o 0), (N.eqb_spec c 0),
      (N.eqb_spec v 0), (N.eqb_spec o v), (N.eqb_spec v o); subst; try done.
  Qed.
  Lemma pow_store_price_early o o' c v : since Istanbul n = false ->
    pow_store_price n o c v = pow_store_price n o' c v.
  Proof.
    assert (since Berlin n = true -> since Istanbul n = true) by (by destruct n).
    unfold pow_store_price. destruct (since Berlin n), (since Istanbul n); try done. by intros; discriminate H.
  Qed.
  Lemma pow_store_refund_early o o' c v : since Istanbul n = false ->
    pow_store_refund n o c v = pow_store_refund n o' c v.
  Proof. intros H. unfold pow_store_refund. by rewrite H. Qed.

  Lemma j_sstore : good SSTORE.
  Proof.
    start. unfold pow_sstore.
    destruct (since Istanbul n) eqn:Ei, (since Berlin n) eqn:Eb;
      [| |exfalso; revert Ei Eb; by destruct n|];
    change (PowVm.since Istanbul n) with (since Istanbul n);
    change (PowVm.since Berlin n) with (since Berlin n);
    rewrite ?Ei, ?Eb; cbn [andb]; unfold quietly; sym; facts.
    all: rewrite ?pow_store_price_eq, ?pow_store_refund_eq in *.
    all: try match goal with H : get_storage_original _ _ _ = Ok ?o, H2 : since Istanbul n = true |- _ =>
      assert (HF : first_value w (m_current_target msg) n0 = o) by (unfold first_value; by rewrite H) end.
    all: table; rewrite ?HF.
    all: try match goal with H : since Istanbul n = false |- _ =>
      repeat match goal with
      | |- context [pow_store_price n (first_value ?a ?b ?c) ?d ?e] =>
          rewrite (pow_store_price_early (first_value a b c) 0 d e H)
      | |- context [pow_store_refund n (first_value ?a ?b ?c) ?d ?e] =>
          rewrite (pow_store_refund_early (first_value a b c) 0 d e H)
      end end.
    all: fin_with ltac:(idtac).
    all: try match goal with H : set_storage _ _ _ _ = Ok _ |- _ => apply set_storage_inv in H as [_ ->] end.
    all: cbn; split; [|reflexivity]; split; [done|]; split; [done|]; intros; rewrite !get_storage_slot; apply slot_set_sym.
  Qed.


  Lemma payout_eq e w b :
    pow_selfdestruct_new_account n (st w) (self e) b = payout_price n e w b.
  Proof.
    unfold pow_selfdestruct_new_account, payout_price, GAS_SELF_DESTRUCT_NEW_ACCOUNT, account_exists,
      get_account_optional.
    change PowVm.since with since. rewrite alive_dead, negb_involutive.
    destruct (since SpuriousDragon n); [done|]. destruct (since TangerineWhistle n); [|done].
    by destruct (main_trie (st w) !! b).
  Qed.
  Lemma payout_world s s1 s2 t b :
    pow_set_account_balance s b (balance (get_account s b) + balance (get_account s t)) = Ok s1 ->
    pow_set_account_balance s1 t 0 = Ok s2 ->
    storage_tries s2 = storage_tries s /\ forall a,
    let acc := get_account s a in let acc' := get_account s2 a in
    nonce acc' = nonce acc /\ code acc' = code acc /\
    balance acc' =
      (if decide (a = t) then 0
       else if decide (a = b) then balance acc + balance (get_account s t) else balance acc) /\
    (is_Some (main_trie s2 !! a) <-> a = t \/ a = b \/ is_Some (main_trie s !! a)).
  Proof.
    intros H1 H2. unfold pow_set_account_balance, modify_account in *.
    injection H1 as <-. injection H2 as <-. split; [done|]. intros a. cbv zeta.
    rewrite !get_account_set.
    cbn [nonce code balance default].
    split; [by repeat case_decide; subst|]. split; [by repeat case_decide; subst|].
    split; [by repeat case_decide; subst|].
    cbn. unfold set_account, account_trie_set, set_main. cbn [main_trie].
    destruct (decide (a = t)) as [->|Ht].
    { rewrite lookup_insert. split; [by left|by eexists]. }
    rewrite lookup_insert_ne by done.
    destruct (decide (a = b)) as [->|Hb].
    { rewrite lookup_insert. split; [by right; left|by eexists]. }
    rewrite lookup_insert_ne by done. tauto.
  Qed.
  Lemma touched_eq w s b t : pow_set_account_balance (st w) t 0 = Ok s ->
    is_Some (main_trie s !! b) ->
    touched_if_empty n s b = if since SpuriousDragon n && dead (set_st s w) b then {[ b ]} else ∅.
  Proof.
    intros _ [acc H]. unfold touched_if_empty, account_exists_and_is_empty, get_account_optional, dead,
      get_account, get_account_optional. change PowVm.since with since. cbn [st set_st]. rewrite H.
    cbn [default]. destruct (since SpuriousDragon n); [|done]. cbn [andb].
    destruct (nonce acc =? 0), (balance acc =? 0), (code acc); try done.
  Qed.

  Lemma j_selfdestruct : good SELFDESTRUCT.
  Proof.
    start. unfold pow_selfdestruct, to_address_masked.
    change PowVm.since with since.
    destruct (since Berlin n) eqn:Eb, (since London n) eqn:El; sym; facts.
    all: try match goal with H : pow_set_account_balance _ _ _ = Raise _ |- _ => discriminate H end.
    all: table; try rewrite <- payout_eq; cbv beta iota delta [self e_message].
    all: repeat match goal with
      | H : since _ n = _ |- _ => rewrite ?H; clear H
      | H : decide _ = _ |- _ => rewrite ?H; clear H
      end; cbv beta iota; rewrite ?growth_nil, ?grown_nil, ?app_nil_r, ?Z.add_0_r, ?N.add_0_r.
    all: match goal with
      | |- True => exact I
      | |- (_ \/ _) /\ _ => split; [|reflexivity]; try solve [left; num | right; left; num
         | right; right; left; num | right; right; right; auto]
      | |- _ => split; [intros [?|[?|[?|?]]]; try solve [num|congruence]|split; [discriminate|]]
    end.
    all: split; [first [reflexivity|solve [f_equal; first [reflexivity|set_solver]]]|].
    all: match goal with H1 : pow_set_account_balance _ _ _ = Ok _, H2 : pow_set_account_balance _ _ 0 = Ok _ |- _ =>
      destruct (payout_world _ _ _ _ _ H1 H2) as [P1 P2];
      split; [split; [reflexivity|]; split; [exact P1|exact P2]|];
      rewrite (touched_eq _ _ _ _ H2); [done|];
      apply P2; right; left; reflexivity
    end.
  Qed.

  Theorem j_all o : alone o = true -> op_ok o -> good o.
  Proof.
    intros Ha Ho. destruct (special o) eqn:E; [|by apply j_shared].
    destruct o; try discriminate E.
    - exact j_exp.
    - exact j_balance.
    - exact j_extcodesize.
    - exact j_extcodecopy.
    - exact j_extcodehash.
    - exact j_sload.
    - exact j_sstore.
    - exact j_selfdestruct.
  Qed.
End Agree.
