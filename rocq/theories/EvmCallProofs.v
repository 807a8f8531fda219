(** * EvmCallProofs: the classification of [EvmPlan.v] for calls and creates. *)
From Verif Require Import Base State Rlp Vm Instructions StateSpec StateProofs
  NumericProofs ArithProofs EvmStep EvmLocal EvmPlan EvmPlanProofs.
From Coq Require Import ZifyBool ZifyN ZifyNat.
Ltac Zify.zify_post_hook ::= idtac.

Local Opaque to_u256 from_be_bytes calculate_memory_gas_cost ceil32 N.compare.

Section CallProofs.
  Context (cr : crypto) (be : block_env) (te : tx_env).

  Definition call_message (gas value : N) (caller to ca : address) (stv isst : bool)
      (mis miz : N) (c : bytes) (dp : bool) (e : evm) : message := {|
      m_caller := caller; m_target := Some to; m_current_target := to;
      m_gas := gas; m_value := value;
      m_data := memory_read_bytes (e_memory e) mis miz;
      m_code_address := Some ca; m_code := c;
      m_depth := m_depth (e_message e) + 1;
      m_should_transfer_value := stv;
      m_is_static := if isst then true else m_is_static (e_message e);
      m_accessed_addresses := e_accessed_addresses e;
      m_accessed_storage_keys := e_accessed_storage_keys e;
      m_disable_precompiles := dp |}.

  Lemma generic_call_eq pm gas value caller to ca stv isst mis miz mos moz c dp e w :
    lenN (e_stack e) < 1024 -> m_depth (e_message e) + 1 <= 1024 ->
    match generic_call pm gas value caller to ca stv isst mis miz mos moz c dp e w with
    | Ret _ e' w' => Ret tt (set_pc (e_pc e' + 1) e') w'
    | Exc x e' w' => Exc x e' w'
    end =
    interp pm pm (PL_call (call_message gas value caller to ca stv isst mis miz c dp e)
                    (set_return_data [] e) mos moz) w.
  Proof.
    intros Hs Hd.
    destruct e as [pc stk mem cod g vjd logs rc run msg out del rd err aa ak].
    cbn [e_stack e_message] in *.
    unfold generic_call. cbv beta iota zeta delta [interp]. norm.
    unfold STACK_DEPTH_LIMIT.
    rewrite (proj2 (N.ltb_ge _ _) Hd). cbv beta iota.
    unfold call_message. norm.
    match goal with |- context [pm ?m w] => destruct (pm m w) as [c' w'|x w'] end; [|reflexivity].
    unfold resume_call, child_return, incorporate_child_on_error, incorporate_child_on_success.
    destruct c'. norm. destruct e_error.
    - norm. rewrite (proj2 (N.eqb_neq (lenN stk) 1024) ltac:(lia)). norm.
      destruct (to_u256 _); reflexivity.
    - norm. rewrite (proj2 (N.eqb_neq (lenN stk) 1024) ltac:(lia)). norm.
      destruct (to_u256 _); reflexivity.
  Qed.

  Lemma generic_call_deep pm gas value caller to ca stv isst mis miz mos moz c dp e w :
    lenN (e_stack e) < 1024 -> 1024 < m_depth (e_message e) + 1 ->
    generic_call pm gas value caller to ca stv isst mis miz mos moz c dp e w
    = Ret tt (set_stack (0 :: e_stack e) (set_gas_left (e_gas_left e + gas)
               (set_return_data [] e))) w.
  Proof.
    intros Hs Hd.
    destruct e as [pc stk mem cod g vjd logs rc run msg out del rd err aa ak].
    cbn [e_stack e_message] in *.
    unfold generic_call. norm.
    unfold STACK_DEPTH_LIMIT.
    rewrite (proj2 (N.ltb_lt _ _) Hd). norm.
    rewrite (proj2 (N.eqb_neq (lenN stk) 1024) ltac:(lia)). reflexivity.
  Qed.

  Lemma access_address_spec a e w : exists g aa',
    access_address a e w = Ret g (set_accessed_addresses aa' e) w /\
    100 <= g /\ e_accessed_addresses e ⊆ aa'.
  Proof.
    destruct e as [pc stk mem cod gs vjd logs rc run msg out del rd err aa ak].
    unfold access_address. norm. destruct (decide (a ∈ aa)); norm; do 2 eexists;
      (split; [reflexivity|]); (split; [lia|]); set_solver.
  Qed.

  Lemma access_delegation_spec a e w : exists d ca c g aa',
    access_delegation be a e w = Ret (d, ca, c, g) (set_accessed_addresses aa' e) w /\
    e_accessed_addresses e ⊆ aa' /\ resolved be w a c ca d.
  Proof.
    destruct e as [pc stk mem cod gs vjd logs rc run msg out del rd err aa ak].
    unfold access_delegation, bind, get_state, ret, resolved, get_delegated_code_address.
    destruct (at_least Prague (b_fork be)); cbn [andb];
      [destruct (is_valid_delegation (code (get_account (st w) a))) eqn:E|]; cbn [negb].
    - match goal with |- context [access_address ?x ?e ?w] =>
        destruct (access_address_spec x e w) as (g & aa' & Ha & _ & Hs); rewrite Ha end.
      do 5 eexists. split; [reflexivity|]. split; [exact Hs|]. done.
    - do 5 eexists. split; [reflexivity|]. split; [cbn; reflexivity|]. done.
    - do 5 eexists. split; [reflexivity|]. split; [cbn; reflexivity|]. done.
  Qed.

  Lemma msg_call_gas_spec value gas gl mc extra cost sub :
    calculate_message_call_gas value gas gl mc extra = (cost, sub) ->
    cost + mc <= gl ->
    exists g, sub = g + (if value =? 0 then 0 else 2300) /\ cost = g + extra /\
      extra + mc <= gl /\ g <= (gl - mc - extra) - (gl - mc - extra) / 64.
  Proof.
    unfold calculate_message_call_gas, GAS_CALL_STIPEND, max_message_call_gas.
    destruct (N.ltb_spec gl (extra + mc)); intros [= <- <-] Hc; [lia|].
    eexists. split; [reflexivity|]. split; [reflexivity|]. split; [done|]. lia.
  Qed.

  (** A call or create that fails before any frame starts. *)
  Lemma done_push0 o pc pre stk mem cod gas gas' vjd logs rc msg out del rd err aa aa' ak w mc x :
    lenN mem mod 32 = 0 -> lenN (pre ++ stk) <= 1024 -> pre <> [] ->
    (lenN mem + x) mod 32 = 0 -> memcost (lenN mem + x) = memcost (lenN mem) + mc ->
    gas' + mc < gas -> aa ⊆ aa' -> op_size o = 1 ->
    done_ok cr be te o
      (Evm pc (pre ++ stk) mem cod gas vjd logs rc true msg out del rd err aa ak) w
      (Ret tt (Evm (pc + 1) (0 :: stk) (mem ++ zeros x) cod gas' vjd logs rc true msg out
         del [] err aa' ak) w).
  Proof.
    intros Hm Hs Hp Hx Hc Hg Ha Ho. split; [|by constructor].
    rewrite lenN_app in Hs.
    assert (1 <= lenN pre) by (destruct pre; [done|rewrite lenN_cons; lia]).
    constructor; cbn; rewrite ?mem_expand_len, ?lenN_cons, ?Ho; try done; try lia.
    all: try (by left); try (by right).
    - intros _ Hf. pose proof (fo_stack _ _ Hf) as Hw. cbn in Hw.
      apply Forall_app in Hw as [_ Hw]. constructor; [lia|done].
  Qed.

  (** The frame that waits for a call. *)
  Lemma waiting_call pc pre stk mem cod gas gas' vjd logs rc msg out del rd err aa aa' ak w mc x
      sub value caller to ca stv isst mis miz c dp :
    lenN mem mod 32 = 0 -> lenN (pre ++ stk) <= 1024 -> pre <> [] ->
    (lenN mem + x) mod 32 = 0 -> memcost (lenN mem + x) = memcost (lenN mem) + mc ->
    gas' + mc + sub < gas -> aa ⊆ aa' -> m_depth msg + 1 <= 1024 ->
    waiting (Evm pc (pre ++ stk) mem cod gas vjd logs rc true msg out del rd err aa ak)
      (Evm pc stk (mem ++ zeros x) cod gas' vjd logs rc true msg out del [] err aa' ak) w
      (call_message sub value caller to ca stv isst mis miz c dp
        (Evm pc stk (mem ++ zeros x) cod gas' vjd logs rc true msg out del rd err aa' ak)).
  Proof.
    intros Hm Hs Hp Hx Hc Hg Ha Hd. rewrite lenN_app in Hs.
    assert (1 <= lenN pre) by (destruct pre; [done|rewrite lenN_cons; lia]).
    constructor; cbn; rewrite ?mem_expand_len; try done; try lia.
    - intros Hf. pose proof (fo_stack _ _ Hf) as Hw. cbn in Hw.
      by apply Forall_app in Hw as [_ Hw].
    - intros ->. by destruct isst.
  Qed.

  Notation hasplan o f := (forall e w, shape_ok e -> e_running e = true ->
    exists p, plan_ok cr be te o e w p /\ forall pm pcm, f pm e w = interp pm pcm p w).

  Ltac halt_leaf :=
    split; [reflexivity|]; split; [norm; lia|]; split; [reflexivity|]; exact I.
  Ltac halt_plan :=
    match goal with |- exists p, _ /\ forall pm pcm, ?x = _ =>
      exists (PL_done x); split; [halt_leaf|reflexivity] end.

  Tactic Notation "call_start" integer(n) :=
    intros e w [Hs Hm] Hrun;
    destruct e as [pc stk mem cod gas vjd logs rc rn msg out del rd err aa ak];
    cbv beta iota zeta delta [e_stack e_memory e_running] in Hs, Hm, Hrun; subst rn;
    do n (destruct stk as [|? stk]; [unfold bind, pop; cbn [e_stack set_stack]; halt_plan|]);
    unfold bind, pop, get_evm; cbn [e_stack set_stack e_memory];
    match goal with |- context [calculate_gas_extend_memory ?a ?b] =>
      destruct (calculate_gas_extend_memory a b) as [mcost x] eqn:Ex end.
  Ltac call_access :=
    match goal with |- context [access_address ?a ?e ?w] =>
      destruct (access_address_spec a e w) as (g1 & aa1 & -> & Hg1 & Ha1) end;
    match goal with |- context [access_delegation be ?a ?e ?w] =>
      destruct (access_delegation_spec a e w) as (d & ca & c & g2 & aa2 & -> & Ha2 & Hres) end;
    norm; cbn [e_accessed_addresses set_accessed_addresses] in *;
    match goal with |- context [calculate_message_call_gas ?a ?b ?c ?d ?e] =>
      destruct (calculate_message_call_gas a b c d e) as [cost sub] eqn:Eg end;
    match goal with |- context [?gas <? ?cost + ?mcost] =>
      destruct (N.ltb_spec gas (cost + mcost)) as [Hlt|Hge]; [halt_plan|] end;
    mem_facts;
    match goal with
    | H1 : calculate_message_call_gas _ _ _ _ _ = (_, _), H2 : _ + _ <= _ |- _ =>
      destruct (msg_call_gas_spec _ _ _ _ _ _ _ H1 H2) as (g & -> & -> & Hav & Hgle);
      clear H1 end.
  Ltac call_case :=
    match goal with |- context [generic_call _ _ _ _ _ _ _ _ _ _ _ _ _ _ ?e0 _] =>
      let Hd := fresh "Hd" in
      destruct (N.le_gt_cases (m_depth (e_message e0) + 1) 1024) as [Hd|Hd]; cbn in Hd;
      [ eexists (PL_call _ _ _ _); split;
        [|intros pm pcm; rewrite generic_call_eq; [reflexivity|cbn; rewrite ?lenN_cons in *; lia|exact Hd]]
      | eexists (PL_done _); split;
        [|intros pm pcm; rewrite generic_call_deep; [norm; reflexivity|cbn; rewrite ?lenN_cons in *; lia|exact Hd]] ]
    end.

  Ltac split_ifs :=
    try change (0 =? 0) with true in *; cbv iota in *;
    repeat match goal with
    | |- context [if ?b then _ else _] => destruct b
    | H : context [if ?b then _ else _] |- _ => destruct b
    end.
  Ltac low_balance stk :=
    rewrite (proj2 (N.eqb_neq (lenN stk) 1024)) by (rewrite ?lenN_cons in *; lia); norm;
    eexists (PL_done _); split; [|reflexivity].
  Ltac push0_case pre stk :=
    eapply (done_push0 _ _ pre stk);
    [assumption|assumption|done|eassumption|eassumption|split_ifs; lia|etrans; eassumption|done].
  Ltac wait_case pre stk :=
    eapply (waiting_call _ pre stk);
    [assumption|assumption|done|eassumption|eassumption|split_ifs; lia|etrans; eassumption|assumption].

  (** Facts common to the four call instructions. *)
  Ltac call_common pre stk :=
    constructor;
    [ wait_case pre stk
    | cbn; apply memory_read_len_le
    | cbn; rewrite mem_expand_len; assumption
    | reflexivity
    | do 2 eexists; split; [reflexivity|]; cbn
    | cbn
    | cbn
    | cbn; let Hf := fresh "Hf" in intros Hf; pose proof (fo_stack _ _ Hf) as Hst;
      cbn in Hst; unfold stack_words in Hst; rewrite ?Forall_cons in Hst;
      pose proof (fo_target _ _ Hf); pose proof (fo_caller _ _ Hf);
      pose proof (fo_value _ _ Hf); cbn in * ].
  Ltac gas_case :=
    match goal with |- sub_gas ?st ?e ?e1 ?m =>
      match goal with H : ?g <= ?a - ?a / 64 |- _ => exists a, g end end;
    cbn [m_value call_message e_gas_left m_gas set_return_data]; split; [lia|]; split; [assumption|]; split; [reflexivity|]; split_ifs; lia.

  Lemma plan_call : hasplan CALL (op_call be).
  Proof.
    unfold op_call. call_start 7. call_access.
    destruct (m_is_static msg && negb (n1 =? 0)) eqn:Est; [halt_plan|].
    destruct (N.ltb_spec (balance (get_account (st w) (m_current_target msg))) n1) as [Hb|Hb];
      norm.
    - low_balance stk. push0_case [n;n0;n1;n2;n3;n4;n5] stk.
    - call_case.
      2: push0_case [n;n0;n1;n2;n3;n4;n5] stk.
      call_common [n;n0;n1;n2;n3;n4;n5] stk.
      + split; [exact Hres|]. split; [by left|]. split; [apply to_address_masked_lt|]. done.
      + do 3 (split; [reflexivity|]). split; [|exact Hb]. intros Hst.
        rewrite Hst in Est. cbn in Est. by apply negb_false_iff, N.eqb_eq in Est.
      + gas_case.
      + split; [tauto|]. split; [apply to_address_masked_lt|done].
  Qed.

  Lemma plan_callcode : hasplan CALLCODE (op_callcode be).
  Proof.
    unfold op_callcode. call_start 7. call_access.
    destruct (N.ltb_spec (balance (get_account (st w) (m_current_target msg))) n1) as [Hb|Hb];
      norm.
    - low_balance stk. push0_case [n;n0;n1;n2;n3;n4;n5] stk.
    - call_case.
      2: push0_case [n;n0;n1;n2;n3;n4;n5] stk.
      call_common [n;n0;n1;n2;n3;n4;n5] stk.
      + split; [exact Hres|]. split; [by right|]. split; [apply to_address_masked_lt|]. by intros [].
      + do 4 (split; [reflexivity|]). exact Hb.
      + gas_case.
      + split; [tauto|]. split; done.
  Qed.

  Lemma plan_delegatecall : hasplan DELEGATECALL (op_delegatecall be).
  Proof.
    unfold op_delegatecall. call_start 6. call_access.
    call_case.
    2: push0_case [n;n0;n1;n2;n3;n4] stk.
    call_common [n;n0;n1;n2;n3;n4] stk.
    + split; [exact Hres|]. split; [by right|]. split; [apply to_address_masked_lt|]. by intros [].
    + do 4 (split; [reflexivity|]). reflexivity.
    + gas_case.
    + split; [done|]. split; done.
  Qed.

  Lemma plan_staticcall : hasplan STATICCALL (op_staticcall be).
  Proof.
    unfold op_staticcall. call_start 6. call_access.
    call_case.
    2: push0_case [n;n0;n1;n2;n3;n4] stk.
    call_common [n;n0;n1;n2;n3;n4] stk.
    + split; [exact Hres|]. split; [by left|]. split; [apply to_address_masked_lt|]. done.
    + do 3 (split; [reflexivity|]). reflexivity.
    + gas_case.
    + split; [lia|]. split; [apply to_address_masked_lt|done].
  Qed.

  (** *** Creates *)
  Lemma address_of_hash_lt h : address_of_hash h < 2 ^ 160.
  Proof.
    unfold address_of_hash. change (2 ^ 160) with (256 ^ 20).
    apply from_be_lt_n. rewrite lenN_dropN. lia.
  Qed.

  Lemma create_tail o pc pre stk mem cod gas0 gas vjd logs rc msg out del rd err aa ak w mc x
      endow addr mis miz :
    lenN mem mod 32 = 0 -> lenN (pre ++ stk) <= 1024 -> In endow pre ->
    (lenN mem + x) mod 32 = 0 -> memcost (lenN mem + x) = memcost (lenN mem) + mc ->
    gas + mc < gas0 -> o = CREATE \/ o = CREATE2 -> addr < 2 ^ 160 ->
    match o with
    | CREATE => addr = compute_contract_address cr (m_current_target msg)
        (nonce (get_account (st w) (m_current_target msg)))
    | _ => exists salt, addr = compute_create2_contract_address cr
        (m_current_target msg) salt (memory_read_bytes (mem ++ zeros x) mis miz)
    end ->
    exists p, plan_ok cr be te o
      (Evm pc (pre ++ stk) mem cod gas0 vjd logs rc true msg out del rd err aa ak) w p /\
      forall pm pcm,
        match generic_create be pcm endow addr mis miz
          (Evm pc stk (mem ++ zeros x) cod gas vjd logs rc true msg out del rd err aa ak) w with
        | Ret _ e' w' => Ret tt (set_pc (e_pc e' + 1) e') w'
        | Exc x e' w' => Exc x e' w'
        end = interp pm pcm p w.
  Proof.
    intros Hm Hs Hin Hx Hc Hg Ho Haddr Hder.
    assert (Hsz : op_size o = 1) by (by destruct Ho; subst).
    assert (1 <= lenN pre) by (destruct pre; [done|rewrite lenN_cons; lia]).
    rewrite lenN_app in Hs.
    unfold generic_create. norm.
    assert (Hmax : max_message_call_gas gas <= gas) by (unfold max_message_call_gas; lia).
    assert (Hrem : gas - max_message_call_gas gas = gas / 64).
    { unfold max_message_call_gas. pose proof (N.div_le_upper_bound gas 64 gas). lia. }
    unfold MAX_INIT_CODE_SIZE, MAX_CODE_SIZE, STACK_DEPTH_LIMIT.
    change (2 * 24576) with 49152.
    match goal with |- context [at_least Shanghai (b_fork be) && (49152 <? ?z)] =>
      assert (Hc1 : at_least Shanghai (b_fork be) && (49152 <? z) = false ->
                    at_least Shanghai (b_fork be) = true -> z <= 49152)
        by (intros Ha Hb; rewrite Hb in Ha; by apply N.ltb_ge in Ha);
      destruct (at_least Shanghai (b_fork be) && (49152 <? z)) eqn:Hc0 end;
      [halt_plan|]. specialize (Hc1 eq_refl).
    destruct (m_is_static msg) eqn:Est; [halt_plan|].
    destruct (balance (get_account (st w) (m_current_target msg)) <? endow) eqn:Eb;
      [|destruct (nonce (get_account (st w) (m_current_target msg)) =? 2 ^ 64 - 1) eqn:En;
        [|destruct (1024 <? m_depth msg + 1) eqn:Ed]]; cbn [orb]; norm.
    1-3: rewrite (proj2 (N.eqb_neq (lenN stk) 1024)) by lia; norm;
      eexists (PL_done _); (split; [|reflexivity]);
      eapply (done_push0 _ _ pre stk);
      [assumption|by rewrite lenN_app|by intros ->|eassumption|eassumption|lia|reflexivity|done].
    apply N.ltb_ge in Eb, Ed. apply N.eqb_neq in En.
    destruct (account_has_code_or_nonce (st w) addr || account_has_storage (st w) addr) eqn:Ef;
      norm;
    (destruct (increment_nonce (st w) (m_current_target msg)) as [s1|] eqn:Ei;
      [|discriminate Ei]); norm.
    - rewrite (proj2 (N.eqb_neq (lenN stk) 1024)) by lia; norm.
      eexists (PL_done _). split; [|reflexivity]. split.
      + constructor; cbn; rewrite ?mem_expand_len, ?lenN_cons, ?Hsz, ?lenN_app; try done;
          try lia; try (by left); try (by right); try set_solver.
        intros _ Hf. pose proof (fo_stack _ _ Hf) as Hw. cbn in Hw.
        apply Forall_app in Hw as [_ Hw]. constructor; [lia|done].
      + eapply E_nonce; try done.
    - apply orb_false_iff in Ef as [Ef1 Ef2].
      eexists (PL_create
        {| m_caller := m_current_target msg; m_target := None; m_current_target := addr;
           m_gas := max_message_call_gas gas; m_value := endow; m_data := [];
           m_code_address := None; m_code := memory_read_bytes (mem ++ zeros x) mis miz;
           m_depth := m_depth msg + 1; m_should_transfer_value := true; m_is_static := false;
           m_accessed_addresses := {[addr]} ∪ aa; m_accessed_storage_keys := ak;
           m_disable_precompiles := false |}
        (Evm pc stk (mem ++ zeros x) cod (gas - max_message_call_gas gas) vjd logs rc true msg
           out del [] err ({[addr]} ∪ aa) ak) (set_st s1 w)).
      split.
      + constructor; cbn; try done.
        * constructor; cbn; rewrite ?mem_expand_len, ?lenN_app; try done; try lia; try set_solver.
          -- intros Hf. pose proof (fo_stack _ _ Hf) as Hw. cbn in Hw.
             by apply Forall_app in Hw as [_ Hw].
          -- by rewrite Est.
        * by exists s1.
        * apply memory_read_len_le.
        * exists gas. split; [lia|]. split; [done|]. exact Hrem.
        * intros Hf. pose proof (fo_stack _ _ Hf) as Hw. cbn in Hw.
          apply Forall_app in Hw as [Hw _]. rewrite Forall_forall in Hw.
          split; [apply Hw; by apply elem_of_list_In|].
          exact (fo_target _ _ Hf).
      + intros pm pcm. cbv beta iota zeta delta [interp].
        match goal with |- context [pcm ?m ?w] => destruct (pcm m w) as [c' w'|y w'] end;
          [|reflexivity].
        unfold resume_create, child_return, incorporate_child_on_error, incorporate_child_on_success.
        destruct c'. norm. destruct e_error; norm.
        * rewrite (proj2 (N.eqb_neq (lenN stk) 1024)) by lia. norm. reflexivity.
        * destruct (to_u256 _); [|reflexivity].
          rewrite (proj2 (N.eqb_neq (lenN stk) 1024)) by lia. norm. reflexivity.
  Qed.

  Notation hascplan o f := (forall e w, shape_ok e -> e_running e = true ->
    exists p, plan_ok cr be te o e w p /\ forall pm pcm, f pcm e w = interp pm pcm p w).

  Lemma plan_create : hascplan CREATE (op_create cr be).
  Proof.
    unfold op_create. call_start 3. norm.
    match goal with |- context [gas <? ?c] => destruct (N.ltb_spec gas c) as [Hlt|Hge] end;
      [halt_plan|].
    mem_facts.
    eapply (create_tail CREATE _ [n;n0;n1] stk);
      [assumption|assumption|by left|eassumption|eassumption|lia|by left| |reflexivity].
    apply address_of_hash_lt.
  Qed.

  Lemma plan_create2 : hascplan CREATE2 (op_create2 cr be).
  Proof.
    unfold op_create2. call_start 4. norm.
    match goal with |- context [gas <? ?c] => destruct (N.ltb_spec gas c) as [Hlt|Hge] end;
      [halt_plan|].
    mem_facts.
    eapply (create_tail CREATE2 _ [n;n0;n1;n2] stk);
      [assumption|assumption|by left|eassumption|eassumption|lia|by right| |].
    { apply address_of_hash_lt. }
    by eexists.
  Qed.

  (** ** Every instruction *)
  Theorem op_plan o e w :
    op_ok o -> shape_ok e -> e_running e = true ->
    exists p, plan_ok cr be te o e w p /\
      forall pm pcm, op_implementation cr be te pm pcm o e w = interp pm pcm p w.
  Proof.
    intros Ho Hs Hr. destruct (is_local o) eqn:El.
    - exists (PL_done (op_implementation cr be te (fun _ w => PExc EOutOfFuel w)
                         (fun _ w => PExc EOutOfFuel w) o e w)).
      split.
      + pose proof (local_op cr be te (fun _ w => PExc EOutOfFuel w)
                         (fun _ w => PExc EOutOfFuel w) o e w El Ho Hs Hr) as H.
        unfold local_res in H. cbn [plan_ok]. unfold done_ok.
        destruct (op_implementation _ _ _ _ _ o e w).
        * destruct H as (H1 & H2 & H3 & H4). split; [done|]. by apply E_none.
        * done.
      + intros pm pcm. destruct o; try discriminate El; reflexivity.
    - destruct o; try discriminate El.
      + eexists (PL_done _). split; [apply (done_sstore cr be te); done|reflexivity].
      + eexists (PL_done _). split; [apply (done_tstore cr be te); done|reflexivity].
      + by apply plan_create.
      + by apply plan_call.
      + by apply plan_callcode.
      + by apply plan_delegatecall.
      + by apply plan_create2.
      + by apply plan_staticcall.
      + eexists (PL_done _). split; [apply (done_selfdestruct cr be te); done|reflexivity].
  Qed.
End CallProofs.
