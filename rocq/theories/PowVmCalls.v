(** * PowVmCalls: the classification of [PowVmPlan.v] for calls and creates. *)
From Verif Require Import Base State Rlp Bloom Transactions Trie Blocks Requests Fork Ethash Pow PowTx.
From Verif Require Import Vm Instructions Precompiles Interpreter PowVm StateSpec
  StateProofs NumericProofs ArithProofs EvmStep EvmLocal EvmPlan EvmPlanProofs EvmCallProofs
  PowVmPlan PowVmOps.
From Coq Require Import ZifyBool ZifyN ZifyNat.
Ltac Zify.zify_post_hook ::= idtac.

Local Opaque to_u256 from_be_bytes calculate_memory_gas_cost ceil32 N.compare.

Ltac qnorm := cbv beta iota zeta delta [pow_call_child]; norm.

Section CallProofs.
  Context (cr : crypto) (n : pow_name) (env : pow_env) (te : tx_env).
  Context (inh : gset address).
  Notation be := (pow_block_env env).

  Lemma pow_generic_call_eq pm pcm gas value caller to ca stv isst mis miz mos moz e w :
    lenN (e_stack e) < 1024 -> m_depth (e_message e) + 1 <= 1024 ->
    match pow_generic_call n inh pm gas value caller to ca stv isst mis miz mos moz e w with
    | Ret t e' w' => Ret t (set_pc (e_pc e' + 1) e') w'
    | Exc x e' w' => Exc x e' w'
    end =
    pinterp n inh pm pcm (PP_call (call_message gas value caller to ca stv isst mis miz
                    (code (get_account (st w) ca)) false e)
                    (set_return_data [] e) mos moz) w.
  Proof.
    intros Hs Hd.
    destruct e as [pc stk mem cod g vjd logs rc run msg out del rd err aa ak].
    cbn [e_stack e_message] in *.
    unfold pow_generic_call. cbv beta iota zeta delta [pinterp]. qnorm.
    unfold STACK_DEPTH_LIMIT.
    rewrite (proj2 (N.ltb_ge _ _) Hd). cbv beta iota.
    unfold call_message. qnorm.
    match goal with |- context [pm ?i ?m w] => destruct (pm i m w) as [c' t' w'|x w'] end;
      [|reflexivity].
    unfold resumed, resume_call, child_return, incorporate_child_on_error,
      incorporate_child_on_success.
    generalize (touched_by_child n c' t' (st w')). intros tt'.
    destruct c'. qnorm. destruct e_error.
    - qnorm. rewrite (proj2 (N.eqb_neq (lenN stk) 1024) ltac:(lia)). qnorm.
      destruct (to_u256 _); reflexivity.
    - qnorm. rewrite (proj2 (N.eqb_neq (lenN stk) 1024) ltac:(lia)). qnorm.
      destruct (to_u256 _); reflexivity.
  Qed.

  Lemma pow_generic_call_deep pm gas value caller to ca stv isst mis miz mos moz e w :
    lenN (e_stack e) < 1024 -> 1024 < m_depth (e_message e) + 1 ->
    pow_generic_call n inh pm gas value caller to ca stv isst mis miz mos moz e w
    = Ret ∅ (set_stack (0 :: e_stack e) (set_gas_left (e_gas_left e + gas)
               (set_return_data [] e))) w.
  Proof.
    intros Hs Hd.
    destruct e as [pc stk mem cod g vjd logs rc run msg out del rd err aa ak].
    cbn [e_stack e_message] in *.
    unfold pow_generic_call. qnorm.
    unfold STACK_DEPTH_LIMIT.
    rewrite (proj2 (N.ltb_lt _ _) Hd). qnorm.
    rewrite (proj2 (N.eqb_neq (lenN stk) 1024) ltac:(lia)). reflexivity.
  Qed.

  Lemma pow_access_spec k a e w : 40 <= k -> exists g aa',
    pow_access n k a e w = Ret g (set_accessed_addresses aa' e) w /\
    40 <= g /\ e_accessed_addresses e ⊆ aa'.
  Proof.
    intros Hk. unfold pow_access. destruct (since Berlin n).
    - destruct (access_address_spec a e w) as (g & aa' & -> & Hg & Ha).
      exists g, aa'. split; [done|]. split; [lia|done].
    - exists k, (e_accessed_addresses e). split; [by destruct e|]. done.
  Qed.

  Lemma pow_call_gas_spec value gas gl mc extra cost sub :
    pow_message_call_gas n value gas gl mc extra = (cost, sub) ->
    cost + mc <= gl ->
    exists g, sub = g + (if value =? 0 then 0 else 2300) /\ cost = g + extra /\
      extra + mc <= gl /\
      (since TangerineWhistle n = true -> g <= (gl - mc - extra) - (gl - mc - extra) / 64).
  Proof.
    unfold pow_message_call_gas. destruct (since TangerineWhistle n).
    - intros H1 H2. destruct (msg_call_gas_spec _ _ _ _ _ _ _ H1 H2) as (g & ? & ? & ? & ?).
      exists g. done.
    - unfold GAS_CALL_STIPEND. intros [= <- <-] H. exists gas.
      split; [destruct (value =? 0); lia|]. split; [done|]. split; [lia|done].
  Qed.

  Lemma done_push0_pow o pc pre stk mem cod gas gas' vjd logs rc msg out del rd err aa aa' ak w mc x :
    lenN mem mod 32 = 0 -> lenN (pre ++ stk) <= 1024 -> pre <> [] ->
    (lenN mem + x) mod 32 = 0 -> memcost (lenN mem + x) = memcost (lenN mem) + mc ->
    gas' + mc < gas -> aa ⊆ aa' -> op_size o = 1 ->
    pdone_ok cr n env te inh o
      (Evm pc (pre ++ stk) mem cod gas vjd logs rc true msg out del rd err aa ak) w
      (Ret ∅ (Evm (pc + 1) (0 :: stk) (mem ++ zeros x) cod gas' vjd logs rc true msg out
         del [] err aa' ak) w).
  Proof.
    intros Hm Hs Hp Hx Hc Hg Ha Ho.
    split; [|by constructor].
    exact (proj1 (done_push0 cr be te o pc pre stk mem cod gas gas' vjd logs rc msg out del rd err
      aa aa' ak w mc x Hm Hs Hp Hx Hc Hg Ha Ho)).
  Qed.

  Notation hasplan o f := (forall e w, shape_ok e -> e_running e = true ->
    exists p, pplan_ok cr n env te inh o e w p /\
      forall pm pcm, f pm e w = pinterp n inh pm pcm p w).

  Ltac halt_leaf :=
    split; [reflexivity|]; split; [norm; lia|]; split; [reflexivity|]; exact I.
  Ltac halt_plan :=
    match goal with |- exists p, _ /\ forall pm pcm, ?x = _ =>
      exists (PP_done x); split; [halt_leaf|reflexivity] end.

  Tactic Notation "call_start" integer(k) :=
    intros e w [Hs Hm] Hrun;
    destruct e as [pc stk mem cod gas vjd logs rc rn msg out del rd err aa ak];
    cbv beta iota zeta delta [e_stack e_memory e_running] in Hs, Hm, Hrun; subst rn;
    do k (destruct stk as [|? stk]; [unfold bind, pop; cbn [e_stack set_stack]; halt_plan|]);
    unfold bind, pop, get_evm; cbn [e_stack set_stack e_memory];
    match goal with |- context [calculate_gas_extend_memory ?a ?b] =>
      destruct (calculate_gas_extend_memory a b) as [mcost x] eqn:Ex end.
  Ltac call_access :=
    match goal with |- context [pow_access n ?k ?a ?e ?w] =>
      destruct (pow_access_spec k a e w (gas_call_pos n)) as (g1 & aa1 & -> & Hg1 & Ha1) end;
    qnorm; cbn [e_accessed_addresses set_accessed_addresses] in *;
    match goal with |- context [pow_message_call_gas n ?a ?b ?c ?d ?e] =>
      destruct (pow_message_call_gas n a b c d e) as [cost sub] eqn:Eg end;
    match goal with |- context [?gas <? ?cost + ?mcost] =>
      destruct (N.ltb_spec gas (cost + mcost)) as [Hlt|Hge]; [halt_plan|] end;
    mem_facts;
    match goal with
    | H1 : pow_message_call_gas n _ _ _ _ _ = (_, _), H2 : _ + _ <= _ |- _ =>
      destruct (pow_call_gas_spec _ _ _ _ _ _ _ H1 H2) as (g & -> & -> & Hav & Hgle);
      clear H1 end.
  Ltac call_case :=
    match goal with |- context [pow_generic_call _ _ _ _ _ _ _ _ _ _ _ _ _ _ ?e0 _] =>
      let Hd := fresh "Hd" in
      destruct (N.le_gt_cases (m_depth (e_message e0) + 1) 1024) as [Hd|Hd]; cbn in Hd;
      [ eexists (PP_call _ _ _ _); split;
        [|intros pm pcm; rewrite (pow_generic_call_eq _ pcm);
          [reflexivity|cbn; rewrite ?lenN_cons in *; lia|exact Hd]]
      | eexists (PP_done _); split;
        [|intros pm pcm; rewrite pow_generic_call_deep;
          [qnorm; reflexivity|cbn; rewrite ?lenN_cons in *; lia|exact Hd]] ]
    end.

  Ltac split_ifs :=
    try change (0 =? 0) with true in *; cbv iota in *;
    repeat match goal with
    | |- context [if ?b then _ else _] => destruct b
    | H : context [if ?b then _ else _] |- _ => destruct b
    end.
  Ltac low_balance stk :=
    rewrite (proj2 (N.eqb_neq (lenN stk) 1024)) by (rewrite ?lenN_cons in *; lia); qnorm;
    eexists (PP_done _); split; [|reflexivity].
  Ltac gas_lia := split_ifs; lia.
  Ltac push0_case pre stk :=
    eapply (done_push0_pow _ _ pre stk);
    [assumption|assumption|done|eassumption|eassumption|gas_lia|assumption|done].
  Ltac wait_case pre stk :=
    eapply (waiting_call _ pre stk);
    [assumption|assumption|done|eassumption|eassumption|gas_lia|assumption|assumption].

  (** Facts common to the four call instructions. *)
  Ltac call_common pre stk :=
    constructor;
    [ wait_case pre stk
    | cbn; apply memory_read_len_le
    | cbn; rewrite mem_expand_len; assumption
    | reflexivity
    | eexists; split; [reflexivity|]; split; [reflexivity|]; split; [reflexivity|]; cbn
    | cbn
    | let Ht := fresh in intros Ht;
      match goal with H : since TangerineWhistle n = true -> _ |- _ => specialize (H Ht) end
    | cbn; let Hf := fresh "Hf" in intros Hf; pose proof (fo_stack _ _ Hf) as Hst;
      cbn in Hst; unfold stack_words in Hst; rewrite ?Forall_cons in Hst;
      pose proof (fo_target _ _ Hf); pose proof (fo_caller _ _ Hf);
      pose proof (fo_value _ _ Hf); cbn in * ].
  Ltac gas_case :=
    match goal with |- sub_gas ?st ?e ?e1 ?m =>
      match goal with H : ?g <= ?a - ?a / 64 |- _ => exists a, g end end;
    cbn [m_value call_message e_gas_left m_gas set_return_data]; split; [lia|];
    split; [assumption|]; split; [reflexivity|]; split_ifs; lia.

  Lemma pplan_call : hasplan CALL (pow_call n inh).
  Proof.
    unfold pow_call. call_start 7. call_access.
    destruct (m_is_static msg && negb (n2 =? 0)) eqn:Est; [halt_plan|].
    destruct (N.ltb_spec (balance (get_account (st w) (m_current_target msg))) n2) as [Hb|Hb];
      qnorm.
    - low_balance stk. push0_case [n0;n1;n2;n3;n4;n5;n6] stk.
    - call_case.
      2: push0_case [n0;n1;n2;n3;n4;n5;n6] stk.
      call_common [n0;n1;n2;n3;n4;n5;n6] stk.
      + split; [by left|]. split; [apply to_address_masked_lt|]. done.
      + do 3 (split; [reflexivity|]). split; [|exact Hb]. intros Hst.
        rewrite Hst in Est. cbn in Est. by apply negb_false_iff, N.eqb_eq in Est.
      + gas_case.
      + split; [tauto|]. split; [apply to_address_masked_lt|done].
  Qed.

  Lemma pplan_callcode : hasplan CALLCODE (pow_callcode n inh).
  Proof.
    unfold pow_callcode. call_start 7. call_access.
    destruct (N.ltb_spec (balance (get_account (st w) (m_current_target msg))) n2) as [Hb|Hb];
      qnorm.
    - low_balance stk. push0_case [n0;n1;n2;n3;n4;n5;n6] stk.
    - call_case.
      2: push0_case [n0;n1;n2;n3;n4;n5;n6] stk.
      call_common [n0;n1;n2;n3;n4;n5;n6] stk.
      + split; [by right|]. split; [apply to_address_masked_lt|]. by intros [].
      + do 4 (split; [reflexivity|]). exact Hb.
      + gas_case.
      + split; [tauto|]. split; done.
  Qed.

  Lemma pplan_delegatecall : hasplan DELEGATECALL (pow_delegatecall n inh).
  Proof.
    unfold pow_delegatecall. call_start 6. call_access.
    call_case.
    2: push0_case [n0;n1;n2;n3;n4;n5] stk.
    call_common [n0;n1;n2;n3;n4;n5] stk.
    + split; [by right|]. split; [apply to_address_masked_lt|]. by intros [].
    + do 4 (split; [reflexivity|]). reflexivity.
    + gas_case.
    + split; [done|]. split; done.
  Qed.

  Lemma pplan_staticcall : hasplan STATICCALL (pow_staticcall n inh).
  Proof.
    unfold pow_staticcall. call_start 6. call_access.
    call_case.
    2: push0_case [n0;n1;n2;n3;n4;n5] stk.
    call_common [n0;n1;n2;n3;n4;n5] stk.
    + split; [by left|]. split; [apply to_address_masked_lt|]. done.
    + do 3 (split; [reflexivity|]). reflexivity.
    + gas_case.
    + split; [lia|]. split; [apply to_address_masked_lt|done].
  Qed.

  (** *** Creates *)
  Lemma pow_create_tail o pc pre stk mem cod gas0 gas vjd logs rc msg out del rd err aa ak w mc x
      endow addr mis miz :
    lenN mem mod 32 = 0 -> lenN (pre ++ stk) <= 1024 -> In endow pre ->
    (lenN mem + x) mod 32 = 0 -> memcost (lenN mem + x) = memcost (lenN mem) + mc ->
    gas + mc < gas0 -> o = CREATE \/ o = CREATE2 -> addr < 2 ^ 160 ->
    match o with
    | CREATE => addr = compute_contract_address cr (m_current_target msg)
        (nonce (get_account (st w) (m_current_target msg)))
    | _ => exists salt, addr = compute_create2_contract_address cr
        (m_current_target msg) salt (memory_read_bytes (mem ++ zeros x) mis miz)
    end ->
    exists p, pplan_ok cr n env te inh o
      (Evm pc (pre ++ stk) mem cod gas0 vjd logs rc true msg out del rd err aa ak) w p /\
      forall pm pcm,
        match pow_generic_create n inh pcm endow addr mis miz
          (Evm pc stk (mem ++ zeros x) cod gas vjd logs rc true msg out del rd err aa ak) w with
        | Ret t e' w' => Ret t (set_pc (e_pc e' + 1) e') w'
        | Exc x e' w' => Exc x e' w'
        end = pinterp n inh pm pcm p w.
  Proof.
    intros Hm Hs Hin Hx Hc Hg Ho Haddr Hder.
    assert (Hsz : op_size o = 1) by (by destruct Ho; subst).
    assert (1 <= lenN pre) by (destruct pre; [done|rewrite lenN_cons; lia]).
    rewrite lenN_app in Hs.
    unfold pow_generic_create. qnorm.
    assert (Hmax : pow_create_gas n gas <= gas).
    { unfold pow_create_gas, max_message_call_gas. destruct (since _ _); lia. }
    unfold STACK_DEPTH_LIMIT.
    destruct (m_is_static msg) eqn:Est; [halt_plan|].
    destruct (balance (get_account (st w) (m_current_target msg)) <? endow) eqn:Eb;
      [|destruct (nonce (get_account (st w) (m_current_target msg)) =? 2 ^ 64 - 1) eqn:En;
        [|destruct (1024 <? m_depth msg + 1) eqn:Ed]]; cbn [orb]; qnorm.
    1-3: rewrite (proj2 (N.eqb_neq (lenN stk) 1024)) by lia; qnorm;
      eexists (PP_done _); (split; [|reflexivity]);
      eapply (done_push0_pow _ _ pre stk);
      [assumption|by rewrite lenN_app|by intros ->|eassumption|eassumption|lia|reflexivity|done].
    apply N.ltb_ge in Eb, Ed. apply N.eqb_neq in En.
    set (aa' := if since Berlin n then {[addr]} ∪ aa else aa).
    assert (Haa : aa ⊆ aa') by (unfold aa'; destruct (since Berlin n); set_solver).
    assert (Hif : forall (k : evm -> world -> res (gset address)) e0 w0,
      e_accessed_addresses e0 = aa ->
      match (if since Berlin n
             then (fun (e : evm) (w : world) => Ret tt (Evm (e_pc e) (e_stack e) (e_memory e) (e_code e)
               (e_gas_left e) (e_valid_jump_destinations e) (e_logs e) (e_refund_counter e)
               (e_running e) (e_message e) (e_output e) (e_accounts_to_delete e)
               (e_return_data e) (e_error e) ({[addr]} ∪ e_accessed_addresses e)
               (e_accessed_storage_keys e)) w)
             else (fun (e : evm) (w : world) => Ret tt e w)) e0 w0 with
      | Ret _ e' w' => k e' w'
      | Exc x e' w' => Exc x e' w'
      end = k (set_accessed_addresses aa' e0) w0).
    { intros k e0 w0 He. unfold aa'. destruct e0; cbn in He; subst. by destruct (since Berlin n). }
    assert (Hgoal : forall K : evm -> world -> res (gset address),
      True) by done. clear Hgoal.
    destruct (account_has_code_or_nonce (st w) addr || account_has_storage (st w) addr) eqn:Ef;
    (destruct (pow_increment_nonce (st w) (m_current_target msg)) as [s1|] eqn:Ei;
      [|discriminate Ei]).
    - eexists (PP_done (Ret ∅ (Evm (pc + 1) (0 :: stk) (mem ++ zeros x) cod
         (gas - pow_create_gas n gas) vjd logs rc true msg out del [] err aa' ak) (set_st s1 w))).
      split.
      + split.
        * constructor; cbn; rewrite ?mem_expand_len, ?lenN_cons, ?Hsz, ?lenN_app; try done;
            try lia; try (by left); try (by right).
          intros _ Hf. pose proof (fo_stack _ _ Hf) as Hw. cbn in Hw.
          apply Forall_app in Hw as [_ Hw]. constructor; [lia|done].
        * eapply PE_nonce; try done.
      + intros pm pcm. cbn [pinterp]. unfold aa'. destruct (since Berlin n); qnorm;
          rewrite ?Ef, ?Ei; qnorm;
          rewrite (proj2 (N.eqb_neq (lenN stk) 1024)) by lia; qnorm; reflexivity.
    - pose proof Ef as Ef'. apply orb_false_iff in Ef' as [Ef1 Ef2].
      eexists (PP_create
        {| m_caller := m_current_target msg; m_target := None; m_current_target := addr;
           m_gas := pow_create_gas n gas; m_value := endow; m_data := [];
           m_code_address := None; m_code := memory_read_bytes (mem ++ zeros x) mis miz;
           m_depth := m_depth msg + 1; m_should_transfer_value := true; m_is_static := false;
           m_accessed_addresses := aa'; m_accessed_storage_keys := ak;
           m_disable_precompiles := false |}
        (Evm pc stk (mem ++ zeros x) cod (gas - pow_create_gas n gas) vjd logs rc true msg
           out del [] err aa' ak) (set_st s1 w)).
      split.
      + constructor; cbn; try done.
        * constructor; cbn; rewrite ?mem_expand_len, ?lenN_app; try done; try lia.
          -- intros Hf. pose proof (fo_stack _ _ Hf) as Hw. cbn in Hw.
             by apply Forall_app in Hw as [_ Hw].
          -- by rewrite Est.
        * by exists s1.
        * apply memory_read_len_le.
        * exists gas. split; [lia|]. split; [done|]. lia.
        * intros Hf. pose proof (fo_stack _ _ Hf) as Hw. cbn in Hw.
          apply Forall_app in Hw as [Hw _]. rewrite Forall_forall in Hw.
          split; [apply Hw; by apply elem_of_list_In|].
          exact (fo_target _ _ Hf).
      + intros pm pcm. cbv beta iota zeta delta [pinterp].
        unfold aa'. destruct (since Berlin n); qnorm; rewrite ?Ef, ?Ei; qnorm;
        (match goal with |- context [pcm ?i ?m ?w] => destruct (pcm i m w) as [c' t' w'|y w'] end;
          [|reflexivity]);
        unfold resumed, resume_create, child_return, incorporate_child_on_error,
          incorporate_child_on_success;
        generalize (touched_by_child n c' t' (st w')); intros tt';
        destruct c'; qnorm; destruct e_error; qnorm.
        all: try (rewrite (proj2 (N.eqb_neq (lenN stk) 1024)) by lia; qnorm; reflexivity).
        all: destruct (to_u256 _); [|reflexivity];
          rewrite (proj2 (N.eqb_neq (lenN stk) 1024)) by lia; qnorm; reflexivity.
  Qed.

  Notation hascplan o f := (forall e w, shape_ok e -> e_running e = true ->
    exists p, pplan_ok cr n env te inh o e w p /\
      forall pm pcm, f pcm e w = pinterp n inh pm pcm p w).

  Lemma pplan_create : hascplan CREATE (pow_create cr n inh).
  Proof.
    unfold pow_create. call_start 3. qnorm.
    match goal with |- context [gas <? ?c] => destruct (N.ltb_spec gas c) as [Hlt|Hge] end;
      [halt_plan|].
    mem_facts.
    eapply (pow_create_tail CREATE _ [n0;n1;n2] stk);
      [assumption|assumption|by left|eassumption|eassumption|lia|by left| |reflexivity].
    apply address_of_hash_lt.
  Qed.

  Lemma pplan_create2 : hascplan CREATE2 (pow_create2 cr n inh).
  Proof.
    unfold pow_create2. call_start 4. qnorm.
    match goal with |- context [gas <? ?c] => destruct (N.ltb_spec gas c) as [Hlt|Hge] end;
      [halt_plan|].
    mem_facts.
    eapply (pow_create_tail CREATE2 _ [n0;n1;n2;n3] stk);
      [assumption|assumption|by left|eassumption|eassumption|lia|by right| |].
    { apply address_of_hash_lt. }
    by eexists.
  Qed.

  (** ** Every instruction *)
  Theorem pow_op_plan o e w :
    op_ok o -> pow_available n o = true -> shape_ok e -> e_running e = true ->
    exists p, pplan_ok cr n env te inh o e w p /\
      forall pm pcm, pow_op cr n env te inh pm pcm o e w = pinterp n inh pm pcm p w.
  Proof.
    intros Ho Hav Hs Hr.
    assert (Hshared : forall m, (forall pm pcm, pow_op cr n env te inh pm pcm o = m) ->
      pdone_ok cr n env te inh o e w (m e w) ->
      exists p, pplan_ok cr n env te inh o e w p /\
      forall pm pcm, pow_op cr n env te inh pm pcm o e w = pinterp n inh pm pcm p w).
    { intros m H1 H2. exists (PP_done (m e w)). split; [exact H2|]. intros. by rewrite H1. }
    destruct o; try discriminate Hav;
      try (eapply Hshared; [intros; cbn [pow_op]; reflexivity|]; apply quietly_local;
           apply (local_op cr be te no_child no_child); done).
    - apply (Hshared (quietly (pow_exp n))); [reflexivity|]. apply quietly_local. by apply pgood_exp.
    - apply (Hshared (quietly (pow_balance n))); [reflexivity|]. apply quietly_local. by apply pgood_balance.
    - apply (Hshared (quietly (pow_extcodesize n))); [reflexivity|]. apply quietly_local. by apply pgood_extcodesize.
    - apply (Hshared (quietly (pow_extcodecopy n))); [reflexivity|]. apply quietly_local. by apply pgood_extcodecopy.
    - apply (Hshared (quietly (pow_extcodehash cr n))); [reflexivity|]. apply quietly_local. by apply pgood_extcodehash.
    - apply (Hshared (quietly (pow_sload n))); [reflexivity|]. apply quietly_local. by apply pgood_sload.
    - apply (Hshared (quietly (pow_sstore n))); [reflexivity|]. by apply pdone_sstore.
    - by apply pplan_create.
    - by apply pplan_call.
    - by apply pplan_callcode.
    - by apply pplan_delegatecall.
    - by apply pplan_create2.
    - by apply pplan_staticcall.
    - apply (Hshared (pow_selfdestruct n inh)); [reflexivity|]. by apply pdone_selfdestruct.
  Qed.
End CallProofs.
