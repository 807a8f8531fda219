(** * PropPowCalls: C81 (message calls) and C82 (contract creation) of the
    proof-of-work forks.

    What CALL, CALLCODE, DELEGATECALL, STATICCALL, CREATE and CREATE2 cost in
    each fork, when they fail, which message they send, and the frame that
    resumes.  The theorems hold for every function [pm]/[pcm] in the place of
    the child execution. *)
From Verif Require Import Base State Rlp Bloom Transactions Trie Blocks Requests Fork Ethash Pow PowTx.
From Verif Require Import Vm Instructions Precompiles Interpreter PowVm StateSpec
  StateProofs NumericProofs ArithProofs PropArith EvmStep EvmLocal EvmPlan EvmPlanProofs EvmCallProofs
  InstrSpec InstrProofs PowVmPlan PowVmOps PowVmCalls PropInstr EvmExamples PropCalls PropPowTx
  PowInstrSpec PowInstrProofs PropPowInstr.
From Coq Require Import ZifyBool ZifyN ZifyNat.
Ltac Zify.zify_post_hook ::= idtac.

(** ** Reference: calls *)

(** Bringing an account into being costs 25000: to begin with in every CALL to
    an account that is not there (and in CALLCODE if the calling account is
    gone), since Spurious Dragon (EIP-161) only with a value and to a dead
    account. *)
Definition absent (w : world) (a : address) : bool :=
  match main_trie (st w) !! a with Some _ => false | None => true end.
Definition newcomer_price (n : pow_name) (o : op) (c : call_args) (e : evm) (w : world) : N :=
  let a := ca_address c in
  match o with
  | CALL =>
      if since SpuriousDragon n
      then if negb (ca_value c =? 0) && dead w a then 25000 else 0
      else if absent w a then 25000 else 0
  | CALLCODE =>
      if since TangerineWhistle n then 0 else if absent w (self e) then 25000 else 0
  | _ => 0
  end.
(** Everything but the gas given to the child. *)
Definition pow_call_price (n : pow_name) (o : op) (c : call_args) (e : evm) (w : world) : N :=
  look_price n (if since TangerineWhistle n then 700 else 40) e (ca_address c)
  + (if ca_value c =? 0 then 0 else 9000)
  + newcomer_price n o c e w
  + growth (lenN (e_memory e)) [ca_in c; ca_out c].
(** All the gas asked for, but at most all but one 64th of the rest since
    Tangerine Whistle (EIP-150). *)
Definition pow_call_given (n : pow_name) (o : op) (c : call_args) (e : evm) (w : world) : N :=
  let rest := e_gas_left e - pow_call_price n o c e w in
  if since TangerineWhistle n then N.min (ca_gas c) (rest - rest / 64) else ca_gas c.
(** The gas needed for the call not to fail. *)
Definition pow_call_due (n : pow_name) (o : op) (c : call_args) (e : evm) (w : world) : N :=
  pow_call_price n o c e w + (if since TangerineWhistle n then 0 else ca_gas c).
Definition pow_call_halts (n : pow_name) (o : op) (e : evm) (w : world) : Prop :=
  match call_operands o (e_stack e) with
  | None => True
  | Some (c, _) =>
      e_gas_left e < pow_call_due n o c e w \/
      (o = CALL /\ m_is_static (e_message e) = true /\ ca_value c <> 0)
  end.
Definition pow_call_warm (n : pow_name) (c : call_args) (e : evm) : gset address :=
  if since Berlin n then {[ ca_address c ]} ∪ e_accessed_addresses e else e_accessed_addresses e.

Definition pow_child_call (n : pow_name) (o : op) (c : call_args) (e : evm) (w : world) : message :=
  let target := match o with CALL | STATICCALL => ca_address c | _ => self e end in {|
    m_caller := match o with DELEGATECALL => m_caller (e_message e) | _ => self e end;
    m_target := Some target;
    m_current_target := target;
    m_gas := pow_call_given n o c e w + stipend c;
    m_value := match o with DELEGATECALL => m_value (e_message e) | _ => ca_value c end;
    m_data := takeN (snd (ca_in c)) (dropN (fst (ca_in c)) (call_memory c e));
    m_code_address := Some (ca_address c);
    m_code := code (get_account (st w) (ca_address c));
    m_depth := m_depth (e_message e) + 1;
    m_should_transfer_value := match o with DELEGATECALL => false | _ => true end;
    m_is_static := match o with STATICCALL => true | _ => m_is_static (e_message e) end;
    m_accessed_addresses := pow_call_warm n c e;
    m_accessed_storage_keys := e_accessed_storage_keys e;
    m_disable_precompiles := false |}.

Definition pow_after_call (n : pow_name) (o : op) (c : call_args) (rest : list N) (e : evm)
    (w : world) (child : evm) : evm :=
  let out := e_output child in
  PropCalls.resumed e
    (splice (call_memory c e) (fst (ca_out c)) (takeN (N.min (snd (ca_out c)) (lenN out)) out))
    rest
    (e_gas_left e - pow_call_price n o c e w - pow_call_given n o c e w + e_gas_left child)
    (match e_error child with Some _ => 0 | None => 1 end)
    out (pow_call_warm n c e)
    (match e_error child with Some _ => None | None => Some child end).
Definition pow_after_refusal (n : pow_name) (o : op) (c : call_args) (rest : list N) (e : evm)
    (w : world) : evm :=
  PropCalls.resumed e (call_memory c e) rest
    (e_gas_left e - pow_call_price n o c e w + stipend c) 0 [] (pow_call_warm n c e) None.

(** EIP-161: the accounts a child adds to those looked at when the transaction
    ends.  Those of a failed child do not count, but for RIPEMD160 (address
    3). *)
Definition empty_there (n : pow_name) (w : world) (a : address) : gset address :=
  if since SpuriousDragon n && negb (absent w a) && dead w a then {[ a ]} else ∅.
Definition child_touched (n : pow_name) (child : evm) (t : gset address) (w : world)
  : gset address :=
  let target := m_current_target (e_message child) in
  match e_error child with
  | None => t ∪ empty_there n w target
  | Some _ =>
      if decide (3 ∈ t) then {[ 3 ]} else if target =? 3 then empty_there n w 3 else ∅
  end.

Lemma empty_there_eq n w a : touched_if_empty n (st w) a = empty_there n w a.
Proof.
  unfold touched_if_empty, empty_there, account_exists_and_is_empty, get_account_optional, absent, dead,
    get_account, get_account_optional. change PowVm.since with since.
  destruct (since SpuriousDragon n); [|done]. destruct (main_trie (st w) !! a) as [acc|]; [|done].
  cbn [andb default negb]. by destruct (nonce acc =? 0), (balance acc =? 0), (code acc).
Qed.
Lemma child_touched_eq n c t w : touched_by_child n c t (st w) = child_touched n c t w.
Proof. unfold touched_by_child, child_touched. by rewrite !empty_there_eq. Qed.

Section Calls.
  Context (cr : crypto) (n : pow_name) (env : pow_env) (te : tx_env) (inh : gset address)
    (pm pcm : gset address -> message -> world -> ppres).
  Notation exec := (pow_op cr n env te inh pm pcm).

  Lemma look_exact k a e w :
    pow_access n k a e w = Ret (look_price n k e a)
      (set_accessed_addresses (if since Berlin n then {[ a ]} ∪ e_accessed_addresses e
                               else e_accessed_addresses e) e) w.
  Proof.
    unfold pow_access, look_price. change PowVm.since with since. destruct (since Berlin n).
    - apply access_exact.
    - by destruct e.
  Qed.

  (** The last part of the four instructions: charge, refuse or call. *)
  Definition pow_call_tail (o : op) (c : call_args) (e : evm) (w : world) : M (gset address) :=
    let mg := growth (lenN (e_memory e)) [ca_in c; ca_out c] in
    let m := pow_child_call n o c e w in
    let '(cost, sub_call) :=
      pow_message_call_gas n (ca_value c) (ca_gas c) (e_gas_left e) mg
        (pow_call_price n o c e w - mg) in
    charge_gas (cost + mg) ;;;
    (if match o with CALL => m_is_static (e_message e) && negb (ca_value c =? 0) | _ => false end
     then raise (EHalt WriteInStaticContext)
     else
      upd (fun e' => set_memory (call_memory c e) e') ;;;
      t <- (if balance (get_account (st w) (self e)) <? ca_value c
       then push 0 ;;; upd (set_return_data []) ;;;
            upd (fun e => set_gas_left (e_gas_left e + sub_call) e) ;;; ret ∅
       else pow_generic_call n inh pm sub_call (m_value m) (m_caller m)
         (m_current_target m) (ca_address c)
         (m_should_transfer_value m)
         match o with STATICCALL => true | _ => false end
         (fst (ca_in c)) (snd (ca_in c)) (fst (ca_out c)) (snd (ca_out c))) ;;
      pc_add 1 ;;; ret t).

  Definition pow_call_result (o : op) (c : call_args) (rest : list N) (e : evm) (w : world)
      (r : res (gset address)) : Prop :=
    ((e_gas_left e < pow_call_due n o c e w \/
      (o = CALL /\ m_is_static (e_message e) = true /\ ca_value c <> 0)) /\
     exists h e', r = Exc (EHalt h) e' w) \/
    (pow_call_due n o c e w <= e_gas_left e /\
     ~ (o = CALL /\ m_is_static (e_message e) = true /\ ca_value c <> 0) /\
     (call_refused c e w /\ r = Ret ∅ (pow_after_refusal n o c rest e w) w \/
      ~ call_refused c e w /\
      match pm (e_accounts_to_delete e ∪ inh) (pow_child_call n o c e w) w with
      | PPRet child t w' =>
          if lenN (e_output child) <? 2 ^ 256
          then r = Ret (child_touched n child t w') (pow_after_call n o c rest e w child) w'
          else exists e', r = Exc (ECrash OverflowError) e' w'
      | PPExc x w' => exists e', r = Exc x e' w'
      end)).

  Lemma pow_tail_exact o c rest e w :
    is_call o = true -> lenN rest < 1024 -> lenN (e_memory e) mod 32 = 0 -> e_running e = true ->
    (o = DELEGATECALL \/ o = STATICCALL -> ca_value c = 0) ->
    pow_call_result o c rest e w
      (pow_call_tail o c e w (set_stack rest (set_accessed_addresses (pow_call_warm n c e) e)) w).
  Proof.
    intros Ho Hl Hm Hr Hv. unfold pow_call_tail, pow_call_result. cbv zeta.
    assert (Hsum : pow_call_price n o c e w =
      (pow_call_price n o c e w - growth (lenN (e_memory e)) [ca_in c; ca_out c]) +
      growth (lenN (e_memory e)) [ca_in c; ca_out c]).
    { unfold pow_call_price. lia. }
    set (extra := pow_call_price n o c e w - growth (lenN (e_memory e)) [ca_in c; ca_out c]) in *.
    set (mg := growth (lenN (e_memory e)) [ca_in c; ca_out c]) in *.
    clearbody extra.
    destruct (N.lt_ge_cases (e_gas_left e) (pow_call_due n o c e w)) as [Hlt|Hge].
    { left. split; [by left|]. unfold pow_call_due in Hlt.
      unfold pow_message_call_gas. change PowVm.since with since.
      destruct (since TangerineWhistle n).
      - unfold calculate_message_call_gas.
        rewrite (proj2 (N.ltb_lt (e_gas_left e) (extra + mg))) by lia.
        destruct e as [pc stk mem cod gas vjd logs rc rn msg out del rd err aa ak]. norm.
        cbn [e_gas_left] in *.
        rewrite (proj2 (N.ltb_lt gas (ca_gas c + extra + mg))) by lia. eauto.
      - destruct e as [pc stk mem cod gas vjd logs rc rn msg out del rd err aa ak]. norm.
        cbn [e_gas_left] in *.
        rewrite (proj2 (N.ltb_lt gas (ca_gas c + extra + mg))) by lia. eauto. }
    assert (Hgas : pow_message_call_gas n (ca_value c) (ca_gas c) (e_gas_left e) mg extra =
      (pow_call_given n o c e w + extra, pow_call_given n o c e w + stipend c)).
    { unfold pow_message_call_gas, pow_call_given, stipend, pow_call_due in *.
      change PowVm.since with since. destruct (since TangerineWhistle n).
      - rewrite call_gas_exact by lia. cbv zeta. by rewrite <- Hsum.
      - unfold GAS_CALL_STIPEND. by destruct (ca_value c =? 0); rewrite ?N.add_0_r. }
    rewrite Hgas.
    assert (Hle : pow_call_given n o c e w + pow_call_price n o c e w <= e_gas_left e).
    { unfold pow_call_given, pow_call_due in *. destruct (since TangerineWhistle n); lia. }
    destruct (match o with CALL => m_is_static (e_message e) && negb (ca_value c =? 0) | _ => false end) eqn:Est.
    { left. assert (o = CALL /\ m_is_static (e_message e) = true /\ ca_value c <> 0) as Hst.
      { destruct o; try discriminate. apply andb_true_iff in Est as [? Hn].
        apply negb_true_iff, N.eqb_neq in Hn. done. }
      split; [by right|].
      destruct e as [pc stk mem cod gas vjd logs rc rn msg out del rd err aa ak]. norm.
      destruct (_ <? _); eauto. }
    right. split; [done|]. split.
    { intros (-> & Hs & Hn). rewrite Hs in Est. cbn in Est.
      apply negb_false_iff, N.eqb_eq in Est. done. }
    assert (Hcharge : e_gas_left e <? pow_call_given n o c e w + extra + mg = false)
      by (apply N.ltb_ge; lia).
    assert (Hleft : e_gas_left e - (pow_call_given n o c e w + extra + mg) =
      e_gas_left e - pow_call_price n o c e w - pow_call_given n o c e w) by lia.
    unfold call_refused, pow_after_refusal, pow_after_call.
    set (price := pow_call_price n o c e w) in *. set (given := pow_call_given n o c e w) in *.
    set (warm := pow_call_warm n c e) in *.
    destruct (N.ltb_spec (balance (get_account (st w) (self e))) (ca_value c)) as [Hb|Hb].
    { left. split; [by right|].
      destruct e as [pc stk mem cod gas vjd logs rc rn msg out del rd err aa ak]. norm.
      cbn [e_gas_left e_running] in *. subst rn. rewrite Hcharge. norm.
      rewrite (proj2 (N.eqb_neq (lenN rest) 1024)) by lia. norm.
      unfold PropCalls.resumed. norm. f_equal. rewrite app_nil_r, !Z.add_0_r, !(right_id_L ∅ (∪)).
      f_equal. rewrite Hleft. unfold stipend. lia. }
    destruct (N.lt_ge_cases 1024 (m_depth (e_message e) + 1)) as [Hd|Hd].
    { left. split; [left; lia|].
      destruct e as [pc stk mem cod gas vjd logs rc rn msg out del rd err aa ak].
      cbv beta iota delta [bind charge_gas upd set_stack set_accessed_addresses set_gas_left set_memory
        e_pc e_stack e_memory e_code e_gas_left e_valid_jump_destinations e_logs
        e_refund_counter e_running e_message e_output e_accounts_to_delete e_return_data
        e_error e_accessed_addresses e_accessed_storage_keys] in *.
      subst rn. rewrite Hcharge. cbv beta iota.
      rewrite pow_generic_call_deep by done. norm.
      unfold PropCalls.resumed. norm. f_equal. rewrite app_nil_r, !Z.add_0_r, !(right_id_L ∅ (∪)).
      f_equal. rewrite Hleft. unfold stipend. lia. }
    right. split; [intros [?|?]; lia|].
    set (e1 := set_memory (call_memory c e) (set_gas_left (e_gas_left e - price - given)
      (set_stack rest (set_accessed_addresses warm e)))).
    set (r := bind _ _ _ _).
    assert (Hr' : r = pinterp n inh pm pcm (PP_call (pow_child_call n o c e w) (set_return_data [] e1)
      (fst (ca_out c)) (snd (ca_out c))) w).
    { unfold r. clear r.
      assert (Hmsg : call_message (given + stipend c)
        (m_value (pow_child_call n o c e w)) (m_caller (pow_child_call n o c e w))
        (m_current_target (pow_child_call n o c e w)) (ca_address c)
        (m_should_transfer_value (pow_child_call n o c e w)) match o with STATICCALL => true | _ => false end
        (fst (ca_in c)) (snd (ca_in c))
        (code (get_account (st w) (ca_address c))) false e1
        = pow_child_call n o c e w).
      { unfold call_message, pow_child_call. cbv zeta. f_equal.
        all: unfold e1; destruct e as [pc stk mem cod gas vjd logs rc rn msg out del rd err aa ak];
          try reflexivity.
        - apply read_window.
        - by destruct o. }
      assert (He1 : e_stack e1 = rest /\ e_message e1 = e_message e).
      { unfold e1. by destruct e. }
      rewrite <- Hmsg, <- (pow_generic_call_eq n inh pm pcm);
        [|destruct He1 as [-> _]; done|destruct He1 as [_ ->]; done].
      unfold e1. rewrite <- Hleft.
      cbv beta iota delta [bind charge_gas upd pc_add ret].
      assert (Hgl : e_gas_left (set_stack rest (set_accessed_addresses warm e)) = e_gas_left e)
        by (by destruct e).
      rewrite Hgl.
      rewrite Hcharge. cbv beta iota. reflexivity. }
    rewrite Hr'. cbn [pinterp].
    assert (Hdel : e_accounts_to_delete (set_return_data [] e1) = e_accounts_to_delete e).
    { unfold e1. by destruct e. }
    rewrite Hdel.
    destruct (pm _ (pow_child_call n o c e w) w) as [child t w'|x w']; [|by eexists].
    rewrite child_touched_eq.
    unfold resume_call. destruct (N.ltb_spec (lenN (e_output child)) (2 ^ 256)) as [Hlen|Hlen].
    - rewrite to_u256_ok by done. cbn [PowVmPlan.resumed]. f_equal.
      destruct e as [pc stk mem cod gas vjd logs rc rn msg out del rd err aa ak].
      cbn [e_running] in Hr. subst rn.
      unfold child_return, incorporate_child_on_error, incorporate_child_on_success, PropCalls.resumed.
      rewrite <- write_splice.
      destruct child as [? ? ? ? ? ? ? ? ? ? ? ? ? err' ? ?]. unfold e1.
      norm. destruct err'; norm;
        rewrite ?app_nil_r, ?Z.add_0_r, ?(right_id_L ∅ (∪)); reflexivity.
    - destruct (to_u256 (lenN (e_output child))) as [v|x] eqn:Eu.
      + apply to_u256_inv in Eu as [_ Eu]. lia.
      + apply to_u256_raise in Eu as [-> _]. by eexists.
  Qed.

  Ltac unpop := cbv beta iota zeta delta [bind pop get_evm get_state set_stack e_pc e_stack e_memory e_code
    e_gas_left e_valid_jump_destinations e_logs e_refund_counter e_running e_message e_output
    e_accounts_to_delete e_return_data e_error e_accessed_addresses e_accessed_storage_keys
    set_accessed_addresses].
  Lemma newcomer_call s e w a v : st w = s ->
    pow_call_create_cost n s v a =
    newcomer_price n CALL (CallArgs 0 a v (0, 0) (0, 0)) e w.
  Proof.
    intros <-. unfold pow_call_create_cost, newcomer_price, account_exists, get_account_optional, absent,
      GAS_NEW_ACCOUNT.
    cbn [ca_address ca_value]. change PowVm.since with since. rewrite alive_dead.
    destruct (since SpuriousDragon n).
    - by destruct (v =? 0), (dead w a).
    - by destruct (main_trie (st w) !! a).
  Qed.
  Lemma newcomer_callcode e w c :
    pow_callcode_create_cost n (st w) (self e) = newcomer_price n CALLCODE c e w.
  Proof.
    unfold pow_callcode_create_cost, newcomer_price, account_exists, get_account_optional, absent,
      GAS_NEW_ACCOUNT. change PowVm.since with since.
    destruct (since TangerineWhistle n); [done|]. by destruct (main_trie (st w) !! self e).
  Qed.

  Lemma pow_call_op_tail o e w c rest :
    is_call o = true -> call_operands o (e_stack e) = Some (c, rest) ->
    lenN (e_memory e) mod 32 = 0 ->
    exec o e w = pow_call_tail o c e w (set_stack rest (set_accessed_addresses (pow_call_warm n c e) e)) w.
  Proof.
    intros Ho Hc Hm.
    assert (Hp : pow_call_price n o c e w - growth (lenN (e_memory e)) [ca_in c; ca_out c] =
      look_price n (if since TangerineWhistle n then 700 else 40) e (ca_address c)
      + newcomer_price n o c e w
      + (if ca_value c =? 0 then 0 else 9000)).
    { unfold pow_call_price. lia. }
    unfold pow_call_tail. cbv zeta. rewrite Hp. clear Hp.
    destruct e as [pc stk mem cod gas vjd logs rc rn msg out del rd err aa ak].
    cbn [e_stack e_memory] in Hc, Hm.
    destruct o; try discriminate Ho; cbn [pow_op];
    do 6 (destruct stk as [|? stk]; [discriminate Hc|]);
    try (destruct stk as [|? stk]; [discriminate Hc|]);
    injection Hc as <- <-; cbn [ca_gas ca_address ca_value ca_in ca_out fst snd].
    all: unfold pow_call, pow_callcode, pow_delegatecall, pow_staticcall, to_address_masked,
      pow_gas_call; unpop;
      rewrite extend_exact by done; fold (address_of n1);
      rewrite look_exact; unpop.
    all: change PowVm.since with since.
    all: unfold pow_child_call, call_memory, pow_call_warm; norm.
    all: cbn [ca_gas ca_address ca_value ca_in ca_out fst snd m_caller m_value
      m_current_target m_code m_should_transfer_value m_disable_precompiles].
    - rewrite (newcomer_call (st w) (Evm pc [] mem cod gas vjd logs rc rn msg out del rd err aa ak) w) by done.
      unfold newcomer_price, look_price, account_price. cbn [ca_address ca_value e_accessed_addresses].
      destruct (pow_message_call_gas _ _ _ _ _ _) as [cost sub].
      norm. destruct (_ <? _); [reflexivity|]. norm.
      destruct (_ && _); [reflexivity|]. norm. destruct (_ <? _); [norm; by destruct (_ =? _)|].
      reflexivity.
    - match goal with |- context [newcomer_price n CALLCODE ?c ?e ?w] =>
        rewrite <- (newcomer_callcode e w c) end.
      unfold look_price, account_price, self. norm.
      destruct (pow_message_call_gas _ _ _ _ _ _) as [cost sub].
      norm. destruct (_ <? _); [reflexivity|]. norm. destruct (_ <? _); [norm; by destruct (_ =? _)|].
      reflexivity.
    - change (0 =? 0) with true. cbv beta iota. unfold newcomer_price. rewrite !N.add_0_r.
      rewrite (proj2 (N.ltb_ge _ 0) (N.le_0_l _)).
      destruct (pow_message_call_gas _ _ _ _ _ _) as [cost sub].
      norm. destruct (_ <? _); [reflexivity|]. norm. reflexivity.
    - change (0 =? 0) with true. cbv beta iota. unfold newcomer_price. rewrite !N.add_0_r.
      rewrite (proj2 (N.ltb_ge _ 0) (N.le_0_l _)).
      destruct (pow_message_call_gas _ _ _ _ _ _) as [cost sub].
      norm. destruct (_ <? _); [reflexivity|]. norm. reflexivity.
  Qed.

  Lemma pow_call_exact o e w c rest :
    is_call o = true -> call_operands o (e_stack e) = Some (c, rest) ->
    shape_ok e -> e_running e = true ->
    pow_call_result o c rest e w (exec o e w).
  Proof.
    intros Ho Hc [Hs Hm] Hr. rewrite (pow_call_op_tail o e w c rest) by done.
    destruct (call_operands_inv _ _ _ _ Hc).
    apply pow_tail_exact; [done| |done|done|done]. lia.
  Qed.

  Lemma pow_call_underflow o e w :
    is_call o = true -> call_operands o (e_stack e) = None ->
    exists h e', exec o e w = Exc (EHalt h) e' w.
  Proof.
    intros Ho Hc. destruct e as [pc stk mem cod gas vjd logs rc rn msg out del rd err aa ak].
    cbn [e_stack] in Hc.
    destruct o; try discriminate Ho; cbn [pow_op];
    unfold pow_call, pow_callcode, pow_delegatecall, pow_staticcall, to_address_masked.
    all: repeat (destruct stk as [|? stk];
      [cbv beta iota zeta delta [bind pop set_stack e_pc e_stack e_memory e_code
        e_gas_left e_valid_jump_destinations e_logs e_refund_counter e_running e_message e_output
        e_accounts_to_delete e_return_data e_error e_accessed_addresses e_accessed_storage_keys raise];
       by eauto|try discriminate Hc]).
  Qed.

  (** ** C81 *)

  (** A call stops the frame, without starting a child and without effect on
      the world, if an operand is missing, the gas due is not there, or ether
      would be sent from a static frame. *)
  Theorem C81_fails : forall o e w,
    is_call o = true -> shape_ok e -> e_running e = true ->
    pow_call_halts n o e w -> exists h e', exec o e w = Exc (EHalt h) e' w.
  Proof.
    intros o e w Ho Hs Hr Hh. unfold pow_call_halts in Hh.
    destruct (call_operands o (e_stack e)) as [[c rest]|] eqn:Hc; [|by apply pow_call_underflow].
    destruct (pow_call_exact o e w c rest Ho Hc Hs Hr) as [[_ H]|(H1 & H2 & _)]; [done|].
    destruct Hh as [Hh|Hh]; [lia|done].
  Qed.

  (** It reports failure without starting a child at depth 1024 or if the
      balance is below the value; all the gas intended for the child comes
      back. *)
  Theorem C81_refused : forall o e w c rest,
    is_call o = true -> shape_ok e -> e_running e = true ->
    call_operands o (e_stack e) = Some (c, rest) ->
    ~ pow_call_halts n o e w -> call_refused c e w ->
    exec o e w = Ret ∅ (pow_after_refusal n o c rest e w) w.
  Proof.
    intros o e w c rest Ho Hs Hr Hc Hn Href. unfold pow_call_halts in Hn. rewrite Hc in Hn.
    destruct (pow_call_exact o e w c rest Ho Hc Hs Hr) as [[H _]|(_ & _ & [[_ H]|[H _]])]; done.
  Qed.

  (** In every other case it runs the child on the specified message, telling
      it the accounts deleted so far, and resumes in the specified frame. *)
  Theorem C81_runs : forall o e w c rest,
    is_call o = true -> shape_ok e -> e_running e = true ->
    call_operands o (e_stack e) = Some (c, rest) ->
    ~ pow_call_halts n o e w -> ~ call_refused c e w ->
    match pm (e_accounts_to_delete e ∪ inh) (pow_child_call n o c e w) w with
    | PPRet child t w' => lenN (e_output child) < 2 ^ 256 ->
        exec o e w = Ret (child_touched n child t w') (pow_after_call n o c rest e w child) w'
    | PPExc x w' => exists e', exec o e w = Exc x e' w'
    end.
  Proof.
    intros o e w c rest Ho Hs Hr Hc Hn Href. unfold pow_call_halts in Hn. rewrite Hc in Hn.
    destruct (pow_call_exact o e w c rest Ho Hc Hs Hr) as [[H _]|(_ & _ & [[H _]|[_ H]])]; try done.
    destruct (pm _ _ w) as [child t w'|x w']; [|done]. intros Hl.
    by rewrite (proj2 (N.ltb_lt _ _) Hl) in H.
  Qed.
End Calls.

(** ** Reference: creation *)

(** There is no limit on the init code and no price per word of it yet
    (EIP-3860 is later). *)
Definition pow_create_price (c : create_args) (e : evm) : N :=
  32000
  + match cc_salt c with Some _ => 6 * words (snd (cc_code c)) | None => 0 end
  + growth (lenN (e_memory e)) [cc_code c].
Definition pow_create_halts (o : op) (e : evm) : Prop :=
  match create_operands o (e_stack e) with
  | None => True
  | Some (c, _) => e_gas_left e < pow_create_price c e \/ m_is_static (e_message e) = true
  end.
(** Gas kept by the creator: one 64th since Tangerine Whistle, nothing
    before. *)
Definition pow_create_kept (n : pow_name) (c : create_args) (e : evm) : N :=
  if since TangerineWhistle n then (e_gas_left e - pow_create_price c e) / 64 else 0.
Definition pow_create_warm (cr : crypto) (n : pow_name) (c : create_args) (e : evm) (w : world)
  : gset address :=
  if since Berlin n then {[ new_address cr c e w ]} ∪ e_accessed_addresses e
  else e_accessed_addresses e.
Definition pow_child_create (cr : crypto) (n : pow_name) (c : create_args) (e : evm) (w : world)
  : message := {|
  m_caller := self e;
  m_target := None;
  m_current_target := new_address cr c e w;
  m_gas := e_gas_left e - pow_create_price c e - pow_create_kept n c e;
  m_value := cc_value c;
  m_data := [];
  m_code_address := None;
  m_code := init_code c e;
  m_depth := m_depth (e_message e) + 1;
  m_should_transfer_value := true;
  m_is_static := false;
  m_accessed_addresses := pow_create_warm cr n c e w;
  m_accessed_storage_keys := e_accessed_storage_keys e;
  m_disable_precompiles := false |}.
Definition pow_create_refusal (c : create_args) (rest : list N) (e : evm) : evm :=
  PropCalls.resumed e (create_memory c e) rest (e_gas_left e - pow_create_price c e) 0 []
    (e_accessed_addresses e) None.
Definition pow_create_collision (cr : crypto) (n : pow_name) (c : create_args) (rest : list N)
    (e : evm) (w : world) : evm :=
  PropCalls.resumed e (create_memory c e) rest (pow_create_kept n c e) 0 []
    (pow_create_warm cr n c e w) None.
Definition pow_after_create (cr : crypto) (n : pow_name) (c : create_args) (rest : list N)
    (e : evm) (w : world) (child : evm) : evm :=
  PropCalls.resumed e (create_memory c e) rest (pow_create_kept n c e + e_gas_left child)
    (match e_error child with Some _ => 0 | None => m_current_target (e_message child) end)
    (match e_error child with Some _ => e_output child | None => [] end)
    (pow_create_warm cr n c e w)
    (match e_error child with Some _ => None | None => Some child end).

Lemma pow_bumped_ok w a : exists s1,
  pow_increment_nonce (st w) a = Ok s1 /\ nonce_bumped w a (set_st s1 w).
Proof.
  eexists. split; [reflexivity|].
  split; [done|]. split; [done|]. split; [done|]. split; [done|].
  intros b. cbn [st set_st]. rewrite get_account_set. cbn [default].
  repeat case_decide; subst; done.
Qed.

Section Creates.
  Context (cr : crypto) (n : pow_name) (env : pow_env) (te : tx_env) (inh : gset address)
    (pm pcm : gset address -> message -> world -> ppres).
  Notation exec := (pow_op cr n env te inh pm pcm).

  Definition pow_create_result (c : create_args) (rest : list N) (e : evm) (w : world)
      (r : res (gset address)) : Prop :=
    ((e_gas_left e < pow_create_price c e \/ m_is_static (e_message e) = true) /\
     exists h e', r = Exc (EHalt h) e' w) \/
    (pow_create_price c e <= e_gas_left e /\ m_is_static (e_message e) = false /\
     (create_refused c e w /\ r = Ret ∅ (pow_create_refusal c rest e) w \/
      ~ create_refused c e w /\
      exists w1, nonce_bumped w (self e) w1 /\
       (occupied w (new_address cr c e w) /\
        r = Ret ∅ (pow_create_collision cr n c rest e w) w1 \/
        ~ occupied w (new_address cr c e w) /\
        match pcm (e_accounts_to_delete e ∪ inh) (pow_child_create cr n c e w) w1 with
        | PPRet child t w' =>
            match e_error child with
            | None => m_current_target (e_message child) < 2 ^ 256 ->
                r = Ret (child_touched n child t w') (pow_after_create cr n c rest e w child) w'
            | Some _ => r = Ret (child_touched n child t w') (pow_after_create cr n c rest e w child) w'
            end
        | PPExc x w' => exists e', r = Exc x e' w'
        end))).

  Lemma pow_create_tail_exact c rest e w :
    lenN rest < 1024 -> lenN (e_memory e) mod 32 = 0 -> e_running e = true ->
    pow_create_result c rest e w
      (bind (charge_gas (pow_create_price c e)) (fun _ =>
       bind (upd (fun e' => set_memory (create_memory c e) e')) (fun _ =>
       bind (pow_generic_create n inh pcm (cc_value c) (new_address cr c e w) (fst (cc_code c)) (snd (cc_code c)))
         (fun t => bind (pc_add 1) (fun _ => ret t)))) (set_stack rest e) w).
  Proof.
    intros Hl Hm Hr. unfold pow_create_result.
    pose proof (occupied_spec w (new_address cr c e w)) as Hocc.
    destruct (pow_bumped_ok w (self e)) as (s1 & Es & Hs1).
    unfold pow_create_refusal, pow_create_collision, pow_after_create, pow_child_create, pow_create_kept,
      pow_create_warm, PropCalls.resumed, create_refused, init_code.
    set (price := pow_create_price c e) in *. set (mem' := create_memory c e) in *.
    set (addr := new_address cr c e w) in *. clearbody price mem' addr.
    destruct e as [pc stk mem cod gas vjd logs rc rn msg out del rd err aa ak].
    cbn [e_running e_memory] in *. subst rn. unfold self in *. cbn [e_message] in Es, Hs1.
    unfold pow_generic_create, pow_call_child.
    norm.
    destruct (N.ltb_spec gas price) as [Hg|Hg]; [left; split; [by left|by eauto]|]. norm.
    rewrite read_window.
    unfold STACK_DEPTH_LIMIT.
    destruct (m_is_static msg) eqn:Est; [left; split; [by right|by eauto]|].
    right. split; [done|]. split; [done|].
    assert (Hmax : pow_create_gas n (gas - price) =
      gas - price - (if since TangerineWhistle n then (gas - price) / 64 else 0)).
    { unfold pow_create_gas, max_message_call_gas. change PowVm.since with since.
      destruct (since TangerineWhistle n); lia. }
    assert (Hk : gas - price - pow_create_gas n (gas - price) =
      if since TangerineWhistle n then (gas - price) / 64 else 0).
    { rewrite Hmax. destruct (since TangerineWhistle n); [|lia].
      pose proof (N.div_le_upper_bound (gas - price) 64 (gas - price)). lia. }
    assert (Hsum : gas - price - pow_create_gas n (gas - price) + pow_create_gas n (gas - price) = gas - price).
    { rewrite Hmax. destruct (since TangerineWhistle n); lia. }
    assert (Hstk : (lenN rest =? 1024) = false) by (apply N.eqb_neq; lia).
    destruct ((balance (get_account (st w) (m_current_target msg)) <? cc_value c)
      || (nonce (get_account (st w) (m_current_target msg)) =? 2 ^ 64 - 1)
      || (1024 <? m_depth msg + 1)) eqn:Eref.
    { left. split.
      { rewrite !orb_true_iff in Eref. rewrite !N.ltb_lt, N.eqb_eq in Eref.
        destruct Eref as [[?|?]|?]; [by left|by right; left|right; right; lia]. }
      norm. rewrite Hstk. norm. f_equal.
      rewrite app_nil_r, !Z.add_0_r, !(right_id_L ∅ (∪)). f_equal. exact Hsum. }
    right. split.
    { rewrite !orb_false_iff in Eref. rewrite !N.ltb_ge, N.eqb_neq in Eref.
      destruct Eref as [[? ?] ?]. intros [?|[?|?]]; [lia|done|lia]. }
    exists (set_st s1 w). split; [exact Hs1|].
    change PowVm.since with since.
    destruct (account_has_code_or_nonce (st w) addr || account_has_storage (st w) addr) eqn:Eocc.
    - left. split; [by apply Hocc|].
      destruct (since Berlin n); norm; rewrite Es; norm; rewrite Hstk; norm; f_equal;
      rewrite app_nil_r, !Z.add_0_r, !(right_id_L ∅ (∪)); by rewrite Hk.
    - right. split; [intros Hx; apply Hocc in Hx; congruence|].
      destruct (since Berlin n); norm; rewrite Es; norm; rewrite Hk, Hmax;
      (match goal with |- context [pcm ?i ?m ?w] => destruct (pcm i m w) as [child t w'|y w'] end;
        [|by eauto]);
      rewrite <- child_touched_eq;
      generalize (touched_by_child n child t (st w')); intros tt';
      unfold incorporate_child_on_error, incorporate_child_on_success;
      destruct child as [? ? ? ? ? ? ? ? ? cmsg ? ? ? err' ? ?]; norm; destruct err'; norm.
      all: try (intros Hlt; rewrite to_u256_ok by done; norm).
      all: rewrite Hstk; norm; rewrite ?app_nil_r, ?Z.add_0_r, ?(right_id_L ∅ (∪)); reflexivity.
  Qed.

  Lemma pow_create_op_tail o e w c rest :
    create_operands o (e_stack e) = Some (c, rest) -> lenN (e_memory e) mod 32 = 0 ->
    exec o e w =
      bind (charge_gas (pow_create_price c e)) (fun _ =>
       bind (upd (fun e' => set_memory (create_memory c e) e')) (fun _ =>
       bind (pow_generic_create n inh pcm (cc_value c) (new_address cr c e w) (fst (cc_code c)) (snd (cc_code c)))
         (fun t => bind (pc_add 1) (fun _ => ret t)))) (set_stack rest e) w.
  Proof.
    intros Hc Hm.
    destruct e as [pc stk mem cod gas vjd logs rc rn msg out del rd err aa ak].
    cbn [e_stack e_memory] in Hc, Hm.
    destruct o; try discriminate Hc; cbn [pow_op];
    do 3 (destruct stk as [|? stk]; [discriminate Hc|]);
    try (destruct stk as [|? stk]; [discriminate Hc|]);
    injection Hc as <- <-; cbn [cc_value cc_code cc_salt fst snd].
    - unfold pow_create, pow_create_price, create_memory, new_address, self. norm.
      rewrite extend_exact by done. cbn [cc_value cc_code cc_salt fst snd]. cbv beta iota.
      rewrite N.add_0_r.
      destruct (_ <? _); reflexivity.
    - unfold pow_create2, pow_create_price, init_code, create_memory, new_address, self. norm.
      rewrite extend_exact, words_ceil by done. cbn [cc_value cc_code cc_salt fst snd]. cbv beta iota.
      destruct (_ <? _); [reflexivity|]. rewrite read_window. reflexivity.
  Qed.

  Lemma pow_create_exact o e w c rest :
    create_operands o (e_stack e) = Some (c, rest) ->
    shape_ok e -> e_running e = true -> pow_create_result c rest e w (exec o e w).
  Proof.
    intros Hc [Hs Hm] Hr. rewrite (pow_create_op_tail o e w c rest) by done.
    apply pow_create_tail_exact; [|done|done].
    unfold lenN in *. destruct o; try discriminate Hc;
      destruct (e_stack e) as [|? [|? [|? l]]]; try discriminate Hc;
      try (destruct l as [|? l]; [discriminate Hc|]);
      injection Hc as <- <-; cbn [length] in Hs; lia.
  Qed.
  Lemma pow_create_underflow o e w :
    is_create o = true -> create_operands o (e_stack e) = None ->
    exists h e', exec o e w = Exc (EHalt h) e' w.
  Proof.
    intros Ho Hc. destruct e as [pc stk mem cod gas vjd logs rc rn msg out del rd err aa ak].
    cbn [e_stack] in Hc.
    destruct o; try discriminate Ho; cbn [pow_op]; unfold pow_create, pow_create2.
    all: repeat (destruct stk as [|? stk];
      [cbv beta iota zeta delta [bind pop set_stack e_pc e_stack e_memory e_code
        e_gas_left e_valid_jump_destinations e_logs e_refund_counter e_running e_message e_output
        e_accounts_to_delete e_return_data e_error e_accessed_addresses e_accessed_storage_keys raise];
       by eauto|try discriminate Hc]).
  Qed.

  (** ** C82 *)

  (** A creation stops the frame, without effect on the world, if an operand
      is missing, the price is not covered or the frame is static. *)
  Theorem C82_fails : forall o e w,
    is_create o = true -> shape_ok e -> e_running e = true ->
    pow_create_halts o e -> exists h e', exec o e w = Exc (EHalt h) e' w.
  Proof.
    intros o e w Ho Hs Hr Hh. unfold pow_create_halts in Hh.
    destruct (create_operands o (e_stack e)) as [[c rest]|] eqn:Hc; [|by apply pow_create_underflow].
    destruct (pow_create_exact o e w c rest Hc Hs Hr) as [[_ H]|(H1 & H2 & _)]; [done|].
    destruct Hh as [Hh|Hh]; [lia|congruence].
  Qed.

  (** It pushes 0, for the price alone and with no other effect, if the
      balance is too low, the nonce cannot be increased or the depth is 1024. *)
  Theorem C82_refused : forall o e w c rest,
    shape_ok e -> e_running e = true ->
    create_operands o (e_stack e) = Some (c, rest) ->
    ~ pow_create_halts o e -> create_refused c e w ->
    exec o e w = Ret ∅ (pow_create_refusal c rest e) w.
  Proof.
    intros o e w c rest Hs Hr Hc Hn Href. unfold pow_create_halts in Hn. rewrite Hc in Hn.
    destruct (pow_create_exact o e w c rest Hc Hs Hr) as [[H _]|(_ & _ & [[_ H]|[H _]])]; done.
  Qed.

  (** Otherwise the nonce of the creator goes up by one in any case.  If the
      derived address is occupied, the gas meant for the child is lost and 0
      is pushed; else the init code runs as specified and the frame resumes as
      specified. *)
  Theorem C82_runs : forall o e w c rest,
    shape_ok e -> e_running e = true ->
    create_operands o (e_stack e) = Some (c, rest) ->
    ~ pow_create_halts o e -> ~ create_refused c e w ->
    exists w1, nonce_bumped w (self e) w1 /\
      (occupied w (new_address cr c e w) ->
       exec o e w = Ret ∅ (pow_create_collision cr n c rest e w) w1) /\
      (~ occupied w (new_address cr c e w) ->
       match pcm (e_accounts_to_delete e ∪ inh) (pow_child_create cr n c e w) w1 with
       | PPRet child t w' => m_current_target (e_message child) < 2 ^ 256 ->
           exec o e w =
             Ret (child_touched n child t w') (pow_after_create cr n c rest e w child) w'
       | PPExc x w' => exists e', exec o e w = Exc x e' w'
       end).
  Proof.
    intros o e w c rest Hs Hr Hc Hn Href. unfold pow_create_halts in Hn. rewrite Hc in Hn.
    destruct (pow_create_exact o e w c rest Hc Hs Hr) as [[H _]|(_ & _ & [[H _]|(_ & w1 & Hw & H)])];
      try done.
    exists w1. split; [done|]. destruct H as [[Ho H]|[Ho H]]; (split; [|try done]); try done.
    intros _. destruct (pcm _ _ w1) as [child t w'|x w']; [|done].
    intros Hl. destruct (e_error child); auto.
  Qed.
End Creates.

(** ** Examples *)

(** The call of C51: 0x200 calls 0x300, which does not exist, with [v] wei, 100
    gas, 32 bytes of input and 64 of output. *)
Definition ex_call_prices (o : op) (v : N) : list N :=
  map (fun n => pow_call_price n o (ex_call_args v) (ex_call v) ex_frame_world) history.
Definition ex_pow_env : pow_env := PowEnv 1 100000 [] 0xc0 2 3 1000 131072.
Definition ex_call_run (n : pow_name) (o : op) (e : evm) :=
  match pow_op toy_crypto n ex_pow_env toy_tx ∅
          (pow_process_message toy_crypto n ex_pow_env toy_tx)
          (pow_process_create_message toy_crypto n ex_pow_env toy_tx) o e ex_frame_world with
  | Ret t e' w' => Some (elements t, e_stack e', e_gas_left e', balance (get_account (st w') 0x300),
                         bool_decide (is_Some (main_trie (st w') !! 0x300)))
  | _ => None
  end.
Example C81_nonvacuous :
  shape_ok (ex_call 3) /\ e_running (ex_call 3) = true /\
  call_operands CALL (e_stack (ex_call 3)) = Some (ex_call_args 3, [5]) /\
  ex_call_prices CALL 3 = [34043; 34703; 34703; 34703; 36603; 36603] /\
  ex_call_prices CALL 0 = [25043; 25703; 703; 703; 2603; 2603] /\
  ex_call_prices CALLCODE 3 = [9043; 9703; 9703; 9703; 11603; 11603] /\
  ~ pow_call_halts Frontier CALL (ex_call 3) ex_frame_world /\
  ~ call_refused (ex_call_args 3) (ex_call 3) ex_frame_world /\
  pow_call_halts Frontier CALL (ex_frame [50000; 0x300; 3; 0; 32; 0; 64; 5] 50000) ex_frame_world /\
  ~ pow_call_halts Berlin CALL (ex_frame [50000; 0x300; 3; 0; 32; 0; 64; 5] 50000) ex_frame_world /\
  call_refused (ex_call_args 51) (ex_call 51) ex_frame_world /\
  ex_call_run Frontier CALL (ex_call 3) = Some ([], [1; 5], 18257, 3, true) /\
  ex_call_run Byzantium CALL (ex_call 0) = Some ([0x300], [1; 5], 49297, 0, true) /\
  ex_call_run Berlin CALL (ex_call 51) = Some ([], [0; 5], 15697, 0, false).
Proof.
  split; [apply ex_frame_ok; [repeat constructor|done|cbn; lia]|].
  split_and!; try by vm_compute.
  - intros [H|(_ & H & _)]; by vm_compute in H.
  - intros [H|H]; vm_compute in H; [by apply H|done].
  - left. by vm_compute.
  - intros [H|(_ & H & _)]; by vm_compute in H.
  - right. by vm_compute.
Qed.
(** CREATE of the first 32 bytes of memory with 7 wei. *)
Definition ex_pow_create : evm := ex_frame [7; 0; 32; 5] 100000.
Definition ex_pow_create_args : create_args := CreateArgs 7 (0, 32) None.
Example C82_nonvacuous :
  shape_ok ex_pow_create /\
  create_operands CREATE (e_stack ex_pow_create) = Some (ex_pow_create_args, [5]) /\
  pow_create_price ex_pow_create_args ex_pow_create = 32000 /\
  ~ pow_create_halts CREATE ex_pow_create /\
  ~ create_refused ex_pow_create_args ex_pow_create ex_frame_world /\
  ~ pow_create_halts CREATE (ex_frame [7; 0; 49184; 5] 1000000) /\
  map (fun n => m_gas (pow_child_create toy_crypto n ex_pow_create_args ex_pow_create ex_frame_world))
    [Frontier; Homestead; TangerineWhistle] = [68000; 68000; 66938] /\
  match pow_op toy_crypto Frontier ex_pow_env toy_tx ∅
          (pow_process_message toy_crypto Frontier ex_pow_env toy_tx)
          (pow_process_create_message toy_crypto Frontier ex_pow_env toy_tx)
          CREATE ex_pow_create ex_frame_world with
  | Ret _ e' w' =>
      let a := new_address toy_crypto ex_pow_create_args ex_pow_create ex_frame_world in
      e_stack e' = [a; 5] /\ balance (get_account (st w') a) = 7 /\
      nonce (get_account (st w') a) = 0 /\ nonce (get_account (st w') 0x200) = 2 /\
      e_gas_left e' = 68000
  | _ => False
  end.
Proof.
  split; [apply ex_frame_ok; [repeat constructor|done|cbn; lia]|].
  split_and!; try by vm_compute.
  - intros [H|H]; by vm_compute in H.
  - intros [H|[H|H]]; vm_compute in H; [done|done|by apply H].
  - intros [H|H]; by vm_compute in H.
Qed.

Definition PropPowCalls_theorems :=
  (@C81_fails, @C81_refused, @C81_runs, @C82_fails, @C82_refused, @C82_runs).
Print Assumptions PropPowCalls_theorems.
