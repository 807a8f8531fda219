(** * PropCalls: C51 (message calls) and C52 (contract creation).

    What CALL, CALLCODE, DELEGATECALL, STATICCALL, CREATE and CREATE2 cost,
    when they fail, which message they send, and the frame that resumes.  The
    theorems hold for every function [pm]/[pcm] in the place of the child
    execution, so they also say that the child is started exactly once, with
    exactly this message and in exactly this world. *)
From Verif Require Import Base State Rlp Vm Instructions StateSpec StateProofs
  NumericProofs ArithProofs PropArith EvmStep EvmLocal EvmPlan EvmPlanProofs EvmCallProofs
  Precompiles Interpreter InstrSpec InstrProofs EvmExamples PropInstr.
From Coq Require Import ZifyBool ZifyN ZifyNat.
Ltac Zify.zify_post_hook ::= idtac.

(** ** Reference: calls *)

(** The operands of a call: gas asked for, address, value sent with it, and
    the memory ranges of the input and of the output. *)
Record call_args := CallArgs {
  ca_gas : N; ca_address : address; ca_value : N; ca_in : N * N; ca_out : N * N }.
Definition call_operands (o : op) (stk : list N) : option (call_args * list N) :=
  match o, stk with
  | (CALL | CALLCODE), g :: a :: v :: i :: n :: p :: m :: rest =>
      Some (CallArgs g (address_of a) v (i, n) (p, m), rest)
  | (DELEGATECALL | STATICCALL), g :: a :: i :: n :: p :: m :: rest =>
      Some (CallArgs g (address_of a) 0 (i, n) (p, m), rest)
  | _, _ => None
  end.
Definition is_call (o : op) : bool :=
  match o with CALL | CALLCODE | DELEGATECALL | STATICCALL => true | _ => false end.

(** EIP-7702: an account whose code is [0xef0100 ++ address] runs the code of
    that address. *)
Definition designated (c : bytes) : option address :=
  match c with
  | Byte.xef :: Byte.x01 :: Byte.x00 :: a => if lenN a =? 20 then Some (from_be_bytes a) else None
  | _ => None
  end.
(** Only since Prague. *)
Definition delegate (f : pos_fork) (w : world) (a : address) : option address :=
  if at_least Prague f then designated (code (get_account (st w) a)) else None.
(** The account whose code runs. *)
Definition code_source (f : pos_fork) (w : world) (a : address) : address :=
  default a (delegate f w a).

(** Everything but the gas given to the child. *)
Definition call_price (f : pos_fork) (o : op) (c : call_args) (e : evm) (w : world) : N :=
  let a := ca_address c in
  account_price e a
  + (match delegate f w a with
     | Some b => if decide (b = a \/ b ∈ e_accessed_addresses e) then 100 else 2600
     | None => 0
     end)
  + (if ca_value c =? 0 then 0 else 9000)
  + (match o with
     | CALL => if negb (ca_value c =? 0) && dead w a then 25000 else 0
     | _ => 0
     end)
  + growth (lenN (e_memory e)) [ca_in c; ca_out c].
(** EIP-150: at most all but one 64th of the rest. *)
Definition call_given (f : pos_fork) (o : op) (c : call_args) (e : evm) (w : world) : N :=
  let rest := e_gas_left e - call_price f o c e w in N.min (ca_gas c) (rest - rest / 64).
Definition stipend (c : call_args) : N := if ca_value c =? 0 then 0 else 2300.

(** The frame stops. *)
Definition call_halts (f : pos_fork) (o : op) (e : evm) (w : world) : Prop :=
  match call_operands o (e_stack e) with
  | None => True
  | Some (c, _) =>
      e_gas_left e < call_price f o c e w \/
      (o = CALL /\ m_is_static (e_message e) = true /\ ca_value c <> 0)
  end.
(** No child is started and the call reports failure. *)
Definition call_refused (c : call_args) (e : evm) (w : world) : Prop :=
  1024 <= m_depth (e_message e) \/ balance (get_account (st w) (self e)) < ca_value c.

Definition call_memory (c : call_args) (e : evm) : bytes :=
  e_memory e ++ zeros (grown (lenN (e_memory e)) [ca_in c; ca_out c] - lenN (e_memory e)).
Definition call_warm (f : pos_fork) (c : call_args) (e : evm) (w : world) : gset address :=
  {[ ca_address c; code_source f w (ca_address c) ]} ∪ e_accessed_addresses e.

Definition child_call (f : pos_fork) (o : op) (c : call_args) (e : evm) (w : world) : message :=
  let target := match o with CALL | STATICCALL => ca_address c | _ => self e end in {|
    m_caller := match o with DELEGATECALL => m_caller (e_message e) | _ => self e end;
    m_target := Some target;
    m_current_target := target;
    m_gas := call_given f o c e w + stipend c;
    m_value := match o with DELEGATECALL => m_value (e_message e) | _ => ca_value c end;
    m_data := takeN (snd (ca_in c)) (dropN (fst (ca_in c)) (call_memory c e));
    m_code_address := Some (code_source f w (ca_address c));
    m_code := code (get_account (st w) (code_source f w (ca_address c)));
    m_depth := m_depth (e_message e) + 1;
    m_should_transfer_value := match o with DELEGATECALL => false | _ => true end;
    m_is_static := match o with STATICCALL => true | _ => m_is_static (e_message e) end;
    m_accessed_addresses := call_warm f c e w;
    m_accessed_storage_keys := e_accessed_storage_keys e;
    m_disable_precompiles :=
      match delegate f w (ca_address c) with Some _ => true | None => false end |}.

(** The calling frame afterwards: nothing of a failed child is kept except
    its remaining gas and its output. *)
Definition resumed (e : evm) (mem : bytes) (rest : list N) (gas v : N) (rd : bytes)
    (aa : gset address) (child : option evm) : evm :=
  {| e_pc := e_pc e + 1; e_stack := v :: rest; e_memory := mem; e_code := e_code e;
     e_gas_left := gas; e_valid_jump_destinations := e_valid_jump_destinations e;
     e_logs := e_logs e ++ match child with Some c => e_logs c | None => [] end;
     e_refund_counter := (e_refund_counter e +
       match child with Some c => e_refund_counter c | None => 0 end)%Z;
     e_running := true; e_message := e_message e; e_output := e_output e;
     e_accounts_to_delete := e_accounts_to_delete e ∪
       match child with Some c => e_accounts_to_delete c | None => ∅ end;
     e_return_data := rd; e_error := e_error e;
     e_accessed_addresses := aa ∪
       match child with Some c => e_accessed_addresses c | None => ∅ end;
     e_accessed_storage_keys := e_accessed_storage_keys e ∪
       match child with Some c => e_accessed_storage_keys c | None => ∅ end |}.
Definition after_call (f : pos_fork) (o : op) (c : call_args) (rest : list N) (e : evm) (w : world)
    (child : evm) : evm :=
  let out := e_output child in
  resumed e
    (splice (call_memory c e) (fst (ca_out c)) (takeN (N.min (snd (ca_out c)) (lenN out)) out))
    rest
    (e_gas_left e - call_price f o c e w - call_given f o c e w + e_gas_left child)
    (match e_error child with Some _ => 0 | None => 1 end)
    out (call_warm f c e w)
    (match e_error child with Some _ => None | None => Some child end).
Definition after_refusal (f : pos_fork) (o : op) (c : call_args) (rest : list N) (e : evm) (w : world) : evm :=
  resumed e (call_memory c e) rest (e_gas_left e - call_price f o c e w + stipend c) 0 []
    (call_warm f c e w) None.

Lemma designated_spec c :
  (if is_valid_delegation c then Some (from_be_bytes (dropN 3 c)) else None) = designated c.
Proof.
  unfold is_valid_delegation, EOA_DELEGATED_CODE_LENGTH, EOA_DELEGATION_MARKER,
    EOA_DELEGATION_MARKER_LENGTH.
  destruct (N.eqb_spec (lenN c) 23) as [H|H]; cbn [andb].
  - destruct c as [|x [|y [|z c]]]; try done.
    rewrite takeN_firstn, dropN_skipn. change (N.to_nat 3) with 3%nat. cbn [firstn skipn].
    rewrite !lenN_cons in H.
    unfold designated. rewrite (proj2 (N.eqb_eq (lenN c) 20)) by lia.
    unfold bytes_eqb. case_bool_decide as E.
    + injection E as -> -> ->. done.
    + destruct x; try done; destruct y; try done; destruct z; done.
  - unfold designated. destruct c as [|x [|y [|z c]]]; [done|by destruct x|destruct x; try done; by destruct y|].
    rewrite !lenN_cons in H. rewrite (proj2 (N.eqb_neq (lenN c) 20)) by lia.
    destruct x; try done; destruct y; try done; by destruct z.
Qed.

Lemma access_exact a e w :
  access_address a e w =
    Ret (account_price e a) (set_accessed_addresses ({[ a ]} ∪ e_accessed_addresses e) e) w.
Proof.
  destruct e as [pc stk mem cod gas vjd logs rc rn msg out del rd err aa ak].
  unfold access_address, account_price. norm. destruct (decide (a ∈ aa)); norm; [|done].
  do 2 f_equal. set_solver.
Qed.

(** The delegation step of a call, as price and warm set. *)
Lemma delegation_exact be a e w :
  a ∈ e_accessed_addresses e ->
  access_delegation be a e w =
    Ret (match delegate (b_fork be) w a with Some _ => true | None => false end,
         code_source (b_fork be) w a, code (get_account (st w) (code_source (b_fork be) w a)),
         match delegate (b_fork be) w a with
         | Some b => account_price e b | None => 0 end)
      (set_accessed_addresses ({[ code_source (b_fork be) w a ]} ∪ e_accessed_addresses e) e) w.
Proof.
  intros Ha. unfold access_delegation, code_source, delegate, bind, get_state, ret.
  rewrite <- designated_spec. destruct (at_least Prague (b_fork be)); cbn [andb];
    [destruct (is_valid_delegation _)|]; cbn [negb default].
  - unfold EOA_DELEGATION_MARKER_LENGTH. rewrite access_exact. done.
  - destruct e as [pc stk mem cod gas vjd logs rc rn msg out del rd err aa ak].
    cbn in *. do 2 f_equal. set_solver.
  - destruct e as [pc stk mem cod gas vjd logs rc rn msg out del rd err aa ak].
    cbn in *. do 2 f_equal. set_solver.
Qed.

Lemma call_gas_exact value asked left mem extra :
  extra + mem <= left ->
  calculate_message_call_gas value asked left mem extra =
    (let rest := left - (extra + mem) in N.min asked (rest - rest / 64) + extra,
     let rest := left - (extra + mem) in
     N.min asked (rest - rest / 64) + (if value =? 0 then 0 else 2300)).
Proof.
  intros H. unfold calculate_message_call_gas, max_message_call_gas, GAS_CALL_STIPEND.
  destruct (N.ltb_spec left (extra + mem)); [lia|].
  replace (left - mem - extra) with (left - (extra + mem)) by lia. done.
Qed.

Section Calls.
  Context (cr : crypto) (be : block_env) (te : tx_env)
    (pm pcm : message -> world -> pmres).
  Notation exec := (op_implementation cr be te pm pcm).
  Notation fk := (b_fork be).

  (** The last part of the four instructions: charge, refuse or call. *)
  Definition call_tail (o : op) (c : call_args) (e : evm) (w : world) : M unit :=
    let extra := call_price fk o c e w - growth (lenN (e_memory e)) [ca_in c; ca_out c] in
    let '(cost, sub_call) :=
      calculate_message_call_gas (ca_value c) (ca_gas c) (e_gas_left e)
        (growth (lenN (e_memory e)) [ca_in c; ca_out c]) extra in
    charge_gas (cost + growth (lenN (e_memory e)) [ca_in c; ca_out c]) ;;;
    (if match o with CALL => m_is_static (e_message e) && negb (ca_value c =? 0) | _ => false end
     then raise (EHalt WriteInStaticContext)
     else
      upd (fun e' => set_memory (call_memory c e) e') ;;;
      (if balance (get_account (st w) (self e)) <? ca_value c
       then push 0 ;;; upd (set_return_data []) ;;;
            upd (fun e => set_gas_left (e_gas_left e + sub_call) e)
       else generic_call pm sub_call (m_value (child_call fk o c e w)) (m_caller (child_call fk o c e w))
         (m_current_target (child_call fk o c e w)) (code_source fk w (ca_address c))
         (m_should_transfer_value (child_call fk o c e w))
         match o with STATICCALL => true | _ => false end
         (fst (ca_in c)) (snd (ca_in c)) (fst (ca_out c)) (snd (ca_out c))
         (m_code (child_call fk o c e w)) (m_disable_precompiles (child_call fk o c e w))) ;;;
      pc_add 1).

  Definition call_result (o : op) (c : call_args) (rest : list N) (e : evm) (w : world)
      (r : res unit) : Prop :=
    ((e_gas_left e < call_price fk o c e w \/
      (o = CALL /\ m_is_static (e_message e) = true /\ ca_value c <> 0)) /\
     exists h e', r = Exc (EHalt h) e' w) \/
    (call_price fk o c e w <= e_gas_left e /\
     ~ (o = CALL /\ m_is_static (e_message e) = true /\ ca_value c <> 0) /\
     (call_refused c e w /\ r = Ret tt (after_refusal fk o c rest e w) w \/
      ~ call_refused c e w /\
      match pm (child_call fk o c e w) w with
      | PRet child w' =>
          if lenN (e_output child) <? 2 ^ 256
          then r = Ret tt (after_call fk o c rest e w child) w'
          else exists e', r = Exc (ECrash OverflowError) e' w'
      | PExc x w' => exists e', r = Exc x e' w'
      end)).

  Lemma tail_exact o c rest e w :
    is_call o = true -> lenN rest < 1024 -> lenN (e_memory e) mod 32 = 0 -> e_running e = true ->
    (o = DELEGATECALL \/ o = STATICCALL -> ca_value c = 0) ->
    call_result o c rest e w
      (call_tail o c e w (set_stack rest (set_accessed_addresses (call_warm fk c e w) e)) w).
  Proof.
    intros Ho Hl Hm Hr Hv. unfold call_tail, call_result.
    assert (Hsum : call_price fk o c e w =
      (call_price fk o c e w - growth (lenN (e_memory e)) [ca_in c; ca_out c]) +
      growth (lenN (e_memory e)) [ca_in c; ca_out c]).
    { unfold call_price. lia. }
    set (extra := call_price fk o c e w - growth (lenN (e_memory e)) [ca_in c; ca_out c]) in *.
    set (mg := growth (lenN (e_memory e)) [ca_in c; ca_out c]) in *.
    clearbody extra.
    destruct (N.lt_ge_cases (e_gas_left e) (call_price fk o c e w)) as [Hlt|Hge].
    { left. split; [by left|]. unfold calculate_message_call_gas.
      rewrite (proj2 (N.ltb_lt (e_gas_left e) (extra + mg))) by lia.
      destruct e as [pc stk mem cod gas vjd logs rc rn msg out del rd err aa ak]. norm.
      cbn [e_gas_left] in *.
      rewrite (proj2 (N.ltb_lt gas (ca_gas c + extra + mg))) by lia. eauto. }
    rewrite call_gas_exact by lia.
    assert (Hgiv : N.min (ca_gas c) (e_gas_left e - (extra + mg) - (e_gas_left e - (extra + mg)) / 64)
      = call_given fk o c e w).
    { unfold call_given. by rewrite Hsum. }
    cbv zeta. rewrite Hgiv.
    assert (Hle : call_given fk o c e w <= e_gas_left e - call_price fk o c e w).
    { unfold call_given. lia. }
    destruct (match o with CALL => m_is_static (e_message e) && negb (ca_value c =? 0) | _ => false end) eqn:Est.
    { left. assert (o = CALL /\ m_is_static (e_message e) = true /\ ca_value c <> 0) as Hst.
      { destruct o; try discriminate. apply andb_true_iff in Est as [? Hn].
        apply negb_true_iff, N.eqb_neq in Hn. done. }
      split; [by right|].
      destruct e as [pc stk mem cod gas vjd logs rc rn msg out del rd err aa ak]. norm.
      destruct (_ <? _); eauto. }
    right. split; [done|]. split.
    { intros (-> & Hs & Hn). rewrite Hs in Est. cbn in Est.
      apply negb_false_iff, N.eqb_eq in Est. done. }
    assert (Hcharge : e_gas_left e <? call_given fk o c e w + extra + mg = false)
      by (apply N.ltb_ge; lia).
    assert (Hleft : e_gas_left e - (call_given fk o c e w + extra + mg) =
      e_gas_left e - call_price fk o c e w - call_given fk o c e w) by lia.
    unfold call_refused, after_refusal, after_call.
    set (price := call_price fk o c e w) in *. set (given := call_given fk o c e w) in *.
    set (warm := call_warm fk c e w) in *.
    destruct (N.ltb_spec (balance (get_account (st w) (self e))) (ca_value c)) as [Hb|Hb].
    { left. split; [by right|].
      destruct e as [pc stk mem cod gas vjd logs rc rn msg out del rd err aa ak]. norm.
      cbn [e_gas_left e_running] in *. subst rn. rewrite Hcharge. norm.
      rewrite (proj2 (N.eqb_neq (lenN rest) 1024)) by lia. norm.
      unfold resumed. norm. f_equal. rewrite app_nil_r, !Z.add_0_r, !(right_id_L ∅ (∪)).
      f_equal. rewrite Hleft. unfold stipend. lia. }
    destruct (N.lt_ge_cases 1024 (m_depth (e_message e) + 1)) as [Hd|Hd].
    { left. split; [left; lia|].
      destruct e as [pc stk mem cod gas vjd logs rc rn msg out del rd err aa ak].
      cbv beta iota delta [bind charge_gas upd set_stack set_accessed_addresses set_gas_left set_memory
        e_pc e_stack e_memory e_code e_gas_left e_valid_jump_destinations e_logs
        e_refund_counter e_running e_message e_output e_accounts_to_delete e_return_data
        e_error e_accessed_addresses e_accessed_storage_keys] in *.
      subst rn. rewrite Hcharge. cbv beta iota.
      rewrite generic_call_deep by done. norm.
      unfold resumed. norm. f_equal. rewrite app_nil_r, !Z.add_0_r, !(right_id_L ∅ (∪)).
      f_equal. rewrite Hleft. unfold stipend. lia. }
    right. split; [intros [?|?]; lia|].
    set (e1 := set_memory (call_memory c e) (set_gas_left (e_gas_left e - price - given)
      (set_stack rest (set_accessed_addresses warm e)))).
    set (r := bind _ _ _ _).
    assert (Hr' : r = interp pm pm (PL_call (child_call fk o c e w) (set_return_data [] e1)
      (fst (ca_out c)) (snd (ca_out c))) w).
    { unfold r. clear r.
      assert (Hmsg : call_message (given + (if ca_value c =? 0 then 0 else 2300))
        (m_value (child_call fk o c e w)) (m_caller (child_call fk o c e w))
        (m_current_target (child_call fk o c e w)) (code_source fk w (ca_address c))
        (m_should_transfer_value (child_call fk o c e w)) match o with STATICCALL => true | _ => false end
        (fst (ca_in c)) (snd (ca_in c))
        (m_code (child_call fk o c e w)) (m_disable_precompiles (child_call fk o c e w)) e1
        = child_call fk o c e w).
      { unfold call_message, child_call. cbv zeta. f_equal.
        all: unfold e1; destruct e as [pc stk mem cod gas vjd logs rc rn msg out del rd err aa ak];
          try reflexivity.
        - apply read_window.
        - by destruct o. }
      assert (He1 : e_stack e1 = rest /\ e_message e1 = e_message e).
      { unfold e1. by destruct e. }
      rewrite <- Hmsg, <- generic_call_eq;
        [|destruct He1 as [-> _]; done|destruct He1 as [_ ->]; done].
      unfold e1. rewrite <- Hleft.
      cbv beta iota delta [bind charge_gas upd].
      assert (Hgl : e_gas_left (set_stack rest (set_accessed_addresses warm e)) = e_gas_left e)
        by (by destruct e).
      rewrite Hgl.
      rewrite Hcharge. cbv beta iota. reflexivity. }
    rewrite Hr'. cbn [interp]. destruct (pm (child_call fk o c e w) w) as [child w'|x w']; [|by eexists].
    unfold resume_call. destruct (N.ltb_spec (lenN (e_output child)) (2 ^ 256)) as [Hlen|Hlen].
    - rewrite to_u256_ok by done.
      destruct e as [pc stk mem cod gas vjd logs rc rn msg out del rd err aa ak].
      cbn [e_running] in Hr. subst rn.
      unfold child_return, incorporate_child_on_error, incorporate_child_on_success, resumed.
      rewrite <- write_splice.
      destruct child as [? ? ? ? ? ? ? ? ? ? ? ? ? err' ? ?]. unfold e1.
      norm. destruct err'; norm;
        rewrite ?app_nil_r, ?Z.add_0_r, ?(right_id_L ∅ (∪)); reflexivity.
    - destruct (to_u256 (lenN (e_output child))) as [v|x] eqn:Eu.
      + apply to_u256_inv in Eu as [_ Eu]. lia.
      + apply to_u256_raise in Eu as [-> _]. by eexists.
  Qed.

  Lemma warm_price a b e :
    account_price (set_accessed_addresses ({[ a ]} ∪ e_accessed_addresses e) e) b =
    if decide (b = a \/ b ∈ e_accessed_addresses e) then 100 else 2600.
  Proof.
    destruct e as [pc stk mem cod gas vjd logs rc rn msg out del rd err aa ak].
    unfold account_price. cbn. repeat case_decide; set_solver.
  Qed.

  Ltac unpop := cbv beta iota zeta delta [bind pop get_evm get_state set_stack e_pc e_stack e_memory e_code
    e_gas_left e_valid_jump_destinations e_logs e_refund_counter e_running e_message e_output
    e_accounts_to_delete e_return_data e_error e_accessed_addresses e_accessed_storage_keys
    set_accessed_addresses].
  Lemma call_op_tail o e w c rest :
    is_call o = true -> call_operands o (e_stack e) = Some (c, rest) ->
    lenN (e_memory e) mod 32 = 0 ->
    exec o e w = call_tail o c e w (set_stack rest (set_accessed_addresses (call_warm fk c e w) e)) w.
  Proof.
    intros Ho Hc Hm.
    assert (Hp : call_price fk o c e w - growth (lenN (e_memory e)) [ca_in c; ca_out c] =
      account_price e (ca_address c)
      + (match delegate fk w (ca_address c) with
         | Some b => account_price (set_accessed_addresses ({[ ca_address c ]} ∪ e_accessed_addresses e) e) b
         | None => 0
         end)
      + (match o with
         | CALL => if negb (ca_value c =? 0) && dead w (ca_address c) then 25000 else 0
         | _ => 0
         end)
      + (if ca_value c =? 0 then 0 else 9000)).
    { unfold call_price. destruct (delegate _ _ _) as [b|]; [rewrite warm_price|]; lia. }
    unfold call_tail. rewrite Hp. clear Hp.
    destruct e as [pc stk mem cod gas vjd logs rc rn msg out del rd err aa ak].
    cbn [e_stack e_memory] in Hc, Hm.
    destruct o; try discriminate Ho; cbn [op_implementation];
    do 6 (destruct stk as [|? stk]; [discriminate Hc|]);
    try (destruct stk as [|? stk]; [discriminate Hc|]);
    injection Hc as <- <-; cbn [ca_gas ca_address ca_value ca_in ca_out fst snd].
    all: unfold op_call, op_callcode, op_delegatecall, op_staticcall, to_address_masked; unpop;
      rewrite extend_exact by done; fold (address_of n0);
      rewrite access_exact; unpop;
      rewrite delegation_exact by set_solver; unpop.
    all: unfold account_price, child_call, call_memory, call_warm, self; norm.
    all: cbn [ca_gas ca_address ca_value ca_in ca_out fst snd m_caller m_value
      m_current_target m_code m_should_transfer_value m_disable_precompiles].
    all: replace ({[address_of n0; code_source fk w (address_of n0)]} ∪ aa)
      with ({[code_source fk w (address_of n0)]} ∪ ({[address_of n0]} ∪ aa)) by set_solver.
    all: rewrite ?alive_dead.
    - replace (if (n1 =? 0) || negb (dead w (address_of n0)) then 0 else 25000)
        with (if negb (n1 =? 0) && dead w (address_of n0) then 25000 else 0)
        by (by destruct (n1 =? 0), (dead w (address_of n0))).
      destruct (calculate_message_call_gas _ _ _ _ _) as [cost sub].
      norm. destruct (_ <? _); [reflexivity|]. norm.
      destruct (_ && _); [reflexivity|]. norm. destruct (_ <? _); [reflexivity|].
      reflexivity.
    - rewrite !N.add_0_r.
      destruct (calculate_message_call_gas _ _ _ _ _) as [cost sub].
      norm. destruct (_ <? _); [reflexivity|]. norm. destruct (_ <? _); [reflexivity|].
      reflexivity.
    - change (0 =? 0) with true. cbv beta iota. rewrite !N.add_0_r.
      rewrite (proj2 (N.ltb_ge _ 0) (N.le_0_l _)).
      destruct (calculate_message_call_gas _ _ _ _ _) as [cost sub].
      norm. destruct (_ <? _); [reflexivity|]. norm. reflexivity.
    - change (0 =? 0) with true. cbv beta iota. rewrite !N.add_0_r.
      rewrite (proj2 (N.ltb_ge _ 0) (N.le_0_l _)).
      destruct (calculate_message_call_gas _ _ _ _ _) as [cost sub].
      norm. destruct (_ <? _); [reflexivity|]. norm. reflexivity.
  Qed.

  Lemma call_operands_inv o stk c rest :
    call_operands o stk = Some (c, rest) ->
    lenN rest + 6 <= lenN stk /\ (o = DELEGATECALL \/ o = STATICCALL -> ca_value c = 0).
  Proof.
    unfold lenN. intros H. destruct o; try discriminate H;
    do 6 (destruct stk as [|? stk]; [discriminate H|]);
    try (destruct stk as [|? stk]; [discriminate H|]);
    injection H as <- <-; cbn; (split; [lia|]); intros [?|?]; done.
  Qed.

  Lemma call_exact o e w c rest :
    is_call o = true -> call_operands o (e_stack e) = Some (c, rest) ->
    shape_ok e -> e_running e = true ->
    call_result o c rest e w (exec o e w).
  Proof.
    intros Ho Hc [Hs Hm] Hr. rewrite (call_op_tail o e w c rest) by done.
    destruct (call_operands_inv _ _ _ _ Hc).
    apply tail_exact; [done| |done|done|done]. lia.
  Qed.

  Lemma call_underflow o e w :
    is_call o = true -> call_operands o (e_stack e) = None ->
    exists h e', exec o e w = Exc (EHalt h) e' w.
  Proof.
    intros Ho Hc. destruct e as [pc stk mem cod gas vjd logs rc rn msg out del rd err aa ak].
    cbn [e_stack] in Hc.
    destruct o; try discriminate Ho; cbn [op_implementation];
    unfold op_call, op_callcode, op_delegatecall, op_staticcall, to_address_masked.
    all: repeat (destruct stk as [|? stk];
      [cbv beta iota zeta delta [bind pop set_stack e_pc e_stack e_memory e_code
        e_gas_left e_valid_jump_destinations e_logs e_refund_counter e_running e_message e_output
        e_accounts_to_delete e_return_data e_error e_accessed_addresses e_accessed_storage_keys raise];
       by eauto|try discriminate Hc]).
  Qed.

  (** ** C51 *)

  (** A call stops the frame, without starting a child and without effect on
      the world, if an operand is missing, the price is not covered, or ether
      would be sent from a static frame. *)
  Theorem C51_fails : forall o e w,
    is_call o = true -> shape_ok e -> e_running e = true ->
    call_halts fk o e w -> exists h e', exec o e w = Exc (EHalt h) e' w.
  Proof.
    intros o e w Ho Hs Hr Hh. unfold call_halts in Hh.
    destruct (call_operands o (e_stack e)) as [[c rest]|] eqn:Hc; [|by apply call_underflow].
    destruct (call_exact o e w c rest Ho Hc Hs Hr) as [[_ H]|(H1 & H2 & _)]; [done|].
    destruct Hh as [Hh|Hh]; [lia|done].
  Qed.

  (** It reports failure without starting a child at depth 1024 or if the
      balance is below the value; all the gas intended for the child comes
      back. *)
  Theorem C51_refused : forall o e w c rest,
    is_call o = true -> shape_ok e -> e_running e = true ->
    call_operands o (e_stack e) = Some (c, rest) ->
    ~ call_halts fk o e w -> call_refused c e w ->
    exec o e w = Ret tt (after_refusal fk o c rest e w) w.
  Proof.
    intros o e w c rest Ho Hs Hr Hc Hn Href. unfold call_halts in Hn. rewrite Hc in Hn.
    destruct (call_exact o e w c rest Ho Hc Hs Hr) as [[H _]|(_ & _ & [[_ H]|[H _]])]; done.
  Qed.

  (** In every other case it runs the child on the specified message and
      resumes in the specified frame. *)
  Theorem C51_runs : forall o e w c rest,
    is_call o = true -> shape_ok e -> e_running e = true ->
    call_operands o (e_stack e) = Some (c, rest) ->
    ~ call_halts fk o e w -> ~ call_refused c e w ->
    match pm (child_call fk o c e w) w with
    | PRet child w' => lenN (e_output child) < 2 ^ 256 ->
        exec o e w = Ret tt (after_call fk o c rest e w child) w'
    | PExc x w' => exists e', exec o e w = Exc x e' w'
    end.
  Proof.
    intros o e w c rest Ho Hs Hr Hc Hn Href. unfold call_halts in Hn. rewrite Hc in Hn.
    destruct (call_exact o e w c rest Ho Hc Hs Hr) as [[H _]|(_ & _ & [[H _]|[_ H]])]; try done.
    destruct (pm _ w) as [child w'|x w']; [|done]. intros Hl.
    by rewrite (proj2 (N.ltb_lt _ _) Hl) in H.
  Qed.
End Calls.

(** ** Reference: creation *)

(** Value, memory range of the init code, salt of CREATE2. *)
Record create_args := CreateArgs { cc_value : N; cc_code : N * N; cc_salt : option N }.
Definition create_operands (o : op) (stk : list N) : option (create_args * list N) :=
  match o, stk with
  | CREATE, v :: p :: n :: rest => Some (CreateArgs v (p, n) None, rest)
  | CREATE2, v :: p :: n :: salt :: rest => Some (CreateArgs v (p, n) (Some salt), rest)
  | _, _ => None
  end.
Definition is_create (o : op) : bool := match o with CREATE | CREATE2 => true | _ => false end.

(** 2 gas per word of init code since Shanghai (EIP-3860), and 6 more to hash
    it. *)
Definition create_price (f : pos_fork) (c : create_args) (e : evm) : N :=
  32000 + (if at_least Shanghai f then 2 * words (snd (cc_code c)) else 0)
  + match cc_salt c with Some _ => 6 * words (snd (cc_code c)) | None => 0 end
  + growth (lenN (e_memory e)) [cc_code c].
Definition create_halts (f : pos_fork) (o : op) (e : evm) : Prop :=
  match create_operands o (e_stack e) with
  | None => True
  | Some (c, _) =>
      e_gas_left e < create_price f c e \/
      (at_least Shanghai f = true /\ 49152 < snd (cc_code c)) \/
      m_is_static (e_message e) = true
  end.
Definition create_refused (c : create_args) (e : evm) (w : world) : Prop :=
  let me := get_account (st w) (self e) in
  balance me < cc_value c \/ nonce me = 2 ^ 64 - 1 \/ 1024 <= m_depth (e_message e).
Definition occupied (w : world) (a : address) : Prop :=
  nonce (get_account (st w) a) <> 0 \/ code (get_account (st w) a) <> [] \/
  account_has_storage (st w) a = true.

Definition create_memory (c : create_args) (e : evm) : bytes :=
  e_memory e ++ zeros (grown (lenN (e_memory e)) [cc_code c] - lenN (e_memory e)).
Definition init_code (c : create_args) (e : evm) : bytes :=
  takeN (snd (cc_code c)) (dropN (fst (cc_code c)) (create_memory c e)).
(** The last 20 bytes of a hash. *)
Definition low20 (h : bytes) : address := from_be_bytes (dropN (lenN h - 20) h).
Definition new_address (cr : crypto) (c : create_args) (e : evm) (w : world) : address :=
  low20 (keccak256 cr
    match cc_salt c with
    | None => encode (RList [RBytes (to_be_bytes20 (self e));
                             RBytes (to_be_bytes (nonce (get_account (st w) (self e))))])
    | Some salt => Byte.xff :: to_be_bytes20 (self e) ++ to_be_bytes32 salt
                     ++ keccak256 cr (init_code c e)
    end).

(** Gas kept by the creator: one 64th. *)
Definition create_kept (f : pos_fork) (c : create_args) (e : evm) : N := (e_gas_left e - create_price f c e) / 64.
Definition child_create (f : pos_fork) (cr : crypto) (c : create_args) (e : evm) (w : world) : message := {|
  m_caller := self e;
  m_target := None;
  m_current_target := new_address cr c e w;
  m_gas := e_gas_left e - create_price f c e - create_kept f c e;
  m_value := cc_value c;
  m_data := [];
  m_code_address := None;
  m_code := init_code c e;
  m_depth := m_depth (e_message e) + 1;
  m_should_transfer_value := true;
  m_is_static := false;
  m_accessed_addresses := {[ new_address cr c e w ]} ∪ e_accessed_addresses e;
  m_accessed_storage_keys := e_accessed_storage_keys e;
  m_disable_precompiles := false |}.
(** The same world with the nonce of [a] one higher. *)
Definition nonce_bumped (w : world) (a : address) (w' : world) : Prop :=
  ts w' = ts w /\ storage_tries (st w') = storage_tries (st w) /\
  snapshots (st w') = snapshots (st w) /\ created_accounts (st w') = created_accounts (st w) /\
  forall b, get_account (st w') b =
    let acc := get_account (st w) b in
    if decide (b = a) then Account (nonce acc + 1) (balance acc) (code acc) else acc.

Definition create_refusal (f : pos_fork) (c : create_args) (rest : list N) (e : evm) : evm :=
  resumed e (create_memory c e) rest (e_gas_left e - create_price f c e) 0 []
    (e_accessed_addresses e) None.
Definition create_collision (f : pos_fork) (cr : crypto) (c : create_args) (rest : list N) (e : evm) (w : world) : evm :=
  resumed e (create_memory c e) rest (create_kept f c e) 0 []
    ({[ new_address cr c e w ]} ∪ e_accessed_addresses e) None.
Definition after_create (f : pos_fork) (cr : crypto) (c : create_args) (rest : list N) (e : evm) (w : world)
    (child : evm) : evm :=
  resumed e (create_memory c e) rest (create_kept f c e + e_gas_left child)
    (match e_error child with Some _ => 0 | None => m_current_target (e_message child) end)
    (match e_error child with Some _ => e_output child | None => [] end)
    ({[ new_address cr c e w ]} ∪ e_accessed_addresses e)
    (match e_error child with Some _ => None | None => Some child end).

Lemma init_code_len c e : lenN (e_memory e) mod 32 = 0 ->
  lenN (init_code c e) = snd (cc_code c).
Proof.
  intros Hm. destruct c as [v [p n] s]. unfold init_code, create_memory.
  cbn [cc_code fst snd grown]. rewrite lenN_takeN, lenN_dropN, lenN_app, lenN_zeros.
  destruct (N.eqb_spec n 0) as [->|Hn]; [lia|].
  assert (p + n <= 32 * words (p + n)).
  { unfold words. pose proof (N.div_mod (p + n + 31) 32). pose proof (N.mod_lt (p + n + 31) 32). lia. }
  lia.
Qed.

Lemma bumped_ok w a : exists s1, increment_nonce (st w) a = Ok s1 /\ nonce_bumped w a (set_st s1 w).
Proof.
  destruct (increment_nonce (st w) a) as [s1|x] eqn:E; [|discriminate E].
  exists s1. split; [done|].
  pose proof (modify_state_get _ _ _ _ _ E eq_refl) as Hg.
  unfold increment_nonce in E. apply modify_state_inv in E as (acc & [= <-] & [[Hne ->]|[Hbad ->]]).
  - split; [done|]. split; [done|]. split; [done|]. split; [done|]. cbn -[get_account].
    intros b. rewrite Hg. repeat case_decide; try done; by subst.
  - exfalso. injection Hbad as Hbad. lia.
Qed.

Section Creates.
  Context (cr : crypto) (be : block_env) (te : tx_env)
    (pm pcm : message -> world -> pmres).
  Notation exec := (op_implementation cr be te pm pcm).
  Notation fk := (b_fork be).

  Definition create_result (o : op) (c : create_args) (rest : list N) (e : evm) (w : world)
      (r : res unit) : Prop :=
    ((e_gas_left e < create_price fk c e \/
      (at_least Shanghai fk = true /\ 49152 < snd (cc_code c)) \/
      m_is_static (e_message e) = true) /\
     exists h e', r = Exc (EHalt h) e' w) \/
    (create_price fk c e <= e_gas_left e /\
     (at_least Shanghai fk = true -> snd (cc_code c) <= 49152) /\
     m_is_static (e_message e) = false /\
     (create_refused c e w /\ r = Ret tt (create_refusal fk c rest e) w \/
      ~ create_refused c e w /\
      exists w1, nonce_bumped w (self e) w1 /\
       (occupied w (new_address cr c e w) /\
        r = Ret tt (create_collision fk cr c rest e w) w1 \/
        ~ occupied w (new_address cr c e w) /\
        match pcm (child_create fk cr c e w) w1 with
        | PRet child w' =>
            match e_error child with
            | None => m_current_target (e_message child) < 2 ^ 256 ->
                r = Ret tt (after_create fk cr c rest e w child) w'
            | Some _ => r = Ret tt (after_create fk cr c rest e w child) w'
            end
        | PExc x w' => exists e', r = Exc x e' w'
        end))).

  Lemma occupied_spec w a :
    account_has_code_or_nonce (st w) a || account_has_storage (st w) a = true <-> occupied w a.
  Proof.
    unfold occupied, account_has_code_or_nonce.
    destruct (get_account (st w) a) as [n b [|x c]]; cbn;
      destruct (N.eqb_spec n 0), (account_has_storage (st w) a); cbn; split; intros; try done;
      try tauto; try (by right; left); try lia.
  Qed.

  Lemma create_tail_exact o c rest e w :
    is_create o = true -> lenN rest < 1024 -> lenN (e_memory e) mod 32 = 0 -> e_running e = true ->
    create_result o c rest e w
      (bind (charge_gas (create_price fk c e)) (fun _ =>
       bind (upd (fun e' => set_memory (create_memory c e) e')) (fun _ =>
       bind (generic_create be pcm (cc_value c) (new_address cr c e w) (fst (cc_code c)) (snd (cc_code c)))
         (fun _ => pc_add 1))) (set_stack rest e) w).
  Proof.
    intros Ho Hl Hm Hr. unfold create_result.
    pose proof (init_code_len c e Hm) as Hlen. unfold init_code in Hlen.
    pose proof (occupied_spec w (new_address cr c e w)) as Hocc.
    destruct (bumped_ok w (self e)) as (s1 & Es & Hs1).
    unfold create_refusal, create_collision, after_create, child_create, create_kept, resumed, create_refused, init_code.
    set (price := create_price fk c e) in *. set (mem' := create_memory c e) in *.
    set (addr := new_address cr c e w) in *. clearbody price mem' addr.
    destruct e as [pc stk mem cod gas vjd logs rc rn msg out del rd err aa ak].
    cbn [e_running e_memory] in *. subst rn. unfold self in *. cbn [e_message] in Es, Hs1. unfold generic_create.
    norm.
    destruct (N.ltb_spec gas price) as [Hg|Hg]; [left; split; [by left|by eauto]|]. norm.
    rewrite read_window, Hlen.
    unfold MAX_INIT_CODE_SIZE, MAX_CODE_SIZE, STACK_DEPTH_LIMIT. change (2 * 24576) with 49152.
    destruct (at_least Shanghai (b_fork be) && (49152 <? snd (cc_code c))) eqn:Hsize.
    { apply andb_true_iff in Hsize as [? ?%N.ltb_lt]. left. split; [by right; left|by eauto]. }
    assert (Hn : at_least Shanghai (b_fork be) = true -> snd (cc_code c) <= 49152).
    { intros Hsh. rewrite Hsh in Hsize. by apply N.ltb_ge in Hsize. }
    destruct (m_is_static msg) eqn:Est; [left; split; [by right; right|by eauto]|].
    right. split; [done|]. split; [done|]. split; [done|].
    assert (Hk : gas - price - max_message_call_gas (gas - price) = (gas - price) / 64).
    { unfold max_message_call_gas. pose proof (N.div_le_upper_bound (gas - price) 64 (gas - price)). lia. }
    assert (Hmax : max_message_call_gas (gas - price) = gas - price - (gas - price) / 64) by done.
    assert (Hstk : (lenN rest =? 1024) = false) by (apply N.eqb_neq; lia).
    destruct ((balance (get_account (st w) (m_current_target msg)) <? cc_value c)
      || (nonce (get_account (st w) (m_current_target msg)) =? 2 ^ 64 - 1)
      || (1024 <? m_depth msg + 1)) eqn:Eref.
    { left. split.
      { rewrite !orb_true_iff in Eref. rewrite !N.ltb_lt, N.eqb_eq in Eref.
        destruct Eref as [[?|?]|?]; [by left|by right; left|right; right; lia]. }
      norm. rewrite Hstk. norm. f_equal.
      rewrite app_nil_r, !Z.add_0_r, !(right_id_L ∅ (∪)). f_equal.
      rewrite Hk. pose proof (N.div_le_upper_bound (gas - price) 64 (gas - price)). lia. }
    right. split.
    { rewrite !orb_false_iff in Eref. rewrite !N.ltb_ge, N.eqb_neq in Eref.
      destruct Eref as [[? ?] ?]. intros [?|[?|?]]; [lia|done|lia]. }
    exists (set_st s1 w). split; [exact Hs1|].
    destruct (account_has_code_or_nonce (st w) addr || account_has_storage (st w) addr) eqn:Eocc.
    - left. split; [by apply Hocc|]. norm. rewrite Es. norm. rewrite Hstk. norm. f_equal.
      rewrite app_nil_r, !Z.add_0_r, !(right_id_L ∅ (∪)). by rewrite Hk.
    - right. split; [intros Hx; apply Hocc in Hx; congruence|].
      norm. rewrite Es. norm. rewrite Hk, Hmax.
      match goal with |- context [pcm ?m ?w] => destruct (pcm m w) as [child w'|y w'] end;
        [|by eauto].
      unfold incorporate_child_on_error, incorporate_child_on_success.
      destruct child as [? ? ? ? ? ? ? ? ? cmsg ? ? ? err' ? ?]. norm. destruct err'; norm.
      + rewrite Hstk. norm. rewrite app_nil_r, !Z.add_0_r, !(right_id_L ∅ (∪)). reflexivity.
      + intros Hlt. rewrite to_u256_ok by done. norm. rewrite Hstk. norm. reflexivity.
  Qed.

  Lemma create_op_tail o e w c rest :
    create_operands o (e_stack e) = Some (c, rest) -> lenN (e_memory e) mod 32 = 0 ->
    exec o e w =
      bind (charge_gas (create_price fk c e)) (fun _ =>
       bind (upd (fun e' => set_memory (create_memory c e) e')) (fun _ =>
       bind (generic_create be pcm (cc_value c) (new_address cr c e w) (fst (cc_code c)) (snd (cc_code c)))
         (fun _ => pc_add 1))) (set_stack rest e) w.
  Proof.
    intros Hc Hm.
    destruct e as [pc stk mem cod gas vjd logs rc rn msg out del rd err aa ak].
    cbn [e_stack e_memory] in Hc, Hm.
    assert (Hw : forall n, init_code_gas_cost be n = if at_least Shanghai (b_fork be) then 2 * words n else 0).
    { intros n. unfold init_code_gas_cost. destruct (at_least Shanghai (b_fork be)); [|done].
      unfold init_code_cost, GAS_INIT_CODE_WORD_COST. rewrite <- words_ceil.
      unfold words_of. pose proof (ceil32_spec n) as (_ & _ & Hd).
      rewrite (N.div_mod (ceil32 n) 32) at 1 by lia. rewrite Hd, N.add_0_r.
      rewrite N.mul_assoc, (N.mul_comm 2 32), <- N.mul_assoc, (N.mul_comm 32), N.div_mul by lia. done. }
    destruct o; try discriminate Hc; cbn [op_implementation];
    do 3 (destruct stk as [|? stk]; [discriminate Hc|]);
    try (destruct stk as [|? stk]; [discriminate Hc|]);
    injection Hc as <- <-; cbn [cc_value cc_code cc_salt fst snd].
    - unfold op_create, create_price, create_memory, new_address, self. norm.
      rewrite extend_exact, Hw by done. cbn [cc_value cc_code cc_salt fst snd]. cbv beta iota.
      rewrite N.add_0_r.
      rewrite <- N.add_assoc, (N.add_comm (growth (lenN mem) [(n0, n1)])), N.add_assoc.
      destruct (_ <? _); reflexivity.
    - unfold op_create2, create_price, init_code, create_memory, new_address, self. norm.
      rewrite extend_exact, Hw, words_ceil by done. cbn [cc_value cc_code cc_salt fst snd]. cbv beta iota.
      match goal with |- context [32000 + 6 * words n1 + growth ?m ?l + ?x] =>
        replace (32000 + 6 * words n1 + growth m l + x)
          with (32000 + x + 6 * words n1 + growth m l) by lia end.
      destruct (_ <? _); [reflexivity|]. rewrite read_window. reflexivity.
  Qed.

  Lemma create_exact o e w c rest :
    create_operands o (e_stack e) = Some (c, rest) ->
    shape_ok e -> e_running e = true -> create_result o c rest e w (exec o e w).
  Proof.
    intros Hc [Hs Hm] Hr. rewrite (create_op_tail o e w c rest) by done.
    apply create_tail_exact; [| |done|done].
    - by destruct o.
    - unfold lenN in *. destruct o; try discriminate Hc;
      destruct (e_stack e) as [|? [|? [|? l]]]; try discriminate Hc;
      try (destruct l as [|? l]; [discriminate Hc|]);
      injection Hc as <- <-; cbn [length] in Hs; lia.
  Qed.
  Lemma create_underflow o e w :
    is_create o = true -> create_operands o (e_stack e) = None ->
    exists h e', exec o e w = Exc (EHalt h) e' w.
  Proof.
    intros Ho Hc. destruct e as [pc stk mem cod gas vjd logs rc rn msg out del rd err aa ak].
    cbn [e_stack] in Hc.
    destruct o; try discriminate Ho; cbn [op_implementation]; unfold op_create, op_create2.
    all: repeat (destruct stk as [|? stk];
      [cbv beta iota zeta delta [bind pop set_stack e_pc e_stack e_memory e_code
        e_gas_left e_valid_jump_destinations e_logs e_refund_counter e_running e_message e_output
        e_accounts_to_delete e_return_data e_error e_accessed_addresses e_accessed_storage_keys raise];
       by eauto|try discriminate Hc]).
  Qed.

  (** ** C52 *)

  (** A creation stops the frame, without effect on the world, if an operand
      is missing, the price is not covered, the init code exceeds 49152 bytes
      (since Shanghai) or the frame is static. *)
  Theorem C52_fails : forall o e w,
    is_create o = true -> shape_ok e -> e_running e = true ->
    create_halts fk o e -> exists h e', exec o e w = Exc (EHalt h) e' w.
  Proof.
    intros o e w Ho Hs Hr Hh. unfold create_halts in Hh.
    destruct (create_operands o (e_stack e)) as [[c rest]|] eqn:Hc; [|by apply create_underflow].
    destruct (create_exact o e w c rest Hc Hs Hr) as [[_ H]|(H1 & H2 & H3 & _)]; [done|].
    destruct Hh as [Hh|[[Hf Hh]|Hh]]; [lia|specialize (H2 Hf); lia|congruence].
  Qed.

  (** It pushes 0, for the price alone and with no other effect, if the
      balance is too low, the nonce cannot be increased or the depth is 1024. *)
  Theorem C52_refused : forall o e w c rest,
    shape_ok e -> e_running e = true ->
    create_operands o (e_stack e) = Some (c, rest) ->
    ~ create_halts fk o e -> create_refused c e w ->
    exec o e w = Ret tt (create_refusal fk c rest e) w.
  Proof.
    intros o e w c rest Hs Hr Hc Hn Href. unfold create_halts in Hn. rewrite Hc in Hn.
    destruct (create_exact o e w c rest Hc Hs Hr) as [[H _]|(_ & _ & _ & [[_ H]|[H _]])]; done.
  Qed.

  (** Otherwise the nonce of the creator goes up by one in any case.  If the
      derived address is occupied, 63/64 of the gas is lost and 0 is pushed;
      else the init code runs as specified and the frame resumes as specified. *)
  Theorem C52_runs : forall o e w c rest,
    shape_ok e -> e_running e = true ->
    create_operands o (e_stack e) = Some (c, rest) ->
    ~ create_halts fk o e -> ~ create_refused c e w ->
    exists w1, nonce_bumped w (self e) w1 /\
      (occupied w (new_address cr c e w) ->
       exec o e w = Ret tt (create_collision fk cr c rest e w) w1) /\
      (~ occupied w (new_address cr c e w) ->
       match pcm (child_create fk cr c e w) w1 with
       | PRet child w' => m_current_target (e_message child) < 2 ^ 256 ->
           exec o e w = Ret tt (after_create fk cr c rest e w child) w'
       | PExc x w' => exists e', exec o e w = Exc x e' w'
       end).
  Proof.
    intros o e w c rest Hs Hr Hc Hn Href. unfold create_halts in Hn. rewrite Hc in Hn.
    destruct (create_exact o e w c rest Hc Hs Hr) as [[H _]|(_ & _ & _ & [[H _]|(_ & w1 & Hw & H)])];
      try done.
    exists w1. split; [done|]. destruct H as [[Ho H]|[Ho H]]; (split; [|try done]); try done.
    intros _. destruct (pcm _ w1) as [child w'|x w']; [|done].
    intros Hl. destruct (e_error child); auto.
  Qed.
End Creates.

(** Storage at the new address counts as occupation exactly when some slot is
    not zero. *)
Theorem C52_occupied : forall w a, clean_state (st w) ->
  (account_has_storage (st w) a = true <-> exists k, get_storage (st w) a k <> 0).
Proof.
  intros w a [Hc _]. unfold account_has_storage. split.
  - intros H. destruct (storage_tries (st w) !! a) as [t|] eqn:E.
    + destruct (Hc a t E) as [Hne Hv]. destruct (map_choose t Hne) as (k & v & Hk).
      exists k. rewrite get_storage_slot. unfold slot_of, slot_trie_get. rewrite E, Hk. cbn.
      by apply (Hv k).
    + done.
  - intros [k Hk]. rewrite get_storage_slot in Hk. unfold slot_of in Hk.
    destruct (storage_tries (st w) !! a); [done|by destruct Hk].
Qed.

(** ** Examples *)

(** A frame of 0x200 (balance 50) with 50000 gas and one word of memory. It
    calls 0x300, which does not exist, with 3 wei, 100 gas, 32 bytes of input
    and 64 of output: 2600 + 9000 + 25000 and one more word of memory; the
    child gets the stipend on top of the 100.  Sending 51 wei is refused.
    CREATE2 of the first 32 bytes costs 32000 + 2 + 6. *)
Definition ex_call (v : N) : evm := ex_frame [100; 0x300; v; 0; 32; 0; 64; 5] 50000.
Definition ex_call_args (v : N) : call_args := CallArgs 100 0x300 v (0, 32) (0, 64).
Example C51_nonvacuous :
  shape_ok (ex_call 3) /\ e_running (ex_call 3) = true /\
  call_operands CALL (e_stack (ex_call 3)) = Some (ex_call_args 3, [5]) /\
  call_price Osaka CALL (ex_call_args 3) (ex_call 3) ex_frame_world = 36603 /\
  call_price Osaka CALLCODE (ex_call_args 3) (ex_call 3) ex_frame_world = 11603 /\
  ~ call_halts Osaka CALL (ex_call 3) ex_frame_world /\
  ~ call_refused (ex_call_args 3) (ex_call 3) ex_frame_world /\
  m_gas (child_call Osaka CALL (ex_call_args 3) (ex_call 3) ex_frame_world) = 2400 /\
  call_refused (ex_call_args 51) (ex_call 51) ex_frame_world /\
  e_gas_left (after_refusal Osaka CALL (ex_call_args 51) [5] (ex_call 51) ex_frame_world) = 15697 /\
  call_halts Osaka CALL (ex_frame [100; 0x300; 3; 0; 32; 0; 64; 5] 36602) ex_frame_world /\
  designated (bs ([0xef; 1; 0] ++ repeat 0 19 ++ [7])) = Some 7 /\
  match op_implementation toy_crypto toy_block toy_tx
          (process_message toy_crypto toy_block toy_tx)
          (process_create_message toy_crypto toy_block toy_tx) CALL (ex_call 3) ex_frame_world with
  | Ret _ e' w' => (e_stack e', e_gas_left e', balance (get_account (st w') 0x300)) = ([1; 5], 15697, 3)
  | _ => False
  end.
Proof.
  split; [apply ex_frame_ok; [repeat constructor|done|cbn; lia]|].
  split_and!; try by vm_compute.
  - intros [H|(_ & H & _)]; by vm_compute in H.
  - intros [H|H]; vm_compute in H; [by apply H|done].
  - right. by vm_compute.
  - left. by vm_compute.
Qed.

(** CREATE2 of the first 32 bytes of memory, 7 wei, salt 9. *)
Definition ex_create : evm := ex_frame [7; 0; 32; 9; 5] 100000.
Definition ex_create_args : create_args := CreateArgs 7 (0, 32) (Some 9).
Example C52_nonvacuous :
  shape_ok ex_create /\ create_operands CREATE2 (e_stack ex_create) = Some (ex_create_args, [5]) /\
  create_price Osaka ex_create_args ex_create = 32008 /\
  ~ create_halts Osaka CREATE2 ex_create /\ ~ create_refused ex_create_args ex_create ex_frame_world /\
  create_kept Osaka ex_create_args ex_create = 1062 /\
  create_halts Osaka CREATE2 (ex_frame [7; 0; 49153; 9; 5] 1000000) /\
  create_refused (CreateArgs 51 (0, 32) None) ex_create ex_frame_world /\
  match op_implementation toy_crypto toy_block toy_tx
          (process_message toy_crypto toy_block toy_tx)
          (process_create_message toy_crypto toy_block toy_tx) CREATE2 ex_create ex_frame_world with
  | Ret _ e' w' =>
      let a := new_address toy_crypto ex_create_args ex_create ex_frame_world in
      e_stack e' = [a; 5] /\ balance (get_account (st w') a) = 7 /\
      nonce (get_account (st w') a) = 1 /\ nonce (get_account (st w') 0x200) = 2 /\
      e_gas_left e' = 67992
  | _ => False
  end.
Proof.
  split; [apply ex_frame_ok; [repeat constructor|done|cbn; lia]|].
  split_and!; try by vm_compute.
  - intros [H|[[_ H]|H]]; by vm_compute in H.
  - intros [H|[H|H]]; vm_compute in H; [done|done|by apply H].
  - right; left. by vm_compute.
  - left. by vm_compute.
Qed.

Definition PropCalls_theorems :=
  (@C51_fails, @C51_refused, @C51_runs, @C52_fails, @C52_refused, @C52_runs, @C52_occupied).
Print Assumptions PropCalls_theorems.
