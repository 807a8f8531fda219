(** * EvmPlan: what every instruction can do, including calls and creates. *)
From Verif Require Import Base State Rlp Vm Instructions StateSpec StateProofs
  NumericProofs ArithProofs EvmStep EvmLocal.
From Coq Require Import ZifyBool ZifyN ZifyNat.
Ltac Zify.zify_post_hook ::= idtac.

Local Opaque sdiv_value smod_value addmod_value mulmod_value exp_value
  signextend_value shl_value sar_value clz_value to_u256 from_be_bytes
  calculate_memory_gas_cost ceil32 N.compare.

(** ** Plans *)

(** The frame after a child frame [c] came back. *)
Definition child_return (e1 c : evm) (rd : bytes) : evm :=
  set_return_data rd
    match e_error c with
    | Some _ => incorporate_child_on_error e1 c
    | None => incorporate_child_on_success e1 c
    end.

Definition resume_call (e1 : evm) (os oz : N) (c : evm) (w : world) : res unit :=
  let e2 := set_stack
              (match e_error c with Some _ => 0 | None => 1 end :: e_stack e1)
              (child_return e1 c (e_output c)) in
  match to_u256 (lenN (e_output c)) with
  | Raise x => Exc (ECrash x) e2 w
  | Ok n =>
      Ret tt (set_pc (e_pc e1 + 1)
        (set_memory (memory_write_bytes (e_memory e1) os
                       (takeN (N.min oz n) (e_output c))) e2)) w
  end.

Definition resume_create (e1 : evm) (c : evm) (w : world) : res unit :=
  match e_error c with
  | Some _ =>
      Ret tt (set_pc (e_pc e1 + 1)
        (set_stack (0 :: e_stack e1) (child_return e1 c (e_output c)))) w
  | None =>
      match to_u256 (m_current_target (e_message c)) with
      | Raise x => Exc (ECrash x) (child_return e1 c []) w
      | Ok n =>
          Ret tt (set_pc (e_pc e1 + 1)
            (set_stack (n :: e_stack e1) (child_return e1 c []))) w
      end
  end.

(** What an instruction does: finish by itself, or run one child frame. *)
Inductive plan :=
| PL_done (r : res unit)
| PL_call (m : message) (e1 : evm) (os oz : N)
| PL_create (m : message) (e1 : evm) (w1 : world).

Definition interp (pm pcm : message -> world -> pmres) (p : plan) (w : world)
  : res unit :=
  match p with
  | PL_done r => r
  | PL_call m e1 os oz =>
      match pm m w with
      | PRet c w' => resume_call e1 os oz c w'
      | PExc x w' => Exc x e1 w'
      end
  | PL_create m e1 w1 =>
      match pcm m w1 with
      | PRet c w' => resume_create e1 c w'
      | PExc x w' => Exc x e1 w'
      end
  end.

(** Effects on the world, the refund counter and the deletion set of an
    instruction that starts no frame and returns normally. *)
Inductive effect (f : pos_fork) (o : op) (e : evm) (w : world) (e' : evm) (w' : world) : Prop :=
| E_none :
    w' = w -> e_refund_counter e' = e_refund_counter e ->
    e_accounts_to_delete e' = e_accounts_to_delete e -> effect f o e w e' w'
| E_sstore key v orig s' :
    o = SSTORE -> m_is_static (e_message e) = false ->
    get_storage_original (st w) (m_current_target (e_message e)) key = Ok orig ->
    set_storage (st w) (m_current_target (e_message e)) key v = Ok s' ->
    w' = set_st s' w ->
    e_refund_counter e' = (e_refund_counter e + sstore_refund orig
      (get_storage (st w) (m_current_target (e_message e)) key) v)%Z ->
    e_gas_left e' + sstore_gas orig
      (get_storage (st w) (m_current_target (e_message e)) key) v <= e_gas_left e ->
    e_accounts_to_delete e' = e_accounts_to_delete e ->
    (frame_ok e w -> key < 2 ^ 256 /\ v < 2 ^ 256) ->
    effect f o e w e' w'
| E_tstore key v :
    o = TSTORE -> m_is_static (e_message e) = false ->
    w' = set_ts (set_transient_storage (ts w) (m_current_target (e_message e)) key v) w ->
    e_refund_counter e' = e_refund_counter e ->
    e_accounts_to_delete e' = e_accounts_to_delete e ->
    (frame_ok e w -> key < 2 ^ 256 /\ v < 2 ^ 256) ->
    effect f o e w e' w'
| E_selfdestruct b s1 s' :
    o = SELFDESTRUCT -> at_least Cancun f = true -> m_is_static (e_message e) = false ->
    move_ether (st w) (m_current_target (e_message e)) b
      (balance (get_account (st w) (m_current_target (e_message e)))) = Ok s1 ->
    (m_current_target (e_message e) ∈ created_accounts (st w) /\
     set_account_balance s1 (m_current_target (e_message e)) 0 = Ok s' /\
     e_accounts_to_delete e' =
       {[ m_current_target (e_message e) ]} ∪ e_accounts_to_delete e
     \/ m_current_target (e_message e) ∉ created_accounts (st w) /\
     s' = s1 /\ e_accounts_to_delete e' = e_accounts_to_delete e) ->
    w' = set_st s' w ->
    e_refund_counter e' = e_refund_counter e ->
    e_running e' = false -> b < 2 ^ 160 ->
    effect f o e w e' w'
| E_removed b sum s1 s' :
    o = SELFDESTRUCT -> at_least Cancun f = false ->
    m_is_static (e_message e) = false ->
    to_u256 (balance (get_account (st w) b)
             + balance (get_account (st w) (m_current_target (e_message e)))) = Ok sum ->
    set_account_balance (st w) b sum = Ok s1 ->
    set_account_balance s1 (m_current_target (e_message e)) 0 = Ok s' ->
    w' = set_st s' w ->
    e_refund_counter e' = e_refund_counter e ->
    e_accounts_to_delete e' =
      {[ m_current_target (e_message e) ]} ∪ e_accounts_to_delete e ->
    e_running e' = false -> b < 2 ^ 160 ->
    effect f o e w e' w'
| E_nonce s' :
    (o = CREATE \/ o = CREATE2) -> m_is_static (e_message e) = false ->
    increment_nonce (st w) (m_current_target (e_message e)) = Ok s' ->
    w' = set_st s' w ->
    nonce (get_account (st w) (m_current_target (e_message e))) <> 2 ^ 64 - 1 ->
    e_refund_counter e' = e_refund_counter e ->
    e_accounts_to_delete e' = e_accounts_to_delete e ->
    effect f o e w e' w'.

Section Plan.
  Context (cr : crypto) (be : block_env) (te : tx_env).

  Definition done_ok (o : op) (e : evm) (w : world) (r : res unit) : Prop :=
    match r with
    | Ret _ e' w' => local_step cr be te o e w e' /\ effect (b_fork be) o e w e' w'
    | Exc x e' w' => w' = w /\ exc_ok cr be te o e w x e'
    end.

  (** The calling frame while the child runs. *)
  Record waiting (e e1 : evm) (w : world) (m : message) : Prop := {
    wa_code : e_code e1 = e_code e;
    wa_vjd : e_valid_jump_destinations e1 = e_valid_jump_destinations e;
    wa_msg : e_message e1 = e_message e;
    wa_err : e_error e1 = e_error e;
    wa_pc : e_pc e1 = e_pc e;
    wa_logs : e_logs e1 = e_logs e;
    wa_refund : e_refund_counter e1 = e_refund_counter e;
    wa_del : e_accounts_to_delete e1 = e_accounts_to_delete e;
    wa_out : e_output e1 = e_output e;
    wa_run : e_running e1 = true;
    wa_ret : e_return_data e1 = [];
    wa_gas : e_gas_left e1 + m_gas m < e_gas_left e;
    wa_memgas : e_gas_left e1 + m_gas m + memcost (lenN (e_memory e1))
                <= e_gas_left e + memcost (lenN (e_memory e));
    wa_mem : lenN (e_memory e) <= lenN (e_memory e1);
    wa_mem32 : lenN (e_memory e1) mod 32 = 0;
    wa_stack : lenN (e_stack e1) < 1024;
    wa_words : frame_ok e w -> stack_words (e_stack e1);
    wa_aa : e_accessed_addresses e ⊆ e_accessed_addresses e1;
    wa_ak : e_accessed_storage_keys e1 = e_accessed_storage_keys e;
    wa_maa : m_accessed_addresses m = e_accessed_addresses e1;
    wa_mak : m_accessed_storage_keys m = e_accessed_storage_keys e1;
    wa_depth : m_depth m = m_depth (e_message e) + 1;
    wa_depth_le : m_depth m <= 1024;
    wa_static : m_is_static (e_message e) = true -> m_is_static m = true;
  }.

  (** Code found at an address, since Prague through a delegation designator if any:
      (code, account holding it, delegated?). *)
  Definition resolved (w : world) (a : address) (c : bytes) (ca : address) (d : bool) : Prop :=
    match (if at_least Prague (b_fork be)
           then get_delegated_code_address (code (get_account (st w) a)) else None) with
    | Some a' => d = true /\ ca = a' /\ c = code (get_account (st w) a')
    | None => d = false /\ ca = a /\ c = code (get_account (st w) a)
    end.

  (** Gas handed to a child: at most all but one 64th of what is left after
      the other costs, plus the stipend. *)
  Definition sub_gas (stipend : N) (e e1 : evm) (m : message) : Prop :=
    exists avail g, avail <= e_gas_left e /\ g <= avail - avail / 64 /\
      m_gas m = g + stipend /\ e_gas_left e1 + g = avail.

  Record call_ok (o : op) (e : evm) (w : world) (m : message) (e1 : evm)
      (os oz : N) : Prop := {
    co_wait : waiting e e1 w m;
    co_data : lenN (m_data m) <= lenN (e_memory e1);
    co_range : oz = 0 \/ os + oz <= lenN (e_memory e1);
    co_target : m_target m = Some (m_current_target m);
    co_code : exists a ca, m_code_address m = Some ca /\
      resolved w a (m_code m) ca (m_disable_precompiles m) /\
      (m_current_target m = a \/ m_current_target m = m_current_target (e_message e)) /\
      a < 2 ^ 160 /\ (o = CALL \/ o = STATICCALL -> m_current_target m = a);
    co_kind :
      match o with
      | CALL =>
          m_caller m = m_current_target (e_message e) /\
          m_should_transfer_value m = true /\
          m_is_static m = m_is_static (e_message e) /\
          (m_is_static m = true -> m_value m = 0) /\
          m_value m <= balance (get_account (st w) (m_caller m))
      | CALLCODE =>
          m_caller m = m_current_target (e_message e) /\
          m_current_target m = m_current_target (e_message e) /\
          m_should_transfer_value m = true /\
          m_is_static m = m_is_static (e_message e) /\
          m_value m <= balance (get_account (st w) (m_caller m))
      | DELEGATECALL =>
          m_caller m = m_caller (e_message e) /\
          m_current_target m = m_current_target (e_message e) /\
          m_should_transfer_value m = false /\
          m_is_static m = m_is_static (e_message e) /\
          m_value m = m_value (e_message e)
      | STATICCALL =>
          m_caller m = m_current_target (e_message e) /\
          m_should_transfer_value m = true /\
          m_is_static m = true /\ m_value m = 0
      | _ => False
      end;
    co_gas : sub_gas (match o with
                      | CALL | CALLCODE => if m_value m =? 0 then 0 else 2300
                      | _ => 0 end) e e1 m;
    co_bounds : frame_ok e w -> m_value m < 2 ^ 256 /\
      m_current_target m < 2 ^ 160 /\ m_caller m < 2 ^ 160;
  }.

  Record create_ok (o : op) (e : evm) (w : world) (m : message) (e1 : evm)
      (w1 : world) : Prop := {
    cr_wait : waiting e e1 w m;
    cr_op : o = CREATE \/ o = CREATE2;
    cr_static : m_is_static (e_message e) = false /\ m_is_static m = false;
    cr_nonce : exists s1, increment_nonce (st w) (m_current_target (e_message e)) = Ok s1 /\
               w1 = set_st s1 w;
    cr_nonce_max : nonce (get_account (st w) (m_current_target (e_message e))) <> 2 ^ 64 - 1;
    cr_caller : m_caller m = m_current_target (e_message e);
    cr_target : m_target m = None;
    cr_code_address : m_code_address m = None;
    cr_transfer : m_should_transfer_value m = true;
    cr_value : m_value m <= balance (get_account (st w) (m_caller m));
    cr_data : m_data m = [];
    cr_code : lenN (m_code m) <= lenN (e_memory e1);
    cr_code_limit : at_least Shanghai (b_fork be) = true -> lenN (m_code m) <= 49152;
    cr_fresh : account_has_code_or_nonce (st w) (m_current_target m) = false /\
               account_has_storage (st w) (m_current_target m) = false;
    cr_addr : m_current_target m < 2 ^ 160;
    cr_derive :
      match o with
      | CREATE => m_current_target m = compute_contract_address cr
          (m_current_target (e_message e))
          (nonce (get_account (st w) (m_current_target (e_message e))))
      | _ => exists salt, m_current_target m = compute_create2_contract_address cr
          (m_current_target (e_message e)) salt (m_code m)
      end;
    cr_gas : exists avail, avail <= e_gas_left e /\ m_gas m = avail - avail / 64 /\
               e_gas_left e1 = avail / 64;
    cr_bounds : frame_ok e w -> m_value m < 2 ^ 256 /\ m_caller m < 2 ^ 160;
  }.

  Definition plan_ok (o : op) (e : evm) (w : world) (p : plan) : Prop :=
    match p with
    | PL_done r => done_ok o e w r
    | PL_call m e1 os oz => call_ok o e w m e1 os oz
    | PL_create m e1 w1 => create_ok o e w m e1 w1
    end.
End Plan.
