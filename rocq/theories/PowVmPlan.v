(** * PowVmPlan: what every instruction of the proof-of-work forks can do. *)
From Verif Require Import Base State Rlp Bloom Transactions Trie Blocks Requests Fork Ethash Pow PowTx.
From Verif Require Import Vm Instructions Precompiles Interpreter PowVm StateSpec
  StateProofs NumericProofs ArithProofs EvmStep EvmLocal EvmPlan EvmPlanProofs EvmCallProofs.
From Coq Require Import ZifyBool ZifyN ZifyNat.
Ltac Zify.zify_post_hook ::= idtac.

Local Opaque sdiv_value smod_value addmod_value mulmod_value exp_value
  signextend_value shl_value sar_value clz_value to_u256 from_be_bytes
  calculate_memory_gas_cost ceil32 N.compare.

(** What an instruction does: finish by itself, or run one child frame. *)
Inductive pplan :=
| PP_done (r : res (gset address))
| PP_call (m : message) (e1 : evm) (os oz : N)
| PP_create (m : message) (e1 : evm) (w1 : world).

Definition resumed (t : gset address) (r : res unit) : res (gset address) :=
  match r with Ret _ e w => Ret t e w | Exc x e w => Exc x e w end.

Definition pinterp (n : pow_name) (inh : gset address)
    (pm pcm : gset address -> message -> world -> ppres) (p : pplan) (w : world)
  : res (gset address) :=
  match p with
  | PP_done r => r
  | PP_call m e1 os oz =>
      match pm (e_accounts_to_delete e1 ∪ inh) m w with
      | PPRet c t w' => resumed (touched_by_child n c t (st w')) (resume_call e1 os oz c w')
      | PPExc x w' => Exc x e1 w'
      end
  | PP_create m e1 w1 =>
      match pcm (e_accounts_to_delete e1 ∪ inh) m w1 with
      | PPRet c t w' => resumed (touched_by_child n c t (st w')) (resume_create e1 c w')
      | PPExc x w' => Exc x e1 w'
      end
  end.

(** Effects on the world, the refund counter, the deletion set and the touched
    accounts of an instruction that starts no frame and returns normally. *)
Inductive peffect (n : pow_name) (inh : gset address) (o : op) (e : evm) (w : world)
    (t : gset address) (e' : evm) (w' : world) : Prop :=
| PE_none :
    w' = w -> e_refund_counter e' = e_refund_counter e ->
    e_accounts_to_delete e' = e_accounts_to_delete e -> t = ∅ ->
    peffect n inh o e w t e' w'
| PE_sstore key v orig s' :
    o = SSTORE -> m_is_static (e_message e) = false ->
    (since Istanbul n = true ->
     get_storage_original (st w) (m_current_target (e_message e)) key = Ok orig) ->
    set_storage (st w) (m_current_target (e_message e)) key v = Ok s' ->
    w' = set_st s' w ->
    e_refund_counter e' = (e_refund_counter e + pow_sstore_refund n orig
      (get_storage (st w) (m_current_target (e_message e)) key) v)%Z ->
    e_gas_left e' + pow_sstore_gas n orig
      (get_storage (st w) (m_current_target (e_message e)) key) v <= e_gas_left e ->
    (since Istanbul n = true -> 2300 < e_gas_left e) ->
    e_accounts_to_delete e' = e_accounts_to_delete e ->
    (frame_ok e w -> key < 2 ^ 256 /\ v < 2 ^ 256) -> t = ∅ ->
    peffect n inh o e w t e' w'
| PE_selfdestruct b s1 s2 :
    o = SELFDESTRUCT -> m_is_static (e_message e) = false ->
    balance (get_account (st w) b)
      + balance (get_account (st w) (m_current_target (e_message e))) < 2 ^ 256 ->
    pow_set_account_balance (st w) b
      (balance (get_account (st w) b)
       + balance (get_account (st w) (m_current_target (e_message e)))) = Ok s1 ->
    pow_set_account_balance s1 (m_current_target (e_message e)) 0 = Ok s2 ->
    w' = set_st s2 w ->
    e_accounts_to_delete e' = {[ m_current_target (e_message e) ]}
      ∪ (if since London n then e_accounts_to_delete e
         else e_accounts_to_delete e ∪ inh) ->
    e_refund_counter e' = (e_refund_counter e
      + (if since London n then 0
         else if decide (m_current_target (e_message e) ∈ e_accounts_to_delete e ∪ inh)
              then 0 else 24000))%Z ->
    e_running e' = false -> b < 2 ^ 160 ->
    t = touched_if_empty n s2 b ->
    peffect n inh o e w t e' w'
| PE_nonce s' :
    (o = CREATE \/ o = CREATE2) -> m_is_static (e_message e) = false ->
    pow_increment_nonce (st w) (m_current_target (e_message e)) = Ok s' ->
    w' = set_st s' w ->
    nonce (get_account (st w) (m_current_target (e_message e))) <> 2 ^ 64 - 1 ->
    e_refund_counter e' = e_refund_counter e ->
    e_accounts_to_delete e' = e_accounts_to_delete e -> t = ∅ ->
    peffect n inh o e w t e' w'.

Section Plan.
  Context (cr : crypto) (n : pow_name) (env : pow_env) (te : tx_env).
  Context (inh : gset address).
  Notation be := (pow_block_env env).

  (** Effect of an instruction that raises.  SELFDESTRUCT adds the balances of
      two accounts that may be the same. *)
  Definition pexc_ok (o : op) (e : evm) (w : world) (x : exn) (e' : evm) : Prop :=
    e_gas_left e' <= e_gas_left e /\
    e_message e' = e_message e /\
    match x with
    | EHalt _ => True
    | ERevert => o = REVERT /\
        (env_ok cr be te -> frame_ok e w -> lenN (e_output e') < 2 ^ 256)
    | ECrash _ => env_ok cr be te -> frame_ok e w -> total_balance (st w) < 2 ^ 255 -> False
    | EInvalidBlock | EOutOfFuel => False
    end.

  Definition pdone_ok (o : op) (e : evm) (w : world) (r : res (gset address)) : Prop :=
    match r with
    | Ret t e' w' => local_step cr be te o e w e' /\ peffect n inh o e w t e' w'
    | Exc x e' w' => w' = w /\ pexc_ok o e w x e'
    end.

  Record pcall_ok (o : op) (e : evm) (w : world) (m : message) (e1 : evm)
      (os oz : N) : Prop := {
    pco_wait : waiting e e1 w m;
    pco_data : lenN (m_data m) <= lenN (e_memory e1);
    pco_range : oz = 0 \/ os + oz <= lenN (e_memory e1);
    pco_target : m_target m = Some (m_current_target m);
    pco_code : exists ca, m_code_address m = Some ca /\
      m_code m = code (get_account (st w) ca) /\ m_disable_precompiles m = false /\
      (m_current_target m = ca \/ m_current_target m = m_current_target (e_message e)) /\
      ca < 2 ^ 160 /\ (o = CALL \/ o = STATICCALL -> m_current_target m = ca);
    pco_kind :
      match o with
      | CALL =>
          m_caller m = m_current_target (e_message e) /\
          m_should_transfer_value m = true /\
          m_is_static m = m_is_static (e_message e) /\
          (m_is_static m = true -> m_value m = 0) /\
          m_value m <= balance (get_account (st w) (m_caller m))
      | CALLCODE =>
          m_caller m = m_current_target (e_message e) /\
          m_current_target m = m_current_target (e_message e) /\
          m_should_transfer_value m = true /\
          m_is_static m = m_is_static (e_message e) /\
          m_value m <= balance (get_account (st w) (m_caller m))
      | DELEGATECALL =>
          m_caller m = m_caller (e_message e) /\
          m_current_target m = m_current_target (e_message e) /\
          m_should_transfer_value m = false /\
          m_is_static m = m_is_static (e_message e) /\
          m_value m = m_value (e_message e)
      | STATICCALL =>
          m_caller m = m_current_target (e_message e) /\
          m_should_transfer_value m = true /\
          m_is_static m = true /\ m_value m = 0
      | _ => False
      end;
    pco_gas : since TangerineWhistle n = true ->
      sub_gas (match o with
               | CALL | CALLCODE => if m_value m =? 0 then 0 else 2300
               | _ => 0 end) e e1 m;
    pco_bounds : frame_ok e w -> m_value m < 2 ^ 256 /\
      m_current_target m < 2 ^ 160 /\ m_caller m < 2 ^ 160;
  }.

  Record pcreate_ok (o : op) (e : evm) (w : world) (m : message) (e1 : evm)
      (w1 : world) : Prop := {
    pcr_wait : waiting e e1 w m;
    pcr_op : o = CREATE \/ o = CREATE2;
    pcr_static : m_is_static (e_message e) = false /\ m_is_static m = false;
    pcr_nonce : exists s1,
      pow_increment_nonce (st w) (m_current_target (e_message e)) = Ok s1 /\
      w1 = set_st s1 w;
    pcr_nonce_max : nonce (get_account (st w) (m_current_target (e_message e))) <> 2 ^ 64 - 1;
    pcr_caller : m_caller m = m_current_target (e_message e);
    pcr_target : m_target m = None;
    pcr_code_address : m_code_address m = None;
    pcr_transfer : m_should_transfer_value m = true;
    pcr_value : m_value m <= balance (get_account (st w) (m_caller m));
    pcr_data : m_data m = [];
    pcr_code : lenN (m_code m) <= lenN (e_memory e1);
    pcr_fresh : account_has_code_or_nonce (st w) (m_current_target m) = false /\
                account_has_storage (st w) (m_current_target m) = false;
    pcr_addr : m_current_target m < 2 ^ 160;
    pcr_derive :
      match o with
      | CREATE => m_current_target m = compute_contract_address cr
          (m_current_target (e_message e))
          (nonce (get_account (st w) (m_current_target (e_message e))))
      | _ => exists salt, m_current_target m = compute_create2_contract_address cr
          (m_current_target (e_message e)) salt (m_code m)
      end;
    pcr_gas : exists avail, avail <= e_gas_left e /\ m_gas m = pow_create_gas n avail /\
                e_gas_left e1 + m_gas m = avail;
    pcr_bounds : frame_ok e w -> m_value m < 2 ^ 256 /\ m_caller m < 2 ^ 160;
  }.

  Definition pplan_ok (o : op) (e : evm) (w : world) (p : pplan) : Prop :=
    match p with
    | PP_done r => pdone_ok o e w r
    | PP_call m e1 os oz => pcall_ok o e w m e1 os oz
    | PP_create m e1 w1 => pcreate_ok o e w m e1 w1
    end.

  (** ** Shared instructions *)
  Lemma exc_weaken o e w x e' : exc_ok cr be te o e w x e' -> pexc_ok o e w x e'.
  Proof. intros (H1 & H2 & H3). split; [done|]. split; [done|]. destruct x; auto.
    intros A B _. destruct (H3 A B) as (_ & _ & H & _). discriminate H.
  Qed.

  Lemma quietly_local o e w m :
    local_res cr be te o e w (m e w) -> pdone_ok o e w (quietly m e w).
  Proof.
    unfold quietly, bind, ret, pdone_ok, local_res. destruct (m e w) as [[] e' w'|x e' w'].
    - intros (H1 & H2 & H3 & H4). split; [done|]. by apply PE_none.
    - intros [H1 H2]. split; [done|]. by apply exc_weaken.
  Qed.
End Plan.
