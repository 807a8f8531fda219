(** * Interpreter: frames, message calls, contract creation, delegations.

    Models src/ethereum/osaka/vm/interpreter.py and the rest of
    src/ethereum/osaka/vm/eoa_delegation.py.  Tracing calls ([evm_trace]) have
    no effect on the results and are left out. *)
From Verif Require Import Base State Rlp Vm Instructions Precompiles.

(** The frame built at the start of execute_code (interpreter.py:271-291) *)
Definition init_evm (m : message) : evm := {|
  e_pc := 0;
  e_stack := [];
  e_memory := [];
  e_code := m_code m;
  e_gas_left := m_gas m;
  e_valid_jump_destinations := get_valid_jump_destinations (m_code m);
  e_logs := [];
  e_refund_counter := 0%Z;
  e_running := true;
  e_message := m;
  e_output := [];
  e_accounts_to_delete := ∅;
  e_return_data := [];
  e_error := None;
  e_accessed_addresses := m_accessed_addresses m;
  e_accessed_storage_keys := m_accessed_storage_keys m |}.

(** The [except] clauses of execute_code (interpreter.py:313-320):
    ExceptionalHalt and Revert are recorded, anything else propagates. *)
Definition handle_exn (x : exn) (e : evm) (w : world) : pmres :=
  match x with
  | EHalt _ => PRet (set_error (Some x) (set_output [] (set_gas_left 0 e))) w
  | ERevert => PRet (set_error (Some x) e) w
  | _ => PExc x w
  end.

Section Interpreter.
  Context (cr : crypto) (be : block_env) (te : tx_env).

  Section Frame.
    (** The functions used for child frames. *)
    Context (process_message process_create_message : message -> world -> pmres).

    (** One iteration of the loop of execute_code (interpreter.py:301-309); an
        opcode of a later fork is not a member of [Ops] *)
    Definition exec_step (s : evm * world)
      : (evm * world) + (option exn * evm * world) :=
      let '(e, w) := s in
      if e_running e && (e_pc e <? lenN (e_code e)) then
        match nthN (e_code e) (e_pc e) with
        | None => inr (Some (ECrash IndexError), e, w)
        | Some b =>
            match decode_op b with
            | None => inr (Some (EHalt (InvalidOpcode b)), e, w)
            | Some o =>
                if available (b_fork be) o then
                  match op_implementation cr be te process_message
                          process_create_message o e w with
                  | Ret _ e' w' => inl (e', w')
                  | Exc x e' w' => inr (Some x, e', w')
                  end
                else inr (Some (EHalt (InvalidOpcode b)), e, w)
            end
        end
      else inr (None, e, w).

    (** The loop, iterated at most [gas + 2] times; [EvmFrame] shows that
        this bound is never reached. *)
    Definition exec_loop (e : evm) (w : world) : option exn * evm * world :=
      match loop_pos (N.succ_pos (e_gas_left e + 1)) exec_step (e, w) with
      | inl (e', w') => (Some EOutOfFuel, e', w')
      | inr r => r
      end.

    (** src/ethereum/osaka/vm/interpreter.py:257-321 *)
    Definition execute_code (m : message) (w : world) : pmres :=
      let e := init_evm m in
      match m_code_address m ≫= pre_compiled_contracts cr (b_fork be) with
      | Some precompile =>
          if m_disable_precompiles m then PRet e w
          else match precompile e w with
               | Ret _ e' w' => PRet e' w'
               | Exc x e' w' => handle_exn x e' w'
               end
      | None =>
          match exec_loop e w with
          | (None, e', w') => PRet e' w'
          | (Some x, e', w') => handle_exn x e' w'
          end
      end.

    (** src/ethereum/osaka/vm/interpreter.py:231-254 (after the depth check) *)
    Definition process_message_body (m : message) (w : world) : pmres :=
      let w0 := begin_transaction w in
      match (if m_should_transfer_value m && negb (m_value m =? 0)
             then move_ether (st w0) (m_caller m) (m_current_target m) (m_value m)
             else Ok (st w0)) with
      | Raise c => PExc (ECrash c) w0
      | Ok s1 =>
          match execute_code m (set_st s1 w0) with
          | PExc x w2 => PExc x w2
          | PRet e w2 =>
              match (match e_error e with
                     | Some _ => rollback_transaction w2
                     | None => commit_transaction w2
                     end) with
              | Ok w3 => PRet e w3
              | Raise c => PExc (ECrash c) w2
              end
          end
      end.
  End Frame.

  (** src/ethereum/osaka/vm/interpreter.py:192-215: the [try] block that
      charges the code deposit; [Some h] is the ExceptionalHalt caught. *)
  Definition deposit_code (e : evm) : option halt * evm :=
    let contract_code := e_output e in
    let contract_code_gas := lenN contract_code * GAS_CODE_DEPOSIT in
    if match contract_code with b :: _ => Byte.to_N b =? 0xEF | [] => false end
    then (Some InvalidContractPrefix, e)
    else if e_gas_left e <? contract_code_gas then (Some OutOfGasError, e)
    else
      let e' := set_gas_left (e_gas_left e - contract_code_gas) e in
      if MAX_CODE_SIZE <? lenN contract_code then (Some OutOfGasError, e')
      else (None, e').

  (** src/ethereum/osaka/vm/interpreter.py:161-217 *)
  Definition process_create_message_with
      (process_message : message -> world -> pmres) (m : message) (w : world)
    : pmres :=
    let w0 := begin_transaction w in
    let s1 := destroy_storage (st w0) (m_current_target m) in
    let s2 := mark_account_created s1 (m_current_target m) in
    match increment_nonce s2 (m_current_target m) with
    | Raise c => PExc (ECrash c) w0
    | Ok s3 =>
        match process_message m (set_st s3 w0) with
        | PExc x w4 => PExc x w4
        | PRet e w4 =>
            match e_error e with
            | Some _ =>
                match rollback_transaction w4 with
                | Ok w5 => PRet e w5
                | Raise c => PExc (ECrash c) w4
                end
            | None =>
                match deposit_code e with
                | (Some h, e') =>
                    match rollback_transaction w4 with
                    | Ok w5 =>
                        PRet (set_error (Some (EHalt h))
                                (set_output [] (set_gas_left 0 e'))) w5
                    | Raise c => PExc (ECrash c) w4
                    end
                | (None, e') =>
                    match set_code (st w4) (m_current_target m) (e_output e) with
                    | Raise c => PExc (ECrash c) w4
                    | Ok s5 =>
                        match commit_transaction (set_st s5 w4) with
                        | Ok w6 => PRet e' w6
                        | Raise c => PExc (ECrash c) w4
                        end
                    end
                end
            end
        end
    end.

  (** src/ethereum/osaka/vm/interpreter.py:220-254.  The recursion (a child
      frame is started from inside execute_code) is by fuel; a frame of depth
      [d] gets [1025 - d], and the depth check comes first, so the fuel never
      runs out ([EvmFrame]). *)
  Fixpoint process_message_fuel (fuel : nat) (m : message) (w : world) : pmres :=
    if STACK_DEPTH_LIMIT <? m_depth m
    then PExc (EHalt StackDepthLimitError) w
    else match fuel with
         | O => PExc EOutOfFuel w
         | S f =>
             process_message_body (process_message_fuel f)
               (process_create_message_with (process_message_fuel f)) m w
         end.

  Definition process_message (m : message) (w : world) : pmres :=
    process_message_fuel (N.to_nat (1025 - m_depth m)) m w.

  Definition process_create_message (m : message) (w : world) : pmres :=
    process_create_message_with process_message m w.

  (** ** eoa_delegation.py *)

  (** eoa_delegation.py:73-112; [None] is InvalidSignatureError *)
  Definition recover_authority (a : authorization) : option address :=
    if negb ((a_y_parity a =? 0) || (a_y_parity a =? 1)) then None
    else if (a_r a <=? 0) || (SECP256K1N <=? a_r a) then None
    else if (a_s a <=? 0) || (SECP256K1N / 2 <? a_s a) then None
    else
      let signing_hash := keccak256 cr (SET_CODE_TX_MAGIC ++
        encode (RList [RUint (a_chain_id a); RAddress (a_address a);
                       RUint (a_nonce a)])) in
      match secp256k1_recover cr (a_r a) (a_s a) (a_y_parity a) signing_hash with
      | None => None
      | Some public_key =>
          Some (from_be_bytes (sliceN 12 32 (keccak256 cr public_key)))
      end.

  (** One iteration of the loop of set_delegation (eoa_delegation.py:167-200);
      the accumulator is (state, accessed_addresses, refund_counter). *)
  Definition set_delegation_step (acc : state * gset address * N)
      (auth : authorization) : result (state * gset address * N) :=
    let '(s, accessed, refund_counter) := acc in
    if negb ((a_chain_id auth =? b_chain_id be) || (a_chain_id auth =? 0))
    then Ok acc
    else if U64_MAX <=? a_nonce auth then Ok acc
    else match recover_authority auth with
    | None => Ok acc
    | Some authority =>
        let accessed := {[ authority ]} ∪ accessed in
        let authority_account := get_account s authority in
        let authority_code := code authority_account in
        if negb (bytes_eqb authority_code [])
           && negb (is_valid_delegation authority_code)
        then Ok (s, accessed, refund_counter)
        else if negb (nonce authority_account =? a_nonce auth)
        then Ok (s, accessed, refund_counter)
        else
          match (if account_exists s authority
                 then to_u256 (refund_counter
                        + (PER_EMPTY_ACCOUNT_COST - PER_AUTH_BASE_COST))
                 else Ok refund_counter) with
          | Raise c => Raise c
          | Ok refund_counter =>
              let code_to_set :=
                if a_address auth =? NULL_ADDRESS then []
                else EOA_DELEGATION_MARKER ++ to_be_bytes20 (a_address auth) in
              match set_code s authority code_to_set with
              | Raise c => Raise c
              | Ok s =>
                  match increment_nonce s authority with
                  | Raise c => Raise c
                  | Ok s => Ok (s, accessed, refund_counter)
                  end
              end
          end
    end.

  Fixpoint set_delegation_loop (acc : state * gset address * N)
      (auths : list authorization) : result (state * gset address * N) :=
    match auths with
    | [] => Ok acc
    | a :: rest =>
        match set_delegation_step acc a with
        | Raise c => Raise c
        | Ok acc' => set_delegation_loop acc' rest
        end
    end.

  (** interpreter.py:70-90 *)
  Record message_call_output := MessageCallOutput {
    o_gas_left : N;
    o_refund_counter : N;
    o_logs : list log;
    o_accounts_to_delete : gset address;
    o_error : option exn;
    o_return_data : bytes;
  }.

  (** A whole message call: an output, or an exception that escapes. *)
  Inductive mcres :=
  | MCRet (o : message_call_output) (w : world)
  | MCExc (x : exn) (w : world).

  (** Updates of the mutable message in process_message_call. *)
  Definition set_m_code (c : bytes) (m : message) : message :=
    Message (m_caller m) (m_target m) (m_current_target m) (m_gas m) (m_value m)
      (m_data m) (m_code_address m) c (m_depth m) (m_should_transfer_value m)
      (m_is_static m) (m_accessed_addresses m) (m_accessed_storage_keys m)
      (m_disable_precompiles m).
  Definition set_m_accessed (a : gset address) (m : message) : message :=
    Message (m_caller m) (m_target m) (m_current_target m) (m_gas m) (m_value m)
      (m_data m) (m_code_address m) (m_code m) (m_depth m)
      (m_should_transfer_value m) (m_is_static m) a
      (m_accessed_storage_keys m) (m_disable_precompiles m).
  Definition set_m_delegated (a : address) (c : bytes) (m : message) : message :=
    Message (m_caller m) (m_target m) (m_current_target m) (m_gas m) (m_value m)
      (m_data m) (Some a) c (m_depth m) (m_should_transfer_value m)
      (m_is_static m) ({[ a ]} ∪ m_accessed_addresses m)
      (m_accessed_storage_keys m) true.

  (** eoa_delegation.py:149-207: (refund_counter, message, world) *)
  Definition set_delegation (m : message) (w : world)
    : exn + (N * message * world) :=
    match set_delegation_loop (st w, m_accessed_addresses m, 0)
            (t_authorizations te) with
    | Raise c => inl (ECrash c)
    | Ok (s, accessed, refund_counter) =>
        match m_code_address m with
        | None => inl EInvalidBlock
        | Some ca =>
            inr (refund_counter,
                 set_m_code (code (get_account s ca)) (set_m_accessed accessed m),
                 set_st s w)
        end
    end.

  (** The end of process_message_call (interpreter.py:135-158); the U256
      conversions of the signed refund counter and of the sum may raise. *)
  Definition finish_call (refund_counter : N) (e : evm) (w : world) : mcres :=
    match e_error e with
    | Some _ =>
        MCRet (MessageCallOutput (e_gas_left e) refund_counter [] ∅ (e_error e)
                 (e_output e)) w
    | None =>
        if (e_refund_counter e <? 0)%Z
           || (Z.of_N U256_CEIL <=? e_refund_counter e)%Z
           || (U256_CEIL <=? refund_counter + Z.to_N (e_refund_counter e))
        then MCExc (ECrash OverflowError) w
        else
          MCRet (MessageCallOutput (e_gas_left e)
                   (refund_counter + Z.to_N (e_refund_counter e))
                   (e_logs e) (e_accounts_to_delete e) None (e_output e)) w
    end.

  (** src/ethereum/osaka/vm/interpreter.py:93-158; before Prague there are no
      authorizations and no delegations (cancun/vm/interpreter.py:88-137) *)
  Definition process_message_call (m : message) (w : world) : mcres :=
    match m_target m with
    | None =>
        if account_has_code_or_nonce (st w) (m_current_target m)
           || account_has_storage (st w) (m_current_target m)
        then MCRet (MessageCallOutput 0 0 [] ∅
                      (Some (EHalt AddressCollision)) []) w
        else match process_create_message m w with
             | PRet e w' => finish_call 0 e w'
             | PExc x w' => MCExc x w'
             end
    | Some _ =>
        match (match t_authorizations te with
               | [] => inr (0, m, w)
               | _ => if at_least Prague (b_fork be) then set_delegation m w
                      else inr (0, m, w)
               end) with
        | inl x => MCExc x w
        | inr (refund_counter, m1, w1) =>
            let m2 :=
              match (if at_least Prague (b_fork be)
                     then get_delegated_code_address (m_code m1) else None) with
              | Some a => set_m_delegated a (code (get_account (st w1) a)) m1
              | None => m1
              end in
            match process_message m2 w1 with
            | PRet e w' => finish_call refund_counter e w'
            | PExc x w' => MCExc x w'
            end
        end
    end.
End Interpreter.
