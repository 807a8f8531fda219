(** * PowInstrSpec: reference table of the instruction set of the proof-of-work
    forks (used by C80). *)
From Verif Require Import Base State Rlp Bloom Transactions Trie Blocks Requests Fork Ethash Pow PowTx.
From Verif Require Import Vm Instructions Precompiles Interpreter PowVm StateSpec
  StateProofs NumericProofs ArithProofs PropArith EvmStep EvmLocal EvmPlan EvmPlanProofs EvmCallProofs
  InstrSpec InstrProofs PropPowTx.
From Coq Require Import ZifyBool ZifyN ZifyNat.
Ltac Zify.zify_post_hook ::= idtac.

(** ** The reference table, fork by fork

    Written from the EIPs: 150 (Tangerine Whistle), 158, 160, 161 (Spurious
    Dragon), 1884, 2200 (Istanbul), 2929 (Berlin), 3529 (London).  What these
    EIPs do not mention is as in [InstrSpec]. *)

(** The first fork with the instruction; [None]: later than all these forks. *)
Definition introduced (o : op) : option pow_name :=
  match o with
  | DELEGATECALL => Some Homestead                                       (* EIP-7 *)
  | REVERT => Some Byzantium                                             (* EIP-140 *)
  | RETURNDATASIZE | RETURNDATACOPY => Some Byzantium                    (* EIP-211 *)
  | STATICCALL => Some Byzantium                                         (* EIP-214 *)
  | SHL | SHR | SAR => Some Constantinople                               (* EIP-145 *)
  | CREATE2 => Some Constantinople                                       (* EIP-1014 *)
  | EXTCODEHASH => Some Constantinople                                   (* EIP-1052 *)
  | CHAINID => Some Istanbul                                             (* EIP-1344 *)
  | SELFBALANCE => Some Istanbul                                         (* EIP-1884 *)
  | BASEFEE => Some London                                               (* EIP-3198 *)
  | PUSH 0 | TLOAD | TSTORE | MCOPY | BLOBHASH | BLOBBASEFEE | CLZ => None
  | _ => Some Frontier
  end.

(** EIP-2929: an account is cheap to look at once it has been looked at. *)
Definition look_price (n : pow_name) (before : N) (e : evm) (a : address) : N :=
  if since Berlin n then account_price e a else before.

(** EIP-2200, with the constants of EIP-2929 since Berlin; before Istanbul only
    the current value matters. *)
Definition pow_store_price (n : pow_name) (orig cur new : N) : N :=
  if since Berlin n then store_price orig cur new
  else if since Istanbul n then
    if new =? cur then 800
    else if cur =? orig then if orig =? 0 then 20000 else 5000
    else 800
  else if new =? 0 then 5000 else if cur =? 0 then 20000 else 5000.
Definition pow_store_refund (n : pow_name) (orig cur new : N) : Z :=
  (let clear := if since London n then 4800 else 15000 in
   if since Istanbul n then
     if (new =? cur)%N then 0
     else if (cur =? orig)%N then if (new =? 0)%N then clear else 0
     else (if (orig =? 0)%N then 0
           else if (cur =? 0)%N then - clear else if (new =? 0)%N then clear else 0)
          + (if (new =? orig)%N
             then if (orig =? 0)%N then (if since Berlin n then 19900 else 19200)
                  else (if since Berlin n then 2800 else 4200)
             else 0)
   else if (cur =? 0)%N then 0 else if (new =? 0)%N then clear else 0)%Z.

(** Paying out to [b] costs more when this brings an account into being. *)
Definition payout_price (n : pow_name) (e : evm) (w : world) (b : address) : N :=
  if since SpuriousDragon n
  then if dead w b && negb (balance (get_account (st w) (self e)) =? 0) then 25000 else 0
  else if since TangerineWhistle n
  then match main_trie (st w) !! b with Some _ => 0 | None => 25000 end
  else 0.

Definition pow_base_price (n : pow_name) (o : op) (args : list N) (e : evm) (w : world) : N :=
  match o, args with
  | EXP, [_; y] =>
      10 + (if since SpuriousDragon n then 50 else 10)
           * (if y =? 0 then 0 else N.log2 y / 8 + 1)
  | BALANCE, [a] =>
      look_price n (if since Istanbul n then 700
                    else if since TangerineWhistle n then 400 else 20) e (address_of a)
  | EXTCODESIZE, [a] =>
      look_price n (if since TangerineWhistle n then 700 else 20) e (address_of a)
  | EXTCODECOPY, [a; _; _; k] =>
      look_price n (if since TangerineWhistle n then 700 else 20) e (address_of a)
      + 3 * words k
  | EXTCODEHASH, [a] =>
      look_price n (if since Istanbul n then 700 else 400) e (address_of a)
  | SLOAD, [k] =>
      if since Berlin n
      then if decide ((self e, k) ∈ e_accessed_storage_keys e) then 100 else 2100
      else if since Istanbul n then 800
      else if since TangerineWhistle n then 200 else 50
  | SSTORE, [k; v] =>
      (if since Berlin n
       then if decide ((self e, k) ∈ e_accessed_storage_keys e) then 0 else 2100
       else 0)
      + pow_store_price n (first_value w (self e) k) (get_storage (st w) (self e) k) v
  | SELFDESTRUCT, [b] =>
      (if since TangerineWhistle n then 5000 else 0)
      + (if since Berlin n
         then if decide (address_of b ∈ e_accessed_addresses e) then 0 else 2600
         else 0)
      + payout_price n e w (address_of b)
  | _, _ => base_price o args e w
  end.
Definition pow_price (n : pow_name) (o : op) (args : list N) (e : evm) (w : world) : N :=
  pow_base_price n o args e w + growth (lenN (e_memory e)) (touches o args).

(** EIP-2200: no write with 2300 gas or less, since Istanbul. *)
Definition pow_forbidden (n : pow_name) (o : op) (args : list N) (e : evm) : Prop :=
  match o with
  | SSTORE => m_is_static (e_message e) = true \/
              (since Istanbul n = true /\ e_gas_left e <= 2300)
  | _ => forbidden o args e
  end.
Definition pow_halts (n : pow_name) (o : op) (e : evm) (w : world) : Prop :=
  (length (e_stack e) < takes o)%nat \/
  (1024 < length (e_stack e) - takes o + leaves o)%nat \/
  e_gas_left e < pow_price n o (operands o e) e w \/
  pow_forbidden n o (operands o e) e.

Section Table.
  Context (cr : crypto) (n : pow_name) (env : pow_env) (te : tx_env).
  (** The accounts deleted by the frames above. *)
  Context (inherited : gset address).

  (** The frame after the instruction: that of [InstrSpec] but for the price,
      the refunds, the deletions and the accesses. *)
  Definition pow_frame_after (o : op) (e : evm) (w : world) : evm :=
    let args := operands o e in
    let f := frame_after cr (pow_block_env env) te o e w in
    {| e_pc := e_pc f; e_stack := e_stack f; e_memory := e_memory f; e_code := e_code f;
       e_gas_left := e_gas_left e - pow_price n o args e w;
       e_valid_jump_destinations := e_valid_jump_destinations f; e_logs := e_logs f;
       e_refund_counter := (e_refund_counter e +
         match o, args with
         | SSTORE, [k; v] =>
             pow_store_refund n (first_value w (self e) k) (get_storage (st w) (self e) k) v
         | SELFDESTRUCT, _ =>
             if since London n then 0
             else if decide (self e ∈ e_accounts_to_delete e ∪ inherited) then 0 else 24000
         | _, _ => 0
         end)%Z;
       e_running := e_running f; e_message := e_message f; e_output := e_output f;
       e_accounts_to_delete :=
         match o with
         | SELFDESTRUCT =>
             {[ self e ]} ∪ (if since London n then e_accounts_to_delete e
                             else e_accounts_to_delete e ∪ inherited)
         | _ => e_accounts_to_delete e
         end;
       e_return_data := e_return_data f; e_error := e_error f;
       e_accessed_addresses :=
         if since Berlin n then e_accessed_addresses f else e_accessed_addresses e;
       e_accessed_storage_keys :=
         if since Berlin n then e_accessed_storage_keys f else e_accessed_storage_keys e |}.
End Table.

(** The world after the instruction.  SELFDESTRUCT pays out everything (and
    destroys it when the account names itself); both accounts are there
    afterwards. *)
Definition pow_world_after (o : op) (e : evm) (w w' : world) : Prop :=
  match o, operands o e with
  | SELFDESTRUCT, [b] =>
      ts w' = ts w /\ storage_tries (st w') = storage_tries (st w) /\
      forall a, let acc := get_account (st w) a in let acc' := get_account (st w') a in
        nonce acc' = nonce acc /\ code acc' = code acc /\
        balance acc' =
          (if decide (a = self e) then 0
           else if decide (a = address_of b)
           then balance acc + balance (get_account (st w) (self e)) else balance acc) /\
        (is_Some (main_trie (st w') !! a) <->
         a = self e \/ a = address_of b \/ is_Some (main_trie (st w) !! a))
  | _, _ => world_after Osaka o e w w'
  end.
(** EIP-161: the accounts to look at when the transaction ends. *)
Definition pow_touched (n : pow_name) (o : op) (e : evm) (w' : world) : gset address :=
  match o, operands o e with
  | SELFDESTRUCT, [b] =>
      if since SpuriousDragon n && dead w' (address_of b) then {[ address_of b ]} else ∅
  | _, _ => ∅
  end.
