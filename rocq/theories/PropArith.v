(** * PropArith: C13, arithmetic, comparison and bitwise instructions. *)
From Verif Require Import Base State Vm Instructions StateSpec StateProofs NumericProofs
  ArithProofs.
From Coq Require Import ZifyBool ZifyN ZifyNat.

(** The mathematical specification.  Words are numbers below [2^256]; a word
    [x] read as a signed number is [signed x], an integer [z] is stored as the
    word [word z] (two's complement). *)
Definition word (z : Z) : N := Z.to_N (z mod 2 ^ 256).
Definition signed (x : N) : Z :=
  if x <? 2 ^ 255 then Z.of_N x else (Z.of_N x - 2 ^ 256)%Z.
Definition truth (b : bool) : N := if b then 1 else 0.

(** Result of an instruction on its operands, the top of the stack first. *)
Definition alu_spec (o : op) (args : list N) : option N :=
  match o, args with
  | ADD, [x; y] => Some ((x + y) mod 2 ^ 256)
  | SUB, [x; y] => Some (word (Z.of_N x - Z.of_N y))
  | MUL, [x; y] => Some ((x * y) mod 2 ^ 256)
  | DIV, [x; y] => Some (if y =? 0 then 0 else x / y)
  | SDIV, [x; y] =>
      Some (if y =? 0 then 0 else word (Z.quot (signed x) (signed y)))
  | MOD, [x; y] => Some (if y =? 0 then 0 else x mod y)
  | SMOD, [x; y] =>
      Some (if y =? 0 then 0 else word (Z.rem (signed x) (signed y)))
  | ADDMOD, [x; y; m] => Some (if m =? 0 then 0 else (x + y) mod m)
  | MULMOD, [x; y; m] => Some (if m =? 0 then 0 else (x * y) mod m)
  | EXP, [x; y] => Some (x ^ y mod 2 ^ 256)
  | SIGNEXTEND, [k; x] =>
      (* the low 8(k+1) bits of x, as a signed number of that width *)
      Some (if 31 <? k then x
            else let half := (2 ^ (8 * Z.of_N k + 7))%Z in
                 word ((Z.of_N x + half) mod (2 * half) - half))
  | LT, [x; y] => Some (truth (x <? y))
  | GT, [x; y] => Some (truth (y <? x))
  | SLT, [x; y] => Some (truth (signed x <? signed y)%Z)
  | SGT, [x; y] => Some (truth (signed y <? signed x)%Z)
  | EQ, [x; y] => Some (truth (x =? y))
  | ISZERO, [x] => Some (truth (x =? 0))
  | AND, [x; y] => Some (N.land x y)
  | OR, [x; y] => Some (N.lor x y)
  | XOR, [x; y] => Some (N.lxor x y)
  | NOT, [x] => Some (2 ^ 256 - 1 - x)
  | BYTE, [i; x] => Some (if i <? 32 then (x / 256 ^ (31 - i)) mod 256 else 0)
  | SHL, [s; x] => Some ((x * 2 ^ s) mod 2 ^ 256)
  | SHR, [s; x] => Some (x / 2 ^ s)
  | SAR, [s; x] => Some (word (signed x / 2 ^ Z.of_N s))
  | CLZ, [x] => Some (if x =? 0 then 256 else 255 - N.log2 x)
  | _, _ => None
  end.

(** The price of the instruction. *)
Definition alu_price (o : op) (args : list N) : N :=
  match o, args with
  | (MUL | DIV | SDIV | MOD | SMOD | SIGNEXTEND | CLZ), _ => 5
  | (ADDMOD | MULMOD), _ => 8
  | EXP, [_; y] => 10 + 50 * (if y =? 0 then 0 else N.log2 y / 8 + 1)
  | _, _ => 3
  end.

Lemma signed_as x : x < 2 ^ 256 -> signed x = as_signed x.
Proof. apply to_signed_spec. Qed.

Lemma alu_exp_bytes y :
  (bit_length y + 7) / 8 = if y =? 0 then 0 else N.log2 y / 8 + 1.
Proof.
  unfold bit_length. destruct (N.eqb_spec y 0) as [->|Hy]; [done|].
  rewrite N.size_log2 by done.
  replace (N.succ (N.log2 y) + 7) with (N.log2 y + 1 * 8) by lia.
  by rewrite N.div_add by lia.
Qed.
Lemma alu_clz x : x < 2 ^ 256 ->
  clz_value x = Ok (if x =? 0 then 256 else 255 - N.log2 x).
Proof.
  intros H. unfold clz_value, bit_length. destruct (N.eqb_spec x 0) as [->|Hx]; [done|].
  rewrite N.size_log2 by done.
  assert (N.log2 x < 256) by (apply N.log2_lt_pow2; lia).
  destruct (N.ltb_spec 256 (N.succ (N.log2 x))); [lia|]. f_equal. lia.
Qed.

Section C13.
  Context (cr : crypto) (be : block_env) (te : tx_env)
    (pm pcm : message -> world -> pmres).

  Lemma unop_runs e w g f x s :
    e_stack e = [x] ++ s -> lenN (e_stack e) <= 1024 -> g <= e_gas_left e ->
    unop g f e w = Ret tt (set_pc (e_pc e + 1) (set_stack (f x :: s)
      (set_gas_left (e_gas_left e - g) e))) w.
  Proof.
    destruct e. simpl. intros -> Hl Hg. rewrite lenN_cons in Hl.
    unfold unop, bind, pop, charge_gas, push, pc_add, upd; simpl.
    destruct (N.ltb_spec e_gas_left g); [lia|]; simpl.
    destruct (N.eqb_spec (lenN s) 1024); [lia|]; done.
  Qed.
  Lemma binop_runs e w g f x y s :
    e_stack e = [x; y] ++ s -> lenN (e_stack e) <= 1024 -> g <= e_gas_left e ->
    binop g f e w = Ret tt (set_pc (e_pc e + 1) (set_stack (f x y :: s)
      (set_gas_left (e_gas_left e - g) e))) w.
  Proof.
    destruct e. simpl. intros -> Hl Hg. rewrite !lenN_cons in Hl.
    unfold binop, bind, pop, charge_gas, push, pc_add, upd; simpl.
    destruct (N.ltb_spec e_gas_left g); [lia|]; simpl.
    destruct (N.eqb_spec (lenN s) 1024); [lia|]; done.
  Qed.
  Lemma binop_opt_runs e w g f x y s v :
    e_stack e = [x; y] ++ s -> lenN (e_stack e) <= 1024 -> g <= e_gas_left e ->
    f x y = Ok v ->
    binop_opt g f e w = Ret tt (set_pc (e_pc e + 1) (set_stack (v :: s)
      (set_gas_left (e_gas_left e - g) e))) w.
  Proof.
    destruct e. simpl. intros -> Hl Hg Hf. rewrite !lenN_cons in Hl.
    unfold binop_opt, bind, pop, charge_gas, push, pc_add, upd; simpl.
    destruct (N.ltb_spec e_gas_left g); [lia|]; simpl. rewrite Hf. simpl.
    destruct (N.eqb_spec (lenN s) 1024); [lia|]; done.
  Qed.
  Lemma ternop_runs e w g f x y z s v :
    e_stack e = [x; y; z] ++ s -> lenN (e_stack e) <= 1024 -> g <= e_gas_left e ->
    f x y z = Ok v ->
    ternop g f e w = Ret tt (set_pc (e_pc e + 1) (set_stack (v :: s)
      (set_gas_left (e_gas_left e - g) e))) w.
  Proof.
    destruct e. simpl. intros -> Hl Hg Hf. rewrite !lenN_cons in Hl.
    unfold ternop, bind, pop, charge_gas, push, pc_add, upd; simpl.
    destruct (N.ltb_spec e_gas_left g); [lia|]; simpl. rewrite Hf. simpl.
    destruct (N.eqb_spec (lenN s) 1024); [lia|]; done.
  Qed.

  (** Executing the instruction with its operands on the stack and enough gas
      replaces the operands by the specified value, charges the price, moves
      to the next instruction and touches nothing else. *)
  Theorem C13_alu : forall o args v rest e w,
    alu_spec o args = Some v ->
    Forall (fun x => x < 2 ^ 256) args ->
    e_stack e = args ++ rest -> lenN (e_stack e) <= 1024 ->
    alu_price o args <= e_gas_left e ->
    op_implementation cr be te pm pcm o e w =
      Ret tt (set_pc (e_pc e + 1) (set_stack (v :: rest)
        (set_gas_left (e_gas_left e - alu_price o args) e))) w.
  Proof.
    intros o args v rest e w Hspec Hargs Hst Hlen Hgas.
    destruct o; try discriminate Hspec;
    (destruct args as [|x [|y [|z [|? ?]]]]; try discriminate Hspec);
    injection Hspec as Hv;
    repeat match goal with H : Forall _ (_ :: _) |- _ => apply Forall_cons in H as [? H] end;
    simpl in Hgas |- *.
    all: lazymatch goal with
         | |- op_sdiv _ _ = _ =>
             apply binop_opt_runs with x y; [done..|]; rewrite sdiv_value_spec by done;
             rewrite <- Hv, !signed_as by done; done
         | |- op_smod _ _ = _ =>
             apply binop_opt_runs with x y; [done..|]; rewrite smod_value_spec by done;
             rewrite <- Hv, !signed_as by done; done
         | |- op_signextend _ _ = _ => idtac
         | |- op_shl _ _ = _ =>
             apply binop_opt_runs with x y; [done..|]; rewrite shl_value_spec; by rewrite Hv
         | |- op_sar _ _ = _ =>
             apply binop_opt_runs with x y; [done..|]; rewrite sar_value_spec by done;
             rewrite <- Hv, !signed_as by done; done
         | |- op_addmod _ _ = _ =>
             apply ternop_runs with x y z; [done..|]; rewrite addmod_value_spec by done; by rewrite Hv
         | |- op_mulmod _ _ = _ =>
             apply ternop_runs with x y z; [done..|]; rewrite mulmod_value_spec by done; by rewrite Hv
         | |- op_exp _ _ = _ => idtac
         | |- op_clz _ _ = _ => idtac
         | |- op_iszero _ _ = _ => rewrite <- Hv; etrans; [unfold op_iszero; eapply unop_runs; eassumption|reflexivity]
         | |- op_not _ _ = _ =>
             rewrite <- Hv, <- not_value_spec by done; etrans; [unfold op_not; eapply unop_runs; eassumption|reflexivity]
         | |- _ => idtac
         end.
    all: try (rewrite <- Hv; etrans; [unfold op_add, op_mul, op_div, op_mod, op_lt, op_gt, op_slt, op_sgt, op_eq, op_and, op_or, op_xor; eapply binop_runs; eassumption|reflexivity]).
    - (* SUB *) rewrite <- Hv. change (word (Z.of_N x - Z.of_N y)) with (as_word (Z.of_N x - Z.of_N y)).
      rewrite <- wrapping_sub_spec by done. etrans; [unfold op_sub, op_shr; eapply binop_runs; eassumption|reflexivity].
    - (* EXP *)
      rewrite <- alu_exp_bytes in Hgas |- *.
      destruct e; simpl in *. subst e_stack. rewrite !lenN_cons in Hlen.
      unfold op_exp, bind, pop, charge_gas, push, pc_add, upd; simpl.
      unfold GAS_EXPONENTIATION, GAS_EXPONENTIATION_PER_BYTE.
      destruct (N.ltb_spec e_gas_left (10 + 50 * ((bit_length y + 7) / 8))); [lia|]; simpl.
      rewrite exp_value_spec. simpl.
      destruct (N.eqb_spec (lenN rest) 1024); [lia|]. by rewrite Hv.
    - (* SIGNEXTEND *)
      apply binop_opt_runs with x y; [done..|]. rewrite signextend_value_spec by done.
      rewrite <- Hv. unfold signextend_spec. destruct (31 <? x); [done|].
      cbv zeta. replace (8 * (Z.of_N x + 1) - 1)%Z with (8 * Z.of_N x + 7)%Z by lia.
      replace (2 ^ (8 * (Z.of_N x + 1)))%Z with (2 * 2 ^ (8 * Z.of_N x + 7))%Z.
      2: { replace (8 * (Z.of_N x + 1))%Z with (1 + (8 * Z.of_N x + 7))%Z by lia.
           rewrite (Z.pow_add_r 2 1) by lia. done. }
      done.
    - (* BYTE *) rewrite <- Hv, <- byte_value_spec. etrans; [unfold op_byte; eapply binop_runs; eassumption|reflexivity].
    - (* SHR *) rewrite <- Hv, <- shr_value_spec by done. etrans; [unfold op_sub, op_shr; eapply binop_runs; eassumption|reflexivity].
    - (* CLZ *)
      destruct e; simpl in *. subst e_stack. rewrite !lenN_cons in Hlen.
      unfold op_clz, bind, pop, charge_gas, push, pc_add, upd, GAS_LOW; simpl.
      destruct (N.ltb_spec e_gas_left 5); [lia|]; simpl.
      rewrite alu_clz by done. simpl.
      destruct (N.eqb_spec (lenN rest) 1024); [lia|]. by rewrite Hv.
  Qed.

  (** The specified value is again a word. *)
  Theorem C13_alu_word : forall o args v,
    alu_spec o args = Some v -> Forall (fun x => x < 2 ^ 256) args -> v < 2 ^ 256.
  Proof.
    intros o args v Hspec Hargs.
    assert (Hw : forall z, word z < 2 ^ 256) by apply as_word_lt.
    assert (Hm : forall z, z mod 2 ^ 256 < 2 ^ 256) by (intros; apply N.mod_lt; lia).
    assert (Ht : forall b, truth b < 2 ^ 256) by (intros []; simpl; lia).
    destruct o; try discriminate Hspec;
    (destruct args as [|x [|y [|z [|? ?]]]]; try discriminate Hspec);
    injection Hspec as <-;
    repeat match goal with H : Forall _ (_ :: _) |- _ => apply Forall_cons in H as [? H] end;
    auto.
    - destruct (N.eqb_spec y 0); [lia|]. eapply N.le_lt_trans; [|exact H].
      apply N.div_le_upper_bound; nia.
    - destruct (y =? 0); [lia|auto].
    - destruct (N.eqb_spec y 0); [lia|]. pose proof (N.mod_lt x y). lia.
    - destruct (y =? 0); [lia|auto].
    - destruct (N.eqb_spec z 0); [lia|]. pose proof (N.mod_lt (x + y) z). lia.
    - destruct (N.eqb_spec z 0); [lia|]. pose proof (N.mod_lt (x * y) z). lia.
    - destruct (31 <? x); auto.
    - by apply land_lt.
    - by apply lor_lt.
    - by apply lxor_lt.
    - lia.
    - destruct (x <? 32); [|lia]. pose proof (N.mod_lt (y / 256 ^ (31 - x)) 256). lia.
    - eapply N.le_lt_trans; [|exact H0]. apply N.div_le_upper_bound; [apply N.pow_nonzero; lia|].
      assert (2 ^ x <> 0) by (apply N.pow_nonzero; lia). nia.
    - destruct (x =? 0); lia.
  Qed.
End C13.

(** The operands of these instructions, on concrete words. *)
Example C13_nonvacuous :
  let m1 := 2 ^ 256 - 1 in
  let min := 2 ^ 255 in
  alu_spec SDIV [min; m1] = Some min /\
  alu_spec SDIV [2 ^ 256 - 7; 2] = Some (2 ^ 256 - 3) /\
  alu_spec SMOD [2 ^ 256 - 7; 3] = Some m1 /\
  alu_spec SUB [1; 2] = Some m1 /\
  alu_spec MULMOD [m1; m1; m1 - 1] = Some 1 /\
  alu_spec SIGNEXTEND [0; 0xff] = Some m1 /\
  alu_spec SIGNEXTEND [1; 0x1ff] = Some 0x1ff /\
  alu_spec SAR [300; min] = Some m1 /\
  alu_spec SHL [255; 3] = Some min /\
  alu_spec BYTE [31; 0x1234] = Some 0x34 /\
  alu_spec CLZ [1] = Some 255 /\
  alu_price EXP [2; 256] = 110.
Proof. vm_compute. repeat split. Qed.

Print Assumptions C13_alu.
Print Assumptions C13_alu_word.
