(** * PropInstr: C50, the meaning and the price of every instruction. *)
From Verif Require Import Base State Rlp Vm Instructions StateSpec StateProofs
  NumericProofs ArithProofs PropArith EvmStep EvmLocal EvmPlan EvmPlanProofs EvmCallProofs
  InstrSpec InstrProofs EvmExamples PropSafe.
From Coq Require Import ZifyBool ZifyN ZifyNat.
Ltac Zify.zify_post_hook ::= idtac.

(** ** C50: the price and the meaning of every instruction *)
Section C50.
  Context (cr : crypto) (be : block_env) (te : tx_env)
    (pm pcm : message -> world -> pmres).
  Notation exec := (op_implementation cr be te pm pcm).

  (** Before Cancun, SELFDESTRUCT adds the balance of the account to that of
      the beneficiary, even when they are the same account; the sum need not
      be a word. *)
  Definition overflows (o : op) (e : evm) (w : world) : Prop :=
    o = SELFDESTRUCT /\ at_least Cancun (b_fork be) = false /\
    2 ^ 255 <= balance (get_account (st w) (m_current_target (e_message e))).

  (** An instruction fails exactly when the table says so, and then without
      effect on the world. *)
  Theorem C50_fails : forall o e w,
    alone o = true -> op_ok o -> shape_ok e -> e_running e = true ->
    env_ok cr be te -> frame_ok e w -> ~ overflows o e w ->
    (halts o e w <-> exists h e' w', exec o e w = Exc (EHalt h) e' w') /\
    (forall x e' w', exec o e w = Exc x e' w' -> w' = w).
  Proof.
    intros o e w Ha Ho Hs Hr Henv Hf Hov.
    pose proof (i_all cr be te pm pcm o Ha Ho e w Hs Hr (fo_stack _ _ Hf)) as H.
    destruct (op_plan cr be te o e w Ho Hs Hr) as (p & Hp1 & Hp2).
    rewrite (Hp2 pm pcm) in *.
    destruct p as [r| |]; [|exfalso; destruct Hp1 as [? ? ? ? ? Hk]; by destruct o|exfalso; destruct Hp1 as [? [-> | ->]]; discriminate].
    cbn [interp plan_ok done_ok] in *. destruct r as [[] e1 w1|x e1 w1].
    - destruct H as [H _]. split; [|discriminate]. split; [done|].
      intros (? & ? & ? & ?). discriminate.
    - destruct Hp1 as [-> (_ & _ & Hx)]. split; [|intros; congruence].
      destruct x; cbn in H; try done.
      + destruct H as [H _]. split; [|done]. intros _. eauto.
      + destruct H as [H _]. split; [done|]. intros (? & ? & ? & ?). discriminate.
      + destruct (Hx Henv Hf) as (_ & Hx'). destruct (Hov Hx').
  Qed.

  (** Otherwise the frame after it is exactly the one of the table (REVERT
      reports by the exception [ERevert]). *)
  Theorem C50_runs : forall o e w,
    alone o = true -> op_ok o -> shape_ok e -> e_running e = true ->
    env_ok cr be te -> frame_ok e w -> ~ overflows o e w -> ~ halts o e w ->
    exists w', world_after (b_fork be) o e w w' /\
      exec o e w = (match o with REVERT => Exc ERevert | _ => Ret tt end)
                     (frame_after cr be te o e w) w'.
  Proof.
    intros o e w Ha Ho Hs Hr Henv Hf Hov Hn.
    pose proof (i_all cr be te pm pcm o Ha Ho e w Hs Hr (fo_stack _ _ Hf)) as H.
    destruct (op_plan cr be te o e w Ho Hs Hr) as (p & Hp1 & Hp2).
    rewrite (Hp2 pm pcm) in *.
    destruct p as [r| |]; [|exfalso; destruct Hp1 as [? ? ? ? ? Hk]; by destruct o|exfalso; destruct Hp1 as [? [-> | ->]]; discriminate].
    cbn [interp plan_ok done_ok] in *. destruct r as [[] e1 w1|x e1 w1].
    - destruct H as (_ & Hne & -> & H). exists w1. split; [done|]. by destruct o.
    - destruct Hp1 as [-> (_ & _ & Hx)].
      destruct x; cbn in H; try done.
      + by destruct H.
      + destruct H as (_ & -> & -> & _). exists w. done.
      + destruct (Hx Henv Hf) as (_ & Hx'). destruct (Hov Hx').
  Qed.

  (** Without assumptions on the environment: a returned frame is the one of
      the table. *)
  Theorem C50_sound : forall o e w e' w',
    alone o = true -> op_ok o -> shape_ok e -> e_running e = true ->
    Forall (fun x => x < 2 ^ 256) (e_stack e) ->
    exec o e w = Ret tt e' w' ->
    ~ halts o e w /\ e' = frame_after cr be te o e w /\ world_after (b_fork be) o e w w'.
  Proof.
    intros o e w e' w' Ha Ho Hs Hr Hw He.
    pose proof (i_all cr be te pm pcm o Ha Ho e w Hs Hr Hw) as H. rewrite He in H.
    destruct H as (? & _ & ? & ?). done.
  Qed.
End C50.

(** What [splice] and [padded] mean byte by byte. *)
Theorem C50_splice : forall b s v, s + lenN v <= lenN b ->
  lenN (splice b s v) = lenN b /\
  forall i, nthN (splice b s v) i =
    if (s <=? i) && (i <? s + lenN v) then nthN v (i - s) else nthN b i.
Proof.
  intros b s v H.
  assert (Hi : forall i, nthN (splice b s v) i =
    if (s <=? i) && (i <? s + lenN v) then nthN v (i - s) else nthN b i).
  { intros i. destruct v as [|x v].
    { cbn [splice]. change (lenN []) with 0. rewrite N.add_0_r.
      destruct (N.leb_spec s i), (N.ltb_spec i s); try done. lia. }
    revert H. cbn [splice]. generalize (x :: v). clear. intros v H.
    rewrite !nthN_nth_error. unfold lenN in *.
    rewrite takeN_firstn, dropN_skipn.
    destruct (N.leb_spec s i) as [Hs|Hs]; cbn [andb].
    - rewrite nth_error_app2 by (rewrite firstn_length; lia).
      rewrite firstn_length, Nat.min_l by lia.
      destruct (N.ltb_spec i (s + N.of_nat (length v))) as [Hl|Hl].
      + rewrite nth_error_app1 by lia. f_equal. lia.
      + rewrite nth_error_app2 by lia. rewrite <- (firstn_skipn (N.to_nat (s + N.of_nat (length v))) b) at 2.
        rewrite nth_error_app2 by (rewrite firstn_length; lia).
        f_equal. rewrite firstn_length. lia.
    - rewrite nth_error_app1 by (rewrite firstn_length; lia).
      rewrite <- (firstn_skipn (N.to_nat s) b) at 2.
      rewrite nth_error_app1 by (rewrite firstn_length; lia). done. }
  split; [|exact Hi].
  destruct v as [|x v]; [done|]. revert H. cbn [splice]. generalize (x :: v). intros l H.
  unfold lenN in *. rewrite !app_length, takeN_firstn, dropN_skipn, firstn_length, skipn_length. lia.
Qed.
Theorem C50_padded : forall b s n,
  lenN (padded b s n) = n /\
  forall i, i < n ->
    nthN (padded b s n) i = Some (default Byte.x00 (nthN b (s + i))).
Proof.
  intros b s n. unfold padded. rewrite takeN_firstn, dropN_skipn.
  assert (Hz : length (zeros n) = N.to_nat n) by (unfold zeros; apply repeat_length).
  split; [unfold lenN; rewrite firstn_length, app_length, Hz; lia|].
  intros i Hi. rewrite !nthN_nth_error.
  assert (Hf : forall (A : Type) (l : list A) k j, (j < k)%nat -> nth_error (firstn k l) j = nth_error l j).
  { intros A l k. revert l. induction k as [|k IH]; intros [|x l] [|j] Hj; try done; try lia.
    cbn. apply IH. lia. }
  rewrite Hf by lia.
  destruct (Nat.lt_ge_cases (N.to_nat (s + i)) (length b)) as [H|H].
  - rewrite nth_error_app1 by (rewrite skipn_length; lia).
    assert (Hk : forall (A : Type) (l : list A) k j, nth_error (skipn k l) j = nth_error l (k + j)).
    { intros A l k. revert l. induction k as [|k IH]; intros [|x l] j; try done; cbn.
      - by destruct j. - apply IH. }
    rewrite Hk.
    replace (N.to_nat s + N.to_nat i)%nat with (N.to_nat (s + i)) by lia.
    destruct (nth_error b (N.to_nat (s + i))) eqn:E; [done|].
    apply nth_error_None in E. lia.
  - rewrite nth_error_app2 by (rewrite skipn_length; lia).
    rewrite (proj2 (nth_error_None b _) H). cbn [default]. unfold zeros.
    apply nth_error_repeat. rewrite skipn_length. lia.
Qed.

(** The byte of every instruction (Ethereum's opcode table). *)
Definition opcode (o : op) : N :=
  match o with
  | STOP => 0x00 | ADD => 0x01 | MUL => 0x02 | SUB => 0x03 | DIV => 0x04 | SDIV => 0x05
  | MOD => 0x06 | SMOD => 0x07 | ADDMOD => 0x08 | MULMOD => 0x09 | EXP => 0x0a
  | SIGNEXTEND => 0x0b
  | LT => 0x10 | GT => 0x11 | SLT => 0x12 | SGT => 0x13 | EQ => 0x14 | ISZERO => 0x15
  | AND => 0x16 | OR => 0x17 | XOR => 0x18 | NOT => 0x19 | BYTE => 0x1a | SHL => 0x1b
  | SHR => 0x1c | SAR => 0x1d | CLZ => 0x1e | KECCAK => 0x20
  | ADDRESS => 0x30 | BALANCE => 0x31 | ORIGIN => 0x32 | CALLER => 0x33 | CALLVALUE => 0x34
  | CALLDATALOAD => 0x35 | CALLDATASIZE => 0x36 | CALLDATACOPY => 0x37 | CODESIZE => 0x38
  | CODECOPY => 0x39 | GASPRICE => 0x3a | EXTCODESIZE => 0x3b | EXTCODECOPY => 0x3c
  | RETURNDATASIZE => 0x3d | RETURNDATACOPY => 0x3e | EXTCODEHASH => 0x3f
  | BLOCKHASH => 0x40 | COINBASE => 0x41 | TIMESTAMP => 0x42 | NUMBER => 0x43
  | PREVRANDAO => 0x44 | GASLIMIT => 0x45 | CHAINID => 0x46 | SELFBALANCE => 0x47
  | BASEFEE => 0x48 | BLOBHASH => 0x49 | BLOBBASEFEE => 0x4a
  | POP => 0x50 | MLOAD => 0x51 | MSTORE => 0x52 | MSTORE8 => 0x53 | SLOAD => 0x54
  | SSTORE => 0x55 | JUMP => 0x56 | JUMPI => 0x57 | PC => 0x58 | MSIZE => 0x59 | GAS => 0x5a
  | JUMPDEST => 0x5b | TLOAD => 0x5c | TSTORE => 0x5d | MCOPY => 0x5e
  | PUSH n => 0x5f + n | DUP n => 0x80 + n | SWAP n => 0x8f + n | LOG n => 0xa0 + n
  | CREATE => 0xf0 | CALL => 0xf1 | CALLCODE => 0xf2 | RETURN => 0xf3 | DELEGATECALL => 0xf4
  | CREATE2 => 0xf5 | STATICCALL => 0xfa | REVERT => 0xfd | SELFDESTRUCT => 0xff
  end.
(** Index of a family: PUSH0-PUSH32, DUP1-DUP16, SWAP1-SWAP16, LOG0-LOG4. *)
Definition index_ok (o : op) : Prop :=
  match o with
  | PUSH n => n <= 32 | DUP n => n <= 15 | SWAP n => 1 <= n <= 16 | LOG n => n <= 4
  | _ => True
  end.
Theorem C50_opcodes : forall b o,
  decode_op b = Some o <-> Byte.to_N b = opcode o /\ index_ok o.
Proof.
  intros b o. split.
  - assert (H : match decode_op b with
      | Some o => Byte.to_N b = opcode o /\ index_ok o | None => True end).
    { destruct b; vm_compute; repeat split; discriminate. }
    intros E. rewrite E in H. done.
  - intros [Hb Hi]. unfold decode_op. rewrite Hb. clear b Hb.
    assert (Hup : forall (P : N -> Prop) k, Forall P (map N.of_nat (seq 0 k)) ->
      forall n, n < N.of_nat k -> P n).
    { intros P k H n Hn. rewrite List.Forall_forall in H. apply H. apply in_map_iff.
      exists (N.to_nat n). split; [lia|]. apply in_seq. lia. }
    destruct o; cbn [index_ok] in Hi; try reflexivity; revert Hi.
    + intros Hi. pattern n. apply (Hup _ 33%nat); [|lia]. repeat constructor.
    + intros Hi. pattern n. apply (Hup _ 16%nat); [|lia]. repeat constructor.
    + intros Hi. replace n with (1 + (n - 1)) by lia.
      generalize (n - 1) (ltac:(lia) : n - 1 < 16). clear n Hi. intros n Hi.
      pattern n. apply (Hup _ 16%nat); [|lia]. repeat constructor.
    + intros Hi. pattern n. apply (Hup _ 5%nat); [|lia]. repeat constructor.
Qed.

(** A frame of contract 0x200 with three words on the stack. *)
Definition ex_frame (stk : list N) (gas : N) : evm :=
  Evm 0 stk (zeros 32) (bs [0x5b; 0x00]) gas {[ 0 ]} [] 0 true
    (toy_message 0x200 gas 0 [] (bs [0x5b; 0x00])) [] ∅ [] None ∅ ∅.
Definition ex_frame_world : world :=
  toy_world [(0x200, Account 1 50 (bs [0x5b; 0x00]))] ∅.
Lemma ex_frame_ok stk gas : Forall (fun x => x < 2 ^ 256) stk -> gas < 2 ^ 64 ->
  (length stk <= 1024)%nat ->
  shape_ok (ex_frame stk gas) /\ frame_ok (ex_frame stk gas) ex_frame_world.
Proof.
  intros Hs Hg Hl. split.
  - split; [unfold lenN; cbn; lia|done].
  - constructor; try done.
    + change (gas + 3 < 2 ^ 256). change (2 ^ 64) with 18446744073709551616 in Hg. lia.
    + constructor.
      * by vm_compute.
      * intros a. unfold get_account, get_account_optional, ex_frame_world, toy_world. cbn.
        destruct (_ !! a) as [acc|] eqn:E; [|done].
        repeat (apply lookup_insert_Some in E as [[<- <-]|[_ E]]; [done|]). done.
      * done.
      * done.
Qed.
(** MSTORE(40, 7) on a memory of one word costs 3 for the instruction and 6
    for two words; SSTORE of a fresh slot 22100; a jump to 1 is forbidden;
    SELFDESTRUCT to a new account 5000 + 2600 + 25000. *)
Example C50_nonvacuous :
  let f := ex_frame [40; 7; 9] 40000 in
  price MSTORE (operands MSTORE f) f ex_frame_world = 9 /\
  lenN (e_memory (frame_after toy_crypto toy_block toy_tx MSTORE f ex_frame_world)) = 96 /\
  nthN (e_memory (frame_after toy_crypto toy_block toy_tx MSTORE f ex_frame_world)) 71 = Some Byte.x07 /\
  e_stack (frame_after toy_crypto toy_block toy_tx MSTORE f ex_frame_world) = [9] /\
  price SSTORE (operands SSTORE f) f ex_frame_world = 22100 /\
  price SELFDESTRUCT (operands SELFDESTRUCT f) f ex_frame_world = 32600 /\
  price MCOPY (operands MCOPY f) f ex_frame_world = 9 /\
  price (LOG 1) (operands (LOG 1) f) f ex_frame_world = 809 /\
  exchange (operands (SWAP 2) f) = [9; 7; 40] /\
  halts JUMP f ex_frame_world /\ ~ halts JUMP (ex_frame [0] 8) ex_frame_world /\
  halts JUMP (ex_frame [0] 7) ex_frame_world /\ halts ADD (ex_frame [1] 100) ex_frame_world.
Proof.
  split_and!; try by vm_compute.
  - right; right; right. cbn. set_solver.
  - intros [H|[H|[H|H]]]; [cbn in H; lia|cbn in H; lia|by vm_compute in H|]. cbn in H. set_solver.
  - right; right; left. by vm_compute.
  - left. cbn. lia.
Qed.

Definition PropInstr_theorems :=
  (@C50_fails, @C50_runs, @C50_sound, @C50_splice, @C50_padded, @C50_opcodes).
Print Assumptions PropInstr_theorems.
