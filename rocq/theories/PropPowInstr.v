(** * PropPowInstr: C80, the meaning and the price of every instruction of the
    proof-of-work forks. *)
From Verif Require Import Base State Rlp Bloom Transactions Trie Blocks Requests Fork Ethash Pow PowTx.
From Verif Require Import Vm Instructions Precompiles Interpreter PowVm StateSpec
  StateProofs NumericProofs ArithProofs PropArith EvmStep EvmLocal EvmPlan EvmPlanProofs EvmCallProofs
  InstrSpec InstrProofs PowVmPlan PowVmOps PowVmCalls PropInstr EvmExamples PropPowTx PowInstrSpec
  PowInstrProofs.
From Coq Require Import ZifyBool ZifyN ZifyNat.
Ltac Zify.zify_post_hook ::= idtac.

(** ** C80: the price and the meaning of every instruction, fork by fork *)

(** An instruction exists from the fork that introduced it on. *)
Definition exists_in (n : pow_name) (o : op) : Prop :=
  exists f, introduced o = Some f /\ since f n = true.
Lemma available_exists n o : pow_available n o = true <-> exists_in n o.
Proof.
  unfold exists_in. split.
  - intros H. destruct o; try discriminate H; try (eexists; split; [reflexivity|exact H]);
      try (exists Frontier; split; [reflexivity|by destruct n]).
    destruct n0; [discriminate H|]. exists Frontier. split; [reflexivity|by destruct n].
  - intros (f & H1 & H2). destruct o; cbn [introduced] in H1; try discriminate H1;
      try (injection H1 as <-; exact H2); try reflexivity.
    by destruct n0.
Qed.

(** The loop executes the byte at the program counter as an instruction of the
    fork, and fails without effect when there is none. *)
Theorem C80_step : forall cr n env te inh pm pcm e t w b,
  e_running e = true -> nthN (e_code e) (e_pc e) = Some b ->
  (forall o, Byte.to_N b = opcode o -> index_ok o -> exists_in n o ->
     pow_step cr n env te inh pm pcm (e, t, w) =
       match pow_op cr n env te inh pm pcm o e w with
       | Ret new e' w' => inl (e', t ∪ new, w')
       | Exc x e' w' => inr (Some x, e', t, w')
       end) /\
  ((forall o, Byte.to_N b = opcode o -> index_ok o -> ~ exists_in n o) ->
     pow_step cr n env te inh pm pcm (e, t, w) = inr (Some (EHalt (InvalidOpcode b)), e, t, w)).
Proof.
  intros cr n env te inh pm pcm e t w b Hr Hb.
  assert (Hlt : (e_pc e <? lenN (e_code e)) = true) by (apply N.ltb_lt; by eapply nthN_Some_lt).
  unfold pow_step. rewrite Hr, Hlt, Hb. cbn [andb]. split.
  - intros o H1 H2 H3. rewrite (proj2 (C50_opcodes b o) (conj H1 H2)).
    by rewrite (proj2 (available_exists n o) H3).
  - intros H. destruct (decode_op b) as [o|] eqn:E; [|done].
    apply C50_opcodes in E as [H1 H2]. specialize (H o H1 H2).
    destruct (pow_available n o) eqn:E; [|done]. by apply available_exists in E.
Qed.

Section C80.
  Context (cr : crypto) (n : pow_name) (env : pow_env) (te : tx_env) (inh : gset address)
    (pm pcm : gset address -> message -> world -> ppres).
  Notation exec := (pow_op cr n env te inh pm pcm).

  Lemma alone_done o e w :
    alone o = true -> op_ok o -> exists_in n o -> shape_ok e -> e_running e = true ->
    pdone_ok cr n env te inh o e w (exec o e w).
  Proof.
    intros Ha Ho Hav%available_exists Hs Hr.
    destruct (pow_op_plan cr n env te inh o e w Ho Hav Hs Hr) as (p & Hp1 & Hp2).
    rewrite (Hp2 pm pcm). destruct p as [r| |]; [done|exfalso..].
    - destruct Hp1 as [? ? ? ? ? Hk]. by destruct o.
    - destruct Hp1 as [? [-> | ->]]; discriminate.
  Qed.

  (** An instruction fails exactly when the table says so, and then without
      effect on the world. *)
  Theorem C80_fails : forall o e w,
    alone o = true -> op_ok o -> exists_in n o -> shape_ok e -> e_running e = true ->
    env_ok cr (pow_block_env env) te -> frame_ok e w -> total_balance (st w) < 2 ^ 255 ->
    (pow_halts n o e w <-> exists h e' w', exec o e w = Exc (EHalt h) e' w') /\
    (forall x e' w', exec o e w = Exc x e' w' -> w' = w).
  Proof.
    intros o e w Ha Ho Hav Hs Hr Henv Hf Ht.
    pose proof (j_all cr n env te inh pm pcm o Ha Ho e w Hs Hr (fo_stack _ _ Hf)) as H.
    pose proof (alone_done o e w Ha Ho Hav Hs Hr) as Hp1.
    destruct (exec o e w) as [t e1 w1|x e1 w1].
    - destruct H as [H _]. split; [|discriminate]. split; [done|].
      intros (? & ? & ? & ?). discriminate.
    - destruct Hp1 as [-> (_ & _ & Hx)]. split; [|intros; congruence].
      destruct x; cbn in H; try done.
      + destruct H as [H _]. split; [|done]. intros _. eauto.
      + destruct H as [H _]. split; [done|]. intros (? & ? & ? & ?). discriminate.
      + destruct (Hx Henv Hf Ht).
  Qed.

  (** Otherwise the frame, the world and the touched accounts after it are
      those of the table (REVERT reports by the exception [ERevert]). *)
  Theorem C80_runs : forall o e w,
    alone o = true -> op_ok o -> exists_in n o -> shape_ok e -> e_running e = true ->
    env_ok cr (pow_block_env env) te -> frame_ok e w -> total_balance (st w) < 2 ^ 255 ->
    ~ pow_halts n o e w ->
    exists w', pow_world_after o e w w' /\
      exec o e w =
        (match o with REVERT => Exc ERevert | _ => Ret (pow_touched n o e w') end)
          (pow_frame_after cr n env te inh o e w) w'.
  Proof.
    intros o e w Ha Ho Hav Hs Hr Henv Hf Ht Hn.
    pose proof (j_all cr n env te inh pm pcm o Ha Ho e w Hs Hr (fo_stack _ _ Hf)) as H.
    pose proof (alone_done o e w Ha Ho Hav Hs Hr) as Hp1.
    destruct (exec o e w) as [t e1 w1|x e1 w1].
    - destruct H as (_ & Hne & -> & H & ->). exists w1. split; [done|]. by destruct o.
    - destruct Hp1 as [-> (_ & _ & Hx)].
      destruct x; cbn in H; try done.
      + by destruct H.
      + destruct H as (_ & -> & -> & _). exists w. done.
      + destruct (Hx Henv Hf Ht).
  Qed.

  (** Without assumptions on the environment: a returned frame is the one of
      the table. *)
  Theorem C80_sound : forall o e w t e' w',
    alone o = true -> op_ok o -> shape_ok e -> e_running e = true ->
    Forall (fun x => x < 2 ^ 256) (e_stack e) ->
    exec o e w = Ret t e' w' ->
    ~ pow_halts n o e w /\ e' = pow_frame_after cr n env te inh o e w /\
    pow_world_after o e w w' /\ t = pow_touched n o e w'.
  Proof.
    intros o e w t e' w' Ha Ho Hs Hr Hw He.
    pose proof (j_all cr n env te inh pm pcm o Ha Ho e w Hs Hr Hw) as H. rewrite He in H.
    destruct H as (? & _ & ? & ? & ?). done.
  Qed.

  (** What the instructions that read the block find. *)
  Theorem C80_block : forall o e w t e' w',
    shape_ok e -> e_running e = true -> Forall (fun x => x < 2 ^ 256) (e_stack e) ->
    exec o e w = Ret t e' w' ->
    match o with
    | COINBASE => e_stack e' = pe_coinbase env :: e_stack e
    | TIMESTAMP => e_stack e' = pe_time env :: e_stack e
    | NUMBER => e_stack e' = pe_number env :: e_stack e
    | PREVRANDAO => e_stack e' = pe_difficulty env :: e_stack e
    | GASLIMIT => e_stack e' = pe_block_gas_limit env :: e_stack e
    | CHAINID => e_stack e' = pe_chain_id env :: e_stack e
    | BASEFEE => e_stack e' = pe_base_fee_per_gas env :: e_stack e
    | BLOCKHASH => exists k s h, e_stack e = k :: s /\ e_stack e' = h :: s /\
        if (k <? pe_number env) && (pe_number env <=? k + 256)
        then h = match nth_error (pe_block_hashes env)
                         (length (pe_block_hashes env) - N.to_nat (pe_number env - k)) with
                 | Some b => from_be_bytes b
                 | None => 0
                 end
        else h = 0
    | _ => True
    end.
  Proof.
    intros o e w t e' w' Hs Hr Hw He.
    assert (Ho : match o with COINBASE | TIMESTAMP | NUMBER | PREVRANDAO | GASLIMIT | CHAINID | BASEFEE | BLOCKHASH => True | _ => False end \/
       match o with COINBASE | TIMESTAMP | NUMBER | PREVRANDAO | GASLIMIT | CHAINID | BASEFEE | BLOCKHASH => False | _ => True end) by (destruct o; auto).
    destruct Ho as [Ho|Ho]; [|by destruct o].
    assert (Ha : alone o = true) by (by destruct o). assert (Hk : op_ok o) by (by destruct o).
    destruct (C80_sound o e w t e' w' Ha Hk Hs Hr Hw He) as (Hh & -> & _).
    destruct o; try done.
    destruct (e_stack e) as [|k s] eqn:Es.
    { destruct Hh. left. cbn [pow_halts]. rewrite Es. cbn. lia. }
    exists k, s. eexists. split; [done|]. cbn [pow_frame_after e_stack frame_after]. unfold operands, below. rewrite Es.
    cbn [takes firstn take drop skipn results app]. split; [reflexivity|].
    cbn [pow_block_env b_number b_block_hashes].
    destruct ((k <? pe_number env) && (pe_number env <=? k + 256)); [|done].
    rewrite nthN_nth_error. unfold lenN. rewrite map_length.
    replace (N.to_nat (N.of_nat (length (pe_block_hashes env)) - (pe_number env - k)))
      with (length (pe_block_hashes env) - N.to_nat (pe_number env - k))%nat by lia.
    rewrite nth_error_map. by destruct (nth_error _ _).
  Qed.
End C80.

(** Prices through history: SLOAD, BALANCE, a first write to a fresh slot, a
    write clearing a slot that was already set, EXP with an exponent of two
    bytes, SELFDESTRUCT to an account that is not there. *)
Definition history : list pow_name :=
  [Frontier; TangerineWhistle; SpuriousDragon; Istanbul; Berlin; London].
Definition ex_price (o : op) (stk : list N) (n : pow_name) : N :=
  let f := ex_frame stk 40000 in pow_price n o (operands o f) f ex_frame_world.
Example C80_nonvacuous :
  map (ex_price SLOAD [7]) history = [50; 200; 200; 800; 2100; 2100] /\
  map (ex_price BALANCE [7]) history = [20; 400; 400; 700; 2600; 2600] /\
  map (ex_price SSTORE [7; 1]) history = [20000; 20000; 20000; 20000; 22100; 22100] /\
  map (fun n => pow_store_refund n 1 1 0) history =
    [15000; 15000; 15000; 15000; 15000; 4800]%Z /\
  map (ex_price EXP [7; 256]) history = [30; 30; 110; 110; 110; 110] /\
  map (ex_price SELFDESTRUCT [7]) history = [0; 30000; 30000; 30000; 32600; 32600] /\
  (~ exists_in Constantinople CHAINID /\ exists_in Istanbul CHAINID) /\
  ~ pow_halts Byzantium SSTORE (ex_frame [7; 0] 5000) ex_frame_world /\
  pow_halts Byzantium SSTORE (ex_frame [7; 1] 5000) ex_frame_world /\
  pow_halts Istanbul SSTORE (ex_frame [7; 0] 2300) ex_frame_world /\
  total_balance (st ex_frame_world) = 50.
Proof.
  split_and!; try by vm_compute.
  - intros (f & [= <-] & H). discriminate.
  - by exists Istanbul.
  - intros [H|[H|[H|H]]]; [cbn in H; lia|cbn in H; lia|by vm_compute in H|].
    cbn in H. by destruct H as [H|[H _]].
  - right; right; left. by vm_compute.
  - right; right; right. right. split; [done|]. by vm_compute.
Qed.
(** SELFDESTRUCT of the contract 0x200 holding 50 in favour of 7. *)
Example C80_selfdestruct_nonvacuous :
  let run n := pow_op toy_crypto n (PowEnv 1 100000 [] 0xc0 2 3 1000 131072) toy_tx ∅
                 (fun _ _ w => PPExc EOutOfFuel w) (fun _ _ w => PPExc EOutOfFuel w)
                 SELFDESTRUCT (ex_frame [7] 40000) ex_frame_world in
  map (fun n => match run n with
       | Ret t e w => Some (elements t, e_gas_left e, e_refund_counter e,
                            balance (get_account (st w) 7), balance (get_account (st w) 0x200))
       | _ => None end) [Frontier; Byzantium; London] =
  [Some ([], 40000, 24000%Z, 50, 0); Some ([], 10000, 24000%Z, 50, 0);
   Some ([], 7400, 0%Z, 50, 0)].
Proof. vm_compute. reflexivity. Qed.

Definition PropPowInstr_theorems := (@C80_step, @C80_fails, @C80_runs, @C80_sound, @C80_block).
Print Assumptions PropPowInstr_theorems.
