(** * PropGas: C11, C12, C14, C21 (memory, code boundaries, sub-call gas, warm
    sets).  Vocabulary: see [PropExec.v]. *)
From Verif Require Import Base State Rlp Vm Instructions Precompiles Interpreter
  StateSpec StateProofs NumericProofs ArithProofs EvmStep EvmLocal EvmPlan
  EvmPlanProofs EvmCallProofs EvmFrame EvmRule EvmExamples PropExec.
From Coq Require Import ZifyBool ZifyN ZifyNat.
Ltac Zify.zify_post_hook ::= idtac.

(** ** C11: memory *)

(** The price of a memory of [n] bytes. *)
Definition mem_price (n : N) : N := let w := n / 32 in 3 * w + w * w / 512.

Lemma memcost_price n : n mod 32 = 0 -> memcost n = mem_price n.
Proof.
  intros H. unfold memcost, mem_price. rewrite ceil32_id by done. unfold GAS_MEMORY.
  cbv zeta. rewrite N.pow_2_r. lia.
Qed.

(** Extending a memory to cover some ranges costs exactly the difference of
    the prices of the new and the old size. *)
Theorem C11_extension_price : forall mem ranges cost expand,
  lenN mem mod 32 = 0 ->
  calculate_gas_extend_memory mem ranges = (cost, expand) ->
  mem_price (lenN mem) + cost = mem_price (lenN mem + expand) /\
  (lenN mem + expand) mod 32 = 0.
Proof.
  intros mem rs c x Hm H. destruct (extend_memory_spec _ _ _ _ Hm H) as (H1 & H2 & _).
  by rewrite <- !memcost_price.
Qed.
(** The new size is the smallest whole number of words that covers the old
    memory and every non-empty range. *)
Theorem C11_extension_size : forall mem ranges cost expand,
  lenN mem mod 32 = 0 ->
  calculate_gas_extend_memory mem ranges = (cost, expand) ->
  (forall s n, In (s, n) ranges -> n <> 0 -> s + n <= lenN mem + expand) /\
  (forall size, size mod 32 = 0 -> lenN mem <= size ->
     (forall s n, In (s, n) ranges -> n <> 0 -> s + n <= size) -> lenN mem + expand <= size).
Proof.
  intros mem rs c x Hm H. split.
  - destruct (extend_memory_spec _ _ _ _ Hm H) as (_ & _ & H3). intros s n Hin Hn.
    by destruct (H3 s n Hin).
  - intros size Hz Hle Hcov. pose proof (extend_loop_size rs (lenN mem) 0 0 Hm) as E.
    unfold calculate_gas_extend_memory in H. rewrite H in E. cbn in E. rewrite N.sub_0_r in E.
    rewrite E. clear E H Hm. revert Hle Hcov. generalize (lenN mem) as cur.
    induction rs as [|[s n] rs IH]; intros cur Hle Hcov; cbn; [done|].
    apply IH; [|intros; eapply Hcov; [by right|done]].
    destruct (N.eqb_spec n 0); [done|].
    specialize (Hcov s n (or_introl eq_refl) n0).
    destruct (ceil32_spec (s + n)) as (C1 & C2 & C3).
    apply N.max_lub; [done|].
    pose proof (N.div_mod size 32 ltac:(done)). pose proof (N.div_mod (ceil32 (s + n)) 32 ltac:(done)).
    lia.
Qed.
(** Hence the total paid over any sequence of extensions depends on the first
    and the last size only. *)
Inductive extensions : N -> N -> N -> Prop :=
| X_none size : extensions size size 0
| X_more size total size' mem ranges cost expand :
    extensions size size' total -> lenN mem = size' ->
    calculate_gas_extend_memory mem ranges = (cost, expand) ->
    extensions size (size' + expand) (total + cost).
Theorem C11_path_independent : forall size size' total,
  size mod 32 = 0 -> extensions size size' total ->
  mem_price size + total = mem_price size' /\ size' mod 32 = 0.
Proof.
  intros size size' total Hs H. induction H as [|size total size' mem rs c x H IH Hl E]; [split; [lia|done]|].
  destruct (IH Hs) as [I1 I2]. subst size'.
  destruct (C11_extension_price _ _ _ _ I2 E) as [E1 E2]. split; [lia|done].
Qed.
Example C11_nonvacuous :
  extensions 0 1056 (6 + 95) /\ extensions 0 1056 (0 + 101) /\
  mem_price 1056 = 101.
Proof.
  split; [|split; [|reflexivity]].
  - apply (X_more 0 6 64 (zeros 64) [(0, 0); (1024, 32)] 95 992);
      [|reflexivity|vm_compute; reflexivity].
    apply (X_more 0 0 0 [] [(32, 1)] 6 64); [constructor|reflexivity|vm_compute; reflexivity].
  - apply (X_more 0 0 0 [] [(1024, 32); (64, 7)] 101 1056); [constructor|reflexivity|vm_compute; reflexivity].
Qed.

(** ** C12: instruction boundaries *)

(** Bytes taken by the instruction with first byte [b]: PUSH1 .. PUSH32
    (0x60 .. 0x7f) carry 1 .. 32 bytes of data. *)
Definition width (b : Byte.byte) : N :=
  let n := Byte.to_N b in if (0x60 <=? n) && (n <=? 0x7f) then n - 0x5e else 1.
(** Positions where an instruction starts when the code is read from 0. *)
Inductive boundary (c : bytes) : N -> Prop :=
| B_start : boundary c 0
| B_next pc b : boundary c pc -> nthN c pc = Some b -> boundary c (pc + width b).

(** The same from an arbitrary start. *)
Inductive reach (c : bytes) (s : N) : N -> Prop :=
| Re_start : reach c s s
| Re_next pc b : reach c s pc -> nthN c pc = Some b -> reach c s (pc + width b).

Lemma boundary_reach c k : boundary c k <-> reach c 0 k.
Proof. split; induction 1; econstructor; eauto. Qed.
Lemma width_pos b : 1 <= width b.
Proof. unfold width. destruct (_ && _) eqn:E; lia. Qed.
Lemma reach_ge c s k : reach c s k -> s <= k.
Proof. induction 1; lia. Qed.
Lemma nthN_cons_succ {A} (x : A) l n : nthN (x :: l) (n + 1) = nthN l n.
Proof. rewrite !nthN_nth_error. replace (N.to_nat (n + 1)) with (S (N.to_nat n)) by lia. done. Qed.
Lemma reach_cons x l s k : reach l s k <-> reach (x :: l) (s + 1) (k + 1).
Proof.
  split.
  - induction 1 as [|pc b H IH Hn]; [constructor|].
    replace (pc + width b + 1) with (pc + 1 + width b) by lia.
    econstructor; [done|]. by rewrite nthN_cons_succ.
  - intros H. remember (k + 1) as k' eqn:Ek. revert k Ek.
    induction H as [|pc b H IH Hn]; intros k Ek.
    + replace k with s by lia. constructor.
    + pose proof (reach_ge _ _ _ H). pose proof (width_pos b).
      replace k with (pc - 1 + width b) by lia. econstructor; [apply IH; lia|].
      replace pc with (pc - 1 + 1) in Hn by lia. by rewrite nthN_cons_succ in Hn.
Qed.
Lemma reach_front c s b k : nthN c s = Some b -> reach c s k <-> k = s \/ reach c (s + width b) k.
Proof.
  intros Hb. split.
  - induction 1 as [|pc b' H IH Hn]; [by left|]. right. destruct IH as [->|IH].
    + rewrite Hb in Hn. injection Hn as <-. constructor.
    + by econstructor.
  - intros [->|H]; [constructor|]. induction H; [|by econstructor].
    econstructor; [constructor|done].
Qed.

Lemma decode_width b :
  (decode_op b = Some JUMPDEST <-> b = Byte.x5b) /\
  (forall o, decode_op b = Some o -> width b = op_size o) /\
  (decode_op b = None -> width b = 1).
Proof.
  assert (H : match decode_op b with
    | Some JUMPDEST => b = Byte.x5b /\ width b = 1
    | Some o => b <> Byte.x5b /\ width b = op_size o
    | None => b <> Byte.x5b /\ width b = 1 end) by (destruct b; vm_compute; by split).
  destruct (decode_op b) as [o|]; [|destruct H; split; [split; congruence|split; congruence]].
  assert (H' : width b = op_size o) by (destruct o; apply H).
  split; [|split; [by intros o' [= <-]|done]].
  destruct o; try (destruct H as [H _]; split; [intros [=]|congruence]); by destruct H.
Qed.

Lemma scan_spec : forall rest pc skip q,
  q ∈ jumpdest_scan rest pc skip <->
  exists k, q = pc + k /\ nthN rest k = Some Byte.x5b /\ reach rest skip k.
Proof.
  induction rest as [|b rest IH]; intros pc skip q; cbn [jumpdest_scan].
  { split; [set_solver|]. intros (k & _ & H & _). rewrite nthN_nth_error in H. by destruct (N.to_nat k). }
  assert (Hpos : forall s, 1 <= s ->
    (exists k, q = pc + 1 + k /\ nthN rest k = Some Byte.x5b /\ reach rest (s - 1) k) <->
    (exists k, q = pc + k /\ nthN (b :: rest) k = Some Byte.x5b /\ reach (b :: rest) s k)).
  { intros s Hs. split; intros (k & Hq & Hn & Hr).
    - exists (k + 1). rewrite nthN_cons_succ. split; [lia|]. split; [done|].
      apply (reach_cons b) in Hr. by replace (s - 1 + 1) with s in Hr by lia.
    - pose proof (reach_ge _ _ _ Hr). exists (k - 1). split; [lia|].
      replace k with (k - 1 + 1) in Hn, Hr by lia. rewrite nthN_cons_succ in Hn. split; [done|].
      apply (reach_cons b). by replace (s - 1 + 1) with s by lia. }
  destruct (N.ltb_spec 0 skip) as [Hs|Hs].
  { rewrite IH, <- N.sub_1_r. apply Hpos. lia. }
  assert (skip = 0) as -> by lia. clear Hs.
  assert (H0 : nthN (b :: rest) 0 = Some b) by done.
  setoid_rewrite (reach_front _ _ _ _ H0). rewrite N.add_0_l.
  assert (Hsplit : (exists k, q = pc + k /\ nthN (b :: rest) k = Some Byte.x5b /\
      (k = 0 \/ reach (b :: rest) (width b) k)) <->
    ((q = pc /\ b = Byte.x5b) \/ q ∈ jumpdest_scan rest (pc + 1) (width b - 1))).
  { rewrite IH, (Hpos (width b) (width_pos b)). split.
    - intros (k & Hq & Hn & [->|Hr]).
      + left. rewrite H0 in Hn. injection Hn as ->. split; [lia|done].
      + right. by exists k.
    - intros [[-> ->]|(k & Hq & Hn & Hr)].
      + exists 0. split; [lia|]. split; [done|by left].
      + exists k. split; [done|]. split; [done|by right]. }
  rewrite Hsplit. clear Hsplit Hpos IH H0.
  destruct (decode_width b) as (D1 & D2 & D3).
  destruct (decode_op b) as [o|] eqn:Ed.
  - specialize (D2 o eq_refl). rewrite D2.
    assert (Hne : o <> JUMPDEST -> b <> Byte.x5b) by (intros Ho Hb; apply D1 in Hb; congruence).
    destruct o; cbn [op_size] in *; try (change (1 - 1) with 0);
      try (split; [by right|intros [[_ Hb]|H]; [by destruct (Hne ltac:(done) Hb)|done]]).
    + rewrite elem_of_union, elem_of_singleton. assert (b = Byte.x5b) by by apply D1.
      split; [intros [->|?]; [by left|by right]|intros [[-> _]|?]; [by left|by right]].
    + replace (1 + n - 1) with n by lia.
      split; [by right|intros [[_ Hb]|H]; [by destruct (Hne ltac:(done) Hb)|done]].
  - rewrite (D3 eq_refl). change (1 - 1) with 0.
    split; [by right|intros [[_ Hb]|H]; [|done]]. apply D1 in Hb. done.
Qed.

(** The jump destinations of a code are the instruction boundaries holding a
    JUMPDEST byte. *)
Theorem C12_jump_destinations : forall c pc,
  pc ∈ get_valid_jump_destinations c <-> boundary c pc /\ nthN c pc = Some Byte.x5b.
Proof.
  intros c pc. unfold get_valid_jump_destinations. rewrite scan_spec, boundary_reach. split.
  - intros (k & -> & H1 & H2). by rewrite N.add_0_l.
  - intros [H1 H2]. exists pc. split; [lia|done].
Qed.
(** PUSH2 0x5b5b; JUMPDEST; PUSH1: the bytes 1 and 2 are data. *)
Example C12_nonvacuous :
  elements (get_valid_jump_destinations (bs [0x61; 0x5b; 0x5b; 0x5b; 0x60])) = [3].
Proof. vm_compute. reflexivity. Qed.

Local Opaque to_u256 from_be_bytes calculate_memory_gas_cost ceil32 N.compare.

Section Gas.
  Context (cr : crypto) (be : block_env) (te : tx_env).
  Notation pm := (process_message cr be te).
  Notation pcm := (process_create_message cr be te).
  Notation step := (exec_step cr be te pm pcm).
  Notation visits := (visits cr be te).
  Notation invokes := (invokes cr be te).

  (** During any execution memory is made of whole words, and the gas spent
      by the frame so far is at least the price of its memory. *)
  Theorem C11_memory_words : forall m0 w0 e w,
    visits m0 w0 e w -> m_depth m0 <= 1024 ->
    lenN (e_memory e) mod 32 = 0 /\
    e_gas_left e + mem_price (lenN (e_memory e)) <= m_gas (e_message e).
  Proof.
    intros m0 w0 e w Hv Hd. destruct (visits_struct _ _ _ _ _ _ _ Hv Hd) as (m1 & w01 & _ & Hf).
    destruct Hf. pose proof (so_mem _ fs_shape) as Hm. split; [done|].
    rewrite <- memcost_price by done. congruence.
  Qed.

  (** Facts preserved by a step of a frame extend to many steps. *)
  Lemma steps_rel (R : evm -> evm -> Prop) m0 w0 :
    (forall e, R e e) -> (forall e1 e2 e3, R e1 e2 -> R e2 e3 -> R e1 e3) ->
    (forall e w e' w', visits m0 w0 e w -> step (e, w) = inl (e', w') -> R e e') ->
    forall n e w e' w', visits m0 w0 e w -> steps step n (e, w) (e', w') -> R e e'.
  Proof.
    intros H1 H2 H3 n e w e' w' Hv Hs.
    assert (G : forall n s s', steps step n s s' -> visits m0 w0 s.1 s.2 -> R s.1 s'.1).
    { clear -H1 H2 H3. induction 1 as [s|n [e1 w1] [e2 w2] [e3 w3] Hst Hs IH]; [done|]. cbn. intros Hv.
      eapply H2; [by eapply H3|]. apply IH. by eapply V_step. }
    by apply (G n (e, w) (e', w') Hs).
  Qed.

  (** Memory never shrinks, and an expansion is paid for. *)
  Theorem C11_memory_grows : forall m0 w0 e w n e' w',
    visits m0 w0 e w -> m_depth m0 <= 1024 -> steps step n (e, w) (e', w') ->
    lenN (e_memory e) <= lenN (e_memory e') /\
    e_gas_left e' + mem_price (lenN (e_memory e'))
    <= e_gas_left e + mem_price (lenN (e_memory e)).
  Proof.
    intros m0 w0 e w n e' w' Hv Hd Hs.
    apply (steps_rel (fun e e' => lenN (e_memory e) <= lenN (e_memory e') /\
      e_gas_left e' + mem_price (lenN (e_memory e'))
      <= e_gas_left e + mem_price (lenN (e_memory e))) m0 w0) with (n := n) (w := w) (w' := w'); try done.
    - intros ? ? ? [] []. split; lia.
    - clear -Hd. intros e w e' w' Hv Hst.
      destruct (visits_struct _ _ _ _ _ _ _ Hv Hd) as (m1 & w01 & _ & Hf).
      pose proof (so_mem _ (fs_shape _ _ _ _ Hf)) as Hm.
      destruct (step_cases cr be te _ _ _ _ (fs_shape _ _ _ _ Hf) Hst) as
        (o & [Hrun _] & [[Hl _]|[(m' & e1 & os & oz & c & w1 & Hc & Hr & Hx)|(m' & e1 & wi & c & w1 & Hc & Hr & Hx)]]).
      + destruct Hl. rewrite <- !memcost_price by done. done.
      + destruct (resume_call_shape _ _ _ _ _ _ _ _ _ _ _ _ Hc Hx) as (R1 & R2 & R3 & R4 & _).
        pose proof (so_mem _ R1) as Hm2.
        pose proof (resume_call_gas e1 os oz c w1) as Rg. rewrite Hx in Rg.
        apply message_struct in Hr. pose proof (ps_gas _ _ _ _ Hr).
        destruct (co_wait _ _ _ _ _ _ _ _ Hc).
        rewrite <- !memcost_price by done. rewrite R4, Rg. split; lia.
      + destruct (resume_create_shape _ _ _ _ _ _ _ _ _ _ _ _ Hc Hx) as (R1 & R2 & R3 & R4 & _).
        pose proof (so_mem _ R1) as Hm2.
        pose proof (resume_create_gas e1 c w1) as Rg. rewrite Hx in Rg.
        apply create_struct in Hr. pose proof (ps_gas _ _ _ _ Hr).
        destruct (cr_wait _ _ _ _ _ _ _ _ Hc).
        rewrite <- !memcost_price by done. rewrite R4, Rg. split; lia.
  Qed.

  (** The plain memory instructions charge 3 gas plus exactly the difference
      of the prices. *)
  Theorem C11_exact : forall o pm0 pcm0 e w e' w',
    In o [MLOAD; MSTORE; MSTORE8] -> lenN (e_memory e) mod 32 = 0 ->
    op_implementation cr be te pm0 pcm0 o e w = Ret tt e' w' ->
    e_gas_left e' + 3 + mem_price (lenN (e_memory e'))
    = e_gas_left e + mem_price (lenN (e_memory e)).
  Proof.
    assert (G : forall o pm0 pcm0 e w,
      In o [MLOAD; MSTORE; MSTORE8] -> lenN (e_memory e) mod 32 = 0 ->
      match op_implementation cr be te pm0 pcm0 o e w with
      | Ret _ e' _ =>
          lenN (e_memory e') mod 32 = 0 /\
          e_gas_left e' + 3 + memcost (lenN (e_memory e'))
          = e_gas_left e + memcost (lenN (e_memory e))
      | Exc _ _ _ => True end).
    { intros o pm0 pcm0 e w Ho Hm.
      destruct e as [pc stk mem cod gas vjd logs rc rn msg out del rd err aa ak].
      cbn [e_memory e_gas_left] in *.
      cbn in Ho. destruct Ho as [<-|[<-|[<-|[]]]]; cbn [op_implementation];
        unfold op_mload, op_mstore, op_mstore8; norm;
        repeat (dm; norm; try done);
        mem_facts; rewrite ?lenN_to_be_bytes32 in *;
        rewrite ?memory_write_len by (right; rewrite mem_expand_len, ?lenN_to_be_bytes32, ?lenN_cons, ?lenN_nil; lia);
        rewrite ?mem_expand_len; split; try done; try lia. }
    intros o pm0 pcm0 e w e' w' Ho Hm H. specialize (G o pm0 pcm0 e w Ho Hm). rewrite H in G.
    destruct G as [G1 G2]. by rewrite !memcost_price in G2.
  Qed.

  (** *** C12, executions *)

  Lemma call_op_size o e w m e1 os oz : call_ok be o e w m e1 os oz -> op_size o = 1.
  Proof. intros Hc. pose proof (co_kind _ _ _ _ _ _ _ _ Hc). by destruct o. Qed.
  Lemma create_op_size o e w m e1 wi : create_ok cr be o e w m e1 wi -> op_size o = 1.
  Proof. intros Hc. by destruct (cr_op _ _ _ _ _ _ _ _ Hc) as [->| ->]. Qed.

  Lemma boundary_next e o : at_op e o -> boundary (e_code e) (e_pc e) ->
    boundary (e_code e) (e_pc e + op_size o).
  Proof.
    intros (_ & _ & b & Hb & Hd) H. destruct (decode_width b) as (_ & D & _).
    rewrite <- (D o Hd). by econstructor.
  Qed.

  Lemma rule_boundary : frame_rule cr be te (fun _ _ => True) (fun _ _ => True)
    (fun _ _ e _ => e_running e = true -> boundary (e_code e) (e_pc e))
    (fun _ _ _ _ => True) (fun _ _ _ _ => True).
  Proof.
    constructor; try done.
    - intros. constructor.
    - intros m w0 w e' _ _ _ (_ & -> & _) _. constructor.
    - intros m w0 e w o e' w' _ Hf Hi Ha [Hl _] _ Hr.
      destruct (ls_pc _ _ _ _ _ _ _ Hl Hr) as [->|Hj]; rewrite (ls_code _ _ _ _ _ _ _ Hl).
      + apply boundary_next; [done|]. apply Hi. apply Ha.
      + rewrite (fs_vjd _ _ _ _ Hf) in Hj. apply C12_jump_destinations in Hj as [Hj _].
        by rewrite (fs_code _ _ _ _ Hf).
    - intros m w0 e w o m' e1 os oz _ Hf Hi Ha Hc. split; [done|].
      intros c w1 e2 w2 _ _ Hr _ _.
      destruct (resume_call_shape _ _ _ _ _ _ _ _ _ _ _ _ Hc Hr) as (_ & _ & _ & _ & _ & -> & -> & _).
      rewrite <- (call_op_size _ _ _ _ _ _ _ Hc). apply boundary_next; [done|]. apply Hi, Ha.
    - intros m w0 e w o m' e1 wi _ Hf Hi Ha Hc. split; [done|].
      intros c w1 e2 w2 _ _ Hr _ _.
      destruct (resume_create_shape _ _ _ _ _ _ _ _ _ _ _ _ Hc Hr) as (_ & _ & _ & _ & _ & -> & -> & _).
      rewrite <- (create_op_size _ _ _ _ _ _ Hc). apply boundary_next; [done|]. apply Hi, Ha.
  Qed.

  (** Whenever a frame is about to execute an instruction, its program counter
      is on a boundary of its code. *)
  Theorem C12_pc_on_boundary : forall m0 w0 e w,
    visits m0 w0 e w -> m_depth m0 <= 1024 -> e_running e = true ->
    boundary (e_code e) (e_pc e) /\ e_code e = m_code (e_message e).
  Proof.
    intros m0 w0 e w Hv Hd Hr.
    destruct (rule_visits _ _ _ _ _ _ _ _ _ _ _ _ rule_boundary Hv Logic.I Hd)
      as (m' & w1 & _ & _ & Hf & Hi).
    split; [by apply Hi|]. destruct Hf. congruence.
  Qed.

  (** ** C14: the 63/64 rule *)

  (** The amounts computed for a call: [sub] is what the callee gets and [cost]
      what the caller is charged (memory expansion [mc] excluded).  If the
      caller can pay, the callee gets the stipend plus the smaller of the
      request and 63/64 of what remains after the other costs. *)
  Theorem C14_amounts : forall value request gas_left mc extra cost sub,
    calculate_message_call_gas value request gas_left mc extra = (cost, sub) ->
    extra + mc <= gas_left ->
    let remaining := gas_left - mc - extra in
    sub = N.min request (remaining - remaining / 64) + (if value =? 0 then 0 else 2300) /\
    cost + (if value =? 0 then 0 else 2300) = sub + extra /\
    cost + mc <= gas_left /\ remaining / 64 <= gas_left - (cost + mc).
  Proof.
    intros value req gl mc extra cost sub. unfold calculate_message_call_gas.
    unfold GAS_CALL_STIPEND, max_message_call_gas.
    destruct (N.ltb_spec gl (extra + mc)); [lia|].
    intros [= <- <-] _. cbv zeta.
    assert ((gl - mc - extra) / 64 <= gl - mc - extra) by (apply N.div_le_upper_bound; lia).
    split; [lia|]. split; [lia|]. split; lia.
  Qed.
  (** If it cannot, the charge exceeds what it has (the instruction runs out of
      gas). *)
  Theorem C14_unaffordable : forall value request gas_left mc extra cost sub,
    calculate_message_call_gas value request gas_left mc extra = (cost, sub) ->
    gas_left < extra + mc -> gas_left < cost + mc.
  Proof.
    intros value req gl mc extra cost sub. unfold calculate_message_call_gas.
    destruct (N.ltb_spec gl (extra + mc)); [|lia]. intros [= <- <-] _. lia.
  Qed.

  (** In any execution, a child of a CALL or CALLCODE gets at most the stipend
      (2300, if there is value) on top of 63/64 of the remaining gas
      [avail]; other children get at most 63/64. *)
  Theorem C14_child_gas : forall m0 w0 e w m' w',
    visits m0 w0 e w -> m_depth m0 <= 1024 -> invokes e w m' w' ->
    exists o stipend, at_op e o /\
      (stipend = 0 \/ In o [CALL; CALLCODE] /\ m_value m' <> 0 /\ stipend = 2300) /\
      m_gas m' <= e_gas_left e - e_gas_left e / 64 + stipend.
  Proof.
    intros m0 w0 e w m' w' Hv Hd Hi.
    destruct (visits_struct _ _ _ _ _ _ _ Hv Hd) as (m1 & w01 & _ & Hf).
    assert (Hmono : forall a b, a <= b -> a - a / 64 <= b - b / 64).
    { clear. intros a b H. 
      pose proof (N.div_mod a 64 ltac:(done)) as H1. pose proof (N.mod_lt a 64 ltac:(done)).
      pose proof (N.div_mod b 64 ltac:(done)) as H2. pose proof (N.mod_lt b 64 ltac:(done)). lia. }
    destruct (invokes_cases cr be te _ _ _ _ (fs_shape _ _ _ _ Hf) Hi)
      as (o & Ho & [(e' & os & oz & Hc & ->)|(e' & wi & Hc & He)]).
    - destruct (co_gas _ _ _ _ _ _ _ _ Hc) as (avail & g & A1 & A2 & A3 & A4).
      exists o, (match o with CALL | CALLCODE => if m_value m' =? 0 then 0 else 2300 | _ => 0 end).
      split; [done|]. split.
      + destruct o; try (by left); (destruct (N.eqb_spec (m_value m') 0); [by left|right]);
          (split; [cbn; tauto|done]).
      + rewrite A3. specialize (Hmono _ _ A1). lia.
    - destruct (cr_gas _ _ _ _ _ _ _ _ Hc) as (avail & A1 & A2 & A3).
      exists o, 0. split; [done|]. split; [by left|]. rewrite A2. specialize (Hmono _ _ A1). lia.
  Qed.
  (** What the caller keeps while the child runs is not lost: after the
      instruction it has at least 1/64 of the gas that remained after the other
      costs, plus whatever the child did not use. *)
  Theorem C14_caller_keeps : forall m0 w0 e w m' c w1 e2 w2,
    visits m0 w0 e w -> m_depth m0 <= 1024 -> starts_call cr be te e w m' ->
    pm m' w = PRet c w1 -> step (e, w) = inl (e2, w2) ->
    exists avail g, avail <= e_gas_left e /\ g <= avail - avail / 64 /\
      g <= m_gas m' <= g + 2300 /\ e_gas_left e2 = avail - g + e_gas_left c /\
      avail / 64 <= e_gas_left e2.
  Proof.
    intros m0 w0 e w m' c w1 e2 w2 Hv Hd Hi Hc Hs.
    destruct (visits_struct _ _ _ _ _ _ _ Hv Hd) as (m1 & w01 & _ & Hf).
    destruct (starts_call_inv cr be te e w m' (fs_shape _ _ _ _ Hf) Hi) as (o & e1 & os & oz & _ & Hk & E).
    rewrite E, Hc in Hs.
    destruct (resume_call e1 os oz c w1) as [[] ? ?|] eqn:Er; [|done]. injection Hs as -> ->.
    pose proof (resume_call_gas e1 os oz c w1) as Rg. rewrite Er in Rg.
    destruct (co_gas _ _ _ _ _ _ _ _ Hk) as (avail & g & A1 & A2 & A3 & A4).
    exists avail, g. split; [done|]. split; [done|].
    assert (avail / 64 <= avail) by (apply N.div_le_upper_bound; lia).
    split; [|split; lia]. rewrite A3. destruct o; try (destruct (m_value m' =? 0)); lia.
  Qed.

  (** ** C21: warm sets *)

  Theorem C21_sets_grow : forall m0 w0 e w n e' w',
    visits m0 w0 e w -> m_depth m0 <= 1024 -> steps step n (e, w) (e', w') ->
    e_accessed_addresses e ⊆ e_accessed_addresses e' /\
    e_accessed_storage_keys e ⊆ e_accessed_storage_keys e'.
  Proof.
    intros m0 w0 e w n e' w' Hv Hd Hs.
    apply (steps_rel (fun e e' => e_accessed_addresses e ⊆ e_accessed_addresses e' /\
      e_accessed_storage_keys e ⊆ e_accessed_storage_keys e') m0 w0) with (n := n) (w := w) (w' := w'); try done.
    - intros ? ? ? [] []. split; by etrans.
    - clear -Hd. intros e w e' w' Hv Hst.
      destruct (visits_struct _ _ _ _ _ _ _ Hv Hd) as (m1 & w01 & _ & Hf).
      destruct (step_cases cr be te _ _ _ _ (fs_shape _ _ _ _ Hf) Hst) as
        (o & _ & [[Hl _]|[(m' & e1 & os & oz & c & w1 & Hc & Hr & Hx)|(m' & e1 & wi & c & w1 & Hc & Hr & Hx)]]).
      + by destruct Hl.
      + destruct (resume_call_sets _ _ _ _ _ _ _ Hx) as (_ & Rs).
        destruct (co_wait _ _ _ _ _ _ _ _ Hc).
        destruct (e_error c); destruct Rs as (-> & -> & _);
          [|split; apply union_subseteq_l']; try done; by rewrite wa_ak.
      + destruct (resume_create_sets _ _ _ _ _ Hx) as (_ & Rs).
        destruct (cr_wait _ _ _ _ _ _ _ _ Hc).
        destruct (e_error c); destruct Rs as (-> & -> & _);
          [|split; apply union_subseteq_l']; try done; by rewrite wa_ak.
  Qed.

  (** Price of reading an account: 100 if its address is warm, 2600 and
      becoming warm otherwise. *)
  Theorem C21_account_access : forall o pm0 pcm0 e w e' w' x stk,
    In o [BALANCE; EXTCODESIZE; EXTCODEHASH] -> e_stack e = x :: stk ->
    op_implementation cr be te pm0 pcm0 o e w = Ret tt e' w' ->
    let a := x mod 2 ^ 160 in
    e_gas_left e = e_gas_left e' + (if decide (a ∈ e_accessed_addresses e) then 100 else 2600) /\
    e_accessed_addresses e' = {[ a ]} ∪ e_accessed_addresses e /\
    e_accessed_storage_keys e' = e_accessed_storage_keys e.
  Proof.
    intros o pm0 pcm0 e w e' w' x stk Ho Hs H. cbv zeta.
    assert (G : match op_implementation cr be te pm0 pcm0 o e w with
      | Ret _ e' w' =>
          e_gas_left e = e_gas_left e' +
            (if decide (x mod 2 ^ 160 ∈ e_accessed_addresses e) then 100 else 2600) /\
          e_accessed_addresses e' = {[ x mod 2 ^ 160 ]} ∪ e_accessed_addresses e /\
          e_accessed_storage_keys e' = e_accessed_storage_keys e
      | Exc _ _ _ => True end); [|by rewrite H in G].
    clear H e' w'. destruct e as [pc st0 mem cod gas vjd logs rc rn msg out del rd err aa ak].
    cbn [e_stack] in Hs. subst st0.
    cbn in Ho. destruct Ho as [<-|[<-|[<-|[]]]]; cbn [op_implementation];
      unfold op_balance, op_extcodesize, op_extcodehash, to_address_masked; norm;
      (destruct (decide (x mod 2 ^ 160 ∈ aa)) as [Hin|Hin]); norm;
      repeat (first [progress (case_decide; norm)|dm; norm]; try done);
      repeat match goal with H : (_ <? _) = false |- _ => apply N.ltb_ge in H end;
      (split; [lia|]); (split; [|done]); try done; set_solver.
  Qed.

  (** Price of SLOAD: 100 or 2100. *)
  Theorem C21_slot_access : forall pm0 pcm0 e w e' w' key stk,
    e_stack e = key :: stk ->
    op_implementation cr be te pm0 pcm0 SLOAD e w = Ret tt e' w' ->
    let slot := (m_current_target (e_message e), key) in
    e_gas_left e = e_gas_left e' + (if decide (slot ∈ e_accessed_storage_keys e) then 100 else 2100) /\
    e_accessed_storage_keys e' = {[ slot ]} ∪ e_accessed_storage_keys e /\
    e_accessed_addresses e' = e_accessed_addresses e.
  Proof.
    intros pm0 pcm0 e w e' w' key stk Hs H. cbv zeta.
    assert (G : match op_implementation cr be te pm0 pcm0 SLOAD e w with
      | Ret _ e' w' =>
          e_gas_left e = e_gas_left e' + (if decide ((m_current_target (e_message e), key)
              ∈ e_accessed_storage_keys e) then 100 else 2100) /\
          e_accessed_storage_keys e' =
            {[ (m_current_target (e_message e), key) ]} ∪ e_accessed_storage_keys e /\
          e_accessed_addresses e' = e_accessed_addresses e
      | Exc _ _ _ => True end); [|by rewrite H in G].
    clear H e' w'. destruct e as [pc st0 mem cod gas vjd logs rc rn msg out del rd err aa ak].
    cbn [e_stack] in Hs. subst st0. cbn [op_implementation].
    unfold op_sload. norm. destruct (decide ((m_current_target msg, key) ∈ ak)) as [Hin|Hin]; norm;
      repeat (dm; norm; try done);
      repeat match goal with H : (_ <? _) = false |- _ => apply N.ltb_ge in H end;
      (split; [lia|]); (split; [|done]); try done; set_solver.
  Qed.

  (** Price of SSTORE: 2100 more if the slot is cold; 20000 (from zero) or
      2900 for the first change of a slot in the transaction, 100 otherwise. *)
  Theorem C21_sstore_price : forall pm0 pcm0 e w e' w' key v stk orig,
    e_stack e = key :: v :: stk ->
    op_implementation cr be te pm0 pcm0 SSTORE e w = Ret tt e' w' ->
    let slot := (m_current_target (e_message e), key) in
    let cur := get_storage (st w) slot.1 slot.2 in
    get_storage_original (st w) slot.1 slot.2 = Ok orig ->
    2300 < e_gas_left e /\
    e_gas_left e = e_gas_left e' +
      (if decide (slot ∈ e_accessed_storage_keys e) then 0 else 2100) +
      (if decide (v = cur \/ cur <> orig) then 100 else if decide (orig = 0) then 20000 else 2900) /\
    e_accessed_storage_keys e' = {[ slot ]} ∪ e_accessed_storage_keys e.
  Proof.
    intros pm0 pcm0 e w e' w' key v stk orig Hs H. cbv zeta. cbn [fst snd]. intros Ho.
    assert (G : match op_implementation cr be te pm0 pcm0 SSTORE e w with
      | Ret _ e' w' =>
          2300 < e_gas_left e /\
          e_gas_left e = e_gas_left e' + (if decide ((m_current_target (e_message e), key)
              ∈ e_accessed_storage_keys e) then 0 else 2100) +
            sstore_gas orig (get_storage (st w) (m_current_target (e_message e)) key) v /\
          e_accessed_storage_keys e' =
            {[ (m_current_target (e_message e), key) ]} ∪ e_accessed_storage_keys e
      | Exc _ _ _ => True end).
    { clear H e' w'. destruct e as [pc st0 mem cod gas vjd logs rc rn msg out del rd err aa ak].
      cbn [e_stack e_message] in *. subst st0. cbn [op_implementation].
      unfold op_sstore. norm. destruct (N.leb_spec gas 2300); norm; [done|]. rewrite Ho. norm.
      destruct (decide ((m_current_target msg, key) ∈ ak)) as [Hin|Hin]; norm;
        repeat (dm; norm; try done);
        repeat match goal with H : (_ <? _) = false |- _ => apply N.ltb_ge in H end;
        (split; [lia|]); (split; [lia|]); try done; set_solver. }
    rewrite H in G. destruct G as (G1 & G2 & G3). split; [done|]. split; [|done].
    rewrite G2. f_equal. unfold sstore_gas, GAS_STORAGE_SET, GAS_STORAGE_UPDATE, GAS_COLD_SLOAD, GAS_WARM_ACCESS.
    destruct (N.eqb_spec orig (get_storage (st w) (m_current_target (e_message e)) key));
      destruct (N.eqb_spec (get_storage (st w) (m_current_target (e_message e)) key) v);
      destruct (N.eqb_spec orig 0); repeat case_decide; cbn; try lia; exfalso; intuition congruence.
  Qed.
End Gas.

Example C14_nonvacuous :
  calculate_message_call_gas 1 1000000 64900 100 800 = (63800, 65300) /\
  calculate_message_call_gas 0 5 64900 100 800 = (805, 5).
Proof. vm_compute. split; reflexivity. Qed.
(** The parent of [PropExec] asks for 65536 gas of 474 thousand: granted, plus
    the stipend. *)
Example C14_nonvacuous_run :
  match ex_call (bs [0x5A; 0x60; 0; 0x55]) with
  | PRet _ w => get_storage (st w) 0x300 0 = 65536 + 2300 - 2
  | PExc _ _ => False
  end.
Proof. vm_compute. reflexivity. Qed.

(** Two BALANCE of the same cold address, two SLOAD of the same cold slot. *)
Example C21_nonvacuous :
  let run c := match toy_run (toy_message 0x200 100000 0 [] (bs c)) (ex_world2 []) with
               | PRet e _ => 100000 - e_gas_left e | _ => 0 end in
  run [0x60;0x77; 0x31] = 2603 /\ run [0x60;0x77; 0x31; 0x60;0x77; 0x31] = 2603 + 103 /\
  run [0x60;0x77; 0x54] = 2103 /\ run [0x60;0x77; 0x54; 0x60;0x77; 0x54] = 2103 + 103 /\
  run [0x60;1; 0x60;0x77; 0x55] = 6 + 22100 /\ run [0x60;1; 0x60;0x77; 0x55; 0x60;2; 0x60;0x77; 0x55] = 12 + 22200.
Proof. vm_compute. repeat split. Qed.

Definition PropGas_theorems :=
  (@C11_extension_price, @C11_extension_size, @C11_path_independent, @C11_memory_words,
   @C11_memory_grows, @C11_exact, @C12_jump_destinations, @C12_pc_on_boundary, @C14_amounts,
   @C14_unaffordable, @C14_child_gas, @C14_caller_keeps, @C21_sets_grow, @C21_account_access,
   @C21_slot_access, @C21_sstore_price).
Print Assumptions PropGas_theorems.
