(** * PropExec: C06, C08, C09, C15 (failed frames, gas, termination, depth).

    Vocabulary: [exec_step] is one iteration of the loop of a frame
    ([Interpreter.v]); [steps step n s s'] is [n] iterations
    ([NumericProofs.v]); [visits m w e w1] says that while the message call
    [m] executes from world [w], its own frame or one below it passes through
    the configuration [(e, w1)], and [invokes e w m' w'] that the next
    instruction of [(e, w)] starts the message call [(m', w')], either directly
    or as the frame of a creation ([EvmFrame.v]). *)
From Verif Require Import Base State Rlp Vm Instructions Precompiles Interpreter
  StateSpec StateProofs NumericProofs ArithProofs EvmStep EvmLocal EvmPlan
  EvmPlanProofs EvmCallProofs EvmFrame EvmRule EvmExamples.
From Coq Require Import ZifyBool ZifyN ZifyNat.
Ltac Zify.zify_post_hook ::= idtac.

Local Opaque to_u256 from_be_bytes calculate_memory_gas_cost ceil32 N.compare.

Lemma restored_reads w w' : restored w w' -> same_reads w w' /\ same_snapshots w w'.
Proof.
  intros []. split; [apply same_reads_eq|split]; congruence.
Qed.

Section Exec.
  Context (cr : crypto) (be : block_env) (te : tx_env).
  Notation pm := (process_message cr be te).
  Notation pcm := (process_create_message cr be te).
  Notation step := (exec_step cr be te pm pcm).
  Notation visits := (visits cr be te).
  Notation invokes := (invokes cr be te).

  (** The next instruction of [(e, w)] starts the message call [m'] in [w]:
      its result depends on the result of [process_message m' w]. *)
  Definition starts_call (e : evm) (w : world) (m' : message) : Prop :=
    exists pm1 pm2 pcm0,
      (forall m1 w1, (m1, w1) <> (m', w) -> pm1 m1 w1 = pm2 m1 w1) /\
      exec_step cr be te pm1 pcm0 (e, w) <> exec_step cr be te pm2 pcm0 (e, w).
  (** Likewise for [process_create_message m' w']. *)
  Definition starts_create (e : evm) (w : world) (m' : message) (w' : world) : Prop :=
    exists pm0 pcm1 pcm2,
      (forall m1 w1, (m1, w1) <> (m', w') -> pcm1 m1 w1 = pcm2 m1 w1) /\
      exec_step cr be te pm0 pcm1 (e, w) <> exec_step cr be te pm0 pcm2 (e, w).

  Lemma starts_call_inv e w m' : shape_ok e -> starts_call e w m' ->
    exists o e1 os oz, at_op e o /\ call_ok be o e w m' e1 os oz /\
      forall pm0 pcm0, exec_step cr be te pm0 pcm0 (e, w) =
        match pm0 m' w with
        | PRet c w1 => match resume_call e1 os oz c w1 with
                       | Ret _ e2 w2 => inl (e2, w2) | Exc x e2 w2 => inr (Some x, e2, w2) end
        | PExc x w1 => inr (Some x, e1, w1)
        end.
  Proof.
    intros Hs (pm1 & pm2 & pcm0 & Hag & Hne).
    destruct (exec_step_cases cr be te e w Hs) as [(_ & E)|[(h & E)|(o & p & Ho & Hp & E)]];
      rewrite !E in Hne; [done|done|].
    destruct p as [r|m e1 os oz|m e1 w0]; cbn [interp plan_ok] in Hp, Hne, E; [done| |done].
    destruct (decide (m = m')) as [->|Hd].
    - exists o, e1, os, oz. split; [done|]. split; [done|]. intros pm0 pcm1. rewrite E.
      by destruct (pm0 m' w).
    - exfalso. apply Hne. rewrite (Hag m w); [done|]. by intros [= ->].
  Qed.
  Lemma starts_create_inv e w m' w' : shape_ok e -> starts_create e w m' w' ->
    exists o e1, at_op e o /\ create_ok cr be o e w m' e1 w' /\
      forall pm0 pcm0, exec_step cr be te pm0 pcm0 (e, w) =
        match pcm0 m' w' with
        | PRet c w1 => match resume_create e1 c w1 with
                       | Ret _ e2 w2 => inl (e2, w2) | Exc x e2 w2 => inr (Some x, e2, w2) end
        | PExc x w1 => inr (Some x, e1, w1)
        end.
  Proof.
    intros Hs (pm0 & pcm1 & pcm2 & Hag & Hne).
    destruct (exec_step_cases cr be te e w Hs) as [(_ & E)|[(h & E)|(o & p & Ho & Hp & E)]];
      rewrite !E in Hne; [done|done|].
    destruct p as [r|m e1 os oz|m e1 w0]; cbn [interp plan_ok] in Hp, Hne, E; [done|done|].
    destruct (decide (m = m' /\ w0 = w')) as [[-> ->]|Hd].
    - exists o, e1. split; [done|]. split; [done|]. intros pm1 pcm3. rewrite E.
      by destruct (pcm3 m' w').
    - exfalso. apply Hne. rewrite (Hag m w0); [done|]. intros [= -> ->]. by apply Hd.
  Qed.

  (** ** C06 *)

  (** A message call or creation that ends with an error (revert or
      exceptional halt, at whatever point) leaves every account, storage slot
      and transient slot, and the open transactions, as they were. *)
  Theorem C06_failed_message : forall m w e w',
    pm m w = PRet e w' -> e_error e <> None -> same_reads w w' /\ same_snapshots w w'.
  Proof.
    intros m w e w' H He. apply message_struct in H. destruct (e_error e) as [x|] eqn:Ex; [|done].
    by apply restored_reads, (ps_fail _ _ _ _ H x).
  Qed.
  Theorem C06_failed_create : forall m w e w',
    pcm m w = PRet e w' -> e_error e <> None -> same_reads w w' /\ same_snapshots w w'.
  Proof.
    intros m w e w' H He. apply create_struct in H. destruct (e_error e) as [x|] eqn:Ex; [|done].
    by apply restored_reads, (ps_fail _ _ _ _ H x).
  Qed.

  (** The caller of a failed call continues in the world it made the call in,
      with a zero on the stack; its logs, refund counter and deletion set are
      what they were before the instruction, and its warm sets are those the
      child was started with. *)
  Theorem C06_failed_call_caller : forall m0 w0 e w m' c w1 e2 w2,
    visits m0 w0 e w -> m_depth m0 <= 1024 ->
    starts_call e w m' -> pm m' w = PRet c w1 -> e_error c <> None ->
    step (e, w) = inl (e2, w2) ->
    same_reads w w2 /\ same_snapshots w w2 /\
    e_logs e2 = e_logs e /\ e_refund_counter e2 = e_refund_counter e /\
    e_accounts_to_delete e2 = e_accounts_to_delete e /\
    e_accessed_addresses e2 = m_accessed_addresses m' /\
    e_accessed_storage_keys e2 = e_accessed_storage_keys e /\
    head (e_stack e2) = Some 0.
  Proof.
    intros m0 w0 e w m' c w1 e2 w2 Hv Hd Hi Hc He Hs.
    destruct (visits_struct _ _ _ _ _ _ _ Hv Hd) as (m1 & w01 & _ & Hf).
    destruct (starts_call_inv e w m' (fs_shape _ _ _ _ Hf) Hi) as (o & e1 & os & oz & _ & Hk & E).
    rewrite E, Hc in Hs.
    destruct (resume_call e1 os oz c w1) as [[] ? ?|] eqn:Er; [|done]. injection Hs as -> ->.
    pose proof (resume_call_sets _ _ _ _ _ _ _ Er) as (-> & Hsets).
    assert (Hst : e_stack e2 = match e_error c with Some _ => 0 | None => 1 end :: e_stack e1).
    { revert Er. unfold resume_call, child_return. destruct (to_u256 _); [|done].
      intros [= <-]. destruct e1, c as [? ? ? ? ? ? ? ? ? ? ? ? ? [] ? ?]; reflexivity. }
    destruct (e_error c) as [x|] eqn:Ex; [|done].
    apply message_struct in Hc. destruct (ps_fail _ _ _ _ Hc x Ex) as (Hr & _).
    apply restored_reads in Hr as [Hr1 Hr2].
    destruct (co_wait _ _ _ _ _ _ _ _ Hk) as [].
    destruct Hsets as (S1 & S2 & S3 & S4 & S5).
    split; [done|]. split; [done|].
    split_and!; try congruence. by rewrite Hst.
  Qed.

  (** For a failed creation the only difference is the nonce of the creator
      ([w'] is [w] with that nonce incremented). *)
  Theorem C06_failed_create_caller : forall m0 w0 e w m' w' c w1 e2 w2,
    visits m0 w0 e w -> m_depth m0 <= 1024 ->
    starts_create e w m' w' -> pcm m' w' = PRet c w1 -> e_error c <> None ->
    step (e, w) = inl (e2, w2) ->
    (exists s, increment_nonce (st w) (m_current_target (e_message e)) = Ok s /\
       w' = set_st s w) /\
    same_reads w' w2 /\ same_snapshots w w2 /\
    e_logs e2 = e_logs e /\ e_refund_counter e2 = e_refund_counter e /\
    e_accounts_to_delete e2 = e_accounts_to_delete e /\
    e_accessed_addresses e2 = m_accessed_addresses m' /\
    e_accessed_storage_keys e2 = e_accessed_storage_keys e /\
    head (e_stack e2) = Some 0.
  Proof.
    intros m0 w0 e w m' w' c w1 e2 w2 Hv Hd Hi Hc He Hs.
    destruct (visits_struct _ _ _ _ _ _ _ Hv Hd) as (m1 & w01 & _ & Hf).
    destruct (starts_create_inv e w m' w' (fs_shape _ _ _ _ Hf) Hi) as (o & e1 & _ & Hk & E).
    rewrite E, Hc in Hs.
    destruct (resume_create e1 c w1) as [[] ? ?|] eqn:Er; [|done]. injection Hs as -> ->.
    pose proof (resume_create_sets _ _ _ _ _ Er) as (-> & Hsets).
    destruct (e_error c) as [x|] eqn:Ex; [|done].
    assert (Hst : e_stack e2 = 0 :: e_stack e1).
    { revert Er. unfold resume_create, child_return. rewrite Ex.
      intros [= <-]. by destruct e1. }
    apply create_struct in Hc. destruct (ps_fail _ _ _ _ Hc x Ex) as (Hr & _).
    apply restored_reads in Hr as [Hr1 Hr2].
    destruct (cr_nonce _ _ _ _ _ _ _ _ Hk) as (s & Hn & Hw').
    pose proof (increment_nonce_frame _ _ _ Hn) as [Hn1 _].
    destruct (cr_wait _ _ _ _ _ _ _ _ Hk) as [].
    destruct Hsets as (S1 & S2 & S3 & S4 & S5).
    split; [by exists s|]. split; [done|].
    split; [subst w'; destruct Hr2 as [R1 R2]; split; cbn in *; congruence|].
    split_and!; try congruence. by rewrite Hst.
  Qed.

  (** ** C08 *)

  (** Within a frame gas never increases... *)
  Theorem C08_gas_decreases : forall m0 w0 e w n e' w',
    visits m0 w0 e w -> m_depth m0 <= 1024 -> steps step n (e, w) (e', w') ->
    e_gas_left e' <= e_gas_left e.
  Proof.
    intros m0 w0 e w n e' w' Hv Hd Hs.
    assert (G : forall n s s', steps step n s s' ->
      visits m0 w0 s.1 s.2 -> e_gas_left s'.1 <= e_gas_left s.1).
    { clear -Hd. induction 1 as [s|n [e1 w1] [e2 w2] [e3 w3] Hst Hs IH]; [done|]. cbn. intros Hv.
      etrans; [apply IH; by eapply V_step|]. cbn.
      destruct (visits_struct _ _ _ _ _ _ _ Hv Hd) as (m1 & w01 & _ & Hf).
      destruct (step_cases cr be te _ _ _ _ (fs_shape _ _ _ _ Hf) Hst) as
        (o & _ & [[Hl _]|[(m' & e' & os & oz & c & w' & Hc & Hr & Hx)|(m' & e' & wi & c & w' & Hc & Hr & Hx)]]).
      - apply (ls_gas_le _ _ _ _ _ _ _ Hl).
      - pose proof (resume_call_gas e' os oz c w') as Rg. rewrite Hx in Rg.
        apply message_struct in Hr. pose proof (ps_gas _ _ _ _ Hr).
        pose proof (wa_gas _ _ _ _ (co_wait _ _ _ _ _ _ _ _ Hc)). lia.
      - pose proof (resume_create_gas e' c w') as Rg. rewrite Hx in Rg.
        apply create_struct in Hr. pose proof (ps_gas _ _ _ _ Hr).
        pose proof (wa_gas _ _ _ _ (cr_wait _ _ _ _ _ _ _ _ Hc)). lia. }
    by apply (G n (e, w) (e', w') Hs).
  Qed.

  (** ... and stays below what the message supplied. *)
  Theorem C08_gas_bounded : forall m0 w0 e w,
    visits m0 w0 e w -> m_depth m0 <= 1024 -> e_gas_left e <= m_gas (e_message e).
  Proof.
    intros m0 w0 e w Hv Hd. destruct (visits_struct _ _ _ _ _ _ _ Hv Hd) as (m1 & w01 & _ & Hf).
    destruct Hf. subst m1. lia.
  Qed.

  (** A child receives less gas than its caller has. *)
  Theorem C08_child_gas : forall m0 w0 e w m' w',
    visits m0 w0 e w -> m_depth m0 <= 1024 -> invokes e w m' w' ->
    m_gas m' < e_gas_left e.
  Proof.
    intros m0 w0 e w m' w' Hv Hd Hi.
    destruct (visits_struct _ _ _ _ _ _ _ Hv Hd) as (m1 & w01 & _ & Hf).
    destruct (invokes_cases cr be te _ _ _ _ (fs_shape _ _ _ _ Hf) Hi)
      as (o & Ho & [(e' & os & oz & Hc & ->)|(e' & wi & Hc & He)]).
    - pose proof (wa_gas _ _ _ _ (co_wait _ _ _ _ _ _ _ _ Hc)). lia.
    - pose proof (wa_gas _ _ _ _ (cr_wait _ _ _ _ _ _ _ _ Hc)). lia.
  Qed.

  (** A finished frame returns at most the gas of its message, and nothing
      after an exceptional halt. *)
  Theorem C08_returned_gas : forall m w e w',
    pm m w = PRet e w' \/ pcm m w = PRet e w' ->
    e_gas_left e <= m_gas m /\
    (forall h, e_error e = Some (EHalt h) -> e_gas_left e = 0 /\ e_output e = []).
  Proof.
    intros m w e w' H.
    assert (Hp : pstruct m w e w') by (destruct H; [by apply (message_struct cr be te)|by apply (create_struct cr be te)]).
    split; [apply Hp|]. intros h Hh. destruct (ps_fail _ _ _ _ Hp _ Hh) as (_ & _ & Hz). by apply (Hz h).
  Qed.

  (** ** C09 *)

  Lemma no_fuel :
    (forall m w r, frun cr be te m w r -> forall w', r <> PExc EOutOfFuel w') /\
    (forall m w r, xrun cr be te m w r -> forall w', r <> PExc EOutOfFuel w') /\
    (forall e w ox e' w', lrun cr be te e w ox e' w' -> ox <> Some EOutOfFuel) /\
    (forall m w r, crun cr be te m w r -> forall w', r <> PExc EOutOfFuel w').
  Proof.
    apply (run_mutind cr be te
      (fun m w r _ => forall w', r <> PExc EOutOfFuel w')
      (fun m w r _ => forall w', r <> PExc EOutOfFuel w')
      (fun e w ox e' w' _ => ox <> Some EOutOfFuel)
      (fun m w r _ => forall w', r <> PExc EOutOfFuel w')); intros; try done.
    - destruct r as [? ? ?|x ? ?]; [done|]. by destruct p as (_ & [[h ->]|[-> _]] & _).
    - destruct ox as [[]|]; cbn; congruence.
    - intros [= ->]. by destruct d as (_ & _ & _ & []).
    - intros [= ->]. revert e0. unfold resume_call. by destruct (to_u256 _).
    - intros [= ->]. by eapply H.
    - intros [= ->]. revert e0. unfold resume_create. destruct (e_error c); [done|].
      by destruct (to_u256 _).
    - intros [= ->]. by eapply H.
  Qed.

  (** Execution is a total function in Coq because the model bounds the
      number of iterations of a frame by its gas and the recursion by the
      depth limit.  These bounds are never reached: *)
  Theorem C09_bounds_never_reached : forall m w w',
    pm m w <> PExc EOutOfFuel w' /\ pcm m w <> PExc EOutOfFuel w'.
  Proof.
    intros m w w'. split.
    - apply (proj1 no_fuel _ _ _ (process_message_run cr be te m w)).
    - apply (proj2 (proj2 (proj2 no_fuel)) _ _ _ (process_create_run cr be te m w)).
  Qed.

  (** so the recursion equation of the Python function holds without any
      bound, *)
  Theorem C09_recursion : forall m w,
    pm m w = if 1024 <? m_depth m then PExc (EHalt StackDepthLimitError) w
             else process_message_body cr be te pm pcm m w.
  Proof. apply process_message_eq. Qed.

  (** every iteration of the loop consumes gas or is the last, *)
  Lemma step_mu m0 w0 e w e' w' :
    visits m0 w0 e w -> m_depth m0 <= 1024 -> step (e, w) = inl (e', w') ->
    mu e' < mu e /\ (e_gas_left e' < e_gas_left e \/ e_running e' = false).
  Proof.
    intros Hv Hd Hst.
    destruct (visits_struct _ _ _ _ _ _ _ Hv Hd) as (m1 & w01 & _ & Hf).
    destruct (step_cases cr be te _ _ _ _ (fs_shape _ _ _ _ Hf) Hst) as
      (o & [Hrun _] & [[Hl _]|[(m' & e1 & os & oz & c & w1 & Hc & Hr & Hx)|(m' & e1 & wi & c & w1 & Hc & Hr & Hx)]]).
    - pose proof (ls_gas_le _ _ _ _ _ _ _ Hl). pose proof (ls_gas_lt _ _ _ _ _ _ _ Hl) as H0.
      unfold mu. rewrite Hrun. destruct (e_running e').
      + specialize (H0 eq_refl). split; [lia|by left].
      + split; [lia|by right].
    - pose proof (resume_call_gas e1 os oz c w1) as Rg. rewrite Hx in Rg.
      apply message_struct in Hr. pose proof (ps_gas _ _ _ _ Hr).
      pose proof (wa_gas _ _ _ _ (co_wait _ _ _ _ _ _ _ _ Hc)).
      unfold mu. rewrite Hrun. split; [destruct (e_running e'); lia|left; lia].
    - pose proof (resume_create_gas e1 c w1) as Rg. rewrite Hx in Rg.
      apply create_struct in Hr. pose proof (ps_gas _ _ _ _ Hr).
      pose proof (wa_gas _ _ _ _ (cr_wait _ _ _ _ _ _ _ _ Hc)).
      unfold mu. rewrite Hrun. split; [destruct (e_running e'); lia|left; lia].
  Qed.
  Theorem C09_progress : forall m0 w0 e w e' w',
    visits m0 w0 e w -> m_depth m0 <= 1024 -> step (e, w) = inl (e', w') ->
    e_gas_left e' < e_gas_left e \/ e_running e' = false.
  Proof. intros m0 w0 e w e' w' Hv Hd Hs. by destruct (step_mu _ _ _ _ _ _ Hv Hd Hs). Qed.

  (** and a frame makes at most [gas + 1] iterations. *)
  Theorem C09_iterations : forall m0 w0 e w n e' w',
    visits m0 w0 e w -> m_depth m0 <= 1024 -> steps step n (e, w) (e', w') ->
    N.of_nat n <= e_gas_left e + 1.
  Proof.
    intros m0 w0 e w n e' w' Hv Hd Hs.
    destruct (steps_measure step (fun s => visits m0 w0 s.1 s.2) (fun s => mu s.1)) with (n := n)
      (s := (e, w)) (s' := (e', w')) as [_ H]; [|done|done|].
    - intros [e1 w1] [e2 w2] Hv1 Hst. cbn in *. split; [by eapply V_step|].
      by destruct (step_mu _ _ _ _ _ _ Hv1 Hd Hst).
    - cbn in H. unfold mu in H. destruct (e_running e); lia.
  Qed.

  (** ** C15 *)

  (** Every frame that executes is at depth at most 1024, a child one level
      below its caller. *)
  Theorem C15_depth : forall m0 w0 e w,
    visits m0 w0 e w -> m_depth m0 <= 1024 -> m_depth (e_message e) <= 1024.
  Proof.
    intros m0 w0 e w Hv Hd. destruct (visits_struct _ _ _ _ _ _ _ Hv Hd) as (m1 & w01 & H1 & Hf).
    by rewrite (fs_msg _ _ _ _ Hf).
  Qed.
  Theorem C15_child_depth : forall m0 w0 e w m' w',
    visits m0 w0 e w -> m_depth m0 <= 1024 -> invokes e w m' w' ->
    m_depth m' = m_depth (e_message e) + 1 /\ m_depth m' <= 1024.
  Proof.
    intros m0 w0 e w m' w' Hv Hd Hi.
    destruct (visits_struct _ _ _ _ _ _ _ Hv Hd) as (m1 & w01 & _ & Hf).
    destruct (invokes_cases cr be te _ _ _ _ (fs_shape _ _ _ _ Hf) Hi)
      as (o & Ho & [(e' & os & oz & Hc & ->)|(e' & wi & Hc & He)]).
    - by destruct (co_wait _ _ _ _ _ _ _ _ Hc).
    - by destruct (cr_wait _ _ _ _ _ _ _ _ Hc).
  Qed.
  (** A message beyond the limit is refused without touching the world. *)
  Theorem C15_too_deep : forall m w, 1024 < m_depth m ->
    pm m w = PExc (EHalt StackDepthLimitError) w.
  Proof.
    intros m w H. rewrite process_message_eq. by rewrite (proj2 (N.ltb_lt _ _) H).
  Qed.

  (** A call attempted by a frame at the limit starts no frame: it puts a zero
      on the stack, leaves the world alone and gives back the gas set aside for
      the child, whatever amount was requested; what is lost is the price of
      the access (at most two cold accounts, the value transfer and the new
      account) and of the memory expansion. *)
  Lemma access_cost a e w g e' w' : access_address a e w = Ret g e' w' ->
    g <= 2600 /\ w' = w /\ exists aa, e' = set_accessed_addresses aa e.
  Proof.
    unfold access_address, bind, get_evm, upd, ret. destruct (decide _); intros [= <- <- <-].
    - split; [by vm_compute|]. split; [done|]. exists (e_accessed_addresses e). by destruct e.
    - split; [by vm_compute|]. split; [done|]. by eexists.
  Qed.
  Lemma delegation_cost a e w d ca c g e' w' :
    access_delegation be a e w = Ret (d, ca, c, g) e' w' ->
    g <= 2600 /\ w' = w /\ exists aa, e' = set_accessed_addresses aa e.
  Proof.
    unfold access_delegation, bind, get_state, ret.
    destruct (at_least Prague (b_fork be) && is_valid_delegation _); cbn [negb].
    - destruct (access_address _ e w) as [g0 e0 w0|] eqn:E; [|done].
      apply access_cost in E as (H1 & -> & aa & ->). intros [= <- <- <- <- <- <-]. eauto.
    - intros [= <- <- <- <- <- <-]. split; [lia|]. split; [done|].
      exists (e_accessed_addresses e). by destruct e.
  Qed.

  Tactic Notation "deep_call" integer(n) :=
    intros e w e2 w2 [Hs Hm] Hd;
    destruct e as [pc stk mem cod gas vjd logs rc rn msg out del rd err aa ak];
    cbn [e_stack e_memory e_message e_gas_left] in *;
    do n (unfold bind at 1, pop at 1; cbn [e_stack set_stack];
          destruct stk as [|? stk]; [done|]);
    unfold bind at 1, get_evm at 1; cbn [e_memory];
    match goal with |- context [calculate_gas_extend_memory ?a ?b] =>
      destruct (calculate_gas_extend_memory a b) as [mcost x] eqn:Ex end;
    unfold bind at 1;
    match goal with |- context [access_address ?a ?e ?w] =>
      destruct (access_address a e w) as [g1 e1 w1|] eqn:Ea; [|done] end;
    match goal with H : access_address _ _ _ = _ |- _ =>
      apply access_cost in H as (Hg1 & -> & aa1 & ->) end;
    unfold bind at 1;
    match goal with |- context [access_delegation be ?a ?e ?w] =>
      destruct (access_delegation be a e w) as [[[[d ca] c] g2] e1 w1|] eqn:Ed; [|done] end;
    match goal with H : access_delegation _ _ _ _ = _ |- _ =>
      apply delegation_cost in H as (Hg2 & -> & aa2 & ->) end;
    norm;
    match goal with |- context [calculate_message_call_gas ?a ?b ?c ?d ?e] =>
      destruct (calculate_message_call_gas a b c d e) as [cost sub] eqn:Eg end;
    match goal with |- context [?gas <? ?cost + ?mcost] =>
      destruct (N.ltb_spec gas (cost + mcost)) as [Hlt|Hge]; [done|] end;
    match goal with
    | H1 : calculate_message_call_gas _ _ _ _ _ = (_, _), H2 : _ + _ <= _,
      H3 : calculate_gas_extend_memory _ _ = _, H4 : _ mod 32 = 0 |- _ =>
      destruct (msg_call_gas_spec _ _ _ _ _ _ _ H1 H2) as (g & -> & -> & Hav & Hgle); clear H1;
      destruct (extend_memory_spec _ _ _ _ H4 H3) as (M1 & M2 & _) end; norm.
  Ltac deep_end :=
    rewrite ?generic_call_deep by (cbn; rewrite ?lenN_cons in *; lia); norm;
    intros [= <- <-]; cbn [e_gas_left e_memory e_stack e_pc e_message];
    rewrite mem_expand_len; match goal with H : memcost _ = _ + _ |- _ => rewrite H end; split; [done|]; split; [done|];
    repeat match goal with
    | |- context [if ?b then _ else _] => destruct b
    | H : context [if ?b then _ else _] |- _ => destruct b
    end; lia.

  Theorem C15_call_at_limit : forall o e w e2 w2,
    at_op e o -> In o [CALL; CALLCODE; DELEGATECALL; STATICCALL] ->
    lenN (e_stack e) <= 1024 -> lenN (e_memory e) mod 32 = 0 ->
    m_depth (e_message e) = 1024 -> step (e, w) = inl (e2, w2) ->
    w2 = w /\ head (e_stack e2) = Some 0 /\
    e_gas_left e + calculate_memory_gas_cost (lenN (e_memory e)) <=
    e_gas_left e2 + calculate_memory_gas_cost (lenN (e_memory e2)) + (2600 + 2600 + 9000 + 25000).
  Proof.
    intros o e w e2 w2 Ha Ho Hst Hmm Hd Hstep.
    assert (Hop : op_implementation cr be te pm pcm o e w = Ret tt e2 w2).
    { revert Hstep. unfold exec_step. destruct Ha as (Hr & Hp & b & Hb & Hdec).
      rewrite Hr, (proj2 (N.ltb_lt _ _) Hp), Hb, Hdec. cbn [andb].
      destruct (available (b_fork be) o); [|done].
      destruct (op_implementation _ _ _ _ _ _ _ _) as [[] ? ?|]; [|done]. by intros [= -> ->]. }
    assert (Hsh : shape_ok e) by done.
    assert (Hd' : 1024 < m_depth (e_message e) + 1) by lia. clear Hd Hst Hmm Hstep Ha.
    revert e w e2 w2 Hsh Hd' Hop.
    cbn in Ho. destruct Ho as [<-|[<-|[<-|[<-|[]]]]]; cbn [op_implementation].
    - unfold op_call. deep_call 7.
      destruct (m_is_static msg && negb (n1 =? 0)); [done|]. norm.
      destruct (balance (get_account (st w) (m_current_target msg)) <? n1); norm.
      + rewrite (proj2 (N.eqb_neq (lenN stk) 1024)) by (rewrite ?lenN_cons in *; lia). norm. deep_end.
      + deep_end.
    - unfold op_callcode. deep_call 7.
      destruct (balance (get_account (st w) (m_current_target msg)) <? n1); norm.
      + rewrite (proj2 (N.eqb_neq (lenN stk) 1024)) by (rewrite ?lenN_cons in *; lia). norm. deep_end.
      + deep_end.
    - unfold op_delegatecall. deep_call 6. deep_end.
    - unfold op_staticcall. deep_call 6. deep_end.
  Qed.
End Exec.

(** ** The hypotheses are met: concrete executions *)

Definition ex_world2 (child : bytes) : world :=
  toy_world [(0xaa, Account 0 1000 []); (0x200, Account 1 50 code_parent);
             (0x300, Account 1 0 child)] ∅.
Definition ex_call (child : bytes) : pmres :=
  toy_run (toy_message 0x200 500000 7 [] code_parent) (ex_world2 child).

(** The parent stores, logs and calls 0x300 with value 3.  A child that stores
    and reverts leaves no trace; one that succeeds does. *)
Example C06_nonvacuous :
  match ex_call code_reverts, ex_call code_succeeds with
  | PRet e1 w1, PRet e2 w2 =>
      (e_error e1 = None /\ get_storage (st w1) 0x200 1 = 5 /\
       get_storage (st w1) 0x200 2 = 0 /\ get_storage (st w1) 0x300 1 = 0 /\
       balance (get_account (st w1) 0x300) = 0 /\ length (e_logs e1) = 1%nat) /\
      (get_storage (st w2) 0x200 2 = 1 /\ get_storage (st w2) 0x300 1 = 9 /\
       balance (get_account (st w2) 0x300) = 3 /\ length (e_logs e2) = 2%nat)
  | _, _ => False
  end.
Proof. vm_compute. repeat split. Qed.
Example C06_nonvacuous_fail :
  match toy_run (toy_message 0x300 500000 7 [] code_reverts) (ex_world2 []),
        toy_create (toy_message 0x400 500000 7 [] code_reverts) (ex_world2 []) with
  | PRet e w, PRet e' w' =>
      e_error e = Some ERevert /\ balance (get_account (st w) 0x300) = 0 /\ e_gas_left e = 477398 /\
      e_error e' = Some ERevert /\ get_account (st w') 0x400 = EMPTY_ACCOUNT
  | _, _ => False
  end.
Proof. vm_compute. repeat split. Qed.

(** Endless loop: all the gas is consumed. *)
Example C08_C09_nonvacuous :
  match toy_run (toy_message 0x300 5000 7 [] code_loops) (ex_world2 []) with
  | PRet e w => e_error e = Some (EHalt OutOfGasError) /\ e_gas_left e = 0
  | _ => False
  end.
Proof. vm_compute. repeat split. Qed.

(** Contract 0x200 calls itself with all its gas; at the limit the call
    pushes 0 and the rest of the code still runs. *)
Definition code_self : bytes := bs
  [0x60;0; 0x60;0; 0x60;0; 0x60;0; 0x60;0; 0x30; 0x5A; 0xF1; 0x60;1; 0x55].
Definition at_limit (d : N) : evm :=
  set_stack [1000000; 0x200; 0; 0; 0; 0; 0] (set_pc 12
    (init_evm (Message 0xaa (Some 0x200) 0x200 500000 0 [] (Some 0x200) code_self d true false
      {[ 0x200 ]} ∅ false))).
Example C15_nonvacuous :
  at_op (at_limit 1024) CALL /\
  match exec_step toy_crypto toy_block toy_tx (fun m w => toy_run m w) (fun m w => toy_create m w)
          (at_limit 1024, ex_world2 []) with
  | inl (e2, w2) => e_stack e2 = [0] /\ e_gas_left e2 = 499900
  | _ => False
  end.
Proof. split; [repeat split; eexists; split; vm_compute; reflexivity|vm_compute; repeat split]. Qed.

(** All theorems of this file, for one axiom report. *)
Definition PropExec_theorems :=
  (@C06_failed_message,
   @C06_failed_create,
   @C06_failed_call_caller,
   @C06_failed_create_caller,
   @C08_gas_decreases,
   @C08_gas_bounded,
   @C08_child_gas,
   @C08_returned_gas,
   @C09_bounds_never_reached,
   @C09_recursion,
   @C09_progress,
   @C09_iterations,
   @C15_depth,
   @C15_child_depth,
   @C15_too_deep,
   @C15_call_at_limit).
Print Assumptions PropExec_theorems.
