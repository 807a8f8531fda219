(** * PropFrames: C53, how a message is run.

    The life of a frame: the value moves, the code runs instruction by
    instruction (C50, C51, C52) from an empty frame, and the end of the run
    decides what is kept; a creation also prepares the new account and pays
    for the deposited code. *)
From Verif Require Import Base State Vm Instructions Precompiles Interpreter StateSpec StateProofs
  NumericProofs EvmStep EvmLocal EvmPlan EvmPlanProofs EvmCallProofs EvmFrame EvmAccounts EvmRule
  EvmExamples PropExec PropAccounts EvmInv PropInstr.
From Coq Require Import ZifyBool ZifyN ZifyNat.
Ltac Zify.zify_post_hook ::= idtac.

(** ** Reference *)

(** The value of a message has moved from the caller to the target; nothing
    else has changed. *)
Definition sent (m : message) (w w1 : world) : Prop :=
  let v := if m_should_transfer_value m then m_value m else 0 in
  v <= balance (get_account (st w) (m_caller m)) /\
  (forall a, get_account (st w1) a =
    let acc := get_account (st w) a in
    Account (nonce acc)
      (balance acc - (if decide (a = m_caller m) then v else 0)
                   + (if decide (a = m_current_target m) then v else 0))
      (code acc)) /\
  (forall a k, get_storage (st w1) a k = get_storage (st w) a k) /\
  (forall a k, get_transient_storage (ts w1) a k = get_transient_storage (ts w) a k) /\
  created_accounts (st w1) = created_accounts (st w).

(** A new frame: everything empty, all the gas of the message. *)
Definition first_frame (m : message) (jumps : gset N) : evm := {|
  e_pc := 0; e_stack := []; e_memory := []; e_code := m_code m; e_gas_left := m_gas m;
  e_valid_jump_destinations := jumps; e_logs := []; e_refund_counter := 0%Z;
  e_running := true; e_message := m; e_output := []; e_accounts_to_delete := ∅;
  e_return_data := []; e_error := None;
  e_accessed_addresses := m_accessed_addresses m;
  e_accessed_storage_keys := m_accessed_storage_keys m |}.

(** The fork in which an instruction appears: PUSH0 with Shanghai, those for
    blobs, transient storage and MCOPY with Cancun, CLZ with Osaka. *)
Definition introduced (o : op) : pos_fork :=
  match o with
  | PUSH 0 => Shanghai
  | BLOBHASH | BLOBBASEFEE | TLOAD | TSTORE | MCOPY => Cancun
  | CLZ => Osaka
  | _ => Paris
  end.
(** [o] is the instruction of the byte [b] in fork [f]. *)
Definition decodes (f : pos_fork) (b : byte) (o : op) : Prop :=
  Byte.to_N b = opcode o /\ index_ok o /\ at_least (introduced o) f = true.

Lemma introduced_spec f o : available f o = at_least (introduced o) f.
Proof.
  destruct o; try done; try (by destruct f).
  match goal with |- available _ (PUSH ?k) = _ => destruct k end; by destruct f.
Qed.

Section Run.
  Context (cr : crypto) (be : block_env) (te : tx_env).
  Notation pm := (process_message cr be te).
  Notation pcm := (process_create_message cr be te).
  (** One instruction; C50, C51 and C52 say what it does. *)
  Notation instruction := (op_implementation cr be te pm pcm).

  (** Running a frame until it stops by itself or an instruction fails. *)
  Inductive executes : evm -> world -> option exn -> evm -> world -> Prop :=
  | Stops e w :
      (e_running e = false \/ lenN (e_code e) <= e_pc e) -> executes e w None e w
  | Unknown e w b :
      e_running e = true -> nthN (e_code e) (e_pc e) = Some b ->
      (forall o, ~ decodes (b_fork be) b o) ->
      executes e w (Some (EHalt (InvalidOpcode b))) e w
  | Fails e w b o x e' w' :
      e_running e = true -> nthN (e_code e) (e_pc e) = Some b ->
      decodes (b_fork be) b o ->
      instruction o e w = Exc x e' w' -> executes e w (Some x) e' w'
  | Goes_on e w b o e1 w1 x e' w' :
      e_running e = true -> nthN (e_code e) (e_pc e) = Some b ->
      decodes (b_fork be) b o ->
      instruction o e w = Ret tt e1 w1 -> executes e1 w1 x e' w' ->
      executes e w x e' w'.

  (** What is left of a run that started in [w] and ended in [w2]: a failure
      undoes everything, an exceptional halt also takes the gas and the
      output. *)
  Definition concluded (w : world) (x : option exn) (e1 : evm) (w2 : world)
      (e : evm) (w' : world) : Prop :=
    match x with
    | None => e = e1 /\ e_error e = None /\ same_reads w2 w'
    | Some ERevert =>
        e_error e = Some ERevert /\ e_gas_left e = e_gas_left e1 /\
        e_output e = e_output e1 /\ same_reads w w'
    | Some (EHalt h) =>
        e_error e = Some (EHalt h) /\ e_gas_left e = 0 /\ e_output e = [] /\ same_reads w w'
    | _ => False
    end.

  (** ** Proofs *)
  Lemma still w a (P Q : Prop) (dp : Decision P) (dq : Decision Q) :
    get_account (st w) a =
      let acc := get_account (st w) a in
      Account (nonce acc) (balance acc - (if decide P then 0 else 0) + (if decide Q then 0 else 0))
        (code acc).
  Proof.
    cbv zeta. destruct (get_account (st w) a) as [n b c]. cbn.
    destruct (decide P), (decide Q); f_equal; lia.
  Qed.
  Lemma sent_spec m w s1 : transfer m (begin_transaction w) = Ok s1 -> owned (st w) ->
    sent m w (set_st s1 (begin_transaction w)).
  Proof.
    intros Ht Ho. pose proof (transfer_same _ _ _ Ht) as [Hs _].
    specialize (Hs Ho). unfold sent. cbv zeta.
    unfold transfer in Ht. destruct (m_should_transfer_value m); cbn [andb] in Ht.
    - destruct (N.eqb_spec (m_value m) 0) as [E|E]; cbn [negb] in Ht.
      + injection Ht as <-. rewrite E. split; [lia|]. split; [|done].
        intros a. apply (still w).
      + pose proof (move_ether_inv _ _ _ _ _ Ht) as (_ & Hle & _).
        pose proof (move_ether_get _ _ _ _ _ Ht) as Hg.
        destruct (move_ether_storages_sub _ _ _ _ _ Ht) as [_ Hc].
        split; [done|]. split; [|done].
        intros a. change (st (set_st s1 (begin_transaction w))) with s1. rewrite Hg.
        change (get_account (st (begin_transaction w))) with (get_account (st w)) in *.
        destruct (decide (m_caller m = m_current_target m)) as [E2|E2].
        { rewrite <- E2. destruct (decide (a = m_caller m)) as [->|].
          - destruct (get_account (st w) (m_caller m)) as [xn xb xc]. cbn in *. f_equal. lia.
          - destruct (get_account (st w) a) as [xn xb xc]. cbn in *. f_equal. lia. }
        destruct (decide (a = m_caller m)) as [->|Ea].
        { rewrite (decide_False (P := m_caller m = m_current_target m)) by done. f_equal. lia. }
        destruct (decide (a = m_current_target m)) as [->|Eb]; [f_equal; lia|].
        destruct (get_account (st w) a) as [xn xb xc]. cbn in *. f_equal. lia.
    - injection Ht as <-. split; [lia|]. split; [|done]. intros a. apply (still w).
  Qed.

  Lemma init_first m : init_evm m = first_frame m (get_valid_jump_destinations (m_code m)).
  Proof. done. Qed.

  Lemma step_executes e w :
    match exec_step cr be te pm pcm (e, w) with
    | inl (e1, w1) => forall x e' w', executes e1 w1 x e' w' -> executes e w x e' w'
    | inr (x, e', w') => executes e w x e' w'
    end.
  Proof.
    unfold exec_step. destruct (e_running e) eqn:Er; cbn [andb]; [|constructor; by left].
    destruct (N.ltb_spec (e_pc e) (lenN (e_code e))) as [Hp|Hp]; [|constructor; by right].
    destruct (nthN (e_code e) (e_pc e)) as [b|] eqn:Eb.
    2:{ exfalso. rewrite nthN_nth_error in Eb. apply nth_error_None in Eb. unfold lenN in Hp. lia. }
    destruct (decode_op b) as [o|] eqn:Ed.
    - apply C50_opcodes in Ed as [Ho1 Ho2]. destruct (available (b_fork be) o) eqn:Eav.
      2:{ eapply Unknown; [done|done|]. intros o' (Ho & Hi & Ha).
          assert (o' = o) as ->.
          { assert (decode_op b = Some o') by (by apply C50_opcodes).
            assert (decode_op b = Some o) by (by apply C50_opcodes). congruence. }
          rewrite introduced_spec in Eav. congruence. }
      rewrite introduced_spec in Eav.
      destruct (instruction o e w) as [[] e1 w1|x e1 w1] eqn:Ei; [|by eapply Fails].
      intros x e' w' H. by eapply Goes_on.
    - eapply Unknown; [done|done|]. intros o (Ho & Hi & _).
      assert (decode_op b = Some o) by (by apply C50_opcodes). congruence.
  Qed.

  Lemma loop_executes m w ox e' w' :
    exec_loop cr be te pm pcm (init_evm m) w = (ox, e', w') -> ox <> Some EOutOfFuel ->
    executes (init_evm m) w ox e' w'.
  Proof.
    unfold exec_loop. intros H Hf.
    pose proof (loop_pos_spec (exec_step cr be te pm pcm)
      (N.succ_pos (e_gas_left (init_evm m) + 1)) (init_evm m, w)) as Hl.
    destruct (loop_pos _ _ _) as [[e2 w2]|r] eqn:El; [congruence|]. subst r.
    destruct Hl as (n & [e2 w2] & _ & Hs & Hr).
    assert (G : forall n s s', steps (exec_step cr be te pm pcm) n s s' ->
      forall x e3 w3, executes s'.1 s'.2 x e3 w3 -> executes s.1 s.2 x e3 w3).
    { clear. intros n s s' Hs. induction Hs as [|n [ea wa] [eb wb] s3 E Hs IH]; intros x e3 w3 H; [done|].
      pose proof (step_executes ea wa) as Hx. rewrite E in Hx. cbn. apply Hx. by apply IH. }
    eapply (G _ _ _ Hs). cbn. pose proof (step_executes e2 w2) as Hx. by rewrite Hr in Hx.
  Qed.

  Lemma visits_steps m w n s s' : visits cr be te m w s.1 s.2 ->
    steps (exec_step cr be te pm pcm) n s s' -> visits cr be te m w s'.1 s'.2.
  Proof.
    intros Hv Hs. induction Hs as [|n [ea wa] [eb wb] s3 E Hs IH]; [done|].
    apply IH. cbn in *. by eapply V_step.
  Qed.

  (** A normal end leaves no error. *)
  Lemma loop_no_error m w0 s1 e' w' :
    m_depth m <= 1024 -> m_code_address m ≫= pre_compiled_contracts cr (b_fork be) = None ->
    transfer m (begin_transaction w0) = Ok s1 ->
    exec_loop cr be te pm pcm (init_evm m) (set_st s1 (begin_transaction w0)) = (None, e', w') ->
    e_error e' = None.
  Proof.
    intros Hd Hp Ht H. unfold exec_loop in H.
    pose proof (loop_pos_spec (exec_step cr be te pm pcm)
      (N.succ_pos (e_gas_left (init_evm m) + 1)) (init_evm m, set_st s1 (begin_transaction w0))) as Hl.
    destruct (loop_pos _ _ _) as [[e2 w2]|r] eqn:El; [congruence|]. subst r.
    destruct Hl as (n & [e2 w2] & _ & Hs & Hr).
    assert (Hv : visits cr be te m w0 e2 w2).
    { apply (visits_steps m w0 n _ (e2, w2)) in Hs; [done|]. by apply V_start. }
    destruct (visits_struct _ _ _ _ _ _ _ Hv Hd) as (m' & wx & _ & Hf).
    replace e' with e2; [by apply (fs_err _ _ _ _ Hf)|].
    unfold exec_step in Hr. destruct (_ && _); [|congruence].
    destruct (nthN _ _); [|congruence]. destruct (decode_op _); [|congruence].
    destruct (available _ _); [|congruence].
    destruct (instruction _ _ _); congruence.
  Qed.

  Lemma fail_reads m w e w' x : pm m w = PRet e w' -> e_error e = Some x ->
    same_reads w w' /\ handled x.
  Proof.
    intros H Hx. apply message_struct in H. destruct (ps_fail _ _ _ _ H x Hx) as ([] & Hh & _).
    split; [apply same_reads_eq; congruence|done].
  Qed.
  Lemma commit_reads w w' : commit_transaction w = Ok w' -> same_reads w w'.
  Proof. intros H. apply commit_inv in H as (? & ? & _ & _ & ? & ? & ? & _). apply same_reads_eq; congruence. Qed.

  Lemma body_concluded m w e w' s1 x e1 w2 :
    pm m w = PRet e w' -> m_depth m <= 1024 ->
    transfer m (begin_transaction w) = Ok s1 ->
    execute_code cr be te pm pcm m (set_st s1 (begin_transaction w)) = loop_end x e1 w2 ->
    (x = None -> e_error e1 = None) ->
    concluded w x e1 w2 e w'.
  Proof.
    intros H Hd Ht Hx Hn. pose proof (fail_reads m w e w') as Hfail. specialize (fun y => Hfail y H).
    rewrite process_message_eq in H. destruct (N.ltb_spec 1024 (m_depth m)); [lia|].
    unfold process_message_body in H. fold (transfer m (begin_transaction w)) in H.
    rewrite Ht, Hx in H. destruct x as [x|]; cbn [loop_end] in H.
    - destruct x; cbn [handle_exn] in H; try discriminate.
      + destruct (e_error _) as [y|] eqn:Ee in H; [|by destruct e1].
        destruct (rollback_transaction w2) as [w3|]; [|discriminate]. injection H as <- <-.
        assert (Hy : y = EHalt h) by (destruct e1; cbn in Ee; congruence). subst y.
        cbn. split_and!; try (by destruct e1). by apply (Hfail _ Ee).
      + destruct (e_error _) as [y|] eqn:Ee in H; [|by destruct e1].
        destruct (rollback_transaction w2) as [w3|]; [|discriminate]. injection H as <- <-.
        assert (Hy : y = ERevert) by (destruct e1; cbn in Ee; congruence). subst y.
        cbn. split_and!; try (by destruct e1). by apply (Hfail _ Ee).
    - rewrite Hn in H by done. destruct (commit_transaction w2) as [w3|] eqn:Ec; [|discriminate].
      injection H as <- <-. split; [done|]. split; [auto|]. by apply commit_reads.
  Qed.

  (** ** C53 *)

  (** A message whose code is not a precompiled contract: the value moves, the
      code runs from the first frame, and the end of the run decides. *)
  Theorem C53_code : forall m w e w',
    m_depth m <= 1024 -> owned (st w) ->
    m_code_address m ≫= pre_compiled_contracts cr (b_fork be) = None ->
    pm m w = PRet e w' ->
    exists w1 x e1 w2, sent m w w1 /\
      executes (first_frame m (get_valid_jump_destinations (m_code m))) w1 x e1 w2 /\
      concluded w x e1 w2 e w'.
  Proof.
    intros m w e w' Hd Ho Hp H. pose proof H as H0.
    pose proof (fun y => proj1 (PropExec.C09_bounds_never_reached cr be te m w y)) as Hfuel.
    rewrite process_message_eq in H0. destruct (N.ltb_spec 1024 (m_depth m)); [lia|].
    unfold process_message_body in H0. fold (transfer m (begin_transaction w)) in H0.
    destruct (transfer m (begin_transaction w)) as [s1|] eqn:Ht; [|discriminate].
    assert (Hx : exists x e1 w2, exec_loop cr be te pm pcm (init_evm m) (set_st s1 (begin_transaction w)) = (x, e1, w2)).
    { destruct (exec_loop _ _ _ _ _ _ _) as [[x e1] w2]. by exists x, e1, w2. }
    destruct Hx as (x & e1 & w2 & Hx).
    exists (set_st s1 (begin_transaction w)), x, e1, w2.
    assert (Hc : execute_code cr be te pm pcm m (set_st s1 (begin_transaction w)) = loop_end x e1 w2).
    { unfold execute_code. cbv zeta.
      match goal with |- match ?o with _ => _ end = _ => replace o with (@None (M unit)) by (symmetry; exact Hp) end.
      rewrite Hx. by destruct x. }
    split; [by apply sent_spec|]. split.
    - rewrite <- init_first. apply loop_executes; [done|]. intros ->.
      rewrite Hc in H0. discriminate.
    - eapply body_concluded; try done. intros ->. by eapply loop_no_error.
  Qed.

  (** A precompiled contract, reached directly or through a delegation. *)
  Theorem C53_precompiled : forall m w e w' a p,
    m_depth m <= 1024 -> owned (st w) ->
    m_code_address m = Some a -> pre_compiled_contracts cr (b_fork be) a = Some p ->
    pm m w = PRet e w' ->
    let f := first_frame m (get_valid_jump_destinations (m_code m)) in
    exists w1, sent m w w1 /\
      if m_disable_precompiles m then concluded w None f w1 e w'
      else match p f w1 with
           | Ret _ e1 w2 => concluded w None e1 w2 e w'
           | Exc x e1 w2 => concluded w (Some x) e1 w2 e w'
           end.
  Proof.
    intros m w e w' a p Hd Ho Ha Hp H f. pose proof H as H0.
    rewrite process_message_eq in H0. destruct (N.ltb_spec 1024 (m_depth m)); [lia|].
    unfold process_message_body in H0. fold (transfer m (begin_transaction w)) in H0.
    destruct (transfer m (begin_transaction w)) as [s1|] eqn:Ht; [|discriminate].
    exists (set_st s1 (begin_transaction w)).
    assert (Hc : execute_code cr be te pm pcm m (set_st s1 (begin_transaction w)) =
      if m_disable_precompiles m then PRet f (set_st s1 (begin_transaction w))
      else match p f (set_st s1 (begin_transaction w)) with
           | Ret _ e1 w2 => PRet e1 w2 | Exc x e1 w2 => handle_exn x e1 w2 end).
    { unfold execute_code. rewrite Ha. cbn [mbind option_bind]. rewrite Hp. done. }
    split; [by apply sent_spec|].
    destruct (m_disable_precompiles m).
    - eapply body_concluded; try done.
    - pose proof (pre_spec cr be te a p f (set_st s1 (begin_transaction w)) Hp) as Hs.
      destruct (p f (set_st s1 (begin_transaction w))) as [[] e1 w2|x e1 w2].
      + eapply (body_concluded m w e w' s1 None); try done. intros _. destruct Hs as (_ & -> & _). done.
      + by eapply (body_concluded m w e w' s1 (Some x)).
  Qed.

  (** The account of a creation before the init code runs: no storage, nonce
      one higher, marked as created; nothing else has changed. *)
  Definition prepared (a : address) (w w1 : world) : Prop :=
    (forall b, get_account (st w1) b =
      let acc := get_account (st w) b in
      if decide (b = a) then Account (nonce acc + 1) (balance acc) (code acc) else acc) /\
    (forall b k, get_storage (st w1) b k = if decide (b = a) then 0 else get_storage (st w) b k) /\
    (forall b k, get_transient_storage (ts w1) b k = get_transient_storage (ts w) b k) /\
    created_accounts (st w1) = {[ a ]} ∪ created_accounts (st w).
  (** The code returned by init code that is not accepted. *)
  Definition unfit (e : evm) : Prop :=
    head (e_output e) = Some Byte.xef \/ 24576 < lenN (e_output e) \/
    e_gas_left e < 200 * lenN (e_output e).
  (** The returned code is stored. *)
  Definition deposited (a : address) (c : bytes) (w w' : world) : Prop :=
    (forall b, get_account (st w') b =
      let acc := get_account (st w) b in
      if decide (b = a) then Account (nonce acc) (balance acc) c else acc) /\
    (forall b k, get_storage (st w') b k = get_storage (st w) b k) /\
    (forall b k, get_transient_storage (ts w') b k = get_transient_storage (ts w) b k).

  Lemma prepared_spec a w w1 : create_entry w a = Ok w1 -> prepared a w w1.
  Proof.
    unfold create_entry. destruct (increment_nonce _ _) as [s|] eqn:E; [|done]. intros [= <-].
    pose proof (increment_nonce_frame _ _ _ E) as Hf.
    unfold increment_nonce in E. pose proof (modify_state_get _ _ _ _ _ E eq_refl) as Hg.
    assert (Hst : storage_tries s = storage_tries (destroy_storage (st (begin_transaction w)) a)).
    { apply modify_state_inv in E as (acc & [= <-] & [[Hne ->]|[Hbad ->]]); [done|].
      exfalso. injection Hbad as Hbad. lia. }
    pose proof (modify_state_created _ _ _ _ E) as Hc.
    assert (Hm : forall b, get_account (mark_account_created (destroy_storage (st (begin_transaction w)) a) a) b
      = get_account (st w) b).
    { intros b. transitivity (get_account (destroy_storage (st (begin_transaction w)) a) b); [done|].
      erewrite get_account_main; [|apply destroy_storage_main]. done. }
    split; [|split; [|split; [done|]]].
    - intros b. cbn -[get_account]. rewrite Hg, !Hm.
      destruct (decide (a = b)) as [->|Hne]; [by rewrite decide_True|].
      rewrite decide_False; [done|]. congruence.
    - intros b k. rewrite !get_storage_slot. cbn. rewrite Hst, destroy_storage_storages. cbn.
      unfold slot_of. destruct (decide (b = a)) as [->|Hne].
      + by rewrite lookup_delete.
      + rewrite lookup_delete_ne; [done|]. congruence.
    - cbn. rewrite Hc. cbn. f_equal. unfold destroy_storage. cbn. by destruct (_ !! _).
  Qed.

  (** A creation: the account is prepared, the init code runs as a message,
      and the code it returns is stored at 200 gas per byte unless unfit. *)
  Theorem C53_creation : forall m w e w',
    pcm m w = PRet e w' ->
    exists w1 e0 w2, prepared (m_current_target m) w w1 /\ pm m w1 = PRet e0 w2 /\
      ((e_error e0 <> None /\ e = e0 /\ same_reads w w') \/
       (e_error e0 = None /\ unfit e0 /\
        (exists h, e_error e = Some (EHalt h)) /\ e_gas_left e = 0 /\ e_output e = [] /\
        same_reads w w') \/
       (e_error e0 = None /\ ~ unfit e0 /\
        e = set_gas_left (e_gas_left e0 - 200 * lenN (e_output e0)) e0 /\
        deposited (m_current_target m) (e_output e0) w2 w')).
  Proof.
    intros m w e w' H. pose proof (create_struct cr be te m w e w' H) as Hps.
    assert (Hfail : e_error e <> None -> same_reads w w').
    { intros Hne. destruct (e_error e) as [x|] eqn:Ee; [|done].
      destruct (ps_fail _ _ _ _ Hps x Ee) as ([] & _). apply same_reads_eq; congruence. }
    unfold process_create_message, process_create_message_with in H. cbv zeta in H.
    destruct (increment_nonce _ _) as [s3|] eqn:Ei; [|discriminate].
    assert (Hen : create_entry w (m_current_target m) = Ok (set_st s3 (begin_transaction w))).
    { unfold create_entry. by rewrite Ei. }
    pose proof (prepared_spec _ _ _ Hen) as Hprep.
    destruct (pm m (set_st s3 (begin_transaction w))) as [e0 w4|] eqn:Ep; [|discriminate].
    exists (set_st s3 (begin_transaction w)), e0, w4. split; [done|]. split; [done|].
    destruct (e_error e0) as [x|] eqn:Ee.
    { left. split; [done|]. destruct (rollback_transaction w4); [|discriminate].
      injection H as <- <-. split; [done|]. apply Hfail. by rewrite Ee. }
    right.
    assert (Hpre : match e_output e0 with b :: _ => Byte.to_N b =? 0xEF | [] => false end = true <->
      head (e_output e0) = Some Byte.xef).
    { destruct (e_output e0) as [|b l]; [done|]. cbn [head]. split; [|by intros [= ->]].
      intros Hb. f_equal. by destruct b. }
    assert (Hdep : (exists h e', deposit_code e0 = (Some h, e') /\ unfit e0) \/
      (deposit_code e0 = (None, set_gas_left (e_gas_left e0 - 200 * lenN (e_output e0)) e0) /\ ~ unfit e0)).
    { unfold deposit_code, unfit, GAS_CODE_DEPOSIT, MAX_CODE_SIZE. cbv zeta.
      destruct (match e_output e0 with b :: _ => _ | [] => false end) eqn:Eb.
      { left. eexists _, _. split; [done|]. left. by apply Hpre. }
      assert (Hno : head (e_output e0) <> Some Byte.xef) by (intros Hx; apply Hpre in Hx; congruence).
      destruct (N.ltb_spec (e_gas_left e0) (lenN (e_output e0) * 200)) as [Hg|Hg].
      { left. eexists _, _. split; [done|]. right; right. lia. }
      destruct (N.ltb_spec 24576 (lenN (e_output e0))) as [Hl|Hl].
      { left. eexists _, _. split; [done|]. by right; left. }
      right. rewrite (N.mul_comm 200). split; [done|]. intros [Hx|[Hx|Hx]]; [done|lia|lia]. }
    destruct Hdep as [(h & e' & Ed & Hun)|(Ed & Hun)]; rewrite Ed in H.
    - left. destruct (rollback_transaction w4) as [w5|]; [|discriminate]. injection H as <- <-.
      assert (Her : e_error (set_error (Some (EHalt h)) (set_output [] (set_gas_left 0 e'))) = Some (EHalt h)) by (by destruct e').
      split; [done|]. split; [done|]. split; [by exists h|].
      split; [by destruct e'|]. split; [by destruct e'|]. apply Hfail. by rewrite Her.
    - right. destruct (set_code (st w4) _ _) as [s5|] eqn:Es; [|discriminate].
      destruct (commit_transaction _) as [w6|] eqn:Ec; [|discriminate]. injection H as <- <-.
      split; [done|]. split; [done|]. split; [done|].
      apply commit_inv in Ec as (? & ? & _ & _ & E1 & E2 & E3 & _). cbn in E1, E2, E3.
      assert (Hn : nonce (get_account (st w4) (m_current_target m)) <> 0).
      { pose proof (C18_message _ _ _ _ _ _ _ (m_current_target m) Ep) as Hn.
        destruct Hprep as [Hp _]. rewrite Hp in Hn. cbv zeta in Hn. rewrite decide_True in Hn by done.
        cbn [nonce] in Hn. lia. }
      pose proof (set_code_same _ _ _ _ Es Hn) as Hss.
      pose proof (modify_state_get _ _ _ _ _ Es eq_refl) as Hg.
      split; [|split].
      + intros b. rewrite (get_account_main _ s5 E1), Hg.
        destruct (decide (_ = b)) as [<-|Hne]; [by rewrite decide_True|].
        rewrite decide_False; [done|]. congruence.
      + intros b k. rewrite !get_storage_slot, E2, <- !get_storage_slot. apply Hss.
      + intros b k. unfold get_transient_storage. by rewrite E3.
  Qed.
End Run.

(** The precompiled contracts: 1 to 9 in every fork, the point evaluation (10)
    since Cancun, the BLS12-381 operations (11 to 17) since Prague, and the
    secp256r1 verification (256) since Osaka. *)
Local Ltac settle :=
  split;
  [intros H; first
     [exfalso; apply H; reflexivity
     |left; lia
     |right; left; split; [lia|reflexivity]
     |right; right; left; split; [lia|reflexivity]
     |right; right; right; split; [lia|reflexivity]]
  |intros [?|[[? ?]|[[? ?]|[? ?]]]]; first [lia|discriminate]].
Theorem C53_precompile_set : forall cr f a,
  pre_compiled_contracts cr f a <> None <->
    1 <= a <= 9 \/ (a = 10 /\ at_least Cancun f = true) \/
    (11 <= a <= 17 /\ at_least Prague f = true) \/ (a = 256 /\ at_least Osaka f = true).
Proof.
  intros cr f a. destruct (decide (a <= 17 \/ a = 256)) as [Hd|Hd].
  - assert (In a (256 :: map N.of_nat (seq 0 18))) as Hin.
    { destruct Hd as [Hd| ->]; [right|by left].
      apply in_map_iff. exists (N.to_nat a). split; [lia|]. apply in_seq. lia. }
    cbn in Hin.
    clear Hd. repeat (destruct Hin as [<-|Hin]; [destruct f; settle|]).
    done.
  - split; [|lia]. intros H. exfalso. apply H. clear H. unfold pre_compiled_contracts.
    destruct a as [|p]; [done|].
    do 9 (try destruct p as [p|p|]); first [done | exfalso; lia].
Qed.

(** ** Example *)

(** Init code that returns the single byte [b]. *)
Definition returns_byte (b : N) : bytes := bs [0x60;b; 0x60;0; 0x53; 0x60;1; 0x60;0; 0xF3].
Definition ex_init (b : N) : message := {|
  m_caller := 0xaa; m_target := None; m_current_target := 0x900; m_gas := 1000;
  m_value := 4; m_data := []; m_code_address := None; m_code := returns_byte b; m_depth := 0;
  m_should_transfer_value := true; m_is_static := false;
  m_accessed_addresses := ∅; m_accessed_storage_keys := ∅; m_disable_precompiles := false |}.
Definition ex_init_world : world := toy_world [(0xaa, Account 1 50 [])] ∅.
Example C53_nonvacuous :
  owned (st ex_init_world) /\ m_depth (ex_init 0x5b) <= 1024 /\
  m_code_address (ex_init 0x5b) ≫= pre_compiled_contracts toy_crypto Osaka = None /\
  match toy_create (ex_init 0x5b) ex_init_world with
  | PRet e w' => (e_error e, e_gas_left e, get_account (st w') 0x900, balance (get_account (st w') 0xaa))
                 = (None, 782, Account 1 4 (bs [0x5b]), 46)
  | _ => False
  end /\
  match toy_create (ex_init 0xEF) ex_init_world with
  | PRet e w' => (e_error e, e_gas_left e, get_account (st w') 0x900, balance (get_account (st w') 0xaa))
                 = (Some (EHalt InvalidContractPrefix), 0, EMPTY_ACCOUNT, 50)
  | _ => False
  end.
Proof.
  split; [intros a k H; exfalso; by apply H|]. split; [done|]. split; [done|].
  by split; vm_compute.
Qed.

Definition PropFrames_theorems :=
  (@C53_code, @C53_precompiled, @C53_creation, @C53_precompile_set).
Print Assumptions PropFrames_theorems.
