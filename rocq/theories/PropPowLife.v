(** * PropPowLife: C83, how a message is run in the proof-of-work forks.

    As C53: the target exists from now on, the value moves, the code runs
    instruction by instruction (C80, C81, C82) from an empty frame, and the end
    of the run decides what is kept; a creation also prepares the new account
    and pays for the deposited code, by the rules of the fork. *)
From Verif Require Import Base State Rlp Bloom Transactions Trie Blocks Requests Fork Ethash Pow PowTx.
From Verif Require Import Vm Instructions Precompiles Interpreter PowVm StateSpec
  StateProofs NumericProofs ArithProofs EvmStep EvmLocal EvmPlan EvmPlanProofs EvmCallProofs
  EvmFrame EvmAccounts EvmRule InstrSpec PowVmPlan PowVmOps PowVmCalls PowVmFrame PowVmRule PowVmInv
  EvmExamples PropInstr PropFrames PropPowTx PropPowInstr.
From Coq Require Import ZifyBool ZifyN ZifyNat.
Ltac Zify.zify_post_hook ::= idtac.

(** ** Reference *)

(** An account is stored, if perhaps empty. *)
Definition stored (w : world) (a : address) : Prop := get_account_optional (st w) a <> None.

(** The target is stored and the value of the message has moved from the
    caller to it; nothing else has changed. *)
Definition pow_sent (m : message) (w w1 : world) : Prop :=
  let v := if m_should_transfer_value m then m_value m else 0 in
  v <= balance (get_account (st w) (m_caller m)) /\
  (forall a, get_account (st w1) a =
    let acc := get_account (st w) a in
    Account (nonce acc)
      (balance acc - (if decide (a = m_caller m) then v else 0)
                   + (if decide (a = m_current_target m) then v else 0))
      (code acc)) /\
  (forall a, stored w1 a <-> stored w a \/ a = m_current_target m) /\
  (forall a k, get_storage (st w1) a k = get_storage (st w) a k) /\
  created_accounts (st w1) = created_accounts (st w).

Lemma flip_decide {A} (x y : N) (p q : A) :
  (if decide (x = y) then p else q) = if decide (y = x) then p else q.
Proof. destruct (decide (x = y)), (decide (y = x)); congruence. Qed.

Section Run.
  Context (cr : crypto) (n : pow_name) (env : pow_env) (te : tx_env).
  Notation pm := (pow_process_message cr n env te).
  Notation pcm := (pow_process_create_message cr n env te).
  (** One instruction; C80, C81 and C82 say what it does. *)
  Notation instruction inh := (pow_op cr n env te inh pm pcm).

  (** Running a frame until it stops by itself or an instruction fails; [inh]
      are the accounts destroyed by the frames above, [t] the accounts touched
      so far. *)
  Inductive pow_executes (inh : gset address) :
      evm -> gset address -> world -> option exn -> evm -> gset address -> world -> Prop :=
  | PStops e t w :
      (e_running e = false \/ lenN (e_code e) <= e_pc e) -> pow_executes inh e t w None e t w
  | PUnknown e t w b :
      e_running e = true -> nthN (e_code e) (e_pc e) = Some b ->
      (forall o, ~ (Byte.to_N b = opcode o /\ index_ok o /\ exists_in n o)) ->
      pow_executes inh e t w (Some (EHalt (InvalidOpcode b))) e t w
  | PFails e t w b o x e' w' :
      e_running e = true -> nthN (e_code e) (e_pc e) = Some b ->
      Byte.to_N b = opcode o -> index_ok o -> exists_in n o ->
      instruction inh o e w = Exc x e' w' -> pow_executes inh e t w (Some x) e' t w'
  | PGoes_on e t w b o t1 e1 w1 x e' t' w' :
      e_running e = true -> nthN (e_code e) (e_pc e) = Some b ->
      Byte.to_N b = opcode o -> index_ok o -> exists_in n o ->
      instruction inh o e w = Ret t1 e1 w1 -> pow_executes inh e1 (t ∪ t1) w1 x e' t' w' ->
      pow_executes inh e t w x e' t' w'.

  (** What is left of a run that started in [w] and ended in [w2]: a failure
      undoes everything, an exceptional halt also takes the gas and, since
      Byzantium, the output. *)
  Definition pow_concluded (w : world) (x : option exn) (e1 : evm) (w2 : world)
      (e : evm) (w' : world) : Prop :=
    match x with
    | None => e = e1 /\ e_error e = None /\ same_reads w2 w'
    | Some ERevert =>
        e_error e = Some ERevert /\ e_gas_left e = e_gas_left e1 /\
        e_output e = e_output e1 /\ same_reads w w'
    | Some (EHalt h) =>
        e_error e = Some (EHalt h) /\ e_gas_left e = 0 /\
        e_output e = (if since Byzantium n then [] else e_output e1) /\ same_reads w w'
    | _ => False
    end.

  (** ** Proofs *)
  Lemma modify_stored s a f s' b : modify_account s a f = Ok s' ->
    (get_account_optional s' b <> None <-> get_account_optional s b <> None \/ b = a).
  Proof using.
    clear. intros (acc & _ & ->)%modify_account_inv. unfold get_account_optional, set_account. cbn.
    destruct (decide (a = b)) as [->|Hne].
    - rewrite lookup_insert. split; [by right|done].
    - rewrite lookup_insert_ne by done. split; [by left|]. intros [H|H]; [done|congruence].
  Qed.
  Lemma touch_stored s a b :
    get_account_optional (touch_account s a) b <> None <-> get_account_optional s b <> None \/ b = a.
  Proof using.
    clear. unfold touch_account, account_exists, get_account_optional.
    destruct (main_trie s !! a) as [acc|] eqn:E.
    - split; [by left|]. intros [H| ->]; [done|congruence].
    - unfold set_account. cbn. destruct (decide (a = b)) as [->|Hne].
      + rewrite lookup_insert. split; [by right|done].
      + rewrite lookup_insert_ne by done. split; [by left|]. intros [H|H]; [done|congruence].
  Qed.
  Lemma rich_stored s a : balance (get_account s a) <> 0 -> get_account_optional s a <> None.
  Proof using. clear. unfold get_account. by destruct (get_account_optional s a). Qed.

  Lemma psent_spec m w s1 : ptransfer m (begin_transaction w) = Ok s1 ->
    pow_sent m w (set_st s1 (begin_transaction w)).
  Proof.
    intros Ht. pose proof (ptransfer_frame _ _ _ Ht) as (_ & Hcr & Hst).
    assert (Hs : forall a k, get_storage s1 a k = get_storage (st w) a k).
    { intros a k. rewrite !get_storage_slot, Hst. done. }
    unfold pow_sent, stored. cbv zeta. change (st (set_st s1 _)) with s1.
    unfold ptransfer in Ht. cbv zeta in Ht.
    set (s0 := touch_account (st (begin_transaction w)) (m_current_target m)) in *.
    assert (Hg0 : forall b, get_account s0 b = get_account (st w) b).
    { intros b. unfold s0. rewrite touch_get. done. }
    assert (Ht0 : forall b, get_account_optional s0 b <> None <->
      get_account_optional (st w) b <> None \/ b = m_current_target m).
    { intros b. unfold s0. rewrite touch_stored. done. }
    clearbody s0.
    destruct (m_should_transfer_value m); cbn [andb] in Ht.
    - destruct (N.eqb_spec (m_value m) 0) as [E|E]; cbn [negb] in Ht.
      + injection Ht as <-. rewrite E. split; [lia|]. split; [|by split].
        intros a. rewrite Hg0. apply (still w).
      + destruct (move_pow_inv _ _ _ _ _ Ht) as (Hle & sm & F1 & A1 & F2 & A2).
        pose proof (fun b => modify_account_get _ _ _ _ _ b F1 A1) as G1.
        pose proof (fun b => modify_account_get _ _ _ _ _ b F2 A2) as G2.
        rewrite Hg0 in Hle.
        split; [done|]. split; [|split; [|by split]].
        * intros a. rewrite G2, !G1, !Hg0. rewrite !(flip_decide a).
          destruct (decide (m_current_target m = a)) as [<-|Eb];
          destruct (decide (m_caller m = _)) as [Ec|Ec]; rewrite ?Ec in *; cbn [nonce balance code];
          match goal with |- context [get_account (st w) ?x] =>
            destruct (get_account (st w) x) as [xn xb xc] end; cbn [nonce balance code] in *;
          f_equal; lia.
        * intros a. rewrite (modify_stored _ _ _ _ _ F2), (modify_stored _ _ _ _ _ F1), Ht0.
          split; [|tauto]. intros [[[H|H]|H]|H]; try tauto. subst a. left. apply rich_stored. lia.
    - injection Ht as <-. split; [lia|]. split; [|by split]. intros a. rewrite Hg0. apply (still w).
  Qed.

  Lemma pstep_executes inh e t w :
    match pow_step cr n env te inh pm pcm (e, t, w) with
    | inl (e1, t1, w1) => forall x e' t' w', pow_executes inh e1 t1 w1 x e' t' w' ->
        pow_executes inh e t w x e' t' w'
    | inr (x, e', t', w') => pow_executes inh e t w x e' t' w'
    end.
  Proof.
    unfold pow_step. destruct (e_running e) eqn:Er; cbn [andb]; [|constructor; by left].
    destruct (N.ltb_spec (e_pc e) (lenN (e_code e))) as [Hp|Hp]; [|constructor; by right].
    destruct (nthN (e_code e) (e_pc e)) as [b|] eqn:Eb.
    2:{ exfalso. rewrite nthN_nth_error in Eb. apply nth_error_None in Eb. unfold lenN in Hp. lia. }
    destruct (decode_op b) as [o|] eqn:Ed.
    - destruct (pow_available n o) eqn:Ea.
      + apply C50_opcodes in Ed as [Ho1 Ho2]. apply available_exists in Ea.
        destruct (instruction inh o e w) as [t1 e1 w1|x e1 w1] eqn:Ei; [|by eapply PFails].
        intros x e' t' w' H. by eapply PGoes_on.
      + eapply PUnknown; [done|done|]. intros o' (H1 & H2 & H3%available_exists).
        rewrite (proj2 (C50_opcodes b o') (conj H1 H2)) in Ed. congruence.
    - eapply PUnknown; [done|done|]. intros o' (H1 & H2 & _).
      rewrite (proj2 (C50_opcodes b o') (conj H1 H2)) in Ed. congruence.
  Qed.

  Lemma ploop_executes inh m w ox e' t' w' :
    pow_loop cr n env te inh pm pcm (init_evm m) w = (ox, e', t', w') -> ox <> Some EOutOfFuel ->
    pow_executes inh (init_evm m) ∅ w ox e' t' w'.
  Proof.
    unfold pow_loop. intros H Hf.
    pose proof (loop_pos_spec (pow_step cr n env te inh pm pcm)
      (N.succ_pos (e_gas_left (init_evm m) + 1)) (init_evm m, ∅, w)) as Hl.
    destruct (loop_pos _ _ _) as [[[e2 t2] w2]|r] eqn:El; [congruence|]. subst r.
    destruct Hl as (k & [[e2 t2] w2] & _ & Hs & Hr).
    assert (G : forall k s s', steps (pow_step cr n env te inh pm pcm) k s s' ->
      forall x e3 t3 w3, pow_executes inh s'.1.1 s'.1.2 s'.2 x e3 t3 w3 ->
        pow_executes inh s.1.1 s.1.2 s.2 x e3 t3 w3).
    { clear. intros k s s' Hs. induction Hs as [|k [[ea ta] wa] [[eb tb] wb] s3 E Hs IH];
        intros x e3 t3 w3 H; [done|].
      pose proof (pstep_executes inh ea ta wa) as Hx. rewrite E in Hx. cbn. apply Hx. by apply IH. }
    eapply (G _ _ _ Hs). cbn. pose proof (pstep_executes inh e2 t2 w2) as Hx. by rewrite Hr in Hx.
  Qed.

  Lemma pstep_error inh e t w e1 t1 w1 : shape_ok e ->
    pow_step cr n env te inh pm pcm (e, t, w) = inl (e1, t1, w1) -> e_error e1 = e_error e.
  Proof.
    intros Hs E.
    destruct (pow_step_cases cr n env te inh e t w Hs) as [(_ & He)|[(h & He)|(o & p & Ho & Hp & _ & He)]];
      rewrite He in E; try done.
    destruct p as [[t2 e2 w2|x e2 w2]|m e2 os oz|m e2 w0]; cbn [pplan_ok pinterp] in Hp, E; try done.
    - injection E as <- <- <-. destruct Hp as [Hp _]. by apply ls_err in Hp.
    - destruct (pm _ m w) as [c tc w2|]; [|done].
      destruct (resume_call e2 os oz c w2) as [[] e3 w3|] eqn:Er; cbn [PowVmPlan.resumed] in E; [|done].
      injection E as <- <- <-.
      by destruct (presume_call_shape _ _ _ _ _ _ _ _ _ _ _ _ Hp Er) as (_ & _ & _ & _ & _ & _ & _ & _ & _ & H).
    - destruct (pcm _ m w0) as [c tc w2|]; [|done].
      destruct (resume_create e2 c w2) as [[] e3 w3|] eqn:Er; cbn [PowVmPlan.resumed] in E; [|done].
      injection E as <- <- <-.
      by destruct (presume_create_shape _ _ _ _ _ _ _ _ _ _ _ _ Hp Er) as (_ & _ & _ & _ & _ & _ & _ & _ & _ & H).
  Qed.

  (** A normal end leaves no error. *)
  Lemma ploop_no_error inh m w e' t' w' :
    pow_loop cr n env te inh pm pcm (init_evm m) w = (None, e', t', w') -> e_error e' = None.
  Proof.
    intros H. unfold pow_loop in H.
    pose proof (loop_pos_spec (pow_step cr n env te inh pm pcm)
      (N.succ_pos (e_gas_left (init_evm m) + 1)) (init_evm m, ∅, w)) as Hl.
    destruct (loop_pos _ _ _) as [[[e2 t2] w2]|r] eqn:El; [congruence|]. subst r.
    destruct Hl as (k & [[e2 t2] w2] & _ & Hs & Hr).
    assert (G : forall k s s', steps (pow_step cr n env te inh pm pcm) k s s' ->
      shape_ok s.1.1 -> e_error s.1.1 = None -> e_error s'.1.1 = None).
    { clear. intros k s s' Hs. induction Hs as [|k [[ea ta] wa] [[eb tb] wb] s3 E Hs IH];
        intros Hsh He; [done|].
      apply IH; cbn in *.
      - by destruct (pow_step_inv _ _ _ _ _ _ _ _ _ _ _ _ _ Hsh E).
      - by rewrite (pstep_error _ _ _ _ _ _ _ Hsh E). }
    specialize (G _ _ _ Hs (init_shape m) eq_refl). cbn in G.
    replace e' with e2; [done|].
    unfold pow_step in Hr. destruct (_ && _); [|congruence].
    destruct (nthN _ _); [|congruence]. destruct (decode_op _); [|congruence].
    destruct (pow_available n _); [|congruence].
    destruct (instruction _ _ _ _); congruence.
  Qed.

  Lemma pfail_reads inh m w e t w' x : pm inh m w = PPRet e t w' -> e_error e = Some x ->
    same_reads w w' /\ handled x.
  Proof.
    intros H Hx. pose proof (pmessage_struct cr n env te inh m w) as Hs. rewrite H in Hs.
    destruct (pps_fail _ _ _ _ _ Hs x Hx) as ([] & Hh & _).
    split; [apply same_reads_eq; congruence|done].
  Qed.

  Lemma pbody_concluded inh m w e t w' s1 x e1 t1 w2 :
    pm inh m w = PPRet e t w' -> m_depth m <= 1024 ->
    ptransfer m (begin_transaction w) = Ok s1 ->
    pow_execute_code cr n env te inh pm pcm m (set_st s1 (begin_transaction w)) = ploop_end n x e1 t1 w2 ->
    (x = None -> e_error e1 = None) ->
    pow_concluded w x e1 w2 e w' /\ t = t1.
  Proof.
    intros H Hd Ht Hx Hn. pose proof (pfail_reads inh m w e t w') as Hfail. specialize (fun y => Hfail y H).
    rewrite pow_process_message_eq in H. destruct (N.ltb_spec 1024 (m_depth m)); [lia|].
    unfold pow_process_message_body in H. cbv zeta in H.
    change (if m_should_transfer_value m && _ then _ else _)
      with (ptransfer m (begin_transaction w)) in H.
    rewrite Ht, Hx in H. destruct x as [x|]; cbn [ploop_end] in H.
    - destruct x; cbn [pow_handle_exn] in H; try discriminate; cbv zeta in H.
      + change PowVm.since with since in H.
        match type of H with context [e_error ?ee] => set (e2 := ee) in H end.
        assert (He2 : e_error e2 = Some (EHalt h) /\ e_gas_left e2 = 0 /\
          e_output e2 = (if since Byzantium n then [] else e_output e1))
          by (unfold e2; by destruct (since Byzantium n), e1).
        clearbody e2. destruct He2 as (Ee & Eg & Eo). rewrite Ee in H.
        destruct (rollback_transaction w2) as [w3|]; [|discriminate]. injection H as <- <- <-.
        split; [|done]. cbn [pow_concluded]. split_and!; try done. by apply (Hfail _ Ee).
      + match type of H with context [e_error ?ee] => set (e2 := ee) in H end.
        assert (He2 : e_error e2 = Some ERevert /\ e_gas_left e2 = e_gas_left e1 /\
          e_output e2 = e_output e1)
          by (unfold e2; by destruct e1).
        clearbody e2. destruct He2 as (Ee & Eg & Eo). rewrite Ee in H.
        destruct (rollback_transaction w2) as [w3|]; [|discriminate]. injection H as <- <- <-.
        split; [|done]. cbn [pow_concluded]. split_and!; try done. by apply (Hfail _ Ee).
    - rewrite Hn in H by done. destruct (commit_transaction w2) as [w3|] eqn:Ec; [|discriminate].
      injection H as <- <- <-. split; [|done]. split; [done|]. split; [auto|]. by apply commit_reads.
  Qed.

  (** ** C83 *)

  (** A message whose code is not a precompiled contract: the value moves, the
      code runs from the first frame, and the end of the run decides. *)
  Theorem C83_code : forall inh m w e t w',
    m_depth m <= 1024 ->
    m_code_address m ≫= pow_precompile cr n = None ->
    pm inh m w = PPRet e t w' ->
    exists w1 x e1 w2, pow_sent m w w1 /\
      pow_executes inh (first_frame m (get_valid_jump_destinations (m_code m))) ∅ w1 x e1 t w2 /\
      pow_concluded w x e1 w2 e w'.
  Proof.
    intros inh m w e t w' Hd Hp H. pose proof H as H0.
    rewrite pow_process_message_eq in H0. destruct (N.ltb_spec 1024 (m_depth m)); [lia|].
    unfold pow_process_message_body in H0. cbv zeta in H0.
    change (if m_should_transfer_value m && _ then _ else _)
      with (ptransfer m (begin_transaction w)) in H0.
    destruct (ptransfer m (begin_transaction w)) as [s1|] eqn:Ht; [|discriminate].
    assert (Hx : exists x e1 t1 w2, pow_loop cr n env te inh pm pcm (init_evm m)
      (set_st s1 (begin_transaction w)) = (x, e1, t1, w2)).
    { destruct (pow_loop _ _ _ _ _ _ _ _ _) as [[[x e1] t1] w2]. by exists x, e1, t1, w2. }
    destruct Hx as (x & e1 & t1 & w2 & Hx).
    assert (Hc : pow_execute_code cr n env te inh pm pcm m (set_st s1 (begin_transaction w)) =
      ploop_end n x e1 t1 w2).
    { unfold pow_execute_code. cbv zeta.
      match goal with |- match ?o with _ => _ end = _ => replace o with (@None (M unit)) by (symmetry; exact Hp) end.
      rewrite Hx. by destruct x. }
    exists (set_st s1 (begin_transaction w)), x, e1, w2.
    destruct (pbody_concluded inh m w e t w' s1 x e1 t1 w2) as [Hcon ->]; try done.
    { intros ->. by eapply ploop_no_error. }
    split; [by apply psent_spec|]. split; [|done].
    change (first_frame _ _) with (init_evm m). apply ploop_executes; [done|]. intros ->.
    rewrite Hc in H0. discriminate.
  Qed.

  (** A precompiled contract touches nothing else. *)
  Theorem C83_precompiled : forall inh m w e t w' a p,
    m_depth m <= 1024 ->
    m_code_address m = Some a -> pow_precompile cr n a = Some p ->
    pm inh m w = PPRet e t w' ->
    exists w1, pow_sent m w w1 /\ t = ∅ /\
      match p (first_frame m (get_valid_jump_destinations (m_code m))) w1 with
      | Ret _ e1 w2 => pow_concluded w None e1 w2 e w'
      | Exc x e1 w2 => pow_concluded w (Some x) e1 w2 e w'
      end.
  Proof.
    intros inh m w e t w' a p Hd Ha Hp H. change (first_frame _ _) with (init_evm m). pose proof H as H0.
    rewrite pow_process_message_eq in H0. destruct (N.ltb_spec 1024 (m_depth m)); [lia|].
    unfold pow_process_message_body in H0. cbv zeta in H0.
    change (if m_should_transfer_value m && _ then _ else _)
      with (ptransfer m (begin_transaction w)) in H0.
    destruct (ptransfer m (begin_transaction w)) as [s1|] eqn:Ht; [|discriminate].
    exists (set_st s1 (begin_transaction w)).
    assert (Hc : pow_execute_code cr n env te inh pm pcm m (set_st s1 (begin_transaction w)) =
      match p (init_evm m) (set_st s1 (begin_transaction w)) with
      | Ret _ e1 w2 => PPRet e1 ∅ w2 | Exc x e1 w2 => pow_handle_exn n x e1 ∅ w2 end).
    { unfold pow_execute_code. rewrite Ha. cbn [mbind option_bind]. rewrite Hp. done. }
    split; [by apply psent_spec|].
    pose proof (ppre_spec cr n env te a p (init_evm m) (set_st s1 (begin_transaction w)) Hp) as Hs.
    destruct (p (init_evm m) (set_st s1 (begin_transaction w))) as [[] e1 w2|x e1 w2].
    - destruct (pbody_concluded inh m w e t w' s1 None e1 ∅ w2) as [Hcon ->]; try done.
      intros _. destruct Hs as (_ & -> & _). done.
    - destruct (pbody_concluded inh m w e t w' s1 (Some x) e1 ∅ w2) as [Hcon ->]; done.
  Qed.

  (** The account of a creation before the init code runs: no storage; since
      Spurious Dragon (EIP-161) its nonce is one higher; since Istanbul it is
      marked as created (for EIP-2200).  Nothing else has changed. *)
  Definition pow_prepared (a : address) (w w1 : world) : Prop :=
    (forall b, get_account (st w1) b =
      let acc := get_account (st w) b in
      if decide (b = a)
      then Account (nonce acc + (if since SpuriousDragon n then 1 else 0)) (balance acc) (code acc)
      else acc) /\
    (forall b, stored w1 b <-> stored w b \/ (since SpuriousDragon n = true /\ b = a)) /\
    (forall b k, get_storage (st w1) b k = if decide (b = a) then 0 else get_storage (st w) b k) /\
    created_accounts (st w1) =
      if since Istanbul n then {[ a ]} ∪ created_accounts (st w) else created_accounts (st w).
  (** The code returned by init code that is not accepted: EIP-3541 since
      London, EIP-170 since Spurious Dragon. *)
  Definition pow_unfit (e : evm) : Prop :=
    (since London n = true /\ head (e_output e) = Some Byte.xef) \/
    (since SpuriousDragon n = true /\ 24576 < lenN (e_output e)) \/
    e_gas_left e < 200 * lenN (e_output e).
  (** The returned code is stored. *)
  Definition pow_deposited (a : address) (c : bytes) (w w' : world) : Prop :=
    (forall b, get_account (st w') b =
      let acc := get_account (st w) b in
      if decide (b = a) then Account (nonce acc) (balance acc) c else acc) /\
    (forall b, stored w' b <-> stored w b \/ b = a) /\
    (forall b k, get_storage (st w') b k = get_storage (st w) b k).

  Lemma pprepared_spec a w w1 : pcreate_entry n w a = Ok w1 -> pow_prepared a w w1.
  Proof.
    unfold pcreate_entry. cbv zeta. change PowVm.since with since.
    set (s1 := destroy_storage (st (begin_transaction w)) a).
    set (s2 := if since Istanbul n then mark_account_created s1 a else s1).
    assert (Hs1 : main_trie s1 = main_trie (st w) /\ created_accounts s1 = created_accounts (st w) /\
      storage_tries s1 = delete a (storage_tries (st w))).
    { unfold s1. rewrite destroy_storage_main, destroy_storage_created, destroy_storage_storages. done. }
    assert (Hs2 : main_trie s2 = main_trie (st w) /\
      created_accounts s2 = (if since Istanbul n then {[ a ]} ∪ created_accounts (st w) else created_accounts (st w)) /\
      storage_tries s2 = delete a (storage_tries (st w))).
    { destruct Hs1 as (H1 & H2 & H3). unfold s2. destruct (since Istanbul n); cbn; rewrite ?H2; done. }
    clearbody s2. clear Hs1 s1. destruct Hs2 as (Hm & Hc & Ht). intros E.
    assert (Hsl : forall s b k, storage_tries s = storage_tries s2 -> get_storage s b k =
      if decide (b = a) then 0 else get_storage (st w) b k).
    { intros s b k Hst. rewrite !get_storage_slot, Hst, Ht. unfold slot_of.
      destruct (decide (b = a)) as [->|Hne].
      + by rewrite lookup_delete.
      + rewrite lookup_delete_ne; [done|]. congruence. }
    assert (Hg2 : forall b, get_account s2 b = get_account (st w) b).
    { intros b. by apply get_account_main. }
    unfold pow_prepared, stored. destruct (since SpuriousDragon n).
    - destruct (pow_increment_nonce s2 a) as [s|] eqn:Ei; [|done].
      assert (E' : w1 = set_st s (begin_transaction w)) by congruence. subst w1. clear E.
      unfold pow_increment_nonce in Ei.
      pose proof (modify_account_frame _ _ _ _ Ei) as (_ & F2 & F3).
      pose proof (fun b => modify_account_get _ _ _ _ _ b Ei eq_refl) as Hg.
      cbn [st set_st]. split_and!.
      + intros b. rewrite Hg, !Hg2. rewrite (flip_decide a b).
        destruct (decide (b = a)) as [->|]; done.
      + intros b. rewrite (modify_stored _ _ _ _ _ Ei).
        unfold get_account_optional. rewrite Hm. tauto.
      + intros b k. by apply Hsl.
      + congruence.
    - assert (E' : w1 = set_st s2 (begin_transaction w)) by congruence. subst w1. clear E.
      cbn [st set_st]. split_and!.
      + intros b. rewrite Hg2. cbv zeta. destruct (decide (b = a)); [|done].
        rewrite N.add_0_r. by destruct (get_account (st w) b).
      + intros b. unfold get_account_optional. rewrite Hm. split; [tauto|]. by intros [?|[? ?]].
      + intros b k. by apply Hsl.
      + done.
  Qed.

  (** A creation: the account is prepared, the init code runs as a message,
      and the code it returns is stored at 200 gas per byte unless unfit; then
      everything is undone, but in Frontier the contract is left without code
      and the gas is kept. *)
  Theorem C83_creation : forall inh m w e t w',
    pcm inh m w = PPRet e t w' ->
    exists w1 e0 w2, pow_prepared (m_current_target m) w w1 /\ pm inh m w1 = PPRet e0 t w2 /\
      ((e_error e0 <> None /\ e = e0 /\ same_reads w w') \/
       (e_error e0 = None /\ pow_unfit e0 /\ since Homestead n = true /\
        (exists h, e_error e = Some (EHalt h)) /\ e_gas_left e = 0 /\
        e_output e = (if since Byzantium n then [] else e_output e0) /\ same_reads w w') \/
       (e_error e0 = None /\ pow_unfit e0 /\ since Homestead n = false /\
        e = set_output [] e0 /\ same_reads w2 w') \/
       (e_error e0 = None /\ ~ pow_unfit e0 /\
        e = set_gas_left (e_gas_left e0 - 200 * lenN (e_output e0)) e0 /\
        pow_deposited (m_current_target m) (e_output e0) w2 w')).
  Proof.
    intros inh m w e t w' H. pose proof (pcreate_struct cr n env te inh m w) as Hps.
    rewrite H in Hps.
    assert (Hfail : e_error e <> None -> same_reads w w').
    { intros Hne. destruct (e_error e) as [x|] eqn:Ee; [|done].
      destruct (pps_fail _ _ _ _ _ Hps x Ee) as ([] & _). apply same_reads_eq; congruence. }
    unfold pow_process_create_message, pow_process_create_message_with in H. cbv zeta in H.
    destruct (pcreate_entry_ok n w (m_current_target m)) as [w3 Hen].
    pose proof (pprepared_spec _ _ _ Hen) as Hprep.
    pose proof Hen as Hen'. unfold pcreate_entry in Hen'. cbv zeta in Hen'.
    change PowVm.since with since in *.
    destruct (if since SpuriousDragon n then _ else _) as [s3|]; [|done].
    assert (w3 = set_st s3 (begin_transaction w)) by congruence. subst w3. clear Hen'.
    destruct (pm inh m (set_st s3 (begin_transaction w))) as [e0 t0 w4|] eqn:Ep; [|discriminate].
    assert (Ht0 : t0 = t).
    { clear -H. destruct (e_error e0).
      { destruct (rollback_transaction w4); [congruence|discriminate]. }
      destruct (pow_deposit n e0) as [[h|] e'].
      - destruct (since Homestead n); [destruct (rollback_transaction w4)|destruct (commit_transaction w4)];
          congruence.
      - destruct (pow_set_code _ _ _); [|discriminate]. destruct (commit_transaction _); congruence. }
    subst t0.
    exists (set_st s3 (begin_transaction w)), e0, w4. split; [done|]. split; [done|].
    destruct (e_error e0) as [x|] eqn:Ee.
    { left. split; [done|]. destruct (rollback_transaction w4); [|discriminate].
      injection H as <- <-. split; [done|]. apply Hfail. by rewrite Ee. }
    right.
    assert (Hpre : match e_output e0 with b :: _ => Byte.to_N b =? 0xEF | [] => false end = true <->
      head (e_output e0) = Some Byte.xef).
    { destruct (e_output e0) as [|b l]; [done|]. cbn [head]. split; [|by intros [= ->]].
      intros Hb. f_equal. by destruct b. }
    assert (Hdep : (exists h e', pow_deposit n e0 = (Some h, e') /\ pow_unfit e0 /\
        e_output e' = e_output e0 /\ (since Homestead n = false -> e' = e0)) \/
      (pow_deposit n e0 = (None, set_gas_left (e_gas_left e0 - 200 * lenN (e_output e0)) e0) /\ ~ pow_unfit e0)).
    { unfold pow_deposit, pow_unfit, GAS_CODE_DEPOSIT, MAX_CODE_SIZE. cbv zeta.
      change PowVm.since with since.
      destruct (since London n && match e_output e0 with b :: _ => _ | [] => false end) eqn:Eb.
      { apply andb_true_iff in Eb as [El Eb]. left. eexists _, _. split; [done|]. split; [|done].
        left. split; [done|]. by apply Hpre. }
      assert (Hno : ~ (since London n = true /\ head (e_output e0) = Some Byte.xef)).
      { intros [Hl Hx]. apply Hpre in Hx. by rewrite Hl, Hx in Eb. }
      destruct (N.ltb_spec (e_gas_left e0) (lenN (e_output e0) * 200)) as [Hg|Hg].
      { left. eexists _, _. split; [done|]. split; [|done]. right; right. lia. }
      destruct (since SpuriousDragon n && (24576 <? lenN (e_output e0))) eqn:El.
      { apply andb_true_iff in El as [El El2]. apply N.ltb_lt in El2.
        left. eexists _, _. split; [done|]. split; [by right; left|].
        split; [by destruct e0|]. clear -El. by destruct n. }
      right. rewrite (N.mul_comm 200). split; [done|].
      intros [Hx|[[Hx Hy]|Hx]]; [done| |lia].
      rewrite Hx in El. cbn [andb] in El. apply N.ltb_ge in El. lia. }
    destruct Hdep as [(h & e' & Ed & Hun & Ho & Hf)|(Ed & Hun)]; rewrite Ed in H.
    - destruct (since Homestead n) eqn:Eh.
      + left. destruct (rollback_transaction w4) as [w5|]; [|discriminate].
        match type of H with PPRet ?ee _ _ = _ => set (e2 := ee) in H end.
        assert (He2 : e_error e2 = Some (EHalt h) /\ e_gas_left e2 = 0 /\
          e_output e2 = (if since Byzantium n then [] else e_output e0)).
        { unfold e2. rewrite <- Ho. by destruct (since Byzantium n), e'. }
        clearbody e2. injection H as <- <-. destruct He2 as (E1 & E2 & E3).
        split_and!; try done; [by exists h|]. apply Hfail. by rewrite E1.
      + right; left. destruct (commit_transaction w4) as [w5|] eqn:Ec; [|discriminate].
        injection H as <- <-. rewrite (Hf eq_refl). split_and!; try done. by apply commit_reads.
    - right; right. destruct (pow_set_code (st w4) _ _) as [s5|] eqn:Es; [|discriminate].
      destruct (commit_transaction _) as [w6|] eqn:Ec; [|discriminate]. injection H as <- <-.
      split; [done|]. split; [done|]. split; [done|].
      apply commit_inv in Ec as (? & ? & _ & _ & E1 & E2 & E3 & _). cbn in E1, E2, E3.
      unfold pow_set_code in Es.
      pose proof (modify_account_frame _ _ _ _ Es) as (_ & _ & Hst).
      pose proof (fun b => modify_account_get _ _ _ _ _ b Es eq_refl) as Hg.
      unfold pow_deposited, stored. split; [|split].
      + intros b. rewrite (get_account_main _ s5 E1), Hg.
        rewrite (flip_decide _ b). destruct (decide (b = _)) as [->|Hne]; done.
      + intros b. rewrite <- (modify_stored _ _ _ _ _ Es). unfold get_account_optional. by rewrite E1.
      + intros b k. by rewrite !get_storage_slot, E2, Hst.
  Qed.
End Run.

(** The precompiled contracts: 1 to 4 always, 5 to 8 since Byzantium, 9 since
    Istanbul. *)
Theorem C83_precompile_set : forall cr n a,
  pow_precompile cr n a <> None <->
  1 <= a <= 4 \/ (since Byzantium n = true /\ 5 <= a <= 8) \/ (since Istanbul n = true /\ a = 9).
Proof.
  intros cr n a. change since with PowVm.since. split.
  - intros H. destruct (decide (a <= 9)) as [Hd|Hd].
    + assert (In a (map N.of_nat (seq 0 10))) as Hin.
      { apply in_map_iff. exists (N.to_nat a). split; [lia|]. apply in_seq. lia. }
      cbn in Hin. repeat (destruct Hin as [<-|Hin]; [cbv beta iota delta [pow_precompile] in H; try (left; lia)|]); try done.
      all: try (destruct (PowVm.since Byzantium n); [right; left; split; [done|lia]|done]).
      destruct (PowVm.since Istanbul n); [right; right; split; [done|lia]|done].
    + exfalso. apply H. unfold pow_precompile. destruct a as [|p]; [done|].
      do 4 (try destruct p as [p|p|]); first [done | exfalso; lia].
  - intros [H|[[Hs H]|[Hs ->]]].
    + assert (In a (map N.of_nat (seq 1 4))) as Hin.
      { apply in_map_iff. exists (N.to_nat a). split; [lia|]. apply in_seq. lia. }
      cbn in Hin. repeat (destruct Hin as [<-|Hin]; [done|]). done.
    + assert (In a (map N.of_nat (seq 5 4))) as Hin.
      { apply in_map_iff. exists (N.to_nat a). split; [lia|]. apply in_seq. lia. }
      cbn in Hin. repeat (destruct Hin as [<-|Hin]; [cbv beta iota delta [pow_precompile]; by rewrite Hs|]). done.
    + cbv beta iota delta [pow_precompile]. by rewrite Hs.
Qed.

(** ** Example *)

(** The creation of C53 in the forks; [0xEF] is accepted as code before
    London, and in Frontier a contract whose code cannot be paid remains. *)
Definition ex_life_env : pow_env := PowEnv 1 100000 [] 0xc0 2 3 1000 131072.
Definition ex_pow_creation (n : pow_name) (b g : N) :=
  let m := ex_init b in
  let m := {| m_caller := m_caller m; m_target := None; m_current_target := 0x900; m_gas := g;
    m_value := 4; m_data := []; m_code_address := None; m_code := m_code m; m_depth := 0;
    m_should_transfer_value := true; m_is_static := false;
    m_accessed_addresses := ∅; m_accessed_storage_keys := ∅; m_disable_precompiles := false |} in
  match pow_process_create_message toy_crypto n ex_life_env toy_tx ∅ m ex_init_world with
  | PPRet e _ w' => Some (e_error e, e_gas_left e, get_account (st w') 0x900)
  | _ => None
  end.
Example C83_nonvacuous :
  m_depth (ex_init 0x5b) <= 1024 /\
  m_code_address (ex_init 0x5b) ≫= pow_precompile toy_crypto Byzantium = None /\
  ex_pow_creation Frontier 0x5b 1000 = Some (None, 782, Account 0 4 (bs [0x5b])) /\
  ex_pow_creation Berlin 0xEF 1000 = Some (None, 782, Account 1 4 (bs [0xEF])) /\
  ex_pow_creation London 0xEF 1000 = Some (Some (EHalt InvalidContractPrefix), 0, EMPTY_ACCOUNT) /\
  ex_pow_creation Frontier 0x5b 100 = Some (None, 82, Account 0 4 []) /\
  ex_pow_creation Homestead 0x5b 100 = Some (Some (EHalt OutOfGasError), 0, EMPTY_ACCOUNT).
Proof. split; [done|]. split; [done|]. by split_and!; vm_compute. Qed.

Definition PropPowLife_theorems :=
  (@C83_code, @C83_precompiled, @C83_creation, @C83_precompile_set).
Print Assumptions PropPowLife_theorems.
