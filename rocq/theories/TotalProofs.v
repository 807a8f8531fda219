(** * TotalProofs: bounds on what a message call reports. *)
From Verif Require Import Base State Rlp Vm Instructions Precompiles Interpreter StateSpec StateProofs
  NumericProofs ArithProofs EvmStep EvmLocal EvmPlan EvmPlanProofs EvmCallProofs EvmFrame EvmAccounts
  EvmRule PropAccounts EvmInv PropSafe PropCalls PropRefund PropTx PropDelegation Trie Bloom Transactions Blocks
  Requests Fork ForkProofs PropBlocks PropWithdrawals TxProofs PropTransaction PropOuter PropHistory PropAnchored.
From Coq Require Import ZifyBool ZifyN ZifyNat.
Ltac Zify.zify_post_hook ::= idtac.

Local Opaque to_u256 from_be_bytes calculate_memory_gas_cost ceil32 N.compare.

(** The gas paid for a list of logs, at least. *)
Definition logs_gas (l : list log) : N := fold_right (fun x n => log_gas x + n) 0 l.
Lemma logs_gas_app l1 l2 : logs_gas (l1 ++ l2) = logs_gas l1 + logs_gas l2.
Proof. induction l1 as [|x l1 IH]; cbn; [done|]. unfold logs_gas in *. rewrite IH. lia. Qed.

(** A store earns at most 199 times the gas it costs. *)
Lemma sstore_bound orig cur v :
  (sstore_refund orig cur v <= 199 * Z.of_N (sstore_gas orig cur v))%Z.
Proof.
  unfold sstore_refund, sstore_gas. 
  destruct (N.eqb_spec orig cur), (N.eqb_spec cur v), (N.eqb_spec orig 0), (N.eqb_spec cur 0),
    (N.eqb_spec v 0), (N.eqb_spec orig v); subst; cbn [negb andb];
    try (vm_compute; congruence); try done.
Qed.

Section Ledger.
  Context (cr : crypto) (be : block_env) (te : tx_env) (Henv : env_ok cr be te).
  Notation frame_rule := (frame_rule cr be te).

  (** What a frame has collected, against the gas it used. *)
  Definition paid (gas : N) (e : evm) : Prop :=
    (e_refund_counter e + 199 * Z.of_N (e_gas_left e) <= 199 * Z.of_N gas)%Z /\
    logs_gas (e_logs e) + e_gas_left e <= gas /\ Forall typed_log (e_logs e).
  Definition led_inv (m : message) (w0 : world) (e : evm) (w : world) : Prop :=
    safe_inv m w0 e w /\ paid (m_gas m) e.
  Definition led_post (m : message) (w0 : world) (e : evm) (w : world) : Prop :=
    safe_post m w0 e w /\ (e_error e = None -> paid (m_gas m) e).

  Lemma ledger_rule : frame_rule safe_pre safe_cpre led_inv led_post led_post.
  Proof.
    pose proof (safe_rule cr be te Henv) as R.
    constructor.
    - intros m w s1 Hp Hd Ht. split; [by apply (r_start _ _ _ _ _ _ _ _ R)|].
      unfold paid. cbn. split; [lia|]. split; [lia|constructor].
    - intros m w0 w e' Hp Hf [HI HL] Hr. split; [by eapply (r_pre _ _ _ _ _ _ _ _ R)|].
      destruct Hr as (_ & -> & Hg & _). destruct HL as (H1 & H2 & H3).
      cbn [init_evm e_refund_counter e_gas_left e_logs] in *.
      unfold paid. cbn [set_output init_evm set_gas_left e_refund_counter e_gas_left e_logs] in *. split_and!; [lia|lia|done].
    - intros m w0 e w o e' w' Hp Hf [HI (HL1 & HL2 & HL3)] Ha Hd Hf'.
      split; [exact (r_done _ _ _ _ _ _ _ _ R _ _ _ _ _ _ _ Hp Hf HI Ha Hd Hf')|].
      pose proof (safe_frame _ _ _ _ _ (safe_weak _ _ Hp) Hf HI Ha) as Hok.
      destruct Hd as [Hl He]. pose proof (ls_gas_le _ _ _ _ _ _ _ Hl) as Hg. unfold paid. split.
      + destruct He as [_ Hr _|k v orig s' _ _ _ _ _ Hr Hg' _ _|? ? _ _ _ Hr _ _|? ? ? _ _ _ _ _ _ Hr _ _|? ? ? ? _ _ _ _ _ _ _ Hr _ _ _|? _ _ _ _ _ Hr _];
          rewrite Hr; [lia| |lia|lia|lia|lia].
        pose proof (sstore_bound orig (get_storage (st w) (m_current_target (e_message e)) k) v). lia.
      + destruct (ls_logs _ _ _ _ _ _ _ Hl) as [->|(_ & l & -> & El & Eg & Et)].
        * split; [lia|done].
        * rewrite logs_gas_app. cbn [logs_gas fold_right]. split; [lia|].
          apply Forall_app. split; [done|]. repeat constructor.
          -- rewrite El. apply (fo_target _ _ Hok).
          -- by apply Et.
    - intros m w0 e w o m' e1 os oz Hp Hf [HI (HL1 & HL2 & HL3)] Ha Hc.
      destruct (r_call _ _ _ _ _ _ _ _ R _ _ _ _ _ _ _ _ _ Hp Hf HI Ha Hc) as [Hpre Hk].
      split; [done|]. intros c w1 e2 w2 Hps [Hpo Hpa] Hr Hf2. split; [by eapply Hk|].
      pose proof (resume_call_gas e1 os oz c w1) as Rg. rewrite Hr in Rg.
      destruct (resume_call_sets _ _ _ _ _ _ _ Hr) as (_ & Rs).
      pose proof (co_wait _ _ _ _ _ _ _ _ Hc) as [].
      pose proof (ps_gas _ _ _ _ Hps) as Hgc. unfold paid in *.
      destruct (e_error c) eqn:Ec; destruct Rs as (_ & _ & -> & -> & _).
      + rewrite wa_refund, wa_logs, Rg. split_and!; [lia|lia|done].
      + destruct (Hpa eq_refl) as (P1 & P2 & P3).
        rewrite wa_refund, wa_logs, Rg, logs_gas_app. split_and!; [lia|lia|by apply Forall_app].
    - intros m w0 e w o m' e1 wi Hp Hf [HI (HL1 & HL2 & HL3)] Ha Hc.
      destruct (r_create _ _ _ _ _ _ _ _ R _ _ _ _ _ _ _ _ Hp Hf HI Ha Hc) as [Hpre Hk].
      split; [done|]. intros c w1 e2 w2 Hps [Hpo Hpa] Hr Hf2. split; [by eapply Hk|].
      pose proof (resume_create_gas e1 c w1) as Rg. rewrite Hr in Rg.
      destruct (resume_create_sets _ _ _ _ _ Hr) as (_ & Rs).
      pose proof (cr_wait _ _ _ _ _ _ _ _ Hc) as [].
      pose proof (ps_gas _ _ _ _ Hps) as Hgc. unfold paid in *.
      destruct (e_error c) eqn:Ec; destruct Rs as (_ & _ & -> & -> & _).
      + rewrite wa_refund, wa_logs, Rg. split_and!; [lia|lia|done].
      + destruct (Hpa eq_refl) as (P1 & P2 & P3).
        rewrite wa_refund, wa_logs, Rg, logs_gas_app. split_and!; [lia|lia|by apply Forall_app].
    - intros m w0 e w Hp Hps He Hi. split; [|by intros ?].
      eapply (r_fail _ _ _ _ _ _ _ _ R); try done.
      destruct Hi as (e0 & w1 & Hf & [HI _] & Hr). by exists e0, w1.
    - intros m w0 e w w3 Hp Hf [HI HL] Hc Hps. split; [by eapply (r_ok _ _ _ _ _ _ _ _ R)|done].
    - apply (r_entry _ _ _ _ _ _ _ _ R).
    - intros m w w3 e w4 e' w5 Hp He Hps [Hpo _] Hr Hps5 Hre Hne Hc.
      split; [by eapply (r_cfail _ _ _ _ _ _ _ _ R)|done].
    - intros m w w3 e w4 e' s5 w6 Hp He Hps [Hpo Hpa] Hen Hd Hs Hc Hps6.
      split; [by eapply (r_cok _ _ _ _ _ _ _ _ R)|]. intros _.
      destruct (deposit_code_eq _ _ _ Hd) as (g & Hg & ->). destruct (Hpa Hen) as (P1 & P2 & P3).
      assert (e_refund_counter (set_gas_left g e) = e_refund_counter e /\
        e_gas_left (set_gas_left g e) = g /\ e_logs (set_gas_left g e) = e_logs e) as (E1 & E2 & E3)
        by (by destruct e).
      unfold paid. rewrite E1, E2, E3. split_and!; [lia|lia|done].
  Qed.

  Lemma message_paid m w e w' : process_message cr be te m w = PRet e w' -> safe_pre m w ->
    e_error e = None -> paid (m_gas m) e.
  Proof.
    intros H Hp. destruct (rule_message _ _ _ _ _ _ _ _ _ _ _ _ ledger_rule Hp H) as [_ [_ HP]]. done.
  Qed.
  Lemma create_paid m w e w' : process_create_message cr be te m w = PRet e w' -> safe_cpre m w ->
    e_error e = None -> paid (m_gas m) e.
  Proof.
    intros H Hp. destruct (rule_create _ _ _ _ _ _ _ _ _ _ _ _ ledger_rule Hp H) as [_ [_ HP]]. done.
  Qed.
End Ledger.

(** ** Message calls started from outside *)

(** A state between two transactions whose values fit their types. *)
Record good (s : state) : Prop := {
  gd_settled : settled s;
  gd_anchored : anchored s;
  gd_world : world_ok (World s empty_transient);
}.
Lemma world_ok_fresh w : world_ok w -> world_ok (World (st w) empty_transient).
Proof. intros []. by constructor. Qed.
Lemma good_intro s : settled s -> anchored s -> total_balance s < 2 ^ 256 ->
  (forall a, lenN (code (get_account s a)) < 2 ^ 256) -> (forall a k, get_storage s a k < 2 ^ 256) -> good s.
Proof. intros. by constructor. Qed.

Lemma new_code_len t : lenN (new_code t) < 2 ^ 256.
Proof.
  destruct (new_code_delegable t) as [->|(d & -> & Hd)]; [done|].
  unfold lenN. rewrite app_length, Hd. done.
Qed.
Lemma authorizes_code cr be s l s' r : authorizes cr be s l s' r ->
  (forall a, lenN (code (get_account s a)) < 2 ^ 256) -> forall a, lenN (code (get_account s' a)) < 2 ^ 256.
Proof.
  intros H. induction H as [| |s t au s1 l s' r _ Hto _ IH]; [done|done|].
  intros Hc. apply IH. intros a. rewrite (at_get _ _ _ _ Hto). destruct (decide _); [|done].
  apply new_code_len.
Qed.

(** A message that can be started from outside. *)
Record startable (m : message) (s : state) : Prop := {
  sb_gas : m_gas m < 2 ^ 64;
  sb_code : lenN (m_code m) < 2 ^ 256;
  sb_data : lenN (m_data m) < 2 ^ 256;
  sb_value : m_value m < 2 ^ 256;
  sb_target : m_current_target m < 2 ^ 160;
  sb_caller : m_caller m < 2 ^ 160;
  sb_funded : m_should_transfer_value m = true -> m_value m <= balance (get_account s (m_caller m));
  sb_depth : m_depth m <= 1024;
  sb_addressed : addressed m s;
}.

(** The exception that may come out of a message before Osaka (C17) *)
Definition overflows (f : pos_fork) (e : failure) : Prop := f <> Osaka /\ e = FEvm (ECrash OverflowError).

Section Call.
  Context (cr : crypto) (be : block_env) (te : tx_env) (Henv : env_ok cr be te).


  Lemma finish_total r e w g : (e_error e = None -> (0 <= e_refund_counter e)%Z /\ paid g e) ->
    g < 2 ^ 64 -> r < 2 ^ 255 ->
    exists o, finish_call r e w = MCRet o w /\ logs_gas (o_logs o) <= g /\ Forall typed_log (o_logs o).
  Proof.
    intros H Hg Hr. unfold finish_call. destruct (e_error e) as [x|].
    { eexists. split; [done|]. cbn. split; [lia|constructor]. }
    destruct (H eq_refl) as (H1 & H2 & H3 & H4).
    assert (Hb : (e_refund_counter e < 2 ^ 72)%Z).
    { change (2 ^ 72)%Z with (256 * 2 ^ 64)%Z. lia. }
    assert (Hz : (2 ^ 72 < 2 ^ 255)%Z) by done.
    assert (Hn : 2 ^ 255 + 2 ^ 72 < U256_CEIL) by done.
    destruct (_ || _ || _) eqn:E; [exfalso|].
    - rewrite !orb_true_iff in E. unfold U256_CEIL in *. change (Z.of_N (2 ^ 256)) with (2 ^ 256)%Z in E.
      assert (2 ^ 255 < 2 ^ 256)%Z by done. 
      assert (Z.to_N (e_refund_counter e) < 2 ^ 72).
      { apply N2Z.inj_lt. rewrite Z2N.id by done. done. }
      lia.
    - eexists. split; [done|]. cbn [o_logs]. split; [lia|done].
  Qed.

  Lemma call_total m s : good s -> startable m s -> 12500 * lenN (t_authorizations te) < 2 ^ 255 ->
    at_least Prague (b_fork be) = true \/ t_authorizations te = [] ->
    (exists o s', call_message cr be te m s = (Done o, s') /\ good s' /\
      o_gas_left o <= m_gas m /\ logs_gas (o_logs o) <= m_gas m /\ Forall typed_log (o_logs o)) \/
    (exists e s', call_message cr be te m s = (Fail e, s') /\ overflows (b_fork be) e).
  Proof.
    intros [Gs Ga Gw] [] Hl Hpr.
    assert (Hmc : (exists o w', process_message_call cr be te m (World s empty_transient) = MCRet o w' /\
      world_ok w' /\ logs_gas (o_logs o) <= m_gas m /\ Forall typed_log (o_logs o)) \/
      (exists w', process_message_call cr be te m (World s empty_transient) = MCExc (ECrash OverflowError) w' /\
       b_fork be <> Osaka)).
    { unfold process_message_call.
      destruct (m_target m) as [to|] eqn:Et.
      - destruct (sb_addressed0 to Et) as (A1 & A2 & A3).
        assert (Hd : exists r m1 w1, match t_authorizations te with
            | [] => inr (0, m, World s empty_transient)
            | _ => if at_least Prague (b_fork be) then set_delegation cr be te m (World s empty_transient)
                   else inr (0, m, World s empty_transient) end = inr (r, m1, w1) /\
          r < 2 ^ 255 /\ delegated s (st w1) /\ world_ok w1 /\ anchored (st w1) /\
          exists acc, m1 = set_m_code (code (get_account (st w1) to)) (set_m_accessed acc m)).
        { destruct (t_authorizations te) as [|au l] eqn:El.
          - exists 0, m, (World s empty_transient). split; [done|]. split; [done|].
            split; [apply delegated_refl|]. split; [done|]. split; [done|].
            exists (m_accessed_addresses m). cbn [st]. rewrite <- A3. by destruct m.
          - destruct Hpr as [-> |Hpr]; [|done]. rewrite <- El in *. 
            destruct (C22_total cr be te m (World s empty_transient)) as (r & m1 & w1 & Hd).
            { congruence. }
            { assert (2 ^ 255 < 2 ^ 256) by done. lia. }
            exists r, m1, w1. split; [done|].
            pose proof (C22_exact _ _ _ _ _ _ _ _ Hd) as Hx. cbn [st] in Hx.
            destruct (set_delegation_facts _ _ _ _ _ _ _ _ Hd) as (D1 & D2 & ca & acc & D3 & D4).
            assert (ca = to) as -> by congruence.
            split.
            { assert (r <= 12500 * lenN (t_authorizations te)); [|lia].
              clear -Hx. induction Hx as [| |s t au s1 l s' r _ _ _ IH]; rewrite ?lenN_cons.
              - by cbn.
              - lia.
              - destruct (get_account_optional s au); lia. }
            split; [done|]. split; [|split; [by apply (authorizes_anchored _ _ _ _ _ _ Hx)|by exists acc]].
            destruct Gw as [W1 W2 W3 W4]. destruct D1 as [_ _ _ _ T1 T2]. cbn [st] in *.
            constructor.
            + by rewrite T1.
            + by eapply authorizes_code.
            + intros a k. destruct (T2 (anchored_rooted _ Ga)) as [_ ->]. done.
            + intros a k. by rewrite D2. }
        destruct Hd as (r & m1 & w1 & -> & Hr & Hde & Hw1 & Ha1 & acc & Hm1). cbv iota beta.
        set (m2 := match (if at_least Prague (b_fork be) then get_delegated_code_address (m_code m1) else None) with
          Some a => _ | None => _ end).
        assert (Hm2 : m_gas m2 = m_gas m /\ m_caller m2 = m_caller m /\ m_current_target m2 = m_current_target m /\
          m_value m2 = m_value m /\ m_data m2 = m_data m /\ m_depth m2 = m_depth m /\
          m_should_transfer_value m2 = m_should_transfer_value m /\
          (exists x, m_code m2 = code (get_account (st w1) x)) /\
          (m_code m2 <> [] -> code (get_account (st w1) to) <> [])).
        { subst m2. rewrite Hm1. cbn [set_m_code set_m_accessed m_code].
          destruct (if at_least Prague (b_fork be) then get_delegated_code_address (code (get_account (st w1) to)) else None)
            as [a|] eqn:Ed;
            cbn [set_m_delegated m_gas m_caller m_current_target m_value m_data m_depth
              m_should_transfer_value m_code]; repeat split; eauto.
          intros _ E. rewrite E in Ed. by destruct (at_least Prague (b_fork be)). }
        clearbody m2. destruct Hm2 as (M1 & M2 & M3 & M4 & M5 & M6 & M7 & (x & M8) & M9).
        assert (Hsol : m_code m2 <> [] -> solid (st w1) (m_current_target m2)).
        { intros Hne. rewrite M3, A1. right. auto. }
        assert (Hb : msg_bounds m2).
        { assert (2 ^ 64 < 2 ^ 256) by done. constructor; rewrite ?M1, ?M2, ?M3, ?M4, ?M5; try done; [lia|].
          rewrite M8. apply (wo_code _ Hw1). }
        assert (Hfu : funded m2 w1).
        { unfold funded. rewrite M2, M4, M7. rewrite (de_balance _ _ Hde). done. }
        pose proof (anchored_owned _ Ha1) as Ho.
        assert (Hse : snapshots (st w1) = []).
        { destruct (de_frame _ _ Hde) as [-> _]. apply Gs. }
        destruct (C17_message cr be te Henv m2 w1 Hb Hfu Hw1 Ho Hsol)
          as [(e & w' & He & _ & Hw' & _)|[Hno [w' He]]];
          [lia| |right; exists w'; rewrite He; split; [done|]; intros E; by rewrite E in Hno].
        left. rewrite He. destruct (finish_total r e w' (m_gas m)) as (o & Hf & Hlg & Hty); [|done|done|].
        + intros Hne. split; [by eapply (C16_refund_counter _ _ _ _ _ _ _ He)|].
          rewrite <- M1. by eapply (message_paid _ _ _ Henv _ _ _ _ He).
        + by exists o, w'.
      - destruct (_ || _).
        { left. eexists _, _. split; [done|]. split; [done|]. cbn. split; [lia|constructor]. }
        assert (Hb : msg_bounds m).
        { assert (2 ^ 64 < 2 ^ 256) by done. constructor; try done; lia. }
        pose proof (anchored_owned _ Ga) as Ho.
        destruct (C17_create cr be te Henv m (World s empty_transient) Hb sb_funded0 Gw Ho sb_depth0)
          as [(e & w' & He & _ & Hw' & _)|[Hno [w' He]]];
          [|right; exists w'; rewrite He; split; [done|]; intros E; by rewrite E in Hno].
        left. rewrite He. destruct (finish_total 0 e w' (m_gas m)) as (o & Hf & Hlg & Hty); [|done|done|].
        + intros Hne. split; [eapply (C16_refund_create _ _ _ _ _ _ _ He); [apply Gs|done|done]|].
          by eapply (create_paid _ _ _ Henv _ _ _ _ He).
        + by exists o, w'. }
    destruct Hmc as [(o & w' & Hmc & Hw & Hlg & Hty)|(w' & Hmc & Hno)].
    2:{ right. unfold call_message. rewrite Hmc. by eexists _, _. }
    left.
    assert (Hc : call_message cr be te m s = (Done o, st w')) by (unfold call_message; by rewrite Hmc).
    exists o, (st w'). split; [done|].
    pose proof (call_message_facts _ _ _ _ _ _ _ Hc Gs) as F.
    split; [constructor|split; [apply (cf_gas _ _ _ _ _ _ F)|done]].
    - apply (cf_settled _ _ _ _ _ _ F).
    - apply (called_anchored cr be te m (World s empty_transient) o w'); [done|done|].
      eapply called_spec; [exact Hpr|by apply anchored_rooted|done|done].
    - by apply world_ok_fresh.
  Qed.
End Call.
