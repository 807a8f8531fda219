(** * EvmPlanProofs: the classification of [EvmPlan.v] holds for every instruction. *)
From Verif Require Import Base State Rlp Vm Instructions StateSpec StateProofs
  NumericProofs ArithProofs EvmStep EvmLocal EvmPlan.
From Coq Require Import ZifyBool ZifyN ZifyNat.
Ltac Zify.zify_post_hook ::= idtac.

Local Opaque sdiv_value smod_value addmod_value mulmod_value exp_value
  signextend_value shl_value sar_value clz_value to_u256 from_be_bytes
  calculate_memory_gas_cost ceil32 N.compare.

Section PlanProofs.
  Context (cr : crypto) (be : block_env) (te : tx_env).

  Ltac start :=
    let e := fresh "e" in let w := fresh "w" in
    let Hs := fresh "Hs" in let Hm := fresh "Hm" in let Hrun := fresh "Hrun" in
    intros e w [Hs Hm] Hrun;
    destruct e as [pc stk mem cod gas vjd logs rc rn msg out del rd err aa ak];
    cbv beta iota zeta delta [e_stack e_memory e_running] in Hs, Hm, Hrun;
    match type of Hrun with ?x = _ => subst x end.

  Ltac halt_leaf :=
    split; [reflexivity|]; split; [norm; lia|]; split; [reflexivity|]; exact I.

  Notation gooddone o m := (forall e w, shape_ok e -> e_running e = true ->
    done_ok cr be te o e w (m e w)).

  Lemma main_some_solid s a : solid s a -> main_trie s !! a <> None.
  Proof.
    unfold solid, get_account, get_account_optional. destruct (main_trie s !! a); [done|].
    intros [H|H]; done.
  Qed.

  Lemma sstore_gas_pos o c v : 100 <= sstore_gas o c v.
  Proof.
    unfold sstore_gas, GAS_STORAGE_SET, GAS_STORAGE_UPDATE, GAS_COLD_SLOAD, GAS_WARM_ACCESS.
    destruct (_ && _); [destruct (o =? 0)|]; lia.
  Qed.

  Lemma set_storage_ok s a k v :
    main_trie s !! a <> None -> exists s', set_storage s a k v = Ok s'.
  Proof.
    intros H. unfold set_storage. destruct (main_trie s !! a); [|done].
    destruct (decide _); eauto.
  Qed.

  Lemma original_ok s a k : snapshots s <> [] -> exists v, get_storage_original s a k = Ok v.
  Proof.
    intros H. unfold get_storage_original. destruct (decide _); [eauto|].
    destruct (snapshots s) as [|x l]; [done|]. 
    destruct (last (x :: l)) as [[m sto]|] eqn:E; [eauto|].
    apply last_None in E. done.
  Qed.

  Lemma done_sstore : gooddone SSTORE op_sstore.
  Proof.
    unfold op_sstore. start. sym; rewrite ?lenN_cons in *.
    all: try match goal with |- context [sstore_gas ?a ?b ?c] =>
           pose proof (sstore_gas_pos a b c) end.
    all: lazymatch goal with
    | |- done_ok _ _ _ _ _ _ (Exc (EHalt _) _ _) => halt_leaf
    | |- done_ok _ _ _ _ _ _ (Ret _ _ _) => split; [step_tac|]
    | |- _ => split; [reflexivity|]; split; [norm; lia|]; split; [reflexivity|]; cbv beta iota; words_tac; exfalso
    end.
    all: lazymatch goal with
    | |- effect _ _ _ _ _ _ =>
        eapply E_sstore; norm; try eassumption; try reflexivity; [lia|];
        intros Hf; pose proof (fo_stack _ _ Hf) as Hst; cbv beta iota delta [e_stack] in Hst;
        apply Forall_cons in Hst as [? Hst]; apply Forall_cons in Hst as [? Hst]; done
    | Hf : frame_ok _ _, H : set_storage ?s ?a ?k ?v = Raise _ |- False =>
        destruct (set_storage_ok s a k v (fo_exists _ _ Hf)); congruence
    | Hf : frame_ok _ _, H : get_storage_original ?s ?a ?k = Raise _ |- False =>
        destruct (original_ok s a k (fo_snap _ _ Hf)); congruence
    end.
  Qed.

  Lemma done_tstore : gooddone TSTORE op_tstore.
  Proof.
    unfold op_tstore. start. sym; rewrite ?lenN_cons in *.
    all: lazymatch goal with
    | |- done_ok _ _ _ _ _ _ (Exc (EHalt _) _ _) => halt_leaf
    | |- done_ok _ _ _ _ _ _ (Ret _ _ _) => split; [step_tac|]
    end.
    eapply E_tstore; norm; try eassumption; try reflexivity.
    intros Hf; pose proof (fo_stack _ _ Hf) as Hst; cbv beta iota delta [e_stack] in Hst;
        apply Forall_cons in Hst as [? Hst]; apply Forall_cons in Hst as [? Hst]; done.
  Qed.

  (** move_ether succeeds when the amount is available and nothing overflows. *)
  Lemma move_ether_ok s a b n :
    n <= balance (get_account s a) -> total_balance s < 2 ^ 256 ->
    exists s', move_ether s a b n = Ok s'.
  Proof.
    intros Hn Ht. unfold move_ether.
    assert (Hf : reduce_sender_balance n (get_account s a) = Ok
      (Account (nonce (get_account s a)) (balance (get_account s a) - n) (code (get_account s a)))).
    { unfold reduce_sender_balance. destruct (N.ltb_spec (balance (get_account s a)) n); [lia|done]. }
    destruct (modify_state_ok s a (reduce_sender_balance n) _ Hf) as [s1 E1]. rewrite E1.
    pose proof (modify_state_total _ _ _ _ _ E1 Hf) as Htot. cbn [balance] in Htot.
    pose proof (balance_le_total s1 b).
    unfold modify_state. unfold increase_recipient_balance, U256_CEIL.
    destruct (N.ltb_spec (balance (get_account s1 b) + n) (2 ^ 256)); [eauto|lia].
  Qed.

  Lemma removed_overflow s a b c :
    total_balance s < 2 ^ 256 ->
    to_u256 (balance (get_account s b) + balance (get_account s a)) = Raise c ->
    c = OverflowError /\ 2 ^ 255 <= balance (get_account s a).
  Proof using.
    Local Transparent to_u256.
    unfold to_u256. change U256_CEIL with (2 ^ 256). intros Ht.
    destruct (N.ltb_spec (balance (get_account s b) + balance (get_account s a)) (2 ^ 256)) as [|Hge];
      [discriminate|]. intros [= <-].
    Local Opaque to_u256.
    split; [reflexivity|].
    destruct (decide (b = a)) as [->|Hne].
    - change (2 ^ 256) with (2 * 2 ^ 255) in Hge. lia.
    - pose proof (balance_two_le_total s b a Hne). lia.
  Qed.

  Lemma done_selfdestruct : gooddone SELFDESTRUCT (op_selfdestruct be).
  Proof.
    unfold op_selfdestruct. start.
    destruct (at_least Cancun (b_fork be)) eqn:Hfork; cbn [negb orb].
    { sym; rewrite ?lenN_cons in *.
    all: try match goal with H : set_account_balance _ _ _ = Raise _ |- _ => discriminate H end.
    all: lazymatch goal with
    | |- done_ok _ _ _ _ _ _ (Exc (EHalt _) _ _) => halt_leaf
    | |- done_ok _ _ _ _ _ _ (Ret _ _ _) => split; [step_tac|]
    | |- _ => split; [reflexivity|]; split; [norm; lia|]; split; [reflexivity|]; cbv beta iota; words_tac; exfalso
    end.
    all: try match goal with H : move_ether _ _ _ _ = Ok _ |- _ =>
      pose proof (move_ether_storages_sub _ _ _ _ _ H) as [_ Hcr] end.
    all: lazymatch goal with
    | Hw : world_ok _, H : move_ether ?s ?a ?b ?k = Raise _ |- False =>
        destruct (move_ether_ok s a b k ltac:(reflexivity) (wo_total _ Hw)); congruence
    | |- effect _ _ _ _ _ _ => idtac
    end.
    all: eapply E_selfdestruct; norm; [reflexivity|assumption|assumption|eassumption| |reflexivity|reflexivity|reflexivity|apply to_address_masked_lt];
        repeat match goal with H : bool_decide _ = true |- _ => apply bool_decide_eq_true in H
          | H : bool_decide _ = false |- _ => apply bool_decide_eq_false in H end;
        repeat match goal with H : decide _ = _ |- _ => clear H end; cbn [st set_st] in *; rewrite <- Hcr;
        first [left; split; [assumption|]; split; [eassumption|reflexivity]
              |right; split; [assumption|]; split; reflexivity]. }
    sym; rewrite ?lenN_cons in *.
    all: try match goal with H : set_account_balance _ _ _ = Raise _ |- _ => discriminate H end.
    all: lazymatch goal with
    | |- done_ok _ _ _ _ _ _ (Exc (EHalt _) _ _) => halt_leaf
    | |- done_ok _ _ _ _ _ _ (Ret _ _ _) => split; [step_tac|]
    | |- _ => split; [reflexivity|]; split; [norm; lia|]; split; [reflexivity|]; cbv beta iota; words_tac
    end.
    all: lazymatch goal with
    | |- effect _ _ _ _ _ _ =>
        eapply E_removed; norm; [reflexivity|assumption|assumption|eassumption|eassumption|eassumption|reflexivity
          |reflexivity|reflexivity|reflexivity|apply to_address_masked_lt]
    | H : to_u256 (balance (get_account ?s ?b) + balance (get_account ?s ?a)) = Raise _ |- _ =>
        destruct (removed_overflow s a b _ (wo_total _ ltac:(eassumption)) H) as [? ?];
        split; [assumption|]; split; [reflexivity|]; split; [assumption|]; norm; assumption
    end.
  Qed.
End PlanProofs.
