(** * PropPowRefund: the refund counter of the proof-of-work forks (C79).

    The counter is a signed number: since Istanbul a write can take back a
    refund.  Settlement converts it to an unsigned 256-bit number and would
    raise if it were negative or too large. *)
From Verif Require Import Base State Rlp Bloom Transactions Trie Blocks Requests Fork Ethash Pow PowTx.
From Verif Require Import Vm Instructions Precompiles Interpreter PowVm StateSpec
  StateProofs NumericProofs ArithProofs EvmStep EvmLocal EvmPlan EvmPlanProofs EvmCallProofs
  EvmFrame EvmAccounts EvmRule EvmInv PowVmPlan PowVmOps PowVmCalls PowVmFrame PowVmRule PowVmInv.
From Verif Require Import EvmExamples PropRefund.
From Coq Require Import ZifyBool ZifyN ZifyNat.
Ltac Zify.zify_post_hook ::= idtac.

Local Opaque to_u256 from_be_bytes calculate_memory_gas_cost ceil32 N.compare.

(** ** Single writes *)
Lemma refund_upper n orig cur v :
  (pow_sstore_refund n orig cur v <= 20000 * Z.of_N (pow_sstore_gas n orig cur v))%Z.
Proof.
  unfold pow_sstore_refund, pow_sstore_gas.
  generalize (orig =? cur) (orig =? v) (v =? 0) (cur =? 0) (cur =? v).
  destruct (N.eqb_spec orig 0) as [->|].
  all: intros [] [] [] [] []; destruct n; vm_compute; discriminate.
Qed.

(** What clearing a slot earns, and what is taken back when it is filled
    again. *)
Definition clearing (n : pow_name) : Z :=
  if since Istanbul n then Z.of_N (pow_gas_clear_refund n) else 0.
Definition pow_credit (n : pow_name) (OG : storages) (s : state) : Z :=
  clearing n * Z.of_nat (size (cleared OG s)).
Lemma clearing_nonneg n : (0 <= clearing n)%Z.
Proof. destruct n; vm_compute; discriminate. Qed.
Lemma pow_credit_nonneg n OG s : (0 <= pow_credit n OG s)%Z.
Proof. unfold pow_credit. pose proof (clearing_nonneg n). nia. Qed.
Lemma pow_credit_sub n OG s s' : cleared OG s' ⊆ cleared OG s ->
  (pow_credit n OG s' <= pow_credit n OG s)%Z.
Proof. intros H%subseteq_size. unfold pow_credit. pose proof (clearing_nonneg n). nia. Qed.

Lemma refund_keeps n orig cur v : (since Istanbul n = true -> orig = 0 \/ cur <> 0) ->
  (0 <= pow_sstore_refund n orig cur v)%Z.
Proof.
  unfold pow_sstore_refund. intros H.
  destruct (since Istanbul n) eqn:E.
  - destruct (cur =? v); [lia|].
    destruct (N.eqb_spec orig 0) as [Ho|Ho]; cbn [negb andb].
    + destruct (orig =? v); lia.
    + destruct (N.eqb_spec cur 0) as [Hc|Hc]; [exfalso; destruct (H eq_refl); done|].
      cbn [negb andb]. destruct (v =? 0), (orig =? v); lia.
  - destruct (_ && _); lia.
Qed.
Lemma refund_fills n orig cur v : since Istanbul n = true -> cur <> v ->
  (- clearing n <= pow_sstore_refund n orig cur v)%Z.
Proof.
  unfold pow_sstore_refund, clearing. intros -> Hv. apply N.eqb_neq in Hv. rewrite Hv.
  destruct (orig =? 0); cbn [negb andb].
  - destruct (orig =? v); lia.
  - destruct (cur =? 0), (v =? 0), (orig =? v); cbn [negb andb]; lia.
Qed.
Lemma refund_clears n orig cur : since Istanbul n = true -> orig <> 0 -> cur <> 0 ->
  pow_sstore_refund n orig cur 0 = clearing n.
Proof.
  unfold pow_sstore_refund, clearing. intros -> Ho Hc. apply N.eqb_neq in Ho, Hc.
  rewrite Hc, Ho. cbn [negb andb]. rewrite N.eqb_refl. lia.
Qed.

(** One SSTORE pays for the change of credit it causes. *)
Lemma pow_sstore_credit n OG s a k v s' orig M :
  last (snapshots s) = Some (M, OG) ->
  (since Istanbul n = true -> get_storage_original s a k = Ok orig) ->
  set_storage s a k v = Ok s' ->
  (pow_credit n OG s' <= pow_credit n OG s + pow_sstore_refund n orig (get_storage s a k) v)%Z.
Proof.
  intros HO Hor Hs. destruct (since Istanbul n) eqn:Ei.
  2:{ unfold pow_credit, clearing. rewrite Ei.
      pose proof (refund_keeps n orig (get_storage s a k) v) as Hk. rewrite Ei in Hk.
      assert (0 <= pow_sstore_refund n orig (get_storage s a k) v)%Z by (apply Hk; discriminate). lia. }
  specialize (Hor eq_refl).
  pose proof (set_storage_frame _ _ _ _ _ Hs) as (_ & Hcr & _).
  pose proof (set_storage_get _ _ _ _ _ Hs) as Hg.
  assert (Hother : forall b j, (b, j) <> (a, k) -> (b, j) ∈ cleared OG s' <-> (b, j) ∈ cleared OG s).
  { intros b j Hne. rewrite !cleared_spec, Hcr, Hg, decide_False; [done|]. intros [-> ->]. done. }
  assert (Hin' : (a, k) ∈ cleared OG s' <-> a ∉ created_accounts s /\ slot_of OG a k <> 0 /\ v = 0).
  { rewrite cleared_spec, Hcr, Hg, decide_True by done. done. }
  pose proof (cleared_spec OG s a k) as Hin.
  assert (Horig : a ∉ created_accounts s -> orig = slot_of OG a k).
  { intros Hnc. revert Hor. unfold get_storage_original. rewrite decide_False by done. rewrite HO.
    by intros [= <-]. }
  assert (Hzero : a ∈ created_accounts s -> orig = 0).
  { intros Hc. revert Hor. unfold get_storage_original. rewrite decide_True by done. by intros [= <-]. }
  set (cur := get_storage s a k) in *.
  destruct (decide ((a, k) ∈ cleared OG s')) as [Hi'|Hi'].
  - pose proof (proj1 Hin' Hi') as (A1 & A2 & ->). rewrite <- (Horig A1) in A2.
    destruct (decide ((a, k) ∈ cleared OG s)) as [Hi|Hi].
    + (* the slot was cleared before *)
      assert (Hz : cur = 0) by (apply Hin in Hi; tauto).
      assert (Hsub : cleared OG s' ⊆ cleared OG s).
      { intros [b j] Hb. destruct (decide ((b, j) = (a, k))) as [->|Hne]; [done|]. by apply Hother. }
      apply (pow_credit_sub n) in Hsub. rewrite Hz. unfold pow_sstore_refund. rewrite Ei. rewrite N.eqb_refl. lia.
    + assert (Hc : cur <> 0). { intros Hc. apply Hi, Hin. rewrite <- (Horig A1). done. }
      rewrite (refund_clears n orig cur Ei A2 Hc).
      assert (Heq : cleared OG s' = {[(a, k)]} ∪ cleared OG s).
      { apply set_eq. intros [b j]. rewrite elem_of_union, elem_of_singleton.
        destruct (decide ((b, j) = (a, k))) as [->|Hne]; [tauto|]. rewrite Hother by done. tauto. }
      unfold pow_credit. rewrite Heq, size_union by set_solver. rewrite size_singleton. lia.
  - assert (Hsub : cleared OG s' ⊆ cleared OG s).
    { intros [b j] Hb. destruct (decide ((b, j) = (a, k))) as [E|Hne]; [by rewrite E in Hb|].
      by apply Hother. }
    destruct (decide (orig = 0 \/ cur <> 0)) as [Hk|Hk].
    { apply (pow_credit_sub n) in Hsub.
      pose proof (refund_keeps n orig cur v (fun _ => Hk)). lia. }
    assert (Ho : orig <> 0) by tauto. assert (Hc : cur = 0) by (destruct (decide (cur = 0)); tauto).
    assert (Hnc : a ∉ created_accounts s) by (intros Hc'; by apply Ho, Hzero).
    assert (Hi : (a, k) ∈ cleared OG s) by (apply Hin; rewrite <- (Horig Hnc); done).
    assert (Hv : v <> 0). { intros ->. apply Hi', Hin'. rewrite <- (Horig Hnc). done. }
    assert (Heq : cleared OG s = {[(a, k)]} ∪ cleared OG s').
    { apply set_eq. intros [b j]. rewrite elem_of_union, elem_of_singleton.
      destruct (decide ((b, j) = (a, k))) as [->|Hne]; [tauto|]. rewrite Hother by done. tauto. }
    pose proof (refund_fills n orig cur v Ei ltac:(congruence)) as Hf.
    unfold pow_credit. rewrite Heq, size_union by set_solver. rewrite size_singleton. lia.
Qed.

Section Refund.
  Context (cr : crypto) (n : pow_name) (env : pow_env) (te : tx_env).
  Notation pm := (pow_process_message cr n env te).
  Notation pcm := (pow_process_create_message cr n env te).
  Notation pmc := (pow_process_message_call cr n env te).

  (** ** The counter is bounded *)
  (** Every unit of gas earns at most 20000 by writes, and the gas for the call
      that started a frame more than 24000 for its self-destruction. *)
  Definition earned (m : message) (e : evm) (extra : Z) : Prop :=
    (e_refund_counter e + 44000 * Z.of_N (e_gas_left e) <= 44000 * Z.of_N (m_gas m) + extra)%Z.

  Lemma upper_rule : pframe_rule cr n env te (fun _ => True)
    (fun _ _ _ => True) (fun _ _ _ => True)
    (fun _ m _ e _ _ => earned m e (if e_running e then 0 else 24000))
    (fun _ m _ e _ _ => e_error e = None -> earned m e 24000)
    (fun _ m _ e _ _ => e_error e = None -> earned m e 24000).
  Proof.
    constructor; try done.
    - intros i m w s1 _ _ _. unfold earned. cbn. lia.
    - intros i m w0 w a p e' _ _ H _ _ _ (_ & He & Hg & _). revert H Hg. rewrite He. unfold earned.
      cbn. lia.
    - intros i m w0 e t w o t1 e' w' _ _ H Ha [Hl He] _.
      assert (Hrun : e_running e = true) by apply Ha. rewrite Hrun in H.
      pose proof (ls_gas_le _ _ _ _ _ _ _ Hl) as Hg.
      unfold earned in *.
      assert (Hz : (0 <= if e_running e' then 0 else 24000)%Z) by (destruct (e_running e'); lia).
      destruct He as [_ Hr _ _|k v orig s' _ _ _ Hs _ Hr Hgas _ _ _ _
        |b s1 s2 _ _ _ _ _ _ _ Hr Hru _ _|s' _ _ _ _ _ Hr _ _].
      + rewrite Hr. lia.
      + rewrite Hr. pose proof (refund_upper n orig (get_storage (st w) (m_current_target (e_message e)) k) v).
        lia.
      + rewrite Hr, Hru. destruct (since London n); [lia|]. destruct (decide _); lia.
      + rewrite Hr. lia.
    - intros i m w0 e t w o m' e1 os oz _ _ H Ha Hc. split; [done|].
      intros c tc w1 Hps HP. split; [|done]. intros e2 w2 Hr _.
      assert (Hrun : e_running e = true) by apply Ha. rewrite Hrun in H.
      pose proof (resume_call_gas e1 os oz c w1) as Rg. rewrite Hr in Rg.
      apply resume_call_sets in Hr as [_ Hr].
      destruct (pco_wait _ _ _ _ _ _ _ _ Hc) as []. destruct Hps. unfold earned in *.
      assert (Hz : (0 <= if e_running e2 then 0 else 24000)%Z) by (destruct (e_running e2); lia).
      destruct (e_error c); destruct Hr as (_ & _ & _ & -> & _); [lia|].
      specialize (HP eq_refl). lia.
    - intros i m w0 e t w o m' e1 wi _ _ H Ha Hc. split; [done|].
      intros c tc w1 Hps HP. split; [|done]. intros e2 w2 Hr _.
      assert (Hrun : e_running e = true) by apply Ha. rewrite Hrun in H.
      pose proof (resume_create_gas e1 c w1) as Rg. rewrite Hr in Rg.
      apply resume_create_sets in Hr as [_ Hr].
      destruct (pcr_wait _ _ _ _ _ _ _ _ Hc) as []. destruct Hps. unfold earned in *.
      assert (Hz : (0 <= if e_running e2 then 0 else 24000)%Z) by (destruct (e_running e2); lia).
      destruct (e_error c); destruct Hr as (_ & _ & _ & -> & _); [lia|].
      specialize (HP eq_refl). lia.
    - intros i m w0 e t w w3 _ Hf H Hc _ _. unfold earned in *. destruct (e_running e); lia.
    - intros i m w w3 e t w4 h e' w6 _ He3 _ H He Hd _ Hc _ _.
      apply pow_deposit_eq in Hd as (g & Hg & ->). specialize (H He). unfold earned in *.
      destruct e; cbn in *. lia.
    - intros i m w w3 e t w4 e' s5 w6 _ He3 _ H He Hd Hs Hc _ _.
      apply pow_deposit_eq in Hd as (g & Hg & ->). specialize (H He). unfold earned in *.
      destruct e; cbn in *. lia.
  Qed.

  (** ** The counter is not negative *)
  Context (OG : storages).

  Lemma pcredit_start w : snapshots (st w) = [] -> original w = OG -> pow_credit n OG (st w) = 0%Z.
  Proof using.
    clear. intros E Ho. pose proof (credit_start OG w E Ho) as H. unfold credit in H.
    unfold pow_credit. assert (size (cleared OG (st w)) = 0%nat) as -> by lia. lia.
  Qed.
  Lemma poriginal_entry w a w3 : pcreate_entry n w a = Ok w3 -> original w3 = original w.
  Proof using.
    clear. intros He. destruct (pcreate_entry_frame _ _ _ _ He) as (E & _).
    unfold original. rewrite E. destruct (snapshots (st w)) as [|p l]; [done|].
    rewrite last_cons_cons. destruct (last (p :: l)) eqn:E'; [done|]. by apply last_None in E'.
  Qed.
  Lemma pcredit_same s s' : created_accounts s ⊆ created_accounts s' ->
    storage_tries s' = storage_tries s -> (pow_credit n OG s' <= pow_credit n OG s)%Z.
  Proof using.
    clear. intros Hc Hs. apply pow_credit_sub, cleared_same; [done|]. by apply get_storage_tries.
  Qed.
  (** Since Istanbul a created account leaves the count. *)
  Lemma pcredit_entry w a w3 : pcreate_entry n w a = Ok w3 ->
    (pow_credit n OG (st w3) <= pow_credit n OG (st w))%Z.
  Proof using.
    clear. destruct (since Istanbul n) eqn:Ei.
    2:{ intros _. unfold pow_credit, clearing. rewrite Ei. lia. }
    unfold pcreate_entry. rewrite Ei. cbv zeta.
    set (s1 := destroy_storage _ a). set (s2 := mark_account_created s1 a).
    assert (Hs1 : storage_tries s1 = delete a (storage_tries (st w)) /\
      created_accounts s1 = created_accounts (st w)).
    { unfold s1. rewrite destroy_storage_storages, destroy_storage_created. done. }
    assert (H2 : (pow_credit n OG s2 <= pow_credit n OG (st w))%Z).
    { apply pow_credit_sub. intros [b k]. rewrite !cleared_spec. unfold s2. cbn [created_accounts mark_account_created].
      destruct Hs1 as [Hst ->]. rewrite !get_storage_slot.
      change (storage_tries (mark_account_created s1 a)) with (storage_tries s1). rewrite Hst.
      intros (H1 & H2 & H3). split_and!; [clear -H1; set_solver|done|].
      revert H3. unfold slot_of. rewrite lookup_delete_ne; [done|]. clear -H1. set_solver. }
    destruct (since SpuriousDragon n).
    - destruct (pow_increment_nonce s2 a) as [s|] eqn:E; [|done]. intros [= <-]. cbn [st set_st].
      unfold pow_increment_nonce in E. apply modify_account_frame in E as (E1 & E2 & E3).
      etrans; [|exact H2]. apply pcredit_same; [by rewrite E2|done].
    - intros [= <-]. exact H2.
  Qed.

  Definition prefund_post (w0 : world) (e : evm) (w : world) : Prop :=
    (snapshots (st w0) <> [] ->
       (pow_credit n OG (st w) <= pow_credit n OG (st w0) +
          match e_error e with None => e_refund_counter e | Some _ => 0 end)%Z) /\
    (snapshots (st w0) = [] -> e_error e = None -> (0 <= e_refund_counter e)%Z).

  Lemma prefund_rule : pframe_rule cr n env te (fun _ => True)
    (fun _ _ w => original w = OG) (fun _ _ w => original w = OG)
    (fun _ _ w0 e _ w => (pow_credit n OG (st w) <= pow_credit n OG (st w0) + e_refund_counter e)%Z)
    (fun _ _ w0 e _ w => prefund_post w0 e w) (fun _ _ w0 e _ w => prefund_post w0 e w).
  Proof.
    constructor; try done.
    - intros i m w s1 HO _ Ht. apply ptransfer_frame in Ht as (H1 & H2 & H3).
      cbn [init_evm e_refund_counter]. rewrite Z.add_0_r. apply pcredit_same.
      + cbn [st set_st]. rewrite H2. done.
      + exact H3.
    - intros i m w0 w a p e' _ _ HI _ _ _ (_ & -> & _). exact HI.
    - intros i m w0 e t w o t1 e' w' HO Hf Hcr Ha [_ He] _.
      pose proof (peffect_frame _ _ _ _ _ _ _ _ He) as (_ & _ & Hcreated).
      destruct (frame_original _ _ _ _ Hf) as [M HM]. rewrite HO in HM.
      destruct He as [-> Hr _ _|k v orig s' _ _ Hor Hs -> Hr _ _ _ _ _
        |b s1 s2 _ _ _ Hs1 Hs2 -> _ Hr _ _ _|s' _ _ Hn -> _ Hr _ _].
      + by rewrite Hr.
      + cbn [st set_st] in *. pose proof (pow_sstore_credit _ _ _ _ _ _ _ _ _ HM Hor Hs). lia.
      + cbn [st set_st] in *. unfold pow_set_account_balance in Hs1, Hs2.
        apply modify_account_frame in Hs1 as (_ & _ & E1).
        apply modify_account_frame in Hs2 as (_ & _ & E2).
        assert (pow_credit n OG s2 <= pow_credit n OG (st w))%Z.
        { apply pcredit_same; [by rewrite Hcreated|congruence]. }
        rewrite Hr. destruct (since London n); [lia|]. destruct (decide _); lia.
      + cbn [st set_st] in *. unfold pow_increment_nonce in Hn.
        apply modify_account_frame in Hn as (_ & _ & E1).
        assert (pow_credit n OG s' <= pow_credit n OG (st w))%Z.
        { apply pcredit_same; [by rewrite Hcreated|congruence]. }
        lia.
    - intros i m w0 e t w o m' e1 os oz HO Hf Hcr Ha Hc.
      pose proof (original_frame _ _ _ _ Hf) as Ho. split; [congruence|].
      intros c tc w1 Hps [HP _]. split; [|done]. intros e2 w2 Hr _.
      apply resume_call_sets in Hr as [-> Hr].
      destruct (pco_wait _ _ _ _ _ _ _ _ Hc) as [].
      assert (Hne : snapshots (st w) <> []) by (by rewrite (fs_snap _ _ _ _ Hf)).
      specialize (HP Hne). destruct (e_error c); destruct Hr as (_ & _ & _ & -> & _); lia.
    - intros i m w0 e t w o m' e1 wi HO Hf Hcr Ha Hc.
      pose proof (original_frame _ _ _ _ Hf) as Ho.
      destruct (pcr_nonce _ _ _ _ _ _ _ _ Hc) as (s1 & Hn & Hwi).
      assert (Hi : snapshots (st wi) <> [] /\ original wi = OG /\
        (pow_credit n OG (st wi) <= pow_credit n OG (st w))%Z).
      { unfold pow_increment_nonce in Hn. apply modify_account_frame in Hn as (Hn1 & Hn2 & Hn3).
        assert (Hsn : snapshots (st w) <> []) by (by rewrite (fs_snap _ _ _ _ Hf)).
        assert (Hsi : snapshots (st wi) = snapshots (st w)) by (by subst wi).
        refine (conj _ (conj _ _)); [congruence| |].
        - rewrite (original_snap _ _ Hsi Hsn). congruence.
        - subst wi. cbn [st set_st]. apply pcredit_same; [by rewrite Hn2|done]. }
      destruct Hi as (Hne & HOi & Hcri). split; [done|].
      intros c tc w1 Hps [HP _]. split; [|done]. intros e2 w2 Hr _.
      apply resume_create_sets in Hr as [-> Hr].
      destruct (pcr_wait _ _ _ _ _ _ _ _ Hc) as [].
      specialize (HP Hne). destruct (e_error c); destruct Hr as (_ & _ & _ & -> & _); lia.
    - intros i m w0 e t w HO Hps He _. destruct (e_error e) as [x|] eqn:E; [|done].
      destruct (pps_fail _ _ _ _ _ Hps x E) as [Hr _].
      split; [|intros _ Hx; congruence].
      intros Hne. rewrite E, Z.add_0_r. apply pcredit_same; [by apply (re_created _ _ Hr)|apply Hr].
    - intros i m w0 e t w w3 HO Hf Hcr Hc Hps.
      pose proof (commit_frame _ _ _ (fs_snap _ _ _ _ Hf) (fs_tsnap _ _ _ _ Hf) Hc)
        as (_ & Hst & _ & _ & _ & Hcc).
      split.
      + intros Hne. rewrite (fs_err _ _ _ _ Hf). etrans; [|exact Hcr].
        apply pcredit_same; [by rewrite (Hcc Hne)|done].
      + intros Hs _. pose proof (pcredit_start _ Hs HO). pose proof (pow_credit_nonneg n OG (st w)). lia.
    - intros i m w w3 HO He. rewrite <- HO. by eapply poriginal_entry.
    - intros i m w w3 e t w4 e' w5 HO He _ _ _ _ Hr Hne _.
      split; [|intros _ Hx; congruence].
      destruct (e_error e') as [x|]; [|done].
      intros Hs. rewrite Z.add_0_r. apply pcredit_same; [by apply (re_created _ _ Hr)|apply Hr].
    - intros i m w w3 e t w4 h e' w6 HO He Hps [HP _] Hen Hd _ Hc Hps6.
      destruct (pcreate_entry_frame _ _ _ _ He) as (Hsn & Hts & Hcre).
      assert (Hne3 : snapshots (st w3) <> []) by (by rewrite Hsn).
      specialize (HP Hne3). rewrite Hen in HP. pose proof (pcredit_entry _ _ _ He) as Hc3.
      apply pow_deposit_eq in Hd as (g & _ & ->).
      assert (Hsg : e_error (set_output [] (set_gas_left g e)) = e_error e /\
        e_refund_counter (set_output [] (set_gas_left g e)) = e_refund_counter e) by (by destruct e).
      unfold prefund_post. destruct Hsg as [-> ->]. rewrite Hen. split.
      + intros Hne. etrans; [|etrans; [exact HP|lia]].
        destruct (commit_frame w w4 w6) as (_ & Hst & _ & _ & _ & Hcc).
        * by rewrite (pps_snap _ _ _ _ _ Hps).
        * rewrite (pps_tsnap _ _ _ _ _ Hps), Hts. done.
        * done.
        * apply pcredit_same; [by rewrite (Hcc Hne)|done].
      + intros Hs0 _. pose proof (pcredit_start _ Hs0 HO). pose proof (pow_credit_nonneg n OG (st w4)). lia.
    - intros i m w w3 e t w4 e' s5 w6 HO He Hps [HP _] Hen Hd Hs Hc Hps6.
      destruct (pcreate_entry_frame _ _ _ _ He) as (Hsn & Hts & Hcre).
      assert (Hne3 : snapshots (st w3) <> []) by (by rewrite Hsn).
      specialize (HP Hne3). rewrite Hen in HP. pose proof (pcredit_entry _ _ _ He) as Hc3.
      apply pow_deposit_eq in Hd as (g & _ & ->).
      assert (Hsg : e_error (set_gas_left g e) = e_error e /\
        e_refund_counter (set_gas_left g e) = e_refund_counter e) by (by destruct e).
      unfold prefund_post. destruct Hsg as [-> ->]. rewrite Hen. split.
      + intros Hne. etrans; [|etrans; [exact HP|lia]].
        unfold pow_set_code in Hs. apply modify_account_frame in Hs as (Hs1 & Hs2 & Hs3).
        destruct (commit_frame w (set_st s5 w4) w6) as (_ & Hst & _ & _ & _ & Hcc).
        * cbn [st set_st]. by rewrite Hs1, (pps_snap _ _ _ _ _ Hps).
        * cbn [ts set_st]. rewrite (pps_tsnap _ _ _ _ _ Hps), Hts. done.
        * done.
        * apply pcredit_same; [rewrite (Hcc Hne); cbn [st set_st]; by rewrite Hs2|].
          rewrite Hst. exact Hs3.
      + intros Hs0 _. pose proof (pcredit_start _ Hs0 HO). pose proof (pow_credit_nonneg n OG (st w4)). lia.
  Qed.
End Refund.

Section C79.
  Context (cr : crypto) (n : pow_name) (env : pow_env) (te : tx_env).
  Notation pm := (pow_process_message cr n env te).
  Notation pcm := (pow_process_create_message cr n env te).
  Notation pmc := (pow_process_message_call cr n env te).

  (** C79.  The refund counter with which a message of a transaction succeeds
      ([snapshots = []]: it is the outermost one) is not negative, and at most
      44000 for each unit of gas used and 24000 more.  Nothing is assumed about
      the state: no contract can drive the counter out of its range. *)
  Theorem C79_message i m w e t w' :
    pm i m w = PPRet e t w' -> e_error e = None -> snapshots (st w) = [] ->
    (0 <= e_refund_counter e <=
      44000 * (Z.of_N (m_gas m) - Z.of_N (e_gas_left e)) + 24000)%Z.
  Proof.
    intros H He Hs.
    pose proof (prule_message _ _ _ _ _ _ _ _ _ _ i m w (prefund_rule cr n env te (original w)) eq_refl) as H1.
    pose proof (prule_message _ _ _ _ _ _ _ _ _ _ i m w (upper_rule cr n env te) Logic.I) as H2.
    rewrite H in H1, H2. destruct H1 as [_ [_ H1]], H2 as [_ H2].
    specialize (H1 Hs He). specialize (H2 He). unfold earned in H2. lia.
  Qed.
  Theorem C79_create i m w e t w' :
    pcm i m w = PPRet e t w' -> e_error e = None -> snapshots (st w) = [] ->
    (0 <= e_refund_counter e <=
      44000 * (Z.of_N (m_gas m) - Z.of_N (e_gas_left e)) + 24000)%Z.
  Proof.
    intros H He Hs.
    pose proof (prule_create _ _ _ _ _ _ _ _ _ _ i m w (prefund_rule cr n env te (original w)) eq_refl) as H1.
    pose proof (prule_create _ _ _ _ _ _ _ _ _ _ i m w (upper_rule cr n env te) Logic.I) as H2.
    rewrite H in H1, H2. destruct H1 as [_ [_ H1]], H2 as [_ H2].
    specialize (H1 Hs He). specialize (H2 He). unfold earned in H2. lia.
  Qed.
  (** Inside a transaction the counter of a frame may be negative, but never by
      more than what clearing the slots it filled again had earned: 15000 for
      each slot since Istanbul, 4800 since London, nothing before. *)
  Theorem C79_nested i m w e t w' :
    pm i m w = PPRet e t w' -> e_error e = None -> snapshots (st w) <> [] ->
    let pays := if since London n then 4800%Z else if since Istanbul n then 15000%Z else 0%Z in
    (pays * Z.of_nat (size (cleared (original w) (st w'))) <=
     pays * Z.of_nat (size (cleared (original w) (st w))) + e_refund_counter e)%Z.
  Proof.
    intros H He Hs pays.
    pose proof (prule_message _ _ _ _ _ _ _ _ _ _ i m w (prefund_rule cr n env te (original w)) eq_refl) as H1.
    rewrite H in H1. destruct H1 as [_ [H1 _]]. specialize (H1 Hs). rewrite He in H1.
    unfold pow_credit in H1. replace pays with (clearing n) by (by destruct n). exact H1.
  Qed.

  (** So the conversion at the end of a message call never fails: an exception
      that leaves a call comes from a frame. *)
  Theorem C79_call m w x w' :
    pmc m w = PCExc x w' -> snapshots (st w) = [] -> m_gas m < 2 ^ 240 ->
    pm ∅ m w = PPExc x w' \/ pcm ∅ m w = PPExc x w'.
  Proof.
    unfold pow_process_message_call. intros H Hs Hg.
    assert (Hfin : forall e t w1,
      (e_error e = None -> (0 <= e_refund_counter e <=
        44000 * (Z.of_N (m_gas m) - Z.of_N (e_gas_left e)) + 24000)%Z) ->
      pow_finish_call e t w1 = PCExc x w' -> False).
    { intros e t w1 Hb. unfold pow_finish_call. destruct (e_error e); [done|].
      destruct (Hb eq_refl) as [B1 B2].
      destruct (Z.ltb_spec (e_refund_counter e) 0) as [?|_]; [lia|]. cbn [orb].
      destruct (Z.leb_spec (Z.of_N U256_CEIL) (e_refund_counter e)) as [Hle|_]; [|done].
      exfalso. assert (Hlt : (44000 * Z.of_N (m_gas m) + 24000 < Z.of_N U256_CEIL)%Z).
      { apply N2Z.inj_lt in Hg.
        assert (E : (44000 * Z.of_N (2 ^ 240) + 24000 < Z.of_N U256_CEIL)%Z) by (by vm_compute).
        revert Hg E. generalize (Z.of_N (2 ^ 240)) (Z.of_N U256_CEIL). lia. }
      revert Hle Hlt. generalize (Z.of_N U256_CEIL). lia. }
    destruct (m_target m).
    - destruct (pm ∅ m w) as [e t w1|x1 w1] eqn:E.
      + exfalso. eapply Hfin; [|exact H]. intros He. by eapply C79_message.
      + left. congruence.
    - destruct (_ || _); [done|].
      destruct (pcm ∅ m w) as [e t w1|x1 w1] eqn:E.
      + exfalso. eapply Hfin; [|exact H]. intros He. by eapply C79_create.
      + right. congruence.
  Qed.
  Theorem C79_settled m w o w' :
    pmc m w = PCRet o w' -> snapshots (st w) = [] ->
    co_refund_counter o <= 44000 * (m_gas m - co_gas_left o) + 24000.
  Proof.
    unfold pow_process_message_call. intros H Hs.
    assert (Hfin : forall e t w1, e_gas_left e <= m_gas m ->
      (e_error e = None -> (0 <= e_refund_counter e <=
        44000 * (Z.of_N (m_gas m) - Z.of_N (e_gas_left e)) + 24000)%Z) ->
      pow_finish_call e t w1 = PCRet o w' ->
      co_refund_counter o <= 44000 * (m_gas m - co_gas_left o) + 24000).
    { intros e t w1 Hg Hb. unfold pow_finish_call. destruct (e_error e).
      - intros [= <- _]. cbn [co_refund_counter]. lia.
      - destruct ((e_refund_counter e <? 0)%Z || _); [discriminate|]. intros [= <- _]. cbn [co_refund_counter co_gas_left].
        specialize (Hb eq_refl). lia. }
    destruct (m_target m).
    - destruct (pm ∅ m w) as [e t w1|x1 w1] eqn:E; [|done].
      eapply Hfin; [| |exact H].
      + pose proof (pmessage_struct cr n env te ∅ m w) as Hp. rewrite E in Hp. apply Hp.
      + intros He. by eapply C79_message.
    - destruct (_ || _).
      { injection H as <- _. cbn [co_refund_counter]. lia. }
      destruct (pcm ∅ m w) as [e t w1|x1 w1] eqn:E; [|done].
      eapply Hfin; [| |exact H].
      + pose proof (pcreate_struct cr n env te ∅ m w) as Hp. rewrite E in Hp. apply Hp.
      + intros He. by eapply C79_create.
  Qed.
End C79.

(** ** Examples *)
(** 0x200 has 9 in its slot 1; it sets the slot to 0 and lets 0x300 set it to 8
    by DELEGATECALL.  Since Istanbul the callee takes the refund back. *)
Definition ex_refund_child : bytes := bs [0x60;8; 0x60;1; 0x55].
Definition ex_refund_code : bytes := bs
  [0x60;0; 0x60;1; 0x55; 0x60;0; 0x60;0; 0x60;0; 0x60;0; 0x61;3;0; 0x62;1;0;0; 0xf4].
Definition ex_refund_env : pow_env := PowEnv 1 100000 [] 0xc0 7 3 1000 131072.
Definition ex_refund_state (v : N) : storages := {[0x200 := if v =? 0 then ∅ else {[1 := v]}]}.
Definition ex_refund_world (open : bool) : world :=
  let l := [(0x200, Account 1 0 ex_refund_code); (0x300, Account 1 0 ex_refund_child);
            (0xaa, Account 0 100 [])] in
  if open then World (State (list_to_map l) (ex_refund_state 0)
    [(list_to_map l, ex_refund_state 9)] ∅) (ts (begin_transaction (World (toy_state [] ∅) empty_transient)))
  else World (toy_state l (ex_refund_state 9)) empty_transient.
Definition ex_refund_run (n : pow_name) (open : bool) (c : bytes) : option (N * Z) :=
  match pow_process_message toy_crypto n ex_refund_env toy_tx ∅
          (toy_message 0x200 1000000 0 [] c) (ex_refund_world open) with
  | PPRet e _ w => match e_error e with
      | None => Some (get_storage (st w) 0x200 1, e_refund_counter e) | Some _ => None end
  | PPExc _ _ => None
  end.
Example C79_nonvacuous :
  snapshots (st (ex_refund_world false)) = [] /\ snapshots (st (ex_refund_world true)) <> [] /\
  map (fun n => ex_refund_run n false ex_refund_code) [Byzantium; Istanbul; Berlin; London] =
    [Some (8, 15000%Z); Some (8, 0%Z); Some (8, 0%Z); Some (8, 0%Z)] /\
  map (fun n => ex_refund_run n true ex_refund_child) [Byzantium; Istanbul; Berlin; London] =
    [Some (8, 0%Z); Some (8, (-15000)%Z); Some (8, (-15000)%Z); Some (8, (-4800)%Z)].
Proof. split; [reflexivity|]. split; [discriminate|]. vm_compute. split; reflexivity. Qed.

Definition PropPowRefund_theorems :=
  (@C79_message, @C79_create, @C79_nested, @C79_call, @C79_settled).
Print Assumptions PropPowRefund_theorems.
